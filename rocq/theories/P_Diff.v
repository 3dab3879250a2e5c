(** Comparing structures: no false alarms, no missed differences (C40). *)
From Verif Require Import Base BaseLemmas Engine Wf EngineLemmas RoundTrip Positions Keys Deps Decimal Diff.
From Coq Require Import ZifyBool ZifyNat ZifyN.
Open Scope list_scope.

Section P.
Variable FO : FloatOps.
Variable CO : CmpOps FO.
Notation pyval := (pyval FO).
Notation state := (state FO).
Notation config := (config FO).

(** ** What the statements are about *)

(** The fields the configuration asks to compare. *)
Definition looked_at (c : config) (nm : string) : Prop :=
  ~ In nm (c_exclude FO c) /\ (c_include FO c = [] \/ In nm (c_include FO c)).

(** Every value of the field can be read. *)
Definition readable (fs : fstruct) (s : state) (f : field) : Prop :=
  exists ks, field_keys FO fs s f = Ok ks /\ forall k, In k ks -> exists v, fget FO fs s f k = Ok v.

(** The field has the same values and the same counts in both. *)
Definition same_obs (fs : fstruct) (s s' : state) (f : field) : Prop :=
  (forall k, fget FO fs s f k = fget FO fs s' f k)
  /\ forall lead e, In e (f_loops f) -> eval_shape FO (G FO fs s) fs lead e = eval_shape FO (G FO fs s') fs lead e.

(** The field shows the same in both: the same counts wherever a loop is reached, and the same
    value at each of its indices. *)
Definition same_shown (fs : fstruct) (s s' : state) (f : field) : Prop :=
  same_counts FO fs s s' [] (f_loops f)
  /\ forall ks k, field_keys FO fs s f = Ok ks -> In k ks -> fget FO fs s f k = fget FO fs s' f k.

(** The values of the field are not floating point numbers. *)
Definition nonfloat (f : field) : Prop := fd_ty (f_d f) <> TFloat /\ fd_ty (f_d f) <> TData KFloat.

(** Two fields differ: other indices, or another value at some index. *)
Definition unlike (fs : fstruct) (s1 s2 : state) (f : field) : Prop :=
  exists ks1 ks2, field_keys FO fs s1 f = Ok ks1 /\ field_keys FO fs s2 f = Ok ks2
    /\ (ks1 <> ks2 \/ exists k v w, In k ks1 /\ fget FO fs s1 f k = Ok v /\ fget FO fs s2 f k = Ok w /\ v <> w).

(** ** Names *)
Lemma mem_in nm l : existsb (String.eqb nm) l = true <-> In nm l.
Proof.
  rewrite existsb_exists. split.
  - intros (x & I & E). apply String.eqb_eq in E. now subst.
  - intro I. exists nm. split; auto. apply String.eqb_refl.
Qed.
Lemma skipped_spec c nm : skipped FO c nm = false <-> looked_at c nm.
Proof.
  unfold skipped, looked_at. rewrite orb_false_iff, <- not_true_iff_false, mem_in.
  destruct (c_include FO c) as [|x l]; [tauto|]. rewrite negb_false_iff, mem_in. intuition discriminate.
Qed.
Lemma dict_names_in fs nm : In nm (dict_names fs) <-> exists f, In f (fs_fields fs) /\ fd_name (f_d f) = Some nm.
Proof.
  unfold dict_names.
  assert (X : forall l acc, In nm (fold_left (fun acc f => match fd_name (f_d f) with
      Some n => if existsb (String.eqb n) acc then acc else acc ++ [n] | None => acc end) l acc)
      <-> In nm acc \/ exists f, In f l /\ fd_name (f_d f) = Some nm).
  { induction l as [|f l IH]; intro acc; cbn [fold_left].
    - split; [auto|]. intros [H|(f & [] & _)]; auto.
    - rewrite IH. destruct (fd_name (f_d f)) as [n|] eqn:E.
      + destruct (existsb (String.eqb n) acc) eqn:M.
        * apply mem_in in M. split.
          -- intros [H|(g & I & F)]; [auto|right; exists g; cbn; auto].
          -- intros [H|(g & [<-|I] & F)]; [auto| |right; exists g; auto]. left. congruence.
        * rewrite in_app_iff. cbn [In]. split.
          -- intros [[H|[H|[]]]|(g & I & F)]; [auto| |right; exists g; cbn; auto]. right. exists f. subst. cbn. auto.
          -- intros [H|(g & [<-|I] & F)]; [auto| |right; exists g; auto]. left. right. left. congruence.
      + split.
        * intros [H|(g & I & F)]; [auto|right; exists g; cbn; auto].
        * intros [H|(g & [<-|I] & F)]; [auto|congruence|right; exists g; auto]. }
  rewrite X. cbn [In]. tauto.
Qed.
Lemma dict_names_lookup fs nm : In nm (dict_names fs) <-> exists f, lookup fs nm = Some f.
Proof.
  rewrite dict_names_in. unfold lookup. split.
  - intros (f & I & E). destruct (find (has_name nm) (rev (fs_fields fs))) as [g|] eqn:F; [eauto|].
    apply (find_none _ _ F) in I as N || (assert (I' : In f (rev (fs_fields fs))) by (now rewrite <- in_rev); pose proof (find_none _ _ F _ I') as N).
    unfold has_name in N. rewrite E, String.eqb_refl in N. discriminate.
  - intros (f & F). exists f. apply find_some in F as [I H]. rewrite <- in_rev in I. split; auto.
    unfold has_name in H. destruct (fd_name (f_d f)) as [n|]; [|discriminate]. apply String.eqb_eq in H. now subst.
Qed.
Lemma dict_names_nodup fs : NoDup (dict_names fs).
Proof.
  unfold dict_names. assert (X : forall l acc, NoDup acc -> NoDup (fold_left (fun acc f => match fd_name (f_d f) with
      Some n => if existsb (String.eqb n) acc then acc else acc ++ [n] | None => acc end) l acc)).
  { induction l as [|f l IH]; intros acc N; cbn [fold_left]; auto. apply IH. destruct (fd_name (f_d f)) as [n|]; auto.
    destruct (existsb (String.eqb n) acc) eqn:M; auto. apply not_true_iff_false in M. rewrite mem_in in M.
    apply (NoDup_Add (a := n) (l := acc)); [|auto]. pose proof (Add_app n acc []) as A. rewrite app_nil_r in A. exact A. }
  apply X. constructor.
Qed.

(** ** One structure class on both sides: the log is made of the fields one by one *)

(** The report on one field. *)
Definition one (c : config) nm (d : bool) : list report :=
  if d then if existsb (String.eqb nm) (c_warn FO c) then [RIgnored nm] else [RDiff nm] else [].
Definition clean (l : list report) : bool := forallb (fun r => match r with RIgnored _ => true | _ => false end) l.

Section Same.
Variable fs : fstruct.
Variables s1 s2 : state.
Variable c : config.

(** The comparison of one field; a skipped one is only fetched. *)
Definition step nm : res (list report) :=
  do a <- getattr FO fs s1 nm; do b <- getattr FO fs s2 nm;
  if skipped FO c nm then Ok [] else do d <- differs FO CO fs fs s1 s2 c nm a b; Ok (one c nm d).

Lemma compare_steps ns : forall n, n = List.length ns ->
  compare_from FO CO fs fs s1 s2 n c ns ns = do l <- concat_map_res step ns; Ok (clean l, l).
Proof.
  induction ns as [|nm ns IH]; intros n ->; cbn [List.length compare_from concat_map_res bind]; [reflexivity|].
  unfold next_item, step. destruct (getattr FO fs s1 nm) as [a|e]; cbn [bind]; [|reflexivity].
  destruct (getattr FO fs s2 nm) as [b|e]; cbn [bind fst snd]; [|reflexivity].
  rewrite String.eqb_refl. cbn [negb tl]. rewrite (IH _ eq_refl).
  destruct (skipped FO c nm); cbn [bind].
  - fold step. destruct (concat_map_res step ns); reflexivity.
  - destruct (differs FO CO fs fs s1 s2 c nm a b) as [d|e]; cbn [bind]; [|reflexivity].
    fold step. destruct (concat_map_res step ns) as [l|e]; cbn [bind]; [|reflexivity].
    unfold one. destruct d; [|reflexivity]. destruct (existsb (String.eqb nm) (c_warn FO c)); reflexivity.
Qed.
Lemma compare_same : compare FO CO fs fs s1 s2 c = do l <- concat_map_res step (dict_names fs); Ok (clean l, l).
Proof. unfold compare. apply compare_steps. lia. Qed.

Lemma concat_res_in {A B} (f : A -> res (list B)) l r : concat_map_res f l = Ok r ->
  forall x, In x r <-> exists a y, In a l /\ f a = Ok y /\ In x y.
Proof.
  revert r. induction l as [|a l IH]; intros r E x; cbn [concat_map_res] in E.
  - injection E as <-. split; [intros []|intros (b & y & [] & _)].
  - destruct (f a) as [y|] eqn:Fa; [|discriminate]. cbn [bind] in E.
    destruct (concat_map_res f l) as [r'|] eqn:Fl; [|discriminate]. cbn [bind] in E. injection E as <-.
    rewrite in_app_iff, (IH _ eq_refl). split.
    + intros [I|(b & z & I & F & J)]; [exists a, y; cbn; auto|exists b, z; cbn; auto].
    + intros (b & z & [<-|I] & F & J); [left; congruence|right; eauto].
Qed.
Lemma concat_res_ok {A B} (f : A -> res (list B)) l : (exists r, concat_map_res f l = Ok r) <-> forall a, In a l -> exists y, f a = Ok y.
Proof.
  induction l as [|a l IH]; cbn [concat_map_res].
  - split; [intros _ a []|eauto].
  - split.
    + intros (r & E). destruct (f a) as [y|] eqn:Fa; [|discriminate]. cbn [bind] in E.
      destruct (concat_map_res f l) as [r'|] eqn:Fl; [|discriminate]. intros b [<-|I]; [eauto|]. apply IH; eauto.
    + intro H. destruct (H a (or_introl eq_refl)) as (y & ->). cbn [bind].
      destruct IH as [_ IH]. destruct IH as (r & ->); [intros b I; apply H; now right|]. cbn [bind]. eauto.
Qed.
Lemma concat_res_nil {A B} (f : A -> res (list B)) l : (forall a, In a l -> f a = Ok []) -> concat_map_res f l = Ok [].
Proof. induction l as [|a l IH]; intro H; cbn [concat_map_res]; auto. rewrite (H a) by now left. cbn [bind]. rewrite IH; [reflexivity|]. intros b I. apply H. now right. Qed.
Lemma concat_res_ext {A B} (f g : A -> res (list B)) l : (forall a, In a l -> f a = g a) -> concat_map_res f l = concat_map_res g l.
Proof. induction l as [|a l IH]; intro H; cbn [concat_map_res]; auto. rewrite (H a) by now left. rewrite IH; [reflexivity|]. intros b I. apply H. now right. Qed.

Lemma one_names nm d x : In x (one c nm d) -> x = RDiff nm \/ x = RIgnored nm.
Proof. unfold one. destruct d; [|intros []]. destruct (existsb _ _); intros [<-|[]]; auto. Qed.
Lemma step_names nm l x : step nm = Ok l -> In x l -> x = RDiff nm \/ x = RIgnored nm.
Proof.
  unfold step. destruct (getattr FO fs s1 nm); [|discriminate]. cbn [bind]. destruct (getattr FO fs s2 nm); [|discriminate]. cbn [bind].
  destruct (skipped FO c nm); [intro E; injection E as <-; intros []|].
  destruct (differs _ _ _ _ _ _ _ _ _ _) as [d|]; [|discriminate]. cbn [bind]. intro E. injection E as <-. apply one_names.
Qed.

(** The result and the log say the same. *)
Theorem C40_log b l : compare FO CO fs fs s1 s2 c = Ok (b, l) -> b = false <-> exists nm, In (RDiff nm) l.
Proof.
  rewrite compare_same. destruct (concat_map_res step (dict_names fs)) as [r|] eqn:E; [|discriminate]. cbn [bind]. intro H. injection H as <- <-.
  unfold clean. rewrite <- not_true_iff_false, forallb_forall. split.
  - intro N. destruct (existsb (fun r => match r with RDiff _ => true | _ => false end) r) eqn:X.
    + apply existsb_exists in X as ([nm|nm|] & I & F); try discriminate. eauto.
    + exfalso. apply N. intros x I. pose proof I as J. apply (concat_res_in _ _ _ E) in J as (nm & y & _ & F & J).
      destruct (step_names _ _ _ F J) as [->| ->]; auto.
      apply not_true_iff_false in X. exfalso. apply X, existsb_exists. eauto.
  - intros (nm & I) H. apply H in I. discriminate.
Qed.

(** What is reported of a field [nm]. *)
Lemma reported b l nm : compare FO CO fs fs s1 s2 c = Ok (b, l) -> In nm (dict_names fs) ->
  exists y, step nm = Ok y /\ forall x, In x y -> In x l.
Proof.
  rewrite compare_same. destruct (concat_map_res step (dict_names fs)) as [r|] eqn:E; [|discriminate]. cbn [bind]. intros H I. injection H as <- <-.
  destruct (proj1 (concat_res_ok step _) (ex_intro _ r E) nm I) as (y & F). exists y. split; auto.
  intros x J. apply (concat_res_in _ _ _ E). eauto.
Qed.
Lemma reported_inv b l nm x : compare FO CO fs fs s1 s2 c = Ok (b, l) -> In x l -> x = RDiff nm \/ x = RIgnored nm ->
  exists y, In nm (dict_names fs) /\ step nm = Ok y /\ In x y.
Proof.
  rewrite compare_same. destruct (concat_map_res step (dict_names fs)) as [r|] eqn:E; [|discriminate]. cbn [bind]. intros H I X. injection H as <- <-.
  apply (concat_res_in _ _ _ E) in I as (nm' & y & N & F & J). exists y.
  destruct (step_names _ _ _ F J) as [Y|Y]; destruct X as [X|X]; rewrite X in Y; try discriminate; injection Y as <-; auto.
Qed.
End Same.

(** ** Values *)
Definition plain (v : pyval) : Prop := match v with VBool _ | VFloat _ => False | _ => True end.
Lemma convert_plain d x v : fd_ty d <> TFloat -> convert FO d x = Ok v -> plain v.
Proof.
  intro T. unfold convert. destruct x as [w|b].
  - destruct w; destruct (fd_ty d) eqn:E; try congruence; try (destruct (fd_optional d)); cbn [bind];
      repeat match goal with |- context [bind ?r _] => destruct r; cbn [bind] end; intro X; try discriminate; injection X as <-; exact I.
  - destruct (fd_optional d && is_blank d b); [intro X; injection X as <-; exact I|].
    destruct (fd_ty d) eqn:E; try congruence; cbn [bind];
      repeat match goal with |- context [bind ?r _] => destruct r; cbn [bind] end; intro X; try discriminate; injection X as <-; exact I.
Qed.
Lemma fget_plain fs s f k v : nonfloat f -> fget FO fs s f k = Ok v -> plain v.
Proof.
  intros (N1 & N2). unfold fget, get_pub. destruct (get_base FO (G FO fs s) fs s f k) as [u|] eqn:B; [|discriminate]. cbn [bind].
  assert (U : plain u).
  { unfold get_base in B. destruct (fd_name (f_d f)); [|injection B as <-; exact I].
    destruct (check_index _ _ _ _ _); [|discriminate]. cbn [bind] in B. destruct (check_condition _ _ _ _ _) as [q|]; [|discriminate]. cbn [bind] in B.
    destruct q; cbn [negb] in B; [|injection B as <-; exact I].
    destruct (fd_value (f_d f)) as [e|].
    - destruct (eval FO _ fs k e) as [w|]; [|discriminate]. cbn [bind] in B. destruct (convert FO (f_d f) (SVal w)) eqn:Cv; [|discriminate].
      injection B as <-. exact (convert_plain _ _ _ N1 Cv).
    - destruct (convert FO (f_d f) (stored FO s f k)) eqn:Cv; [|discriminate]. injection B as <-. exact (convert_plain _ _ _ N1 Cv). }
  clear B. unfold unpack. destruct (fd_ty (f_d f)) as [| | | |kd] eqn:T; try (intro E; injection E as <-; exact U).
  destruct u; try (intro E; injection E as <-; exact U).
  destruct kd; try congruence; try (intro E; injection E as <-; exact I).
  destruct (fsize_of _ _ _ _ _) as [sz|]; [|discriminate]. cbn [bind]. unfold unpack_int.
  repeat match goal with |- context [if ?b then _ else _] => destruct b end; intro E; try discriminate; injection E as <-; exact I.
Qed.
Lemma py_eq_plain v w : plain v -> plain w -> py_eq FO CO v w = true -> v = w.
Proof.
  destruct v, w; cbn; try contradiction; try discriminate; auto; intros _ _ E.
  - apply Z.eqb_eq in E. now subst.
  - apply list_eqb_spec in E. now subst.
  - apply list_eqb_spec in E. now subst.
Qed.
Lemma py_eq_refl v : (forall x, v = VFloat x -> fl_eq CO x x = true) -> py_eq FO CO v v = true.
Proof. intro H. destruct v; cbn; auto; try apply Z.eqb_refl; try (now apply list_eqb_spec). Qed.

Lemma getattr_val fs s nm f : lookup fs nm = Some f -> f_loops f = [] -> getattr FO fs s nm = do v <- fget FO fs s f []; Ok (AVal FO v).
Proof. intros L D. unfold getattr. now rewrite L, D. Qed.
Lemma getattr_fld fs s nm f : lookup fs nm = Some f -> f_loops f <> [] -> getattr FO fs s nm = Ok (AFld FO f).
Proof. intros L D. unfold getattr. rewrite L. destruct (f_loops f); [congruence|reflexivity]. Qed.
Lemma keys_scalar fs s f : f_loops f = [] -> field_keys FO fs s f = Ok [[]].
Proof. intro D. unfold field_keys. now rewrite D. Qed.

(** ** No false alarms *)

(** What a comparison function must do on equal values: true of [isclose] and [==] but for
    NaN (which is why the values are those of the structure), and asked of the configured
    functions. *)
Definition agrees_on_equal (c : config) (fs : fstruct) (s : state) : Prop :=
  forall nm f k v, lookup fs nm = Some f -> fget FO fs s f k = Ok v ->
    (forall g, c_eq FO c nm = Some g -> g v v = Ok true)
    /\ forall x, v = VFloat x -> fl_eq CO x x = true /\ fl_close CO (c_rel FO c nm) (c_abs FO c nm) x x = Ok true.

Lemma cmp_refl c fs s nm f k v isf : agrees_on_equal c fs s -> lookup fs nm = Some f -> fget FO fs s f k = Ok v ->
  (isf = true -> match v with VNone | VFloat _ => True | _ => False end) -> cmp_fun FO CO c nm isf v v = Ok true.
Proof.
  intros A L E T. destruct (A nm f k v L E) as (A1 & A2). unfold cmp_fun. destruct (c_eq FO c nm) as [g|]; [now apply A1|].
  destruct isf.
  - specialize (T eq_refl). destruct v; try contradiction; [reflexivity|]. cbn. now apply A2.
  - rewrite py_eq_refl; [reflexivity|]. intros x X. now apply A2.
Qed.
Lemma fget_float fs s f k v : fd_ty (f_d f) = TFloat -> fd_name (f_d f) <> None -> fget FO fs s f k = Ok v -> match v with VNone | VFloat _ => True | _ => False end.
Proof.
  intros T Nm. unfold fget, get_pub. destruct (get_base FO (G FO fs s) fs s f k) as [u|] eqn:B; [|discriminate]. cbn [bind]. rewrite T.
  intro E. assert (u = v) by (destruct u; congruence). subst u. clear E.
  unfold get_base in B. destruct (fd_name (f_d f)); [|congruence].
  destruct (check_index _ _ _ _ _); [|discriminate]. cbn [bind] in B. destruct (check_condition _ _ _ _ _) as [q|]; [|discriminate]. cbn [bind] in B.
  destruct q; cbn [negb] in B; [|injection B as <-; exact I].
  assert (C : forall x, convert FO (f_d f) x = Ok v -> match v with VNone | VFloat _ => True | _ => False end).
  { intro x. unfold convert. rewrite T. destruct x as [w|b].
    - destruct w; try (destruct (fd_optional (f_d f)));
        repeat match goal with |- context [bind ?r _] => destruct r; cbn [bind] end; intro X; try discriminate; injection X as <-; exact I.
    - destruct (fd_optional (f_d f) && is_blank (f_d f) b); [intro X; injection X as <-; exact I|].
      destruct (conv_float FO (VBytes b)); [|discriminate]. cbn [bind]. intro X. injection X as <-. exact I. }
  destruct (fd_value (f_d f)) as [e|].
  - destruct (eval FO _ fs k e) as [w|]; [|discriminate]. cbn [bind] in B. destruct (convert FO (f_d f) (SVal w)) eqn:Cv; [|discriminate].
    injection B as <-. exact (C _ Cv).
  - destruct (convert FO (f_d f) (stored FO s f k)) eqn:Cv; [|discriminate]. injection B as <-. exact (C _ Cv).
Qed.

Lemma all_res_true {A} (p : A -> res bool) l : (forall a, In a l -> p a = Ok true) -> all_res p l = Ok true.
Proof. induction l as [|a l IH]; intro H; cbn [all_res]; auto. rewrite (H a) by now left. cbn [bind]. apply IH. intros b I. apply H. now right. Qed.
Lemma all_res_ext {A} (p q : A -> res bool) l : (forall a, In a l -> p a = q a) -> all_res p l = all_res q l.
Proof. induction l as [|a l IH]; intro H; cbn [all_res]; auto. rewrite (H a) by now left. rewrite IH; [reflexivity|]. intros b I. apply H. now right. Qed.

(** Same counts in both: same shape and same indices. *)
Lemma shape_refl fs s1 s2 : forall shs lead,
  same_counts FO fs s1 s2 lead shs -> shs <> [] -> shape_equal_from FO fs fs s1 s2 lead shs shs = Ok true.
Proof.
  induction shs as [|e shs IH]; intros lead H0 N; [congruence|]. destruct H0 as (n & E1 & E2 & H). cbn [shape_equal_from]. rewrite E1. cbn [bind].
  destruct shs as [|e' shs].
  - rewrite E2. cbn [bind]. now rewrite Z.eqb_refl.
  - rewrite all_res_true; [reflexivity|]. intros i I. apply IH; [now apply H|discriminate].
Qed.
Lemma keys_counts fs s1 s2 : forall shs lead, same_counts FO fs s1 s2 lead shs -> keys_from FO fs s1 lead shs = keys_from FO fs s2 lead shs.
Proof.
  induction shs as [|e shs IH]; intros lead H; cbn [keys_from]; [reflexivity|]. destruct H as (n & -> & -> & H). cbn [bind].
  apply concat_res_ext. intros i I. now apply IH, H.
Qed.
Lemma counts_obs fs s1 s2 : forall shs lead ks,
  (forall lead e, In e shs -> eval_shape FO (G FO fs s1) fs lead e = eval_shape FO (G FO fs s2) fs lead e) ->
  keys_from FO fs s1 lead shs = Ok ks -> same_counts FO fs s1 s2 lead shs.
Proof.
  induction shs as [|e shs IH]; intros lead ks H E; [exact I|]. cbn [keys_from] in E. cbn [same_counts].
  destruct (eval_shape FO (G FO fs s1) fs lead e) as [n|] eqn:En; [|discriminate]. cbn [bind] in E.
  exists n. split; [reflexivity|]. split; [rewrite <- En; symmetry; apply H; now left|]. intros i I.
  destruct (proj1 (concat_res_ok _ _) (ex_intro _ ks E) i I) as (ks' & E').
  apply (IH _ ks'); [|exact E']. intros l x X. apply H. now right.
Qed.
Lemma same_obs_shown fs s1 s2 f : readable fs s1 f -> same_obs fs s1 s2 f -> same_shown fs s1 s2 f.
Proof. intros (ks & K & _) (S1 & S2). split; [exact (counts_obs fs s1 s2 _ [] ks S2 K)|]. intros ? k _ _. apply S1. Qed.
Lemma keys_ext fs s1 s2 : forall shs lead,
  (forall lead e, In e shs -> eval_shape FO (G FO fs s1) fs lead e = eval_shape FO (G FO fs s2) fs lead e) ->
  keys_from FO fs s1 lead shs = keys_from FO fs s2 lead shs.
Proof.
  induction shs as [|e shs IH]; intros lead H; cbn [keys_from]; [reflexivity|]. rewrite (H lead e) by now left.
  destruct (eval_shape FO (G FO fs s2) fs lead e); [|reflexivity]. cbn [bind]. apply concat_res_ext. intros i _. apply IH.
  intros l x X. apply H. now right.
Qed.

Lemma step_same c fs s1 s2 nm f : lookup fs nm = Some f -> readable fs s1 f -> same_shown fs s1 s2 f -> agrees_on_equal c fs s1 ->
  step fs s1 s2 c nm = Ok [].
Proof.
  intros L (ks & K & V) (S1 & S2) A.
  assert (Nm : fd_name (f_d f) <> None) by (rewrite (lookup_name _ _ _ L); discriminate).
  unfold step. destruct (f_loops f) as [|e0 shs0] eqn:D.
  - rewrite !(getattr_val _ _ _ _ L D). rewrite (keys_scalar _ _ _ D) in K. injection K as <-.
    destruct (V [] (or_introl eq_refl)) as (v & E). rewrite <- (S2 [[]] [] (keys_scalar _ _ _ D) (or_introl eq_refl)), E. cbn [bind].
    destruct (skipped FO c nm) eqn:Sk; [reflexivity|].
    cbn [differs]. rewrite (cmp_refl c fs s1 nm f [] v _ A L E); [reflexivity|]. destruct v; try discriminate; auto.
  - assert (D' : f_loops f <> []) by congruence. rewrite !(getattr_fld _ _ _ _ L D'). cbn [bind].
    destruct (skipped FO c nm) eqn:Sk; [reflexivity|].
    rewrite <- D in S1.
    cbn [differs]. unfold cmp_field, shape_equal. rewrite Nat.eqb_refl.
    rewrite (shape_refl _ _ _ _ _ S1 D'). cbn [bind]. rewrite K. cbn [bind].
    assert (K2 : field_keys FO fs s2 f = Ok ks) by (rewrite <- K; symmetry; apply keys_counts, S1). rewrite K2. cbn [bind].
    assert (C : forall l, (forall k, In k l -> In k ks) -> count_diff FO fs fs s1 s2 f f
        (cmp_fun FO CO c nm match fd_ty (f_d f) with TFloat => true | _ => false end) l l = Ok O).
    { induction l as [|k l IH]; intro H; cbn [count_diff]; [reflexivity|].
      destruct (V k (H k (or_introl eq_refl))) as (v & E). rewrite <- (S2 ks k K (H k (or_introl eq_refl))), E. cbn [bind].
      rewrite (cmp_refl c fs s1 nm f k v _ A L E).
      - cbn [bind tl]. rewrite IH; [reflexivity|]. intros x X. apply H. now right.
      - intro T. apply (fget_float fs s1 f k); auto. destruct (fd_ty (f_d f)); congruence. }
    rewrite C by auto. reflexivity.
Qed.

(** Two structures that agree on all fields looked at, and of which the other fields can be
    read, compare as the same without any report. *)
Theorem C40_no_false_alarm c fs s1 s2 :
  (forall nm f, lookup fs nm = Some f -> readable fs s1 f /\ readable fs s2 f) ->
  (forall nm f, lookup fs nm = Some f -> looked_at c nm -> same_shown fs s1 s2 f) ->
  agrees_on_equal c fs s1 -> compare FO CO fs fs s1 s2 c = Ok (true, []).
Proof.
  intros R S A. rewrite compare_same. rewrite concat_res_nil; [reflexivity|].
  intros nm I. apply dict_names_lookup in I as (f & L). destruct (R nm f L) as (R1 & R2).
  destruct (skipped FO c nm) eqn:Sk.
  - unfold step. rewrite Sk. destruct R1 as (ks & K & V), R2 as (ks' & K' & V'). destruct (f_loops f) as [|e0 shs0] eqn:D.
    + rewrite !(getattr_val _ _ _ _ L D). rewrite (keys_scalar _ _ _ D) in K. rewrite (keys_scalar _ _ _ D) in K'. injection K as <-. injection K' as <-.
      destruct (V [] (or_introl eq_refl)) as (v & ->). destruct (V' [] (or_introl eq_refl)) as (w & ->). reflexivity.
    + assert (D' : f_loops f <> []) by congruence. now rewrite !(getattr_fld _ _ _ _ L D').
  - apply skipped_spec in Sk. apply (step_same c fs s1 s2 nm f L R1 (S nm f L Sk) A).
Qed.

(** In particular a structure compared with itself. *)
Theorem C40_itself c fs s :
  (forall nm f, lookup fs nm = Some f -> readable fs s f) -> agrees_on_equal c fs s ->
  compare FO CO fs fs s s c = Ok (true, []).
Proof. intros R A. apply C40_no_false_alarm; [intros nm f L; split; exact (R nm f L)|intros nm f L _; apply same_obs_shown; [exact (R nm f L)|split; reflexivity]|exact A]. Qed.

(** Only fields that are looked at and that are not the same are reported. *)
Theorem C40_only_real c fs s1 s2 b l nm : compare FO CO fs fs s1 s2 c = Ok (b, l) -> agrees_on_equal c fs s1 ->
  In (RDiff nm) l \/ In (RIgnored nm) l ->
  exists f, lookup fs nm = Some f /\ looked_at c nm /\ (readable fs s1 f -> ~ same_shown fs s1 s2 f).
Proof.
  intros E A H.
  assert (X : exists x y, (x = RDiff nm \/ x = RIgnored nm) /\ In nm (dict_names fs) /\ step fs s1 s2 c nm = Ok y /\ In x y).
  { destruct H as [H|H]; [destruct (reported_inv _ _ _ _ _ _ nm _ E H (or_introl eq_refl)) as (y & P)|
                          destruct (reported_inv _ _ _ _ _ _ nm _ E H (or_intror eq_refl)) as (y & P)]; eauto 8. }
  destruct X as (x & y & _ & N & F & I). apply dict_names_lookup in N as (f & L). exists f. split; [exact L|]. split.
  - apply skipped_spec. destruct (skipped FO c nm) eqn:Sk; [|reflexivity]. exfalso. unfold step in F. rewrite Sk in F.
    destruct (getattr FO fs s1 nm); [|discriminate]. cbn [bind] in F. destruct (getattr FO fs s2 nm); [|discriminate]. cbn [bind] in F.
    injection F as <-. destruct I.
  - intros R S. rewrite (step_same c fs s1 s2 nm f L R S A) in F. injection F as <-. destruct I.
Qed.

(** ** No missed differences *)
Lemma count_zero fs s1 s2 f cmp : forall ks, count_diff FO fs fs s1 s2 f f cmp ks ks = Ok O ->
  forall k, In k ks -> exists v w, fget FO fs s1 f k = Ok v /\ fget FO fs s2 f k = Ok w /\ cmp v w = Ok true.
Proof.
  induction ks as [|k0 ks IH]; intros E k I; [destruct I|]. cbn [count_diff] in E.
  destruct (fget FO fs s1 f k0) as [v|] eqn:E1; [|discriminate]. cbn [bind] in E.
  destruct (fget FO fs s2 f k0) as [w|] eqn:E2; [|discriminate]. cbn [bind] in E.
  destruct (cmp v w) as [r|] eqn:E3; [|discriminate]. cbn [bind tl] in E.
  destruct (count_diff FO fs fs s1 s2 f f cmp ks ks) as [n|] eqn:E4; [|discriminate]. cbn [bind] in E.
  destruct r; [|discriminate]. injection E as ->. destruct I as [<-|I]; [eauto|]. now apply IH.
Qed.

(** What the log says of a field. *)
Definition told (c : config) nm (b : bool) (l : list report) : Prop :=
  if existsb (String.eqb nm) (c_warn FO c) then In (RIgnored nm) l else In (RDiff nm) l /\ b = false.

Lemma one_told c fs s1 s2 b l nm : compare FO CO fs fs s1 s2 c = Ok (b, l) -> (forall x, In x (one c nm true) -> In x l) -> told c nm b l.
Proof.
  intros E H. unfold told, one in *. destruct (existsb (String.eqb nm) (c_warn FO c)).
  - apply H. now left.
  - assert (I : In (RDiff nm) l) by (apply H; now left). split; [exact I|]. apply (C40_log fs s1 s2 c b l E). eauto.
Qed.

(** A field of at most one dimension, or with the same indices on both sides: if it is not
    told of, both sides have the same indices, and the values compare as equal. *)
Lemma untold c fs s1 s2 b l nm f ks1 ks2 : compare FO CO fs fs s1 s2 c = Ok (b, l) -> lookup fs nm = Some f -> looked_at c nm ->
  field_keys FO fs s1 f = Ok ks1 -> field_keys FO fs s2 f = Ok ks2 -> (depth f <= 1)%nat \/ ks1 = ks2 ->
  told c nm b l \/ ks1 = ks2 /\ forall k, In k ks1 -> exists v w isf, fget FO fs s1 f k = Ok v /\ fget FO fs s2 f k = Ok w
     /\ cmp_fun FO CO c nm isf v w = Ok true /\ (isf = true -> fd_ty (f_d f) = TFloat \/ exists x, v = VFloat x)
     /\ (f_loops f = [] -> isf = match v with VFloat _ => true | _ => false end).
Proof.
  intros E L Lk K1 K2 D. assert (N : In nm (dict_names fs)) by (apply dict_names_lookup; eauto).
  destruct (reported _ _ _ _ _ _ _ E N) as (y & F & H). apply skipped_spec in Lk.
  unfold step in F. rewrite Lk in F. destruct (f_loops f) as [|e shs] eqn:Sh.
  - rewrite !(getattr_val _ _ _ _ L Sh) in F. rewrite (keys_scalar _ _ _ Sh) in K1. rewrite (keys_scalar _ _ _ Sh) in K2.
    injection K1 as <-. injection K2 as <-.
    destruct (fget FO fs s1 f []) as [v|] eqn:E1; [|discriminate]. destruct (fget FO fs s2 f []) as [w|] eqn:E2; [|discriminate].
    cbn [bind differs] in F. destruct (cmp_fun FO CO c nm _ v w) as [r|] eqn:E3; [|discriminate]. cbn [bind] in F. injection F as <-.
    destruct r; cbn [negb] in H; [|left; now apply (one_told c fs s1 s2)].
    right. split; [reflexivity|]. intros k [<-|[]]. exists v, w, (match v with VFloat _ => true | _ => false end).
    repeat split; auto. destruct v; try discriminate. eauto.
  - assert (D' : f_loops f <> []) by congruence. rewrite !(getattr_fld _ _ _ _ L D') in F. cbn [bind differs] in F.
    destruct (cmp_field FO fs fs s1 s2 f f _) as [d|] eqn:C; [|discriminate]. cbn [bind] in F. injection F as <-.
    destruct d; [left; now apply (one_told c fs s1 s2)|]. right.
    unfold cmp_field in C. destruct (shape_equal FO fs fs s1 s2 f f) as [sh|] eqn:Se; [|discriminate]. cbn [bind] in C.
    destruct sh; [|discriminate]. rewrite K1, K2 in C. cbn [bind] in C.
    assert (Ks : ks1 = ks2).
    { destruct D as [D|D]; [|exact D]. unfold depth in D. rewrite Sh in D. destruct shs as [|e' shs]; [|cbn in D; lia].
      unfold shape_equal in Se. rewrite Nat.eqb_refl, Sh in Se. cbn [shape_equal_from] in Se.
      unfold field_keys in K1, K2. rewrite Sh in K1, K2. cbn [keys_from] in K1, K2.
      destruct (eval_shape FO (G FO fs s1) fs [] e) as [n1|]; [|discriminate]. destruct (eval_shape FO (G FO fs s2) fs [] e) as [n2|]; [|discriminate].
      cbn [bind no_index] in Se, K1, K2. injection Se as Se. apply Z.eqb_eq in Se. subst n2. congruence. }
    subst ks2. split; [reflexivity|]. intros k I.
    destruct (count_diff _ _ _ _ _ _ _ _ _ _) as [n|] eqn:Cn; [|discriminate]. cbn [bind] in C. destruct n; [|discriminate].
    destruct (count_zero _ _ _ _ _ _ Cn k I) as (v & w & E1 & E2 & E3).
    exists v, w, (match fd_ty (f_d f) with TFloat => true | _ => false end). repeat split; auto; [|congruence].
    destruct (fd_ty (f_d f)); try discriminate. auto.
Qed.

(** A difference in a field that is looked at, is compared by [==], is told of. *)
Theorem C40_reported_partial c fs s1 s2 b l nm f :
  compare FO CO fs fs s1 s2 c = Ok (b, l) -> lookup fs nm = Some f -> looked_at c nm -> c_eq FO c nm = None -> nonfloat f ->
  unlike fs s1 s2 f -> (depth f <= 1)%nat \/ field_keys FO fs s1 f = field_keys FO fs s2 f -> told c nm b l.
Proof.
  intros E L Lk Ce Nf (ks1 & ks2 & K1 & K2 & U) D.
  destruct (untold c fs s1 s2 b l nm f ks1 ks2 E L Lk K1 K2) as [T|(Ks & V)]; [|exact T|].
  - destruct D as [D|D]; [auto|right; congruence].
  - exfalso. destruct U as [U|(k & v & w & I & E1 & E2 & U)]; [now apply U|]. apply U.
    destruct (V k I) as (v' & w' & isf & E1' & E2' & C & F & _). rewrite E1 in E1'. injection E1' as <-. rewrite E2 in E2'. injection E2' as <-.
    unfold cmp_fun in C. rewrite Ce in C. pose proof (fget_plain _ _ _ _ _ Nf E1) as P1. pose proof (fget_plain _ _ _ _ _ Nf E2) as P2.
    destruct isf.
    + destruct (F eq_refl) as [T|(x & ->)]; [destruct Nf; congruence|destruct P1].
    + injection C as C. now apply py_eq_plain.
Qed.

(** Floating point fields: a scalar is reported exactly if the numbers are not close, an
    array if any pair of numbers is not. *)
Theorem C40_float c fs s1 s2 b l nm f x y r :
  compare FO CO fs fs s1 s2 c = Ok (b, l) -> lookup fs nm = Some f -> looked_at c nm -> c_eq FO c nm = None -> f_loops f = [] ->
  fget FO fs s1 f [] = Ok (VFloat x) -> fget FO fs s2 f [] = Ok (VFloat y) ->
  fl_close CO (c_rel FO c nm) (c_abs FO c nm) x y = Ok r -> r = false <-> In (RDiff nm) l \/ In (RIgnored nm) l.
Proof.
  intros E L Lk Ce Sh E1 E2 Cl. split.
  - intros ->. destruct (untold c fs s1 s2 b l nm f [[]] [[]] E L Lk) as [T|(_ & V)]; try now apply keys_scalar. { auto. }
    + unfold told in T. destruct (existsb _ _); tauto.
    + exfalso. destruct (V [] (or_introl eq_refl)) as (v & w & isf & E1' & E2' & C & _ & T). rewrite E1 in E1'. injection E1' as <-. rewrite E2 in E2'. injection E2' as <-.
      rewrite (T Sh) in C. unfold cmp_fun in C. rewrite Ce in C. cbn in C. rewrite Cl in C. discriminate.
  - intro H. assert (X : exists y, step fs s1 s2 c nm = Ok y /\ y <> []).
    { destruct H as [H|H]; [destruct (reported_inv _ _ _ _ _ _ nm _ E H (or_introl eq_refl)) as (y0 & _ & F & I)|
                            destruct (reported_inv _ _ _ _ _ _ nm _ E H (or_intror eq_refl)) as (y0 & _ & F & I)];
        exists y0; (split; [exact F|]); intro Z; rewrite Z in I; destruct I. }
    destruct X as (z & F & Nz). apply skipped_spec in Lk. unfold step in F. rewrite !(getattr_val _ _ _ _ L Sh), E1, E2, Lk in F.
    cbn [bind differs] in F. unfold cmp_fun in F. rewrite Ce in F. cbn in F. rewrite Cl in F. cbn in F. destruct r; [|reflexivity].
    cbn in F. injection F as <-. now destruct Nz.
Qed.
Theorem C40_float_array c fs s1 s2 b l nm f ks k x y :
  compare FO CO fs fs s1 s2 c = Ok (b, l) -> lookup fs nm = Some f -> looked_at c nm -> c_eq FO c nm = None -> fd_ty (f_d f) = TFloat -> f_loops f <> [] ->
  field_keys FO fs s1 f = Ok ks -> field_keys FO fs s2 f = Ok ks -> In k ks ->
  fget FO fs s1 f k = Ok (VFloat x) -> fget FO fs s2 f k = Ok (VFloat y) ->
  fl_close CO (c_rel FO c nm) (c_abs FO c nm) x y = Ok false -> told c nm b l.
Proof.
  intros E L Lk Ce Ty Sh K1 K2 I E1 E2 Cl.
  assert (N : In nm (dict_names fs)) by (apply dict_names_lookup; eauto).
  destruct (reported _ _ _ _ _ _ _ E N) as (z & F & H). apply skipped_spec in Lk.
  unfold step in F. rewrite Lk, !(getattr_fld _ _ _ _ L Sh) in F. cbn [bind differs] in F.
  destruct (cmp_field FO fs fs s1 s2 f f _) as [d|] eqn:C; [|discriminate]. cbn [bind] in F. injection F as <-.
  destruct d; [now apply (one_told c fs s1 s2)|]. exfalso. unfold cmp_field in C.
  destruct (shape_equal FO fs fs s1 s2 f f) as [sh|]; [|discriminate]. cbn [bind] in C. destruct sh; [|discriminate].
  rewrite K1, K2 in C. cbn [bind] in C. destruct (count_diff _ _ _ _ _ _ _ _ _ _) as [n|] eqn:Cn; [|discriminate]. cbn [bind] in C. destruct n; [|discriminate].
  destruct (count_zero _ _ _ _ _ _ Cn k I) as (v & w & E1' & E2' & E3). rewrite E1 in E1'. injection E1' as <-. rewrite E2 in E2'. injection E2' as <-.
  rewrite Ty in E3. unfold cmp_fun in E3. rewrite Ce in E3. cbn in E3. congruence.
Qed.

(** ** The same result means the same values, whatever the dimensions *)
Section All.
Variable rows : list row.
Let fs := mk_fs rows.
Variables (s1 s2 : state) (c : config) (l : list report).
Hypothesis Hwf : wf_rows rows = true.
(** All fields but floating point numbers are compared, by [==]. *)
Hypothesis Hc : forall nm f, lookup fs nm = Some f -> nonfloat f -> looked_at c nm /\ c_eq FO c nm = None /\ ~ In nm (c_warn FO c).
Hypothesis HE : compare FO CO fs fs s1 s2 c = Ok (true, l).

Lemma not_told nm f : lookup fs nm = Some f -> nonfloat f -> ~ told c nm true l.
Proof.
  intros L N. unfold told. destruct (existsb (String.eqb nm) (c_warn FO c)) eqn:W.
  - apply mem_in in W. exfalso. now apply (Hc nm f L N).
  - intros (_ & X). discriminate.
Qed.
(** The indices have been listed. *)
Lemma listed nm f : lookup fs nm = Some f -> nonfloat f ->
  exists ks1 ks2, field_keys FO fs s1 f = Ok ks1 /\ field_keys FO fs s2 f = Ok ks2.
Proof.
  intros L N. destruct (f_loops f) as [|e shs] eqn:Sh.
  - exists [[]], [[]]. split; now apply keys_scalar.
  - assert (D' : f_loops f <> []) by congruence. destruct (Hc nm f L N) as (Lk & Ce & Nw).
    assert (I : In nm (dict_names fs)) by (apply dict_names_lookup; eauto).
    destruct (reported _ _ _ _ _ _ _ HE I) as (y & F & H). apply skipped_spec in Lk.
    unfold step in F. rewrite Lk, !(getattr_fld _ _ _ _ L D') in F. cbn [bind differs] in F.
    destruct (cmp_field FO fs fs s1 s2 f f _) as [d|] eqn:C; [|discriminate]. cbn [bind] in F. injection F as <-.
    destruct d; [exfalso; apply (not_told nm f L N); now apply (one_told c fs s1 s2)|].
    unfold cmp_field in C. destruct (shape_equal FO fs fs s1 s2 f f) as [sh|]; [|discriminate]. cbn [bind] in C. destruct sh; [|discriminate].
    destruct (field_keys FO fs s1 f) as [ks1|]; [|discriminate]. destruct (field_keys FO fs s2 f) as [ks2|]; [|discriminate]. eauto.
Qed.

Definition same_on (y : field) : Prop := forall k v, in_shape FO fs s1 (f_loops y) k -> fget FO fs s1 y k = Ok v -> fget FO fs s2 y k = Ok v.
Definition path_same (path : list expr) : Prop := forall j lead n, (j < List.length path)%nat -> in_shape FO fs s1 (firstn j path) lead ->
  eval_shape FO (G FO fs s1) fs lead (nth j path (EInt 0)) = Ok n -> eval_shape FO (G FO fs s2) fs lead (nth j path (EInt 0)) = Ok n.
Definition env_fine (env : list field) (path : list expr) : Prop := forall y, In y env -> In y (fs_fields fs) /\
  (exists q, path = f_loops y ++ q) /\ forall nm, lookup fs nm = Some y -> exact y = true -> same_on y.

Lemma in_shape_prefix a b k : in_shape FO fs s1 (a ++ b) k -> in_shape FO fs s1 a (firstn (List.length a) k).
Proof.
  intros (L & H). rewrite app_length in L. split; [rewrite firstn_length; lia|]. intros j J.
  destruct (H j ltac:(rewrite app_length; lia)) as (n & E & B). exists n. rewrite app_nth1 in E by exact J.
  rewrite firstn_firstn, Nat.min_l by lia. split; [exact E|].
  rewrite <- (firstn_skipn (List.length a) k) in B. rewrite app_nth1 in B by (rewrite firstn_length; lia). exact B.
Qed.
Lemma G_fget s y k : In y (fs_fields fs) -> G FO fs s y k = fget FO fs s y k.
Proof.
  intro I. change (fget FO fs s y k) with (getf FO (S (fuel fs)) fs s y k). unfold G.
  pose proof (id_lt_fuel rows y I) as X. change (mk_fs rows) with fs in X. apply (getf_fuel rows FO s Hwf); [exact I|exact X|lia].
Qed.
Lemma exact_nonfloat f : exact f = true -> nonfloat f.
Proof. unfold exact, nonfloat. rewrite andb_true_iff. intros (_ & E). split; intro T; rewrite T in E; discriminate. Qed.

(** Expressions over the scope have the same value. *)
Lemma scope_agree env path d lead rs : env_fine env path -> d = List.length path -> in_shape FO fs s1 path lead ->
  forallb (ref_ok fs env d) rs = true -> refs_agree FO (G FO fs s1) (G FO fs s2) fs lead rs.
Proof.
  intros V -> S R nm m f v I L E. rewrite forallb_forall in R. specialize (R _ I). unfold ref_ok in R. cbn [fst snd] in R. rewrite L in R.
  apply andb_true_iff in R as [R X]. apply andb_true_iff in R as [R _]. apply andb_true_iff in R as [R Dp]. apply Nat.eqb_eq in Dp.
  apply existsb_exists in R as (y & Iy & Ey). apply Nat.eqb_eq in Ey. destruct (V y Iy) as (Fy & (q & Q) & Sm).
  assert (y = f) by (apply (mk_fs_id_inj rows); auto; eapply lookup_in; eauto). subst y.
  rewrite (G_fget s1 f _ Fy) in E. rewrite (G_fget s2 f _ Fy). apply (Sm nm L X); [|exact E].
  rewrite Q in S. apply in_shape_prefix in S. fold (depth f) in S. now rewrite Dp in S.
Qed.

(** The indices of a field inside such loops. *)
Lemma keys_agree path : path_same path -> forall a b lead ks, path = a ++ b -> in_shape FO fs s1 a lead ->
  keys_from FO fs s1 lead b = Ok ks -> keys_from FO fs s2 lead b = Ok ks.
Proof.
  intros P a b. revert a. induction b as [|e b IH]; intros a lead ks Q S E; [exact E|]. cbn [keys_from] in *.
  destruct (eval_shape FO (G FO fs s1) fs lead e) as [n|] eqn:En; [|discriminate]. cbn [bind] in E.
  assert (Nt : nth (List.length a) path (EInt 0) = e) by (rewrite Q, app_nth2, Nat.sub_diag; [reflexivity|lia]).
  assert (Fs : firstn (List.length a) path = a) by (rewrite Q, firstn_app, Nat.sub_diag, firstn_all; cbn; apply app_nil_r).
  assert (E2 : eval_shape FO (G FO fs s2) fs lead e = Ok n).
  { rewrite <- Nt. apply P; [rewrite Q, app_length; cbn; lia|now rewrite Fs|now rewrite Nt]. }
  rewrite E2. cbn [bind]. rewrite <- E. apply concat_res_ext. intros i I. apply in_zrange in I.
  destruct (proj1 (concat_res_ok _ _) (ex_intro _ ks E) i ltac:(now apply in_zrange)) as (ks' & E').
  rewrite E'. apply (IH (a ++ [e])); [now rewrite <- app_assoc| |exact E'].
  destruct S as (L & S). split; [rewrite !app_length; cbn; lia|]. intros j J. rewrite app_length in J. cbn in J.
  destruct (Nat.eq_dec j (List.length a)) as [->|Nj].
  - exists n. rewrite app_nth2, Nat.sub_diag by lia. rewrite <- L, firstn_app, Nat.sub_diag, firstn_all, app_nil_r. cbn [nth].
    rewrite app_nth2, Nat.sub_diag by lia. cbn [nth]. split; auto.
  - destruct (S j ltac:(lia)) as (m & A & B). exists m. rewrite app_nth1 by lia. rewrite firstn_app_le by lia. rewrite app_nth1 by lia. auto.
Qed.

(** What is shown of each field. *)
Definition fine (f : field) : Prop := forall nm, lookup fs nm = Some f -> nonfloat f ->
  exists ks, field_keys FO fs s1 f = Ok ks /\ field_keys FO fs s2 f = Ok ks
    /\ forall k, In k ks -> exists v, fget FO fs s1 f k = Ok v /\ fget FO fs s2 f k = Ok v.

Lemma field_fine f path : path_same path -> f_loops f = path -> fine f.
Proof.
  intros P Q nm L N. destruct (listed nm f L N) as (ks1 & ks2 & K1 & K2).
  assert (K2' : field_keys FO fs s2 f = Ok ks1).
  { unfold field_keys in *. rewrite Q in *. apply (keys_agree path P []); auto. split; [reflexivity|]. cbn. lia. }
  rewrite K2' in K2. injection K2 as <-. exists ks1. split; [exact K1|]. split; [exact K2'|].
  destruct (Hc nm f L N) as (Lk & Ce & _).
  destruct (untold c fs s1 s2 true l nm f ks1 ks1 HE L Lk K1 K2' (or_intror eq_refl)) as [T|(_ & V)]; [exfalso; now apply (not_told nm f L N)|].
  intros k I. destruct (V k I) as (v & w & isf & E1 & E2 & C & F & _). exists v. split; [exact E1|]. rewrite E2. f_equal. symmetry.
  pose proof (fget_plain _ _ _ _ _ N E1) as P1. pose proof (fget_plain _ _ _ _ _ N E2) as P2.
  unfold cmp_fun in C. rewrite Ce in C. destruct isf.
  - destruct (F eq_refl) as [T|(x & ->)]; [destruct N; congruence|destruct P1].
  - injection C as C. now apply py_eq_plain.
Qed.
Lemma fine_same f nm : lookup fs nm = Some f -> exact f = true -> fine f -> same_on f.
Proof.
  intros L X F k v S E. destruct (F nm L (exact_nonfloat f X)) as (ks & K1 & K2 & V).
  destruct (V k) as (w & E1 & E2); [|congruence]. now apply (proj2 (field_keys_in FO fs s1 f ks k K1)).
Qed.

Definition item_fine (it : item) : Prop := forall env path, env_fine env path -> path_same path -> placed path it ->
  item_ok fs env (List.length path) it = true -> incl (item_fields it) (fs_fields fs) -> Forall fine (item_fields it).
Lemma items_fine its : Forall item_fine its -> forall env path, env_fine env path -> path_same path -> Forall (placed path) its ->
  items_ok fs env (List.length path) its = true -> incl (flat_map item_fields its) (fs_fields fs) -> Forall fine (flat_map item_fields its).
Proof.
  induction 1 as [|it its Hit _ IH]; intros env path V P Pl Ok Inc; [constructor|]. cbn [flat_map items_ok] in *.
  apply andb_true_iff in Ok as [Ok1 Ok2]. inversion Pl as [|? ? Pl1 Pl2]; subst.
  assert (F1 : Forall fine (item_fields it)) by (apply (Hit env path); auto; intros x X; apply Inc, in_app_iff; now left).
  apply Forall_app. split; [exact F1|]. apply (IH (env_after env it) path); auto; [|intros x X; apply Inc, in_app_iff; now right].
  destruct it as [f|]; [|exact V]. cbn [env_after]. intros y I. apply in_app_iff in I as [I|[<-|[]]]; [now apply V|].
  split; [apply Inc, in_app_iff; left; now left|]. split; [exists []; cbn in Pl1; now rewrite app_nil_r|].
  intros nm L X. inversion F1; subst. now apply (fine_same f nm).
Qed.
Lemma all_item_fine it : item_fine it.
Proof.
  induction it as [f|sh its IH] using item_ind'; intros env path V P Pl Ok Inc.
  - cbn [item_fields]. constructor; [|constructor]. now apply (field_fine f path).
  - rewrite item_ok_loop in Ok. apply andb_true_iff in Ok as [Ok1 Ok2]. apply placed_loop in Pl. cbn [item_fields] in *.
    apply (items_fine its IH env (path ++ [sh])); auto.
    + intros y I. destruct (V y I) as (A & (q & ->) & B). split; [exact A|]. split; [|exact B]. exists (q ++ [sh]). now rewrite app_assoc.
    + intros j lead n J S E. rewrite app_length in J. cbn in J. destruct (Nat.eq_dec j (List.length path)) as [->|Nj].
      * rewrite app_nth2, Nat.sub_diag in * by lia. cbn [nth] in *. rewrite firstn_app, Nat.sub_diag, firstn_all in S. cbn in S. rewrite app_nil_r in S.
        eapply eval_shape_agree; [|exact E]. now apply (scope_agree env path (List.length path)).
      * rewrite app_nth1 in * by lia. rewrite firstn_app_le in S by lia. apply (P j); auto. lia.
    + rewrite app_length. cbn. now rewrite Nat.add_1_r.
Qed.
End All.

(** If everything but floating point numbers is compared, and the answer is "the same", then
    all these fields have the same indices and the same values. *)
Theorem C40_same_means_same rows s1 s2 c l : wf_rows rows = true ->
  (forall nm f, lookup (mk_fs rows) nm = Some f -> nonfloat f -> looked_at c nm /\ c_eq FO c nm = None /\ ~ In nm (c_warn FO c)) ->
  compare FO CO (mk_fs rows) (mk_fs rows) s1 s2 c = Ok (true, l) ->
  forall nm f, lookup (mk_fs rows) nm = Some f -> nonfloat f -> exists ks,
    field_keys FO (mk_fs rows) s1 f = Ok ks /\ field_keys FO (mk_fs rows) s2 f = Ok ks
    /\ forall k, In k ks -> exists v, fget FO (mk_fs rows) s1 f k = Ok v /\ fget FO (mk_fs rows) s2 f k = Ok v.
Proof.
  intros Wf Hc E nm f L N.
  assert (F : Forall (fine rows s1 s2) (flat_map item_fields (fs_items (mk_fs rows)))).
  { apply (items_fine rows s1 s2 (fs_items (mk_fs rows))) with (env := []) (path := []).
    - apply Forall_forall. intros it _. now apply (all_item_fine rows s1 s2 c l).
    - intros y [].
    - intros j lead n J. cbn in J. lia.
    - apply mk_fs_placed.
    - exact Wf.
    - rewrite <- mk_fs_fields. apply incl_refl. }
  rewrite Forall_forall in F. apply (F f) with (nm := nm); auto. rewrite <- mk_fs_fields. eapply lookup_in; eauto.
Qed.

(** ** Fields that are not looked at do not matter *)
Lemma shape_ext fs1 fs2 s1 s2 s1' s2' : forall shs1 shs2 lead,
  (forall lead e, In e shs1 -> eval_shape FO (G FO fs1 s1) fs1 lead e = eval_shape FO (G FO fs1 s1') fs1 lead e) ->
  (forall lead e, In e shs2 -> eval_shape FO (G FO fs2 s2) fs2 lead e = eval_shape FO (G FO fs2 s2') fs2 lead e) ->
  shape_equal_from FO fs1 fs2 s1 s2 lead shs1 shs2 = shape_equal_from FO fs1 fs2 s1' s2' lead shs1 shs2.
Proof.
  induction shs1 as [|e1 shs1 IH]; intros [|e2 shs2] lead H1 H2; try (destruct shs1); try reflexivity; cbn [shape_equal_from].
  - rewrite (H1 lead e1), (H2 lead e2) by now left. destruct shs2; [reflexivity|].
    destruct (eval_shape FO (G FO fs1 s1') fs1 lead e1) as [n1|]; cbn [bind]; reflexivity.
  - rewrite (H1 lead e1) by now left.
    destruct (eval_shape FO (G FO fs1 s1') fs1 lead e1) as [n1|]; cbn [bind]; [|reflexivity]. f_equal. apply all_res_ext. intros i _.
    apply IH; intros l x X; [apply H1|apply H2]; now right.
Qed.
Lemma count_ext fs1 fs2 s1 s2 s1' s2' f g cmp : (forall k, fget FO fs1 s1 f k = fget FO fs1 s1' f k) -> (forall k, fget FO fs2 s2 g k = fget FO fs2 s2' g k) ->
  forall ks1 ks2, count_diff FO fs1 fs2 s1 s2 f g cmp ks1 ks2 = count_diff FO fs1 fs2 s1' s2' f g cmp ks1 ks2.
Proof.
  intros H1 H2. induction ks1 as [|k1 ks1 IH]; intro ks2; cbn [count_diff]; [reflexivity|]. rewrite H1.
  destruct (fget FO fs1 s1' f k1); [|reflexivity]. cbn [bind].
  destruct ks2 as [|k2 ks2]; [|rewrite H2]; now rewrite IH.
Qed.
Lemma cmp_field_ext fs1 fs2 s1 s2 s1' s2' f g cmp : same_obs fs1 s1 s1' f -> same_obs fs2 s2 s2' g ->
  cmp_field FO fs1 fs2 s1 s2 f g cmp = cmp_field FO fs1 fs2 s1' s2' f g cmp.
Proof.
  intros (F1 & S1) (F2 & S2). unfold cmp_field, shape_equal. destruct (Nat.eqb (depth f) (depth g)); [|reflexivity].
  rewrite (shape_ext fs1 fs2 s1 s2 s1' s2' _ _ [] S1 S2). unfold field_keys. rewrite (keys_ext fs1 s1 s1' _ [] S1), (keys_ext fs2 s2 s2' _ [] S2).
  destruct (shape_equal_from FO fs1 fs2 s1' s2' [] (f_loops f) (f_loops g)) as [b|]; [|reflexivity]. cbn [bind]. destruct b; [|reflexivity].
  destruct (keys_from FO fs1 s1' [] (f_loops f)) as [k1|]; [|reflexivity]. cbn [bind].
  destruct (keys_from FO fs2 s2' [] (f_loops g)) as [k2|]; [|reflexivity]. cbn [bind].
  now rewrite (count_ext fs1 fs2 s1 s2 s1' s2' f g cmp F1 F2).
Qed.

(** [s] and [s'] agree on what is looked at, the rest can be read in both. *)
Definition alike_where_looked (c : config) (fs : fstruct) (s s' : state) : Prop :=
  forall nm f, lookup fs nm = Some f -> looked_at c nm /\ same_obs fs s s' f \/ ~ looked_at c nm /\ readable fs s f /\ readable fs s' f.

Lemma next_alike c fs s s' ns : alike_where_looked c fs s s' -> (forall nm, In nm ns -> In nm (dict_names fs)) ->
  exists r r', next_item FO fs s ns = r /\ next_item FO fs s' ns = r' /\
  (r = r' /\ (forall nm f, r = Ok (nm, AFld FO f) -> skipped FO c nm = true \/ same_obs fs s s' f)
   \/ exists nm a a', r = Ok (nm, a) /\ r' = Ok (nm, a') /\ skipped FO c nm = true).
Proof.
  intros H I. eexists. eexists. split; [reflexivity|]. split; [reflexivity|].
  destruct ns as [|nm ns]; [left; split; [reflexivity|intros ? ? E; discriminate]|]. cbn [next_item].
  destruct (proj1 (dict_names_lookup fs nm) (I nm (or_introl eq_refl))) as (f & L).
  destruct (H nm f L) as [(_ & S)|(N & R & R')].
  - left. unfold getattr. rewrite L. destruct (f_loops f).
    + rewrite (proj1 S []). split; [reflexivity|]. destruct (fget FO fs s' f []); intros ? ? E; discriminate.
    + split; [reflexivity|]. intros n g E. injection E as <- <-. right. exact S.
  - right. assert (Sk : skipped FO c nm = true) by (apply not_false_iff_true; rewrite skipped_spec; exact N).
    destruct (f_loops f) as [|e shs] eqn:Sh.
    + rewrite !(getattr_val _ _ _ _ L Sh). destruct R as (ks & K & V), R' as (ks' & K' & V').
      rewrite (keys_scalar _ _ _ Sh) in K. rewrite (keys_scalar _ _ _ Sh) in K'. injection K as <-. injection K' as <-.
      destruct (V [] (or_introl eq_refl)) as (v & ->). destruct (V' [] (or_introl eq_refl)) as (w & ->). cbn [bind]. eauto 8.
    + assert (D' : f_loops f <> []) by congruence. rewrite !(getattr_fld _ _ _ _ L D'). cbn [bind]. eauto 8.
Qed.
Lemma in_tl {A} (x : A) l : In x (tl l) -> In x l. Proof. destruct l; [auto|now right]. Qed.

Lemma compare_alike c fs1 fs2 s1 s2 s1' s2' : alike_where_looked c fs1 s1 s1' -> alike_where_looked c fs2 s2 s2' ->
  forall n ns1 ns2, (forall nm, In nm ns1 -> In nm (dict_names fs1)) -> (forall nm, In nm ns2 -> In nm (dict_names fs2)) ->
  compare_from FO CO fs1 fs2 s1 s2 n c ns1 ns2 = compare_from FO CO fs1 fs2 s1' s2' n c ns1 ns2.
Proof.
  intros H1 H2. induction n as [|n IH]; intros ns1 ns2 I1 I2; cbn [compare_from]; [reflexivity|].
  destruct (next_alike c fs1 s1 s1' ns1 H1 I1) as (r1 & r1' & Q1 & Q1' & D1). destruct (next_alike c fs2 s2 s2' ns2 H2 I2) as (r2 & r2' & Q2 & Q2' & D2).
  rewrite Q1, Q1', Q2, Q2'. rewrite (IH (tl ns1) (tl ns2)) by (intros nm X; auto using in_tl).
  clear Q1 Q1' Q2 Q2' IH I1 I2.
  destruct D1 as [(<- & F1)|(m1 & a1 & a1' & -> & -> & Sk1)]; destruct D2 as [(<- & F2)|(m2 & a2 & a2' & -> & -> & Sk2)].
  - destruct r1 as [[m1 a1]|]; cbn [bind fst snd]; [|reflexivity]. destruct r2 as [[m2 a2]|]; cbn [bind fst snd]; [|reflexivity].
    destruct (String.eqb m1 m2) eqn:Q; cbn [negb]; [|reflexivity]. apply String.eqb_eq in Q. subst m2.
    destruct (skipped FO c m1) eqn:Sk; [reflexivity|].
    replace (differs FO CO fs1 fs2 s1' s2' c m1 a1 a2) with (differs FO CO fs1 fs2 s1 s2 c m1 a1 a2); [reflexivity|].
    destruct a1 as [v|f], a2 as [w|g]; try reflexivity. cbn [differs].
    destruct (F1 m1 f eq_refl) as [X|S1]; [congruence|]. destruct (F2 m1 g eq_refl) as [X|S2]; [congruence|]. now apply cmp_field_ext.
  - destruct r1 as [[m1 a1]|]; cbn [bind fst snd]; [|reflexivity].
    destruct (String.eqb m1 m2) eqn:Q; cbn [negb]; [|reflexivity]. apply String.eqb_eq in Q. subst m2. now rewrite Sk2.
  - destruct r2 as [[m2 a2]|]; cbn [bind fst snd]; [|reflexivity].
    destruct (String.eqb m1 m2) eqn:Q; cbn [negb]; [|reflexivity]. now rewrite Sk1.
  - cbn [bind fst snd]. destruct (String.eqb m1 m2) eqn:Q; cbn [negb]; [|reflexivity]. now rewrite Sk1.
Qed.
(** The result and the log do not depend on fields that are excluded, or not included. *)
Theorem C40_excluded c fs1 fs2 s1 s2 s1' s2' : alike_where_looked c fs1 s1 s1' -> alike_where_looked c fs2 s2 s2' ->
  compare FO CO fs1 fs2 s1 s2 c = compare FO CO fs1 fs2 s1' s2' c.
Proof. intros H1 H2. unfold compare. apply compare_alike; auto. Qed.

(** ** Structures with different tables *)
Lemma stop_in c fs1 fs2 s1 s2 : forall n ns1 ns2 b l,
  compare_from FO CO fs1 fs2 s1 s2 n c ns1 ns2 = Ok (b, l) -> (List.length ns1 <= n)%nat -> (List.length ns2 <= n)%nat ->
  ~ In "No_field"%string ns1 -> ~ In "No_field"%string ns2 ->
  (ns1 = ns2 /\ forall a d, ~ In (RStop a d) l)
  \/ b = false /\ exists common a d t1 t2, In (RStop a d) l /\ a <> d
      /\ ns1 ++ ["No_field"%string] = common ++ a :: t1 /\ ns2 ++ ["No_field"%string] = common ++ d :: t2.
Proof.
  induction n as [|n IH]; intros ns1 ns2 b l E L1 L2 N1 N2.
  - left. destruct ns1; [|cbn in L1; lia]. destruct ns2; [|cbn in L2; lia]. injection E as <- <-. split; [reflexivity|intros a d []].
  - cbn [compare_from] in E. apply bind_ok_elim in E as (p & Hp & E). apply bind_ok_elim in E as (q & Hq & E).
    assert (P : forall fs s ns x, next_item FO fs s ns = Ok x -> exists t, ns ++ ["No_field"%string] = fst x :: t /\ (ns <> [] -> t = tl ns ++ ["No_field"%string])).
    { intros fs s ns x H. destruct ns as [|nm ns]; cbn [next_item] in H; [injection H as <-; exists []; split; [reflexivity|congruence]|].
      apply bind_ok_elim in H as (a & _ & H). injection H as <-. exists (ns ++ ["No_field"%string]). split; reflexivity. }
    destruct (P _ _ _ _ Hp) as (t1 & T1 & U1). destruct (P _ _ _ _ Hq) as (t2 & T2 & U2).
    destruct (String.eqb (fst p) (fst q)) eqn:Eq; cbn [negb] in E.
    2:{ injection E as <- <-. right. split; [reflexivity|]. exists [], (fst p), (fst q), t1, t2. apply String.eqb_neq in Eq. repeat split; auto. now left. }
    apply String.eqb_eq in Eq.
    assert (B : exists b' l', compare_from FO CO fs1 fs2 s1 s2 n c (tl ns1) (tl ns2) = Ok (b', l')
              /\ (b' = false -> b = false) /\ forall a d, In (RStop a d) l <-> In (RStop a d) l').
    { destruct (skipped FO c (fst p)); [exists b, l; split; [exact E|split; [auto|reflexivity]]|].
      apply bind_ok_elim in E as (df & _ & E). apply bind_ok_elim in E as ([b' l'] & Hr & E). exists b', l'. split; [exact Hr|].
      destruct df; [destruct (existsb _ _)|]; injection E as <- <-; cbn [fst snd]; (split; [auto|]); intros a d; try reflexivity;
        (split; [intros [X|X]; [discriminate X|exact X]|now right]). }
    destruct B as (b' & l' & E' & Bf & Bl).
    destruct ns1 as [|n1 ns1], ns2 as [|n2 ns2]; cbn [tl] in *.
    + destruct (IH [] [] b' l' E') as [[_ H]|(_ & cm & a & d & u1 & u2 & _ & Ne & X1 & X2)]; cbn; auto; try lia.
      * left. split; [reflexivity|]. intros a d I. apply (H a d), Bl, I.
      * exfalso. destruct cm as [|c0 cm]; [injection X1 as <- _; injection X2 as <- _; congruence|]. injection X1 as _ X1. now destruct cm.
    + exfalso. injection T1 as T1 _. injection T2 as T2 _. apply N2. left. congruence.
    + exfalso. injection T1 as T1 _. injection T2 as T2 _. apply N1. left. congruence.
    + injection T1 as T1 _. injection T2 as T2 _. cbn [List.length] in L1, L2.
      destruct (IH ns1 ns2 b' l' E') as [[-> H]|(Hb & cm & a & d & u1 & u2 & I & Ne & X1 & X2)]; try lia.
      * intro I. apply N1. now right.
      * intro I. apply N2. now right.
      * left. split; [congruence|]. intros a d I. apply (H a d), Bl, I.
      * right. split; [auto|]. exists (n1 :: cm), a, d, u1, u2. split; [now apply Bl|]. split; [exact Ne|].
        cbn [app]. rewrite X1, X2. split; congruence.
Qed.

(** Two structures found to be the same have the same fields in the same order; else the first
    place where they differ is logged, a table that has ended counting as a field "No_field". *)
Theorem C40_other_table c fs1 fs2 s1 s2 b l :
  compare FO CO fs1 fs2 s1 s2 c = Ok (b, l) -> ~ In "No_field"%string (dict_names fs1) -> ~ In "No_field"%string (dict_names fs2) ->
  (dict_names fs1 = dict_names fs2 /\ forall a d, ~ In (RStop a d) l)
  \/ b = false /\ exists common a d t1 t2, In (RStop a d) l /\ a <> d
      /\ dict_names fs1 ++ ["No_field"%string] = common ++ a :: t1 /\ dict_names fs2 ++ ["No_field"%string] = common ++ d :: t2.
Proof. unfold compare. intros E N1 N2. eapply stop_in; eauto; lia. Qed.

(** ** The order of the two structures *)
Definition symmetric (c : config) : Prop :=
  (forall nm g a b, c_eq FO c nm = Some g -> g a b = g b a) /\ (forall x y, fl_eq CO x y = fl_eq CO y x)
  /\ forall r a x y, fl_close CO r a x y = fl_close CO r a y x.

Lemma floaty fs s f k v : ~ nonfloat f -> fd_name (f_d f) <> None -> fget FO fs s f k = Ok v -> match v with VNone | VFloat _ => True | _ => False end.
Proof.
  intros N Nm. destruct (fd_ty (f_d f)) as [| | | |kd] eqn:T; try (exfalso; apply N; split; congruence).
  - now apply fget_float.
  - destruct kd; try (exfalso; apply N; split; congruence).
    unfold fget, get_pub. destruct (get_base FO (G FO fs s) fs s f k) as [u|] eqn:B; [|discriminate]. cbn [bind].
    assert (U : match u with VNone | VBytes _ => True | _ => False end).
    { unfold get_base in B. destruct (fd_name (f_d f)); [|congruence].
      destruct (check_index _ _ _ _ _); [|discriminate]. cbn [bind] in B. destruct (check_condition _ _ _ _ _) as [q|]; [|discriminate]. cbn [bind] in B.
      destruct q; cbn [negb] in B; [|injection B as <-; exact I].
      assert (C : forall x, convert FO (f_d f) x = Ok u -> match u with VNone | VBytes _ => True | _ => False end).
      { intro x. unfold convert. rewrite T. destruct x as [w|b].
        - destruct w; try (destruct (fd_optional (f_d f)));
            repeat match goal with |- context [bind ?r _] => destruct r; cbn [bind] end; intro X; try discriminate; injection X as <-; exact I.
        - destruct (fd_optional (f_d f) && is_blank (f_d f) b); [intro X; injection X as <-; exact I|].
          repeat match goal with |- context [bind ?r _] => destruct r; cbn [bind] end; intro X; try discriminate; injection X as <-; exact I. }
      destruct (fd_value (f_d f)) as [e|].
      - destruct (eval FO _ fs k e) as [w|]; [|discriminate]. cbn [bind] in B. destruct (convert FO (f_d f) (SVal w)) eqn:Cv; [|discriminate].
        injection B as <-. exact (C _ Cv).
      - destruct (convert FO (f_d f) (stored FO s f k)) eqn:Cv; [|discriminate]. injection B as <-. exact (C _ Cv). }
    clear B. rewrite T. destruct u; try contradiction; try (intro E; injection E as <-; exact I).
    unfold unpack. repeat match goal with |- context [bind ?r _] => destruct r; cbn [bind] end;
      repeat match goal with |- context [match ?r with _ => _ end] => destruct r end; intro E; try discriminate; injection E as <-; exact I.
Qed.
Lemma py_eq_sym v w : (forall x y, fl_eq CO x y = fl_eq CO y x) -> py_eq FO CO v w = py_eq FO CO w v.
Proof.
  intro H. assert (Ls : forall a b : list N, list_eqb a b = list_eqb b a).
  { intros a b. destruct (list_eqb a b) eqn:E; destruct (list_eqb b a) eqn:E'; auto; exfalso;
      [apply list_eqb_spec in E; subst; assert (list_eqb b b = true) by now apply list_eqb_spec|
       apply list_eqb_spec in E'; subst; assert (list_eqb a a = true) by now apply list_eqb_spec]; congruence. }
  destruct v, w; cbn; auto; try apply Z.eqb_sym.
Qed.

(** Values of one field compare alike in both orders. *)
Lemma cmp_sym c fs s1 s2 nm f k k' v w r r' isf isf' : symmetric c -> lookup fs nm = Some f ->
  fget FO fs s1 f k = Ok v -> fget FO fs s2 f k' = Ok w ->
  isf = isf' \/ isf = (match v with VFloat _ => true | _ => false end) /\ isf' = (match w with VFloat _ => true | _ => false end) ->
  (isf = true -> ~ nonfloat f) ->
  cmp_fun FO CO c nm isf v w = Ok r -> cmp_fun FO CO c nm isf' w v = Ok r' -> r = r'.
Proof.
  intros (S1 & S2 & S3) L E1 E2 I F. unfold cmp_fun. destruct (c_eq FO c nm) as [g|] eqn:Cg; [rewrite (S1 nm g v w Cg); congruence|].
  assert (Nm : fd_name (f_d f) <> None) by (rewrite (lookup_name _ _ _ L); discriminate).
  assert (Y : ~ nonfloat f -> match v, w with (VNone | VFloat _), (VNone | VFloat _) => True | _, _ => False end).
  { intro N. pose proof (floaty _ _ _ _ _ N Nm E1). pose proof (floaty _ _ _ _ _ N Nm E2). now destruct v, w. }
  assert (X : forall a b, close_fun FO CO c nm (VFloat a) (VFloat b) = close_fun FO CO c nm (VFloat b) (VFloat a)) by (intros a b; cbn; apply S3).
  destruct I as [<-|(-> & ->)].
  - destruct isf.
    + specialize (Y (F eq_refl)). destruct v, w; try contradiction; try rewrite X; cbn; congruence.
    + rewrite (py_eq_sym v w S2). congruence.
  - assert (Yv : forall x, v = VFloat x -> ~ nonfloat f) by (intros x -> N; exact (fget_plain _ _ _ _ _ N E1)).
    assert (Yw : forall x, w = VFloat x -> ~ nonfloat f) by (intros x -> N; exact (fget_plain _ _ _ _ _ N E2)).
    destruct v as [|zv|xv|sv|bv|qv]; destruct w as [|zw|xw|sw|bw|qw]; try (rewrite (py_eq_sym _ _ S2); congruence);
      try (specialize (Y (Yv _ eq_refl)); contradiction); try (specialize (Y (Yw _ eq_refl)); contradiction); try rewrite X; cbn; congruence.
Qed.
Lemma count_sym c fs s1 s2 nm f cmp cmp' : symmetric c -> lookup fs nm = Some f ->
  (forall k v w r r', fget FO fs s1 f k = Ok v -> fget FO fs s2 f k = Ok w -> cmp v w = Ok r -> cmp' w v = Ok r' -> r = r') ->
  forall ks n n', count_diff FO fs fs s1 s2 f f cmp ks ks = Ok n -> count_diff FO fs fs s2 s1 f f cmp' ks ks = Ok n' -> n = n'.
Proof.
  intros S L H. induction ks as [|k ks IH]; intros n n'; cbn [count_diff]; [congruence|].
  destruct (fget FO fs s1 f k) as [v|] eqn:E1; [|discriminate]. destruct (fget FO fs s2 f k) as [w|] eqn:E2; [|discriminate]. cbn [bind tl].
  destruct (cmp v w) as [r|] eqn:C; [|discriminate]. destruct (cmp' w v) as [r'|] eqn:C'; [|discriminate]. cbn [bind].
  destruct (count_diff FO fs fs s1 s2 f f cmp ks ks) as [m|]; [|discriminate]. destruct (count_diff FO fs fs s2 s1 f f cmp' ks ks) as [m'|]; [|discriminate]. cbn [bind].
  rewrite (H k v w r r' E1 E2 C C'), (IH m m' eq_refl eq_refl). congruence.
Qed.

(** The field has the same counts in both. *)
Definition same_counts (fs : fstruct) (s s' : state) (f : field) : Prop :=
  forall lead e, In e (f_loops f) -> eval_shape FO (G FO fs s) fs lead e = eval_shape FO (G FO fs s') fs lead e.

Lemma step_sym c fs s1 s2 nm f y y' : symmetric c -> lookup fs nm = Some f -> looked_at c nm ->
  (depth f <= 1)%nat \/ same_counts fs s1 s2 f -> step fs s1 s2 c nm = Ok y -> step fs s2 s1 c nm = Ok y' -> y = y'.
Proof.
  intros Sy L Lk D. apply skipped_spec in Lk. unfold step. rewrite Lk. destruct (f_loops f) as [|e shs] eqn:Sh.
  - rewrite !(getattr_val _ _ _ _ L Sh). destruct (fget FO fs s1 f []) as [v|] eqn:E1; [|discriminate]. destruct (fget FO fs s2 f []) as [w|] eqn:E2; [|discriminate].
    cbn [bind differs]. destruct (cmp_fun FO CO c nm _ v w) as [r|] eqn:C; [|discriminate]. destruct (cmp_fun FO CO c nm _ w v) as [r'|] eqn:C'; [|discriminate].
    cbn [bind]. rewrite (cmp_sym c fs s1 s2 nm f [] [] v w r r' _ _ Sy L E1 E2 (or_intror (conj eq_refl eq_refl))) with (2 := C) (3 := C'); [congruence|].
    intros F N. pose proof (fget_plain _ _ _ _ _ N E1). destruct v; try discriminate. contradiction.
  - assert (D' : f_loops f <> []) by congruence. rewrite !(getattr_fld _ _ _ _ L D'). cbn [bind differs].
    destruct (cmp_field FO fs fs s1 s2 f f _) as [d|] eqn:C; [|discriminate]. destruct (cmp_field FO fs fs s2 s1 f f _) as [d'|] eqn:C'; [|discriminate]. cbn [bind].
    enough (d = d') by congruence. unfold cmp_field in C, C'.
    destruct (shape_equal FO fs fs s1 s2 f f) as [sh|] eqn:Se; [|discriminate]. destruct (shape_equal FO fs fs s2 s1 f f) as [sh'|] eqn:Se'; [|discriminate]. cbn [bind] in C, C'.
    assert (X : sh = sh' /\ (sh = true -> field_keys FO fs s1 f = field_keys FO fs s2 f)).
    { unfold shape_equal in Se, Se'. rewrite Nat.eqb_refl in Se, Se'. destruct D as [D|D].
      - unfold depth in D. unfold field_keys. rewrite Sh in *. destruct shs; [|cbn in D; lia]. cbn [shape_equal_from keys_from] in *.
        destruct (eval_shape FO (G FO fs s1) fs [] e) as [n1|e1]; destruct (eval_shape FO (G FO fs s2) fs [] e) as [n2|e2]; cbn [bind no_index] in *.
        + injection Se as <-. injection Se' as <-. rewrite (Z.eqb_sym n2 n1). split; [reflexivity|]. intro Q. apply Z.eqb_eq in Q. now subst.
        + destruct e2; try discriminate. injection Se as <-. injection Se' as <-. split; [reflexivity|discriminate].
        + destruct e1; try discriminate. injection Se as <-. injection Se' as <-. split; [reflexivity|discriminate].
        + destruct e1; try discriminate. destruct e2; try discriminate. injection Se as <-. injection Se' as <-. split; [reflexivity|discriminate].
      - split; [|intros _; unfold field_keys; now apply keys_ext].
        rewrite (shape_ext fs fs s1 s2 s2 s1 _ _ [] D) in Se by (intros; symmetry; now apply D). congruence. }
    destruct X as (<- & K). destruct sh; [|congruence]. rewrite <- (K eq_refl) in C, C'. destruct (field_keys FO fs s1 f) as [ks|]; [|discriminate]. cbn [bind] in C, C'.
    destruct (count_diff FO fs fs s1 s2 f f _ ks ks) as [n|] eqn:N; [|discriminate]. destruct (count_diff FO fs fs s2 s1 f f _ ks ks) as [n'|] eqn:N'; [|discriminate].
    cbn [bind] in C, C'. enough (n = n') by (subst; congruence).
    apply (count_sym c fs s1 s2 nm f _ _ Sy L) with (2 := N) (3 := N'). intros k v w r r' E1 E2 Q Q'.
    apply (cmp_sym c fs s1 s2 nm f k k v w r r' _ _ Sy L E1 E2 (or_introl eq_refl)) with (2 := Q) (3 := Q').
    intros F (N1 & _). destruct (fd_ty (f_d f)); try discriminate. now apply N1.
Qed.
Lemma concat_res_both {A B} (f g : A -> res (list B)) l r r' : (forall a y y', In a l -> f a = Ok y -> g a = Ok y' -> y = y') ->
  concat_map_res f l = Ok r -> concat_map_res g l = Ok r' -> r = r'.
Proof.
  revert r r'. induction l as [|a l IH]; intros r r' H; cbn [concat_map_res]; [congruence|].
  destruct (f a) as [y|] eqn:Fa; [|discriminate]. destruct (g a) as [y'|] eqn:Ga; [|discriminate]. cbn [bind].
  destruct (concat_map_res f l) as [z|]; [|discriminate]. destruct (concat_map_res g l) as [z'|]; [|discriminate]. cbn [bind].
  rewrite (H a y y' (or_introl eq_refl) Fa Ga), (IH z z'); [congruence| |reflexivity|reflexivity]. intros b u u' I. apply H. now right.
Qed.
(** Comparing in the other order gives the same result and the same log, if it gives any.
    Missing: fields of two or more dimensions with other counts, for which it is false
    ([C40_symmetric_refuted]). *)
Theorem C40_symmetric_partial c fs s1 s2 r r' : symmetric c ->
  (forall nm f, lookup fs nm = Some f -> looked_at c nm -> (depth f <= 1)%nat \/ same_counts fs s1 s2 f) ->
  compare FO CO fs fs s1 s2 c = Ok r -> compare FO CO fs fs s2 s1 c = Ok r' -> r = r'.
Proof.
  intros Sy D. rewrite !compare_same. destruct (concat_map_res (step fs s1 s2 c) (dict_names fs)) as [l|] eqn:E; [|discriminate].
  destruct (concat_map_res (step fs s2 s1 c) (dict_names fs)) as [l'|] eqn:E'; [|discriminate]. cbn [bind]. intros H H'. injection H as <-. injection H' as <-.
  replace l' with l; [reflexivity|]. apply (concat_res_both _ _ _ _ _) with (2 := E) (3 := E'). intros nm y y' I F F'.
  apply dict_names_lookup in I as (f & L). destruct (skipped FO c nm) eqn:Sk.
  - unfold step in F, F'. rewrite Sk in F, F'. destruct (getattr FO fs s1 nm); [|discriminate]. destruct (getattr FO fs s2 nm); [|discriminate]. cbn [bind] in F, F'. congruence.
  - apply skipped_spec in Sk. exact (step_sym c fs s1 s2 nm f y y' Sy L Sk (D nm f L Sk) F F').
Qed.
End P.
