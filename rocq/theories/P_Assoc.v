(** Associated elements and display levels (C38, C45). *)
From Verif Require Import Base BaseLemmas Engine Wf EngineLemmas Codec RoundTrip Rewrite Literal
  Positions Keys Deps Assign Update Spec DescsHdr Tre TreLemmas TrePlace TrePlaceLemmas Scalar Reach P_RoundTrip Image ImageLemmas Loop1 Assoc.
From Coq Require Import ZifyBool ZifyNat ZifyN.
Open Scope list_scope.
Ltac Zify.zify_post_hook ::= idtac.

(** ** What is claimed *)
(** [l] after the additions [xs]: each one at the end, unless already there. *)
Definition once {A} (eqd : forall x y : A, {x = y} + {x <> y}) (l xs : list A) : list A :=
  fold_left (fun acc x => if in_dec eqd x acc then acc else acc ++ [x]) xs l.
Definition text_dec := list_eq_dec N.eq_dec.
(** The levels and identifiers added. *)
Definition levels_of (h : list addition) : list Z := flat_map (fun a => match a with AddLevel z => [z] | _ => [] end) h.
(** (of an element: its own identifier, or the generated one if that is empty and there is one) *)
Definition own_id (e : element) : option (list N) :=
  match e with
  | NoId => None
  | WithId id gen => match id, gen with _ :: _, _ => Some id | [], Some u => Some u | [], None => Some [] end
  end.
Lemma own_id_eq e : element_id e = own_id e.
Proof. destruct e as [|[|c l] [u|]]; reflexivity. Qed.
Definition ids_of (h : list addition) : list (list N) :=
  flat_map (fun a => match a with
                     | AddId t => [t]
                     | AddElem e => match own_id e with Some t => [t] | None => [] end
                     | AddLevel _ => [] end) h.
(** Identifiers do not end in white space; elements have identifiers. *)
Definition addition_ok (a : addition) : Prop :=
  match a with
  | AddLevel _ => True
  | AddId t => rstrip_by ws_str t = t
  | AddElem e => exists t, own_id e = Some t /\ rstrip_by ws_str t = t
  end.

(** The contents of the subheader as the code shows them: [aisdlvl], [assoc_elem_id], and the
    two counts. *)
Definition contents FO (s : state FO) (lv : list Z) (ids : list (list N)) : Prop :=
  aisdlvl FO s = Ok lv /\ assoc_elem_id FO s = Ok ids
  /\ numais FO s = Ok (Z.of_nat (List.length lv)) /\ nassoc FO s = Ok (Z.of_nat (List.length ids)).

(** ** The table *)
Notation rows := desc_DesAssociatedUserSubheader.
Notation fs := (mk_fs desc_DesAssociatedUserSubheader).
Definition af (nm : string) : field :=
  match lookup fs nm with Some f => f | None => {| f_id := 0; f_d := Build_fdesc None (SzInt 0) TStr FrNone DfNone None false 32%N false None 0%Z false; f_loops := [] |} end.
Lemma arows_wf : wf_rows rows = true. Proof. vm_compute. reflexivity. Qed.
Lemma numais_scalar : scalar rows "numais" (af "numais"). Proof. repeat split; vm_compute; reflexivity. Qed.
Lemma nassoc_scalar : scalar rows "num_assoc_elem" (af "num_assoc_elem"). Proof. repeat split; vm_compute; reflexivity. Qed.
Lemma numais_ty : fd_ty (f_d (af "numais")) = TStr /\ fd_optional (f_d (af "numais")) = false. Proof. vm_compute. auto. Qed.
Lemma nassoc_ty : fd_ty (f_d (af "num_assoc_elem")) = TInt. Proof. vm_compute. reflexivity. Qed.
Notation shL := (EIf (ECmp CEq (EFld "numais" 0) (EStr (str "ALL"))) (EInt 0%Z) (EIntOf (EFld "numais" 0))).
Notation shI := (EFld "num_assoc_elem" 0).
Lemma colL : column rows shL "aisdlvl" (af "aisdlvl"). Proof. repeat split; vm_compute; reflexivity. Qed.
Lemma colI : column rows shI "assoc_elem_id" (af "assoc_elem_id"). Proof. repeat split; vm_compute; reflexivity. Qed.
Lemma descL : fd_ty (f_d (af "aisdlvl")) = TInt /\ fd_value (f_d (af "aisdlvl")) = None. Proof. vm_compute. auto. Qed.
Lemma descI : fd_ty (f_d (af "assoc_elem_id")) = TStr /\ fd_value (f_d (af "assoc_elem_id")) = None. Proof. vm_compute. auto. Qed.
Definition anames : list string := ["numais"; "num_assoc_elem"; "aisdlvl"; "assoc_elem_id"]%string.
Lemma alook nm : In nm anames -> lookup fs nm = Some (af nm).
Proof. intros [<-|[<-|[<-|[<-|[]]]]]; vm_compute; reflexivity. Qed.
Lemma a_init FO : stored FO (init_state FO) (af "numais") [] = SVal (VStr [48%N])
  /\ stored FO (init_state FO) (af "num_assoc_elem") [] = SVal (VInt 0).
Proof. vm_compute. auto. Qed.
Opaque af.

Section Add.
Variable FO : FloatOps.
Notation st := (state FO).

Lemma sel_other s nm k v nm' p : In nm anames -> In nm' anames -> nm <> nm' ->
  stored FO (assigned FO s (af nm) k v) (af nm') p = stored FO s (af nm') p.
Proof.
  intros H H' Hne. apply (assigned_same FO rows).
  - eapply lookup_in, alook, H.
  - eapply lookup_in, alook, H'.
  - intro E. apply (lookup_ne rows nm' nm (af nm') (af nm)); auto using alook.
Qed.
Lemma sel_index s nm i v p : In nm anames -> p <> [i] ->
  stored FO (assigned FO s (af nm) [i] v) (af nm) p = stored FO s (af nm) p.
Proof.
  intros H Hne. destruct (assigned_stored FO rows s (af nm) [i] v (af nm) p) as [|[_ E]]; auto; [| |congruence];
  eapply lookup_in, alook, H.
Qed.

(** *** Counts *)
Lemma numais_of s : numais FO s = match conv_of FO (f_d (af "numais")) (stored FO s (af "numais") []) with Ok v => conv_int FO v | Err e => Err e end.
Proof. unfold numais. rewrite (get_scalar FO rows s "numais" (af "numais") numais_scalar). destruct (conv_of _ _ _); reflexivity. Qed.
Lemma nassoc_of s : nassoc FO s = match conv_of FO (f_d (af "num_assoc_elem")) (stored FO s (af "num_assoc_elem") []) with
  Ok (VInt z) => Ok z | Ok _ => Err EType | Err e => Err e end.
Proof. unfold nassoc. rewrite (get_scalar FO rows s "num_assoc_elem" (af "num_assoc_elem") nassoc_scalar). destruct (conv_of _ _ _); reflexivity. Qed.

Lemma numais_get s n : numais FO s = Ok n -> exists t, get FO fs s "numais" [] = Ok (VStr t) /\ parse_int ws_str t = Some n.
Proof.
  unfold numais. intro H. pose proof (get_scalar FO rows s "numais" (af "numais") numais_scalar) as G. rewrite G in *.
  destruct numais_ty as [T O]. unfold conv_of, convert in *. rewrite T, O in *. cbn [andb] in *.
  destruct (stored FO s (af "numais") []) as [[|z|b|t|t|x]|b]; cbn [bind conv_int] in H;
    match type of H with match ?p with _ => _ end = _ => destruct p eqn:P; [|discriminate] end; injection H as <-; eexists; split; reflexivity || exact P.
Qed.

Lemma times_levels s n : numais FO s = Ok n -> times FO rows shL s n.
Proof.
  intro H. destruct (numais_get s n H) as (t & G & P). unfold times, eval_shape.
  assert (E : eval FO (Engine.G FO fs s) fs [] (EFld "numais" 0) = Ok (VStr t)).
  { rewrite (eval_fld0 FO rows arows_wf s [] "numais" (af "numais")); [exact G| |]; apply numais_scalar. }
  cbn [eval] in *. rewrite E. cbn [bind eval_cmp py_eqb].
  destruct (list_eqb t (str "ALL")) eqn:A.
  - apply list_eqb_spec in A. subst t. vm_compute in P. discriminate.
  - cbn [bind truthy conv_int]. rewrite P. reflexivity.
Qed.
Lemma times_ids s n : nassoc FO s = Ok n -> times FO rows shI s n.
Proof.
  intro H. unfold times, eval_shape. rewrite (eval_fld0 FO rows arows_wf s [] "num_assoc_elem" (af "num_assoc_elem")); try apply nassoc_scalar.
  unfold nassoc in H. destruct (get FO fs s "num_assoc_elem" []) as [[| | | | |]|]; try discriminate. cbn in *. now injection H as ->.
Qed.

Lemma set_numais s n : st_impl FO s = false ->
  exists s1, set FO fs s "numais" [] (SVal (VStr (fmt_d (dfmt_zero 3) n))) = (s1, Ok tt)
    /\ s1 = assigned FO s (af "numais") [] (SVal (VStr (fmt_d (dfmt_zero 3) n))) /\ numais FO s1 = Ok n.
Proof.
  intro HI. eexists. split; [apply (set_scalar FO rows s "numais" (af "numais") _ numais_scalar HI); discriminate|]. split; [reflexivity|].
  rewrite numais_of, assigned_self. unfold conv_of, convert. rewrite (proj1 numais_ty). cbn [conv_str conv_int].
  rewrite parse_int_rstrip, parse_int_fmt_d; [reflexivity|apply ws_ok_str|reflexivity].
Qed.
Lemma set_nassoc s n : st_impl FO s = false ->
  exists s1, set FO fs s "num_assoc_elem" [] (SVal (VInt n)) = (s1, Ok tt)
    /\ s1 = assigned FO s (af "num_assoc_elem") [] (SVal (VInt n)) /\ nassoc FO s1 = Ok n.
Proof.
  intro HI. eexists. split; [apply (set_scalar FO rows s "num_assoc_elem" (af "num_assoc_elem") _ nassoc_scalar HI); discriminate|]. split; [reflexivity|].
  rewrite nassoc_of, assigned_self. unfold conv_of, convert. rewrite nassoc_ty. reflexivity.
Qed.

(** *** The contents *)
Definition lvl_at (s : st) (i : Z) := conv_of FO (f_d (af "aisdlvl")) (stored FO s (af "aisdlvl") [i]).
Definition id_at (s : st) (i : Z) := conv_of FO (f_d (af "assoc_elem_id")) (stored FO s (af "assoc_elem_id") [i]).
Lemma get_lvl s n i : numais FO s = Ok n -> (0 <= i < n)%Z -> get FO fs s "aisdlvl" [i] = lvl_at s i.
Proof.
  intros H Hi. destruct descL as [T V]. apply (col_get FO rows shL s n "aisdlvl" (af "aisdlvl") i colL V); [now rewrite T|now apply times_levels|exact Hi].
Qed.
Lemma get_id s n i : nassoc FO s = Ok n -> (0 <= i < n)%Z -> get FO fs s "assoc_elem_id" [i] = id_at s i.
Proof.
  intros H Hi. destruct descI as [T V]. apply (col_get FO rows shI s n "assoc_elem_id" (af "assoc_elem_id") i colI V); [now rewrite T|now apply times_ids|exact Hi].
Qed.

Definition rep (s : st) (lv : list Z) (ids : list (list N)) : Prop :=
  numais FO s = Ok (Z.of_nat (List.length lv)) /\ nassoc FO s = Ok (Z.of_nat (List.length ids)) /\ st_impl FO s = false
  /\ (forall i z, nth_error lv i = Some z -> lvl_at s (Z.of_nat i) = Ok (VInt z))
  /\ (forall i t, nth_error ids i = Some t -> id_at s (Z.of_nat i) = Ok (VStr t)).

Lemma get_end sh s nm f n : column rows sh nm f -> times FO rows sh s n -> (0 <= n)%Z -> get FO fs s nm [n] = Err EIndex.
Proof.
  intros C T Hn. pose proof C as (L & LL & _). unfold get. rewrite L, (col_key rows sh nm f n C).
  unfold fget, get_pub, get_base. rewrite (has_name_lookup rows nm f L).
  unfold check_index, depth. rewrite LL. cbn [List.length Nat.eqb negb last removelast].
  replace (n <? 0)%Z with false by lia. unfold times in T. rewrite T. cbn [bind]. rewrite Z.leb_refl. reflexivity.
Qed.

Lemma walk_all s nm n : get FO fs s nm [n] = Err EIndex -> forall l i fuel,
  (forall j v, nth_error l j = Some v -> get FO fs s nm [i + Z.of_nat j]%Z = Ok v) -> (i + Z.of_nat (List.length l))%Z = n ->
  (List.length l < fuel)%nat -> walk FO fuel s nm i = Ok l.
Proof.
  intro E. induction l as [|v l IH]; intros i fuel H Hn Hf; (destruct fuel as [|fuel]; [lia|]); cbn [walk].
  - cbn in Hn. replace i with n by lia. now rewrite E.
  - pose proof (H 0%nat v eq_refl) as H0. rewrite Z.add_0_r in H0. rewrite H0.
    rewrite (IH (i + 1)%Z fuel); [reflexivity| | |cbn in Hf; lia].
    + intros j w Hj. specialize (H (S j) w Hj). replace (i + 1 + Z.of_nat j)%Z with (i + Z.of_nat (S j))%Z by lia. exact H.
    + cbn in Hn. lia.
Qed.
Lemma walk_gets s nm : forall fuel i l, walk FO fuel s nm i = Ok l ->
  forall j v, nth_error l j = Some v -> get FO fs s nm [i + Z.of_nat j]%Z = Ok v.
Proof.
  induction fuel as [|fuel IH]; intros i l H j v Hj; [discriminate|]. cbn [walk] in H.
  destruct (get FO fs s nm [i]) as [x|e] eqn:G.
  - apply bind_ok_elim in H as (l' & W & E). injection E as <-. destruct j as [|j]; cbn in Hj.
    + injection Hj as <-. now rewrite Z.add_0_r.
    + rewrite <- (IH _ _ W j v Hj). do 2 f_equal. lia.
  - destruct e; try discriminate. injection H as <-. destruct j; discriminate.
Qed.

Lemma ints_of lv : ints FO (map (fun z => VInt z) lv) = Ok lv.
Proof. induction lv as [|z lv IH]; auto. cbn. now rewrite IH. Qed.
Lemma texts_of l : texts FO (map (fun z => VStr z) l) = Ok l.
Proof. induction l as [|z l IH]; auto. cbn. now rewrite IH. Qed.
Lemma ints_inv : forall l lv, ints FO l = Ok lv -> l = map (fun z => VInt z) lv.
Proof.
  induction l as [|v l IH]; intros lv H; [injection H as <-; reflexivity|]. destruct v; try discriminate. cbn in H.
  apply bind_ok_elim in H as (r & H & E). injection E as <-. cbn. now rewrite (IH r H).
Qed.
Lemma texts_inv : forall l lv, texts FO l = Ok lv -> l = map (fun z => VStr z) lv.
Proof.
  induction l as [|v l IH]; intros lv H; [injection H as <-; reflexivity|]. destruct v; try discriminate. cbn in H.
  apply bind_ok_elim in H as (r & H & E). injection E as <-. cbn. now rewrite (IH r H).
Qed.

Lemma pre_contents s lv ids : numais FO s = Ok (Z.of_nat (List.length lv)) -> nassoc FO s = Ok (Z.of_nat (List.length ids)) ->
  (forall i z, nth_error lv i = Some z -> lvl_at s (Z.of_nat i) = Ok (VInt z)) ->
  (forall i t, nth_error ids i = Some t -> id_at s (Z.of_nat i) = Ok (VStr t)) -> contents FO s lv ids.
Proof.
  intros H1 H2 H3 H4. split; [|split]; auto.
  - unfold aisdlvl, seq_list. rewrite (proj1 colL), (proj1 (proj2 colL)). pose proof (times_levels s _ H1) as T. unfold times in T. rewrite T. cbn [bind].
    rewrite Nat2Z.id. rewrite (walk_all s "aisdlvl" (Z.of_nat (List.length lv)) (get_end shL s "aisdlvl" (af "aisdlvl") _ colL (times_levels s _ H1) ltac:(lia)) (map (fun z => VInt z) lv)).
    + cbn [bind]. apply ints_of.
    + intros j v Hj. rewrite nth_error_map in Hj. destruct (nth_error lv j) as [z|] eqn:E; [|discriminate]. injection Hj as <-.
      assert (j < List.length lv)%nat by (apply nth_error_Some; congruence).
      rewrite Z.add_0_l, (get_lvl s (Z.of_nat (List.length lv))); [now apply H3|exact H1|lia].
    + now rewrite map_length.
    + rewrite map_length. lia.
  - unfold assoc_elem_id, seq_list. rewrite (proj1 colI), (proj1 (proj2 colI)). pose proof (times_ids s _ H2) as T. unfold times in T. rewrite T. cbn [bind].
    rewrite Nat2Z.id. rewrite (walk_all s "assoc_elem_id" (Z.of_nat (List.length ids)) (get_end shI s "assoc_elem_id" (af "assoc_elem_id") _ colI (times_ids s _ H2) ltac:(lia)) (map (fun z => VStr z) ids)).
    + cbn [bind]. apply texts_of.
    + intros j v Hj. rewrite nth_error_map in Hj. destruct (nth_error ids j) as [z|] eqn:E; [|discriminate]. injection Hj as <-.
      assert (j < List.length ids)%nat by (apply nth_error_Some; congruence).
      rewrite Z.add_0_l, (get_id s (Z.of_nat (List.length ids))); [now apply H4|exact H2|lia].
    + now rewrite map_length.
    + rewrite map_length. lia.
Qed.

Lemma rep_contents s lv ids : rep s lv ids -> contents FO s lv ids.
Proof. intros (H1 & H2 & _ & H3 & H4). exact (pre_contents s lv ids H1 H2 H3 H4). Qed.

Lemma contents_rep s lv ids : st_impl FO s = false -> contents FO s lv ids -> rep s lv ids.
Proof.
  intros HI (C1 & C2 & H1 & H2). split; [exact H1|]. split; [exact H2|]. split; [exact HI|]. split.
  - intros i z Hz. assert (i < List.length lv)%nat by (apply nth_error_Some; congruence).
    rewrite <- (get_lvl s (Z.of_nat (List.length lv))); [|exact H1|lia].
    unfold aisdlvl, seq_list in C1. rewrite (proj1 colL), (proj1 (proj2 colL)) in C1. pose proof (times_levels s _ H1) as T. unfold times in T. rewrite T in C1. cbn [bind] in C1.
    apply bind_ok_elim in C1 as (l & W & C1). apply ints_inv in C1. subst l.
    pose proof (walk_gets s "aisdlvl" _ _ _ W i (VInt z)) as X. rewrite Z.add_0_l in X. apply X. now rewrite nth_error_map, Hz.
  - intros i z Hz. assert (i < List.length ids)%nat by (apply nth_error_Some; congruence).
    rewrite <- (get_id s (Z.of_nat (List.length ids))); [|exact H2|lia].
    unfold assoc_elem_id, seq_list in C2. rewrite (proj1 colI), (proj1 (proj2 colI)) in C2. pose proof (times_ids s _ H2) as T. unfold times in T. rewrite T in C2. cbn [bind] in C2.
    apply bind_ok_elim in C2 as (l & W & C2). apply texts_inv in C2. subst l.
    pose proof (walk_gets s "assoc_elem_id" _ _ _ W i (VStr z)) as X. rewrite Z.add_0_l in X. apply X. now rewrite nth_error_map, Hz.
Qed.

(** *** Searching *)
Lemma present_spec {A} (mk : A -> pyval FO) (eqb : A -> A -> bool) s nm x :
  (forall a, py_eqb FO (mk a) (mk x) = Ok (eqb a x)) ->
  forall l, (forall i a, nth_error l i = Some a -> get FO fs s nm [Z.of_nat i] = Ok (mk a)) ->
  forall l' pre, l = pre ++ l' ->
  present FO s nm (mk x) (map Z.of_nat (seq (List.length pre) (List.length l'))) = Ok (existsb (fun a => eqb a x) l').
Proof.
  intros Q l G. induction l' as [|a l' IH]; intros pre E; [reflexivity|]. cbn [List.length seq map present existsb].
  assert (N : nth_error l (List.length pre) = Some a) by (rewrite E, nth_error_app2, Nat.sub_diag by lia; reflexivity).
  rewrite (G _ _ N). cbn [bind]. rewrite Q. cbn [bind]. destruct (eqb a x); auto. cbn [orb].
  specialize (IH (pre ++ [a])). rewrite <- app_assoc, app_length in IH. cbn [List.length] in IH. rewrite Nat.add_1_r in IH. now apply IH.
Qed.

Lemma present_lvl s lv ids z : rep s lv ids -> present FO s "aisdlvl" (VInt z) (zrange (Z.of_nat (List.length lv))) = Ok (existsb (fun a => (a =? z)%Z) lv).
Proof.
  intros (H1 & _ & _ & H3 & _). unfold zrange. rewrite Nat2Z.id.
  apply (present_spec (fun z => VInt z) Z.eqb s "aisdlvl" z) with (l := lv) (pre := []); auto.
  intros i a Ha. assert (i < List.length lv)%nat by (apply nth_error_Some; congruence).
  rewrite (get_lvl s _ _ H1) by lia. now apply H3.
Qed.
Lemma present_id s lv ids t : rep s lv ids -> present FO s "assoc_elem_id" (VStr t) (zrange (Z.of_nat (List.length ids))) = Ok (existsb (fun a => list_eqb a t) ids).
Proof.
  intros (_ & H1 & _ & _ & H3). unfold zrange. rewrite Nat2Z.id.
  apply (present_spec (fun z => VStr z) list_eqb s "assoc_elem_id" t) with (l := ids) (pre := []); auto.
  intros i a Ha. assert (i < List.length ids)%nat by (apply nth_error_Some; congruence).
  rewrite (get_id s _ _ H1) by lia. now apply H3.
Qed.

(** *** Adding *)
Lemma nth_snoc {A} (l : list A) x i y : nth_error (l ++ [x]) i = Some y -> (i = List.length l /\ y = x) \/ (i <> List.length l /\ nth_error l i = Some y).
Proof.
  intro H. destruct (Nat.lt_total i (List.length l)) as [C|[C|C]].
  - right. rewrite nth_error_app1 in H by exact C. split; [lia|auto].
  - left. subst i. rewrite nth_error_app2, Nat.sub_diag in H by lia. injection H as <-. auto.
  - exfalso. assert (X : (i < List.length (l ++ [x]))%nat) by (apply nth_error_Some; congruence). rewrite app_length in X. cbn in X. lia.
Qed.

Definition add1 {A} (eqd : forall x y : A, {x = y} + {x <> y}) (l : list A) (x : A) := if in_dec eqd x l then l else l ++ [x].

Lemma add_lvl s lv ids z : rep s lv ids -> exists s', add_display_level FO z s = (s', Ok tt) /\ rep s' (add1 Z.eq_dec lv z) ids.
Proof.
  intro R. pose proof R as (H1 & H2 & HI & H3 & H4). unfold add_display_level. rewrite H1. cbn [bind]. rewrite (present_lvl s lv ids z R). cbn [bind].
  unfold add1. destruct (existsb (fun a => (a =? z)%Z) lv) eqn:X.
  - exists s. split; [reflexivity|]. destruct (in_dec Z.eq_dec z lv) as [_|C]; [exact R|]. exfalso. apply C.
    apply existsb_exists in X as (y & Y1 & Y2). apply Z.eqb_eq in Y2. now subst y.
  - destruct (in_dec Z.eq_dec z lv) as [C|_].
    { exfalso. apply Bool.not_true_iff_false in X. apply X. apply existsb_exists. exists z. split; [exact C|apply Z.eqb_refl]. }
    set (n := Z.of_nat (List.length lv)) in *. destruct (set_numais s (n + 1) HI) as (s1 & E1 & D1 & N1). rewrite E1, N1.
    replace (n + 1 - 1)%Z with n by lia. assert (HI1 : st_impl FO s1 = false) by (rewrite D1; exact HI).
    destruct descL as [T V].
    rewrite (col_set FO rows shL s1 (n + 1) "aisdlvl" (af "aisdlvl") n (VInt z) colL V);
      [|now rewrite T|exact HI1|now apply times_levels|lia|discriminate].
    eexists. split; [reflexivity|]. set (s2 := assigned FO s1 (af "aisdlvl") [n] (SVal (VInt z))).
    split; [|split; [|split; [|split]]].
    + rewrite app_length. cbn [List.length]. replace (Z.of_nat (List.length lv + 1)) with (n + 1)%Z by lia. rewrite <- N1, !numais_of.
      unfold s2. rewrite sel_other by (try discriminate; cbn; tauto). reflexivity.
    + rewrite <- H2, !nassoc_of. unfold s2. rewrite sel_other by (try discriminate; cbn; tauto). rewrite D1, sel_other by (try discriminate; cbn; tauto). reflexivity.
    + exact HI1.
    + intros i y Hy. unfold lvl_at, s2. apply nth_snoc in Hy as [[-> ->]|[Hi Hy]].
      * fold n. rewrite assigned_self. unfold conv_of, convert. rewrite T. reflexivity.
      * rewrite sel_index by (cbn; tauto || (intro Q; injection Q as Q; lia)). rewrite D1, sel_other by (try discriminate; cbn; tauto). now apply H3.
    + intros i t Ht. unfold id_at, s2. rewrite sel_other by (try discriminate; cbn; tauto). rewrite D1, sel_other by (try discriminate; cbn; tauto). now apply H4.
Qed.

Lemma add_id s lv ids t : rep s lv ids -> rstrip_by ws_str t = t ->
  exists s', add_assoc_elem_id FO t s = (s', Ok tt) /\ rep s' lv (add1 text_dec ids t).
Proof.
  intros R RS. pose proof R as (H1 & H2 & HI & H3 & H4). unfold add_assoc_elem_id. rewrite H2. cbn [bind]. rewrite (present_id s lv ids t R). cbn [bind].
  unfold add1. destruct (existsb (fun a => list_eqb a t) ids) eqn:X.
  - exists s. split; [reflexivity|]. destruct (in_dec text_dec t ids) as [_|C]; [exact R|]. exfalso. apply C.
    apply existsb_exists in X as (y & Y1 & Y2). apply list_eqb_spec in Y2. now subst y.
  - destruct (in_dec text_dec t ids) as [C|_].
    { exfalso. apply Bool.not_true_iff_false in X. apply X. apply existsb_exists. exists t. split; [exact C|now apply list_eqb_spec]. }
    set (n := Z.of_nat (List.length ids)) in *. destruct (set_nassoc s (n + 1) HI) as (s1 & E1 & D1 & N1). rewrite E1, N1.
    replace (n + 1 - 1)%Z with n by lia. assert (HI1 : st_impl FO s1 = false) by (rewrite D1; exact HI).
    destruct descI as [T V].
    rewrite (col_set FO rows shI s1 (n + 1) "assoc_elem_id" (af "assoc_elem_id") n (VStr t) colI V);
      [|now rewrite T|exact HI1|now apply times_ids|lia|discriminate].
    eexists. split; [reflexivity|]. set (s2 := assigned FO s1 (af "assoc_elem_id") [n] (SVal (VStr t))).
    split; [|split; [|split; [|split]]].
    + rewrite <- H1, !numais_of. unfold s2. rewrite sel_other by (try discriminate; cbn; tauto). rewrite D1, sel_other by (try discriminate; cbn; tauto). reflexivity.
    + rewrite app_length. cbn [List.length]. replace (Z.of_nat (List.length ids + 1)) with (n + 1)%Z by lia. rewrite <- N1, !nassoc_of.
      unfold s2. rewrite sel_other by (try discriminate; cbn; tauto). reflexivity.
    + exact HI1.
    + intros i y Hy. unfold lvl_at, s2. rewrite sel_other by (try discriminate; cbn; tauto). rewrite D1, sel_other by (try discriminate; cbn; tauto). now apply H3.
    + intros i y Hy. unfold id_at, s2. apply nth_snoc in Hy as [[-> ->]|[Hi Hy]].
      * fold n. rewrite assigned_self. unfold conv_of, convert. rewrite T. cbn [conv_str]. now rewrite RS.
      * rewrite sel_index by (cbn; tauto || (intro Q; injection Q as Q; lia)). rewrite D1, sel_other by (try discriminate; cbn; tauto). now apply H4.
Qed.

Lemma add_all_rep h : forall s lv ids, rep s lv ids -> Forall addition_ok h ->
  exists s', add_all FO h s = (s', Ok tt) /\ rep s' (once Z.eq_dec lv (levels_of h)) (once text_dec ids (ids_of h)).
Proof.
  induction h as [|a h IH]; intros s lv ids R F; [exists s; auto|]. apply Forall_cons_iff in F as [Ha F]. cbn [add_all].
  destruct a as [z|t|e]; cbn [add_one].
  - destruct (add_lvl s lv ids z R) as (s1 & E & R1). rewrite E. apply (IH s1 _ _ R1 F).
  - destruct (add_id s lv ids t R Ha) as (s1 & E & R1). rewrite E. apply (IH s1 _ _ R1 F).
  - destruct Ha as (t & Et & Ht). destruct (add_id s lv ids t R Ht) as (s1 & E & R1). unfold add_assoc_elem. rewrite own_id_eq, Et, E.
    destruct (IH s1 _ _ R1 F) as (s2 & E2 & R2). exists s2. split; [exact E2|]. cbn [ids_of flat_map]. rewrite Et. exact R2.
Qed.
End Add.

(** ** Written and read *)
Section File.
Variable FO : FloatOps.
Notation st := (state FO).

Lemma a_survives nm sz v v' : In nm anames -> survives FO (f_d (af nm)) sz v v' -> v' = v.
Proof.
  intros Hn [->|[(x & t & y & T & _)|(t & _ & O & _)]]; auto; exfalso; revert T || revert O;
    cbn in Hn; repeat (destruct Hn as [<-|Hn]; [vm_compute; discriminate|]); contradiction.
Qed.

Lemma col_valid sh (s : st) nm f n i : column rows sh nm f -> times FO rows sh s n -> (0 <= i < n)%Z -> valid_index FO fs s f [i].
Proof.
  intros C T Hi. pose proof C as (L & LL & _). split; [now rewrite LL|]. rewrite LL. intros j Hj. destruct j as [|j]; [|cbn in Hj; lia].
  cbn [firstn nth]. exists n. split; [|exact Hi]. unfold times, eval_shape in T. unfold count_is.
  destruct (eval FO (G FO fs s) fs [] sh) as [v0|]; [|discriminate]. cbn [bind] in T.
  destruct v0; first [left; split; [reflexivity|congruence]|right; eexists; split; [reflexivity|exact T]].
Qed.

Lemma contents_read (s : st) lv ids s0 lit b rest : FloatLaws FO -> literals_ok FO fs s -> contents FO s lv ids ->
  write FO fs s = Ok b ->
  exists s1, read FO fs lit s0 (b ++ rest) = Ok (s1, rest) /\ contents FO s1 lv ids.
Proof.
  intros laws HL C HW. destruct (C01_round_trip FO rows s s0 lit b rest laws arows_wf HL HW) as (s1 & HR & _ & HG).
  exists s1. split; [exact HR|].
  assert (X : forall nm k v, In nm anames -> valid_index FO fs s (af nm) k -> get FO fs s nm k = Ok v -> get FO fs s1 nm k = Ok v).
  { intros nm k v Hn Hv Hg. destruct (HG nm (af nm) k v (alook nm Hn) Hv Hg) as (v' & sz & E & [->|(_ & S)]); [exact E|].
    rewrite (a_survives nm sz v v' Hn S) in E. exact E. }
  assert (SV : forall nm f, scalar rows nm f -> valid_index FO fs s f []).
  { intros nm f S. split; [now rewrite (proj1 (proj2 S))|]. intros j Hj. rewrite (proj1 (proj2 S)) in Hj. cbn in Hj. lia. }
  pose proof C as (C1 & C2 & C3 & C4).
  assert (N1 : numais FO s1 = Ok (Z.of_nat (List.length lv))).
  { rewrite <- C3. unfold numais in *. destruct (get FO fs s "numais" []) as [v|] eqn:G; [|discriminate].
    rewrite (X "numais"%string [] v ltac:(cbn; tauto) (SV _ _ numais_scalar) G). reflexivity. }
  assert (N2 : nassoc FO s1 = Ok (Z.of_nat (List.length ids))).
  { rewrite <- C4. unfold nassoc in *. destruct (get FO fs s "num_assoc_elem" []) as [v|] eqn:G; [|discriminate].
    rewrite (X "num_assoc_elem"%string [] v ltac:(cbn; tauto) (SV _ _ nassoc_scalar) G). reflexivity. }
  apply (pre_contents FO); [exact N1|exact N2| |].
  - intros i z Hz. assert (Hi : (i < List.length lv)%nat) by (apply nth_error_Some; congruence).
    rewrite <- (get_lvl FO s1 (Z.of_nat (List.length lv))); [|exact N1|clear - Hi; lia].
    apply X; [cbn; tauto|apply (col_valid shL s "aisdlvl" (af "aisdlvl") _ _ colL (times_levels FO s _ C3)); clear - Hi; lia|].
    unfold aisdlvl, seq_list in C1. rewrite (proj1 colL), (proj1 (proj2 colL)) in C1. pose proof (times_levels FO s _ C3) as T. unfold times in T. rewrite T in C1. cbn [bind] in C1.
    apply bind_ok_elim in C1 as (l & W & C1). apply ints_inv in C1. subst l.
    pose proof (walk_gets FO s "aisdlvl" _ _ _ W i (VInt z)) as Y. rewrite Z.add_0_l in Y. apply Y. now rewrite nth_error_map, Hz.
  - intros i z Hz. assert (Hi : (i < List.length ids)%nat) by (apply nth_error_Some; congruence).
    rewrite <- (get_id FO s1 (Z.of_nat (List.length ids))); [|exact N2|clear - Hi; lia].
    apply X; [cbn; tauto|apply (col_valid shI s "assoc_elem_id" (af "assoc_elem_id") _ _ colI (times_ids FO s _ C4)); clear - Hi; lia|].
    unfold assoc_elem_id, seq_list in C2. rewrite (proj1 colI), (proj1 (proj2 colI)) in C2. pose proof (times_ids FO s _ C4) as T. unfold times in T. rewrite T in C2. cbn [bind] in C2.
    apply bind_ok_elim in C2 as (l & W & C2). apply texts_inv in C2. subst l.
    pose proof (walk_gets FO s "assoc_elem_id" _ _ _ W i (VStr z)) as Y. rewrite Z.add_0_l in Y. apply Y. now rewrite nth_error_map, Hz.
Qed.
End File.

Lemma init_contents FO : contents FO (init_state FO) [] [].
Proof. repeat split; vm_compute; reflexivity. Qed.

(** ** C38 *)
(** Additions to any subheader whose number of display levels is a count (not "ALL"), for
    instance one that was read: every addition succeeds, each level and identifier is there
    once, new ones come at the end in the order of their first addition, and the count
    fields are the numbers of entries.  Missing: the number of levels "ALL" and identifiers
    with trailing white space (both refuted below). *)
Theorem C38_additions_partial FO (h : list addition) (s : state FO) lv ids :
  st_impl FO s = false -> contents FO s lv ids -> Forall addition_ok h ->
  exists s', add_all FO h s = (s', Ok tt)
    /\ contents FO s' (once Z.eq_dec lv (levels_of h)) (once text_dec ids (ids_of h)).
Proof.
  intros HI C F. destruct (add_all_rep FO h s lv ids (contents_rep FO s lv ids HI C) F) as (s' & E & R).
  exists s'. split; [exact E|]. now apply rep_contents.
Qed.

(** On a new subheader. *)
Theorem C38_new_partial FO (h : list addition) : Forall addition_ok h ->
  exists s', add_all FO h (init_state FO) = (s', Ok tt)
    /\ contents FO s' (once Z.eq_dec [] (levels_of h)) (once text_dec [] (ids_of h)).
Proof. intro F. apply C38_additions_partial; auto. apply init_contents. Qed.

(** What [once] is: the old entries, then the new ones, without repetition; an entry stands
    before another one if it was added first. *)
Theorem C38_once {A} (eqd : forall x y : A, {x = y} + {x <> y}) (l xs : list A) :
  (NoDup l -> NoDup (once eqd l xs))
  /\ (forall x, In x (once eqd l xs) <-> In x l \/ In x xs)
  /\ (exists new, once eqd l xs = l ++ new /\ (forall a, In a new -> In a xs)
       /\ forall a b p q, new = p ++ a :: q -> In b q -> exists u v, xs = u ++ a :: v /\ ~ In b u).
Proof.
  unfold once. induction xs as [|x xs (IH1 & IH2 & new & IH3 & IH5 & IH4)] using rev_ind; cbn [fold_left].
  - split; [auto|]. split; [intro x; cbn; tauto|]. exists []. rewrite app_nil_r. split; auto. split; auto. intros a b p q E. destruct p; discriminate.
  - rewrite fold_left_app. cbn [fold_left]. destruct (in_dec eqd x (fold_left _ xs l)) as [I|I].
    + split; [exact IH1|]. split.
      * intro y. rewrite IH2, in_app_iff. cbn. split; [tauto|]. intros [|[|[<-|[]]]]; auto. now apply IH2.
      * exists new. split; [exact IH3|]. split; [intros; apply in_app_iff; auto|]. intros a b p q E B. destruct (IH4 a b p q E B) as (u & v & -> & Hu).
        exists u, (v ++ [x]). rewrite <- app_assoc. auto.
    + split; [|split].
      * intro N. specialize (IH1 N). rewrite <- (rev_involutive (_ ++ [_])). apply NoDup_rev. rewrite rev_app_distr. cbn.
        constructor; [now rewrite <- in_rev|now apply NoDup_rev].
      * intro y. rewrite !in_app_iff, IH2. tauto.
      * exists (new ++ [x]). rewrite IH3, <- app_assoc. split; auto. split; [intros a; rewrite !in_app_iff; intuition auto|]. intros a b p q E B.
        destruct (exists_last (l := q)) as (q' & y & ->); [now intros ->|].
        change (p ++ a :: q' ++ [y]) with (p ++ (a :: q') ++ [y]) in E. rewrite app_assoc in E. apply app_inj_tail in E as [E <-].
        apply in_app_iff in B as [B|[<-|[]]].
        -- destruct (IH4 a b p q' E B) as (u & v & -> & Hu). exists u, (v ++ [x]). rewrite <- app_assoc. auto.
        -- assert (Ia : In a xs) by (apply IH5; rewrite E, in_app_iff; cbn; auto).
           apply in_split in Ia as (u & v & ->). exists u, (v ++ [x]). rewrite <- app_assoc. split; auto.
           intro Iu. apply I. rewrite IH2, in_app_iff. auto.
Qed.

(** The contents survive writing and reading. *)
Theorem C38_file FO (s : state FO) lv ids s0 lit b rest : FloatLaws FO -> literals_ok FO fs s -> contents FO s lv ids ->
  write FO fs s = Ok b ->
  exists s1, read FO fs lit s0 (b ++ rest) = Ok (s1, rest) /\ contents FO s1 lv ids.
Proof. apply contents_read. Qed.

Lemma set_lits FO (s : state FO) nm k v s' r : no_literals FO fs s -> set FO fs s nm k (SVal v) = (s', r) -> no_literals FO fs s'.
Proof.
  intros H E. assert (s' = fst (set FO fs s nm k (SVal v))) as -> by (now rewrite E). unfold set.
  destruct (lookup fs nm) as [f|] eqn:HL; auto. destruct (key_shape_ok f k); auto.
  apply (no_literals_setf FO rows); [eapply lookup_in; eauto|exact H|exact I].
Qed.
Lemma add_lits FO h : forall (s s' : state FO) r, no_literals FO fs s -> add_all FO h s = (s', r) -> no_literals FO fs s'.
Proof.
  assert (L : forall (s s' : state FO) z r, no_literals FO fs s -> add_display_level FO z s = (s', r) -> no_literals FO fs s').
  { intros s s' z r H E. unfold add_display_level in E. destruct (do n <- numais FO s; _) as [[n []]|e]; try (injection E as <- <-; exact H).
    destruct (set FO fs s "numais" [] _) as [s1 [u|e]] eqn:E1; apply (set_lits FO s _ _ _ _ _ H) in E1; [|injection E as <- <-; exact E1].
    destruct (numais FO s1); [|injection E as <- <-; exact E1]. apply (set_lits FO s1 _ _ _ _ _ E1) in E. exact E. }
  assert (J : forall (s s' : state FO) z r, no_literals FO fs s -> add_assoc_elem_id FO z s = (s', r) -> no_literals FO fs s').
  { intros s s' z r H E. unfold add_assoc_elem_id in E. destruct (do n <- nassoc FO s; _) as [[n []]|e]; try (injection E as <- <-; exact H).
    destruct (set FO fs s "num_assoc_elem" [] _) as [s1 [u|e]] eqn:E1; apply (set_lits FO s _ _ _ _ _ H) in E1; [|injection E as <- <-; exact E1].
    destruct (nassoc FO s1); [|injection E as <- <-; exact E1]. apply (set_lits FO s1 _ _ _ _ _ E1) in E. exact E. }
  induction h as [|a h IH]; intros s s' r H E; [injection E as <- <-; exact H|]. cbn [add_all] in E.
  destruct (add_one FO a s) as [s1 [u|e]] eqn:E1.
  - apply (IH s1 s' r); [|exact E]. destruct a as [z|t|e]; cbn [add_one] in E1; [eapply L; eauto|eapply J; eauto|].
    unfold add_assoc_elem in E1. destruct (element_id e); [eapply J; eauto|discriminate].
  - injection E as <- <-. destruct a as [z|t|x]; cbn [add_one] in E1; [eapply L; eauto|eapply J; eauto|].
    unfold add_assoc_elem in E1. destruct (element_id x); [eapply J; eauto|injection E1 as <- _; exact H].
Qed.

(** Additions to a new subheader, written and read. *)
Theorem C38_new_file_partial FO (h : list addition) s s0 lit b rest : FloatLaws FO -> Forall addition_ok h ->
  add_all FO h (init_state FO) = (s, Ok tt) -> write FO fs s = Ok b ->
  exists s1, read FO fs lit s0 (b ++ rest) = Ok (s1, rest)
    /\ contents FO s1 (once Z.eq_dec [] (levels_of h)) (once text_dec [] (ids_of h)).
Proof.
  intros laws F E HW. destruct (C38_new_partial FO h F) as (s' & E' & C). rewrite E in E'. injection E' as <-.
  apply (C38_file FO s _ _ s0 lit b rest laws); [|exact C|exact HW].
  apply (no_literals_ok FO rows). apply (add_lits FO h (init_state FO) s (Ok tt)); [apply no_literals_init|exact E].
Qed.

(** ** Cases *)
Definition ex_adds : list addition :=
  [AddLevel 3; AddId [97; 98]%N; AddElem (WithId [] (Some [99]%N)); AddLevel 7; AddLevel 3; AddId [99]%N; AddElem (WithId [100]%N None)].
Example C38_nonvacuous FO : Forall addition_ok ex_adds
  /\ once Z.eq_dec [] (levels_of ex_adds) = [3; 7]%Z /\ once text_dec [] (ids_of ex_adds) = [[97; 98]; [99]; [100]]%N
  /\ (match add_all FO ex_adds (init_state FO) with
      | (s, Ok _) => (aisdlvl FO s, assoc_elem_id FO s, numais FO s, match write FO fs s with Ok b => List.length b | Err _ => O end)
      | _ => (Err EValue, Err EValue, Err EValue, O)
      end) = (Ok [3; 7]%Z, Ok [[97; 98]; [99]; [100]]%N, Ok 2%Z, (36 + 3 + 6 + 3 + 108 + 4)%nat).
Proof.
  split; [|vm_compute; auto]. unfold ex_adds.
  repeat (apply Forall_cons; [first [exact I|reflexivity|eexists; split; reflexivity]|]). apply Forall_nil.
Qed.

(** ** Where the full statement fails *)
(** With the number of display levels "ALL", adding a level fails. *)
Theorem C38_all_refuted FO : exists s, set FO fs (init_state FO) "numais" [] (SVal (VStr (str "ALL"))) = (s, Ok tt)
  /\ aisdlvl FO s = Ok [] /\ snd (add_display_level FO 1 s) = Err EValue.
Proof.
  pose (r := set FO fs (init_state FO) "numais" [] (SVal (VStr (str "ALL")))).
  assert (X : (snd r, aisdlvl FO (fst r), snd (add_display_level FO 1 (fst r))) = (Ok tt, Ok [], Err EValue)) by (vm_compute; reflexivity).
  fold r. clearbody r. destruct r as [s x]. cbn [fst snd] in X. injection X as -> X1 X2. exists s. auto.
Qed.

(** An identifier ending in a blank is kept twice when added twice. *)
Theorem C38_blank_refuted FO : exists id s, add_all FO [AddId id; AddId id] (init_state FO) = (s, Ok tt)
  /\ exists id', assoc_elem_id FO s = Ok [id'; id'].
Proof.
  pose (r := add_all FO [AddId [97; 32]%N; AddId [97; 32]%N] (init_state FO)).
  assert (X : (snd r, assoc_elem_id FO (fst r)) = (Ok tt, Ok [[97]; [97]]%N)) by (vm_compute; reflexivity).
  exists [97; 32]%N, (fst r). fold r. clearbody r. destruct r as [s x]. cbn [fst snd] in X. injection X as -> X1. split; [reflexivity|]. eauto.
Qed.

(** ** C45: finding the associated elements in a file *)
(** All candidates with their identifiers, in the order in which the code meets them. *)
Definition candidates {E} (des : list (option (list N) * E)) (tres : list (list N * E)) : list (list N * E) :=
  flat_map (fun d => match fst d with Some k => [(k, snd d)] | None => [] end) des ++ tres.
(** The last candidate with identifier [k]. *)
Definition last_with {E} (k : list N) (c : list (list N * E)) : option E :=
  option_map snd (find (fun p => list_eqb (fst p) k) (rev c)).

Lemma dget_keep {E} (asid : list (list N)) (c : list (list N * E)) k : existsb (list_eqb k) asid = true -> forall r,
  dget k (fold_left (fun r (t : list N * E) => if existsb (list_eqb (fst t)) asid then (fst t, snd t) :: r else r) c r)
  = match last_with k c with Some e => Some e | None => dget k r end.
Proof.
  intros I. induction c as [|x c IH] using rev_ind; intro r; [reflexivity|]. rewrite fold_left_app. cbn [fold_left].
  unfold last_with in *. rewrite rev_app_distr. cbn [rev app find]. destruct (list_eqb (fst x) k) eqn:Q.
  - apply list_eqb_spec in Q. rewrite Q, I. unfold dget. cbn [find fst snd]. replace (list_eqb k k) with true by (symmetry; now apply list_eqb_spec). reflexivity.
  - rewrite <- IH. destruct (existsb (list_eqb (fst x)) asid); [|reflexivity]. unfold dget at 1. cbn [find fst]. rewrite Q. reflexivity.
Qed.

(** One result for each identifier, in order: the last DES or TRE with that identifier, and
    [None] if there is none. *)
Theorem C45_found {E} (asid : list (list N)) (des : list (option (list N) * E)) (tres : list (list N * E)) :
  assoc_elem asid des tres = map (fun k => last_with k (candidates des tres)) asid.
Proof.
  unfold assoc_elem. apply map_ext_in. intros k Hk.
  assert (I : existsb (list_eqb k) asid = true) by (apply existsb_exists; exists k; split; [exact Hk|now apply list_eqb_spec]).
  assert (D : forall des r, fold_left (fun r (d : option (list N) * E) => match fst d with
               Some k => if existsb (list_eqb k) asid then (k, snd d) :: r else r | None => r end) des r
      = fold_left (fun r (t : list N * E) => if existsb (list_eqb (fst t)) asid then (fst t, snd t) :: r else r)
          (flat_map (fun d => match fst d with Some k => [(k, snd d)] | None => [] end) des) r).
  { induction des0 as [|[[x|] e] des0 IH]; intro r; cbn [fold_left flat_map fst snd app]; auto. }
  rewrite D, <- fold_left_app. fold (candidates des tres). rewrite (dget_keep asid _ k I []). destruct (last_with k _); reflexivity.
Qed.

(** In particular an element is only reported under its own identifier, and every
    identifier that some candidate has is resolved. *)
Theorem C45_sound {E} (asid : list (list N)) (des : list (option (list N) * E)) (tres : list (list N * E)) i k :
  nth_error asid i = Some k ->
  exists r, nth_error (assoc_elem asid des tres) i = Some r
    /\ match r with
       | Some e => In (Some k, e) des \/ In (k, e) tres
       | None => forall e, ~ In (Some k, e) des /\ ~ In (k, e) tres
       end.
Proof.
  intro Hk. rewrite C45_found, nth_error_map, Hk. eexists. split; [reflexivity|]. unfold last_with.
  assert (M : forall e, In (k, e) (candidates des tres) <-> In (Some k, e) des \/ In (k, e) tres).
  { intro e. unfold candidates. rewrite in_app_iff, in_flat_map. split; (intros [H|H]; [|now right]).
    - destruct H as ([[x|] y] & H1 & H2); [|contradiction]. destruct H2 as [H2|[]]. injection H2 as -> ->. now left.
    - left. exists (Some k, e). split; [exact H|]. now left. }
  destruct (find _ (rev _)) as [p|] eqn:F; cbn [option_map].
  - apply find_some in F as [F1 F2]. apply list_eqb_spec in F2. rewrite <- in_rev in F1. destruct p as [x e]. cbn in *. subst x. now apply M.
  - intro e. assert (~ In (k, e) (candidates des tres)); [|rewrite M in H; tauto].
    intro I. apply in_rev in I. pose proof (find_none _ _ F _ I) as Q. cbn in Q. apply Bool.not_true_iff_false in Q. apply Q. now apply list_eqb_spec.
Qed.

Example C45_case : assoc_elem [[1]; [2]; [3]]%N [(Some [2]%N, 10%Z); (None, 11%Z); (Some [4]%N, 12%Z); (Some [2]%N, 13%Z)] [([1]%N, 20%Z)]
  = [Some 20%Z; Some 13%Z; None].
Proof. reflexivity. Qed.

Print Assumptions C38_additions_partial.
Print Assumptions C38_new_partial.
Print Assumptions C38_once.
Print Assumptions C38_file.
Print Assumptions C38_new_file_partial.
Print Assumptions C38_all_refuted.
Print Assumptions C38_blank_refuted.
Print Assumptions C45_found.
Print Assumptions C45_sound.
