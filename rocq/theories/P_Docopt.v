(** C61: what a command line option is as an attribute (docopt_simple.py). *)
From Verif Require Import Base BaseLemmas Engine Wf Decimal DecimalLemmas DecimalFit TextSpec P_Expr P_FloatText Docopt.
From Coq Require Import ZifyBool ZifyNat ZifyN.
Open Scope list_scope.
Ltac Zify.zify_post_hook ::= idtac.

(** ** The language of a pattern *)
Fixpoint lang (r : regex) (l : list N) : Prop :=
  match r with
  | XNone => False
  | XEps => l = []
  | XSet p => exists c, l = [c] /\ p c = true
  | XCat r s => exists a b, l = a ++ b /\ lang r a /\ lang s b
  | XAlt r s => lang r l \/ lang s l
  | XStar r => exists ll, l = List.concat ll /\ Forall (lang r) ll
  end.

Lemma nullable_lang r : nullable r = true <-> lang r [].
Proof.
  induction r as [| |p|r IHr s IHs|r IHr s IHs|r IHr]; cbn [nullable lang].
  - split; [discriminate|tauto].
  - tauto.
  - split; [discriminate|]. intros (c & E & _). discriminate E.
  - rewrite andb_true_iff, IHr, IHs. split.
    + intros (A & B). exists [], []. auto.
    + intros (a & b & E & A & B). symmetry in E. apply app_eq_nil in E as (-> & ->). auto.
  - rewrite orb_true_iff, IHr, IHs. tauto.
  - split; [|auto]. intros _. exists []. auto.
Qed.

Lemma star_head r c l : lang (XStar r) (c :: l) <-> exists a b, l = a ++ b /\ lang r (c :: a) /\ lang (XStar r) b.
Proof.
  cbn [lang]. split.
  - intros (ll & E & F). induction ll as [|x ll IH]; [discriminate E|]. inversion_clear F as [|? ? F1 F2].
    destruct x as [|d x]; [apply IH; auto|]. cbn in E. injection E as -> ->. exists x, (List.concat ll). eauto.
  - intros (a & b & -> & A & ll & -> & F). exists ((c :: a) :: ll). split; [reflexivity|]. now constructor.
Qed.

Lemma deriv_lang r : forall c l, lang (deriv c r) l <-> lang r (c :: l).
Proof.
  induction r as [| |p|r IHr s IHs|r IHr s IHs|r IHr]; intros c l.
  - cbn. tauto.
  - cbn. split; [tauto|discriminate].
  - cbn [deriv lang]. destruct (p c) eqn:P; cbn [lang].
    + split; [intros ->; eauto|]. intros (d & E & _). now injection E.
    + split; [tauto|]. intros (d & E & Q). injection E as <- _. congruence.
  - assert (C : lang (XCat (deriv c r) s) l <-> exists a b, l = a ++ b /\ lang r (c :: a) /\ lang s b).
    { cbn [lang]. split; intros (a & b & E & A & B); exists a, b; split; auto; split; auto; now apply IHr. }
    assert (D : lang (XCat r s) (c :: l) <-> (exists a b, l = a ++ b /\ lang r (c :: a) /\ lang s b) \/ nullable r = true /\ lang s (c :: l)).
    { cbn [lang]. split.
      - intros (a & b & E & A & B). destruct a as [|d a]; [right; rewrite nullable_lang; cbn in E; subst; auto|].
        cbn in E. injection E as -> ->. left. eauto.
      - intros [(a & b & -> & A & B)|(A & B)]; [exists (c :: a), b; auto|]. rewrite nullable_lang in A. exists [], (c :: l). auto. }
    rewrite D, <- C. cbn [deriv]. cbv zeta. destruct (nullable r).
    + change (lang (XAlt ?x ?y) l) with (lang x l \/ lang y l). rewrite IHs. tauto.
    + split; [auto|]. intros [H|(H & _)]; [exact H|discriminate H].
  - cbn [deriv lang]. rewrite IHr, IHs. tauto.
  - rewrite star_head. change (deriv c (XStar r)) with (XCat (deriv c r) (XStar r)).
    split; intros (a & b & E & A & B); exists a, b; split; auto; split; auto; now apply IHr.
Qed.
Lemma accepts_lang l : forall r, accepts r l = true <-> lang r l.
Proof.
  induction l as [|c l IH]; intro r; cbn [accepts]; [apply nullable_lang|]. rewrite IH. apply deriv_lang.
Qed.

Lemma plus_digits l : lang (x_plus x_digit) l <-> l <> [] /\ all_digits l.
Proof.
  assert (S : forall l, lang (XStar x_digit) l <-> all_digits l).
  { intro m. cbn [lang]. split.
    - intros (ll & -> & F). induction F as [|x ll (c & -> & P) _ IH]; [constructor|]. cbn. constructor; auto.
      unfold is_digit in P. lia.
    - intro D. exists (map (fun c => [c]) m). split; [induction m as [|c m IH]; [reflexivity|]; cbn; f_equal; apply IH; now inversion D|].
      apply Forall_forall. intros x I. apply in_map_iff in I as (c & <- & I). exists c. split; [reflexivity|].
      unfold all_digits in D. rewrite Forall_forall in D. specialize (D c I). unfold is_digit. lia. }
  unfold x_plus. change (lang (XCat ?x ?y) l) with (exists a b, l = a ++ b /\ lang x a /\ lang y b). split.
  - intros (a & b & -> & (c & -> & P) & B). apply S in B. split; [discriminate|]. constructor; auto. unfold is_digit in P. lia.
  - intros (NE & D). destruct l as [|c l]; [contradiction|]. exists [c], l. split; [reflexivity|]. inversion_clear D.
    split; [exists c; split; [reflexivity|unfold is_digit; lia]|now apply S].
Qed.
Lemma star_digits l : lang (XStar x_digit) l <-> all_digits l.
Proof.
  cbn [lang]. split.
  - intros (ll & -> & F). induction F as [|x ll (c & -> & P) _ IH]; [constructor|]. cbn. constructor; auto.
    unfold is_digit in P. lia.
  - intro D. exists (map (fun c => [c]) l). split; [induction l as [|c m IH]; [reflexivity|]; cbn; f_equal; apply IH; now inversion D|].
    apply Forall_forall. intros x I. apply in_map_iff in I as (c & <- & I). exists c. split; [reflexivity|].
    unfold all_digits in D. rewrite Forall_forall in D. specialize (D c I). unfold is_digit. lia.
Qed.
Lemma opt_sign l : lang (x_opt x_sign) l <-> l = [] \/ l = [43%N] \/ l = [45%N].
Proof.
  cbn [x_opt x_sign lang]. split.
  - intros [(c & -> & P)|H]; [|auto]. assert (H : c = 43%N \/ c = 45%N) by lia. destruct H as [->| ->]; auto.
  - intros [H|[->| ->]]; [auto|left; eauto|left; eauto].
Qed.
Lemma expo_lang l : lang x_expo l <-> exists e, exponent l e.
Proof.
  unfold x_expo. change (lang (x_opt ?r) l) with (lang r l \/ l = []).
  change (lang (XCat ?x ?y) l) with (exists a b, l = a ++ b /\ lang x a /\ lang y b). unfold exponent. split.
  - intros [(a & b & -> & (c & -> & P) & (sg & ds & -> & S & D))|H]; [|exists 0%Z; auto].
    apply opt_sign in S. apply plus_digits in D as (NE & D).
    assert (K : exists e, (sg = [] \/ sg = [43%N]) /\ e = Z.of_N (text_val ds) \/ sg = [45%N] /\ e = (- Z.of_N (text_val ds))%Z).
    { destruct S as [S|[S|S]]; eauto. }
    destruct K as (e & K). exists e. right. exists c, sg, ds. repeat split; auto; lia.
  - intros (e & [(-> & _)|(m & sg & ds & -> & M & NE & D & K)]); [auto|]. left. exists [m], (sg ++ ds). split; [reflexivity|].
    split; [exists m; split; [reflexivity|lia]|]. exists sg, ds. split; [reflexivity|]. split; [apply opt_sign; tauto|]. apply plus_digits. auto.
Qed.

(** ** What the patterns accept *)

(** An integer: a sign or none, digits. *)
Definition int_word (t : list N) (z : Z) : Prop :=
  exists sg ds, t = sg ++ ds /\ ds <> [] /\ all_digits ds
    /\ ((sg = [] \/ sg = [43%N]) /\ z = Z.of_N (text_val ds) \/ sg = [45%N] /\ z = (- Z.of_N (text_val ds))%Z).
(** A decimal number: a sign or none, digits with a point or none (one digit at least), an exponent or
    none; its value is [d_man * 10 ^ d_ex] with the sign. *)
Definition float_word (t : list N) (x : dec) : Prop :=
  exists sg a pt b ex e, t = sg ++ a ++ pt ++ ex
    /\ (pt = [] /\ b = [] \/ pt = 46%N :: b) /\ all_digits a /\ all_digits b /\ a ++ b <> []
    /\ exponent ex e
    /\ ((sg = [] \/ sg = [43%N]) /\ d_neg x = false \/ sg = [45%N] /\ d_neg x = true)
    /\ d_man x = text_val (a ++ b) /\ d_ex x = (e - Z.of_nat (List.length b))%Z.
(** The text with at most one newline at the end. *)
Definition lined {A} (P : list N -> A -> Prop) (t : list N) (a : A) : Prop :=
  P t a \/ exists w, t = w ++ [10%N] /\ P w a.

Lemma int_lang t : lang pat_int t <-> exists z, int_word t z.
Proof.
  unfold pat_int. change (lang (XCat ?x ?y) t) with (exists a b, t = a ++ b /\ lang x a /\ lang y b). split.
  - intros (sg & ds & -> & S & D). apply opt_sign in S. apply plus_digits in D as (NE & D).
    destruct S as [S|[S|S]]; eexists; exists sg, ds; repeat split; eauto.
  - intros (z & sg & ds & -> & NE & D & K). exists sg, ds. split; [reflexivity|]. split; [apply opt_sign; tauto|]. apply plus_digits. auto.
Qed.
Lemma float_of sg a pt b ex e : (sg = [] \/ sg = [43%N] \/ sg = [45%N]) -> (pt = [] /\ b = [] \/ pt = 46%N :: b) -> all_digits a -> all_digits b ->
  a ++ b <> [] -> exponent ex e -> exists x, float_word (sg ++ a ++ pt ++ ex) x.
Proof.
  intros S P A B NE X. exists {| d_neg := list_eqb sg [45%N]; d_man := text_val (a ++ b); d_ex := e - Z.of_nat (List.length b) |}.
  exists sg, a, pt, b, ex, e. repeat split; auto. destruct S as [->|[->| ->]]; cbn; auto.
Qed.
Lemma float_lang t : lang pat_float1 t \/ lang pat_float2 t <-> exists x, float_word t x.
Proof.
  unfold pat_float1, pat_float2.
  change (lang (XCat ?x ?y) t) with (exists a b, t = a ++ b /\ lang x a /\ lang y b). split.
  - intros [(sg & t1 & -> & S & (a & t2 & -> & A & (pt & t3 & -> & P & (b & ex & -> & B & X))))
           |(sg & t1 & -> & S & (a & t2 & -> & A & (pt & ex & -> & P & X)))].
    + apply opt_sign in S. apply star_digits in A. apply plus_digits in B as (NE & B). apply expo_lang in X as (e & X).
      destruct P as [(c & -> & P)| ->].
      * apply N.eqb_eq in P as <-. change (sg ++ a ++ [46%N] ++ b ++ ex) with (sg ++ a ++ (46%N :: b) ++ ex).
        apply (float_of sg a (46%N :: b) b ex e); auto. intro E. apply app_eq_nil in E as (_ & E). contradiction.
      * cbn [app]. replace (sg ++ a ++ b ++ ex) with (sg ++ (a ++ b) ++ [] ++ ex) by now rewrite <- !app_assoc.
        apply (float_of sg (a ++ b) [] [] ex e); auto; [now apply Forall_app|constructor|].
        rewrite app_nil_r. intro E. apply app_eq_nil in E as (_ & E). contradiction.
    + apply opt_sign in S. apply plus_digits in A as (NE & A). apply expo_lang in X as (e & X). destruct P as (c & -> & P). apply N.eqb_eq in P as <-.
      apply (float_of sg a [46%N] [] ex e); auto; [constructor|]. now rewrite app_nil_r.
  - intros (x & sg & a & pt & b & ex & e & -> & P & A & B & NE & X & S & _).
    assert (S' : lang (x_opt x_sign) sg) by (apply opt_sign; tauto). assert (X' : lang x_expo ex) by (apply expo_lang; eauto).
    destruct P as [(-> & ->)| ->].
    + left. rewrite app_nil_r in NE. exists sg, (a ++ ex). split; [reflexivity|]. split; [exact S'|].
      exists [], (a ++ ex). split; [reflexivity|]. split; [apply star_digits; constructor|]. exists [], (a ++ ex). split; [reflexivity|].
      split; [now right|]. exists a, ex. split; [reflexivity|]. split; [now apply plus_digits|exact X'].
    + destruct b as [|c b].
      * right. rewrite app_nil_r in NE. exists sg, (a ++ [46%N] ++ ex). split; [reflexivity|]. split; [exact S'|].
        exists a, ([46%N] ++ ex). split; [reflexivity|]. split; [now apply plus_digits|]. exists [46%N], ex. split; [reflexivity|].
        split; [exists 46%N; auto|exact X'].
      * left. exists sg, (a ++ (46%N :: c :: b) ++ ex). split; [reflexivity|]. split; [exact S'|].
        exists a, ((46%N :: c :: b) ++ ex). split; [reflexivity|]. split; [now apply star_digits|]. exists [46%N], ((c :: b) ++ ex). split; [reflexivity|].
        split; [left; exists 46%N; auto|]. exists (c :: b), ex. split; [reflexivity|]. split; [apply plus_digits; split; [discriminate|exact B]|exact X'].
Qed.

Lemma match_lang r t : re_match r t = true <-> lang r t \/ exists w, t = w ++ [10%N] /\ lang r w.
Proof.
  unfold re_match. rewrite orb_true_iff, accepts_lang.
  assert (H : match rev t with 10%N :: w => accepts r (rev w) | _ => false end = true <-> exists w, t = w ++ [10%N] /\ lang r w).
  { split.
    - destruct (rev t) as [|c w] eqn:E; [discriminate|]. intro H. assert (C : c = 10%N).
      { destruct c as [|p]; [discriminate H|]. do 4 (destruct p as [p|p|]; try discriminate H). reflexivity. }
      subst c. exists (rev w). apply accepts_lang in H. split; [|exact H]. rewrite <- (rev_involutive t), E. reflexivity.
    - intros (w & -> & L). rewrite rev_app_distr. cbn [rev app]. rewrite rev_involutive. now apply accepts_lang. }
  rewrite H. tauto.
Qed.

Lemma int_parses t z : lined int_word t z -> parse_int ws_str t = Some z.
Proof.
  assert (W : forall w post z, forallb ws_str post = true -> int_word w z -> parse_int ws_str (w ++ post) = Some z).
  { intros w post z' Hp (sg & ds & -> & NE & D & K). rewrite <- app_assoc.
    assert (SG : sg = [] \/ sg = [43%N] \/ sg = [45%N]) by tauto.
    pose proof (parse_int_text ws_str [] post sg ds (fun c H => H) eq_refl Hp SG NE (proj2 (digits_iff ds) D)) as E.
    cbn [app] in E. rewrite E. rewrite <- text_val_digval. destruct K as [([->| ->] & ->)|(-> & ->)]; reflexivity. }
  intros [H|(w & -> & H)]; [|now apply W]. rewrite <- (app_nil_r t). now apply W.
Qed.
Lemma float_parses t x : lined float_word t x -> parse_float t = Some x.
Proof.
  assert (W : forall w post, Forall byte_blank post -> float_word w x -> parse_float (w ++ post) = Some x).
  { intros w post Hp (sg & a & pt & b & ex & e & -> & R). apply C16_accepts_float. exists [], sg, a, pt, b, ex, e, post.
    split; [reflexivity|]. split; [constructor|]. split; [exact Hp|exact R]. }
  intros [H|(w & -> & H)]; [rewrite <- (app_nil_r t); apply W; [constructor|exact H]|]. apply W; [|exact H].
  constructor; [apply byte_blank_iff; reflexivity|constructor].
Qed.

(** ** C61 *)

(** A text made into an integer, a float, or left as it is: exactly the texts that are one, written
    plainly (a newline at the end is allowed). Nothing is refused. *)
Theorem C61_type t g : find_type (DStr t) = Ok g <->
  match g with
  | GInt z => lined int_word t z
  | GFloat x => lined float_word t x /\ ~ exists z, lined int_word t z
  | GAs v => v = DStr t /\ ~ (exists z, lined int_word t z) /\ ~ exists x, lined float_word t x
  end.
Proof.
  assert (MI : re_match pat_int t = true <-> exists z, lined int_word t z).
  { rewrite match_lang, int_lang. unfold lined. split.
    - intros [(z & H)|(w & E & H)]; [eauto|]. apply int_lang in H as (z & H). eauto 6.
    - intros (z & [H|(w & E & H)]); [eauto|]. right. exists w. split; [exact E|]. apply int_lang. eauto. }
  assert (MF : re_match pat_float1 t || re_match pat_float2 t = true <-> exists x, lined float_word t x).
  { rewrite orb_true_iff, !match_lang. unfold lined. split.
    - intros [[H|(w & E & H)]|[H|(w & E & H)]].
      + destruct (proj1 (float_lang t) (or_introl H)) as (x & K). eauto.
      + destruct (proj1 (float_lang w) (or_introl H)) as (x & K). eauto 6.
      + destruct (proj1 (float_lang t) (or_intror H)) as (x & K). eauto.
      + destruct (proj1 (float_lang w) (or_intror H)) as (x & K). eauto 6.
    - intros (x & [H|(w & E & H)]).
      + destruct (proj2 (float_lang t) (ex_intro _ x H)); auto.
      + destruct (proj2 (float_lang w) (ex_intro _ x H)); eauto. }
  unfold find_type. destruct (re_match pat_int t) eqn:I.
  - destruct (proj1 MI eq_refl) as (z & HZ). rewrite (int_parses t z HZ). split.
    + intro H. injection H as <-. exact HZ.
    + destruct g as [z'|x|v].
      * intro H. apply int_parses in H. rewrite (int_parses t z HZ) in H. now injection H as ->.
      * intros (_ & N). exfalso. eauto.
      * intros (_ & N & _). exfalso. eauto.
  - assert (NI : ~ exists z, lined int_word t z) by (intro H; apply MI in H; discriminate H).
    assert (E : forall (A : res dgot), (if re_match pat_float1 t then A else if re_match pat_float2 t then A else Ok (GAs (DStr t)))
       = if re_match pat_float1 t || re_match pat_float2 t then A else Ok (GAs (DStr t))).
    { intro A. destruct (re_match pat_float1 t); reflexivity. }
    rewrite E. destruct (re_match pat_float1 t || re_match pat_float2 t).
    + destruct (proj1 MF eq_refl) as (x & HX). rewrite (float_parses t x HX). split.
      * intro H. injection H as <-. auto.
      * destruct g as [z'|x'|v].
        -- intro H. exfalso. eauto.
        -- intros (H & _). apply float_parses in H. rewrite (float_parses t x HX) in H. now injection H as ->.
        -- intros (_ & _ & N). exfalso. eauto.
    + assert (NF : ~ exists x, lined float_word t x) by (intro H; apply MF in H; discriminate H). split.
      * intro H. injection H as <-. auto.
      * destruct g as [z'|x'|v].
        -- intro H. exfalso. eauto.
        -- intros (H & _). exfalso. eauto.
        -- intros (-> & _). reflexivity.
Qed.

(** No option is refused. *)
Theorem C61_total v : exists g, find_type v = Ok g.
Proof.
  destruct v as [|b|z|t|l]; try (eexists; reflexivity).
  destruct (find_type (DStr t)) as [g|e] eqn:E; [eauto|]. exfalso. unfold find_type in E.
  destruct (re_match pat_int t) eqn:I.
  - apply match_lang in I as [I|(w & -> & I)]; apply int_lang in I as (z & I).
    + rewrite (int_parses t z (or_introl I)) in E. discriminate E.
    + rewrite (int_parses (w ++ [10%N]) z (or_intror (ex_intro _ w (conj eq_refl I)))) in E. discriminate E.
  - assert (F : forall p, (p = pat_float1 \/ p = pat_float2) -> re_match p t = true -> exists x, parse_float t = Some x).
    { intros p Hp M. apply match_lang in M as [M|(w & Ew & M)].
      - assert (X : exists x, float_word t x) by (apply float_lang; destruct Hp as [->| ->]; auto). destruct X as (x & X). exists x. apply float_parses. now left.
      - assert (X : exists x, float_word w x) by (apply float_lang; destruct Hp as [->| ->]; auto). destruct X as (x & X). exists x. apply float_parses. right. eauto. }
    destruct (re_match pat_float1 t) eqn:M1; [destruct (F _ (or_introl eq_refl) M1) as (x & Ex); rewrite Ex in E; discriminate E|].
    destruct (re_match pat_float2 t) eqn:M2; [destruct (F _ (or_intror eq_refl) M2) as (x & Ex); rewrite Ex in E; discriminate E|]. discriminate E.
Qed.

(** [k] is a key of the dictionary. *)
Definition key_in (k : list N) (a : dargs) : Prop := exists v, In (k, v) a.
(** The names an option can have: [name], [<name>], [--name], and [--name] with [-] for [_]. *)
Definition with_dashes (name name' : list N) : Prop :=
  Forall2 (fun c d => c = 95%N /\ d = 45%N \/ c <> 95%N /\ d = c) name name'.

Lemma dashes_iff name name' : with_dashes name name' <-> name' = dashes name.
Proof.
  unfold with_dashes, dashes. split.
  - induction 1 as [|c d l l' H _ ->]; [reflexivity|]. cbn [map]. f_equal. destruct (N.eqb_spec c 95); lia.
  - intros ->. induction name as [|c l IH]; cbn [map]; constructor; auto. destruct (N.eqb_spec c 95); auto.
Qed.
Lemma dfind_in a k v : NoDup (map fst a) -> dfind k a = Some v <-> In (k, v) a.
Proof.
  induction a as [|[k' v'] a IH]; cbn [dfind map fst In]; intro ND; [split; [discriminate|tauto]|]. inversion_clear ND as [|? ? N1 N2].
  destruct (list_eqb k k') eqn:E.
  - apply list_eqb_spec in E. subst k'. split; [intro H; injection H as <-; auto|]. intros [H|H]; [congruence|].
    exfalso. apply N1. apply in_map_iff. exists (k, v). auto.
  - rewrite IH by exact N2. split; [auto|]. intros [H|H]; [|exact H]. injection H as -> ->. rewrite (proj2 (list_eqb_spec _ _) eq_refl) in E. discriminate E.
Qed.
Lemma dfind_none a k : NoDup (map fst a) -> dfind k a = None <-> ~ key_in k a.
Proof.
  intro ND. destruct (dfind k a) as [v|] eqn:E.
  - apply dfind_in in E; [|exact ND]. split; [discriminate|]. intro H. exfalso. apply H. now exists v.
  - split; [|reflexivity]. intros _ (v & H). apply dfind_in in H; [congruence|exact ND].
Qed.

(** An attribute is the option of that name; of several, the positional argument without brackets, then
    that with, then the option as it is, then the option with dashes. *)
Theorem C61_lookup a name name' g : NoDup (map fst a) -> with_dashes name name' ->
  let k1 := name in let k2 := str "<" ++ name ++ str ">" in let k3 := str "--" ++ name in let k4 := str "--" ++ name' in
  (d_getattr a name = Ok g <-> exists v, find_type v = Ok g /\
     (In (k1, v) a
      \/ ~ key_in k1 a /\ In (k2, v) a
      \/ ~ key_in k1 a /\ ~ key_in k2 a /\ In (k3, v) a
      \/ ~ key_in k1 a /\ ~ key_in k2 a /\ ~ key_in k3 a /\ In (k4, v) a))
  /\ (d_getattr a name = Err EAttr <-> ~ key_in k1 a /\ ~ key_in k2 a /\ ~ key_in k3 a /\ ~ key_in k4 a)
  /\ (d_contains a name = true <-> exists g, d_getattr a name = Ok g).
Proof.
  intros ND W k1 k2 k3 k4. apply dashes_iff in W. unfold d_getattr, d_contains, keys_of.
  subst name'. fold k4. fold k3. fold k2. fold k1. cbn [first_key existsb].
  assert (P : forall k, match dfind k a with Some v => In (k, v) a | None => ~ key_in k a end).
  { intro k. destruct (dfind k a) eqn:E; [now apply dfind_in|now apply dfind_none]. }
  assert (U : forall k v w, dfind k a = Some v -> In (k, w) a -> v = w).
  { intros k v w E I. apply dfind_in in I; [congruence|exact ND]. }
  assert (FT : forall v, find_type v <> Err EAttr) by (intros v E; destruct (C61_total v) as (g' & E'); congruence).
  assert (NK : forall k v, In (k, v) a -> ~ ~ key_in k a) by (intros k v I H; apply H; now exists v).
  pose proof (P k1) as P1. pose proof (P k2) as P2. pose proof (P k3) as P3. pose proof (P k4) as P4.
  destruct (dfind k1 a) as [v1|] eqn:E1.
  { split; [split|split; split].
    - intro H. exists v1. auto.
    - intros (v & F & [I|[(N & _)|[(N & _)|(N & _)]]]); try (exfalso; eapply NK; eauto; fail). now rewrite (U _ _ _ E1 I).
    - intro H. exfalso. eapply FT; eauto.
    - intros (N & _). exfalso. eapply NK; eauto.
    - intros _. apply C61_total.
    - intros _. rewrite ?orb_true_r. reflexivity. }
  destruct (dfind k2 a) as [v2|] eqn:E2.
  { split; [split|split; split].
    - intro H. exists v2. auto.
    - intros (v & F & [I|[(N & I)|[(_ & N & _)|(_ & N & _)]]]); try (exfalso; eapply NK; eauto; fail). now rewrite (U _ _ _ E2 I).
    - intro H. exfalso. eapply FT; eauto.
    - intros (_ & N & _). exfalso. eapply NK; eauto.
    - intros _. apply C61_total.
    - intros _. rewrite ?orb_true_r. reflexivity. }
  destruct (dfind k3 a) as [v3|] eqn:E3.
  { split; [split|split; split].
    - intro H. exists v3. split; [exact H|]. tauto.
    - intros (v & F & [I|[(N & I)|[(_ & N & I)|(_ & _ & N & _)]]]); try (exfalso; eapply NK; eauto; fail). now rewrite (U _ _ _ E3 I).
    - intro H. exfalso. eapply FT; eauto.
    - intros (_ & _ & N & _). exfalso. eapply NK; eauto.
    - intros _. apply C61_total.
    - intros _. rewrite ?orb_true_r. reflexivity. }
  destruct (dfind k4 a) as [v4|] eqn:E4.
  { split; [split|split; split].
    - intro H. exists v4. split; [exact H|]. tauto.
    - intros (v & F & [I|[(N & I)|[(_ & N & I)|(_ & _ & N & I)]]]); try (exfalso; eapply NK; eauto; fail). now rewrite (U _ _ _ E4 I).
    - intro H. exfalso. eapply FT; eauto.
    - intros (_ & _ & _ & N). exfalso. eapply NK; eauto.
    - intros _. apply C61_total.
    - intros _. rewrite ?orb_true_r. reflexivity. }
  split; [split|split; split]; auto; try discriminate.
  - intros (v & _ & [I|[(N & I)|[(_ & N & I)|(_ & _ & N & I)]]]); exfalso; eapply NK; eauto.
  - intros (g' & H). discriminate H.
Qed.

(** The options of [nitf_diff --config-file-json=f 007 1.5e3 --debug]: a file name made of digits
    becomes a number. *)
Definition c61_args : dargs :=
  [(str "<file1>", DStr (str "007")); (str "<file2>", DStr (str "1.5e3")); (str "--config-file-json", DStr (str "f"));
   (str "--debug", DBool true); (str "--log-file", DNone)].
Example ex_c61 :
  d_getattr c61_args (str "file1") = Ok (GInt 7) /\ d_getattr c61_args (str "file2") = Ok (GFloat (D false 15 2))
  /\ d_getattr c61_args (str "config_file_json") = Ok (GAs (DStr (str "f"))) /\ d_getattr c61_args (str "debug") = Ok (GAs (DBool true))
  /\ d_getattr c61_args (str "quiet") = Err EAttr /\ d_contains c61_args (str "log_file") = true.
Proof. vm_compute. repeat split. Qed.
Example ex_c61_type :
  map (fun t => find_type (DStr (str t))) ["-12"; "1."; "-.5"; "."; "1_0"; " 1"; "inf"; "1e-2"; "0x1"; "a1"; ""]%string
  = [Ok (GInt (-12)); Ok (GFloat (D false 1 0)); Ok (GFloat (D true 5 (-1))); Ok (GAs (DStr (str "."))); Ok (GAs (DStr (str "1_0")));
     Ok (GAs (DStr (str " 1"))); Ok (GAs (DStr (str "inf"))); Ok (GFloat (D false 1 (-2))); Ok (GAs (DStr (str "0x1")));
     Ok (GAs (DStr (str "a1"))); Ok (GAs (DStr []))].
Proof. vm_compute. reflexivity. Qed.

(** A file name is not always given as it was typed: different names become the same number. *)
Theorem C61_name_refuted : exists s t g, s <> t /\ find_type (DStr s) = Ok g /\ find_type (DStr t) = Ok g.
Proof. exists (str "007"), (str "7"), (GInt 7). split; [discriminate|]. vm_compute. auto. Qed.

Print Assumptions C61_type.
Print Assumptions C61_total.
Print Assumptions C61_lookup.
Print Assumptions C61_name_refuted.
