(** Property C54: the associations of the CSEXRB TRE. *)
From Verif Require Import Base BaseLemmas Engine Wf EngineLemmas Codec RoundTrip Rewrite Literal
  Positions Keys Deps Assign Update Spec DescsHdr DescsTre Tre TreLemmas TrePlace TrePlaceLemmas Scalar Reach P_RoundTrip Image ImageLemmas Loop1 Assoc P_Assoc Csexrb.
From Coq Require Import ZifyBool ZifyNat ZifyN.
Open Scope list_scope.
Ltac Zify.zify_post_hook ::= idtac.

Notation xrows := desc_TreCSEXRB.
Notation xfs := (mk_fs desc_TreCSEXRB).

(** ** What is claimed *)
(** The TRE shows the identifiers [ids] and their number. *)
Definition names FO (s : state FO) (ids : list (list N)) : Prop :=
  get FO xfs s "num_assoc_des" [] = Ok (VInt (Z.of_nat (List.length ids)))
  /\ forall i t, nth_error ids i = Some t -> get FO xfs s "assoc_des_id" [Z.of_nat i] = Ok (VStr t).
(** The identifiers added. *)
Definition ex_ids_of (h : list ex_addition) : list (list N) :=
  flat_map (fun a => match a with ExId t => [t] | ExElem e => match own_id e with Some t => [t] | None => [] end end) h.
(** Identifiers do not end in white space; elements have identifiers. *)
Definition ex_ok (a : ex_addition) : Prop :=
  match a with ExId t => rstrip_by ws_str t = t | ExElem e => exists t, own_id e = Some t /\ rstrip_by ws_str t = t end.

(** ** The table *)
Definition xf (nm : string) : field :=
  match lookup xfs nm with Some f => f | None => {| f_id := 0; f_d := Build_fdesc None (SzInt 0) TStr FrNone DfNone None false 32%N false None 0%Z false; f_loops := [] |} end.
Lemma xrows_wf : wf_rows xrows = true. Proof. vm_compute. reflexivity. Qed.
Lemma cnt_scalar : scalar xrows "num_assoc_des" (xf "num_assoc_des"). Proof. repeat split; vm_compute; reflexivity. Qed.
Lemma cnt_ty : fd_ty (f_d (xf "num_assoc_des")) = TInt. Proof. vm_compute. reflexivity. Qed.
Lemma cnt_opt : fd_optional (f_d (xf "num_assoc_des")) = false. Proof. vm_compute. reflexivity. Qed.
Lemma uid_scalar : scalar xrows "image_uuid" (xf "image_uuid"). Proof. repeat split; vm_compute; reflexivity. Qed.
Lemma uid_ty : fd_ty (f_d (xf "image_uuid")) = TStr /\ fd_optional (f_d (xf "image_uuid")) = false. Proof. vm_compute. auto. Qed.
Notation xsh := (EFld "num_assoc_des" 0).
Lemma id_col : column xrows xsh "assoc_des_id" (xf "assoc_des_id"). Proof. repeat split; vm_compute; reflexivity. Qed.
Lemma id_desc : fd_ty (f_d (xf "assoc_des_id")) = TStr /\ fd_value (f_d (xf "assoc_des_id")) = None /\ fd_optional (f_d (xf "assoc_des_id")) = false.
Proof. vm_compute. auto. Qed.
Definition two (nm : string) : bool := String.eqb nm "num_assoc_des" || String.eqb nm "assoc_des_id".
Lemma refs_apart : forallb (fun f => Nat.eqb (f_id f) (f_id (xf "assoc_des_id"))
  || forallb (fun r => negb (two (fst r))) (field_refs f)) (fs_fields xfs) = true.
Proof. vm_compute. reflexivity. Qed.
Lemma x_init FO : stored FO (init_state FO) (xf "num_assoc_des") [] = SVal (VInt 0)
  /\ stored FO (init_state FO) (xf "image_uuid") [] = SVal (VStr []).
Proof. vm_compute. auto. Qed.
Opaque xf.

Section Add.
Variable FO : FloatOps.
Notation st := (state FO).

Lemma in_xf nm : lookup xfs nm = Some (xf nm) -> In (xf nm) (fs_fields xfs).
Proof. apply lookup_in. Qed.
Lemma x_ne : xf "num_assoc_des" <> xf "assoc_des_id".
Proof. apply (lookup_ne xrows "num_assoc_des" "assoc_des_id"); [apply cnt_scalar|apply id_col|discriminate]. Qed.

(** The other fields neither are nor read the two. *)
Lemma x_apart nm f : lookup xfs nm = Some f -> two nm = false ->
  (f <> xf "num_assoc_des" /\ f <> xf "assoc_des_id") /\ forall y, reaches xfs f y -> y <> xf "num_assoc_des" /\ y <> xf "assoc_des_id".
Proof.
  assert (NE : forall nm f, lookup xfs nm = Some f -> two nm = false -> f <> xf "num_assoc_des" /\ f <> xf "assoc_des_id").
  { intros n g L T. unfold two in T. apply orb_false_iff in T as [T1 T2]. apply String.eqb_neq in T1, T2. split.
    - exact (lookup_ne xrows n "num_assoc_des" g _ L (proj1 cnt_scalar) T1).
    - exact (lookup_ne xrows n "assoc_des_id" g _ L (proj1 id_col) T2). }
  assert (D : forall f y, In f (fs_fields xfs) -> f <> xf "assoc_des_id" -> reads_directly xfs f y ->
            In y (fs_fields xfs) /\ y <> xf "num_assoc_des" /\ y <> xf "assoc_des_id").
  { intros g y Hg Hne (r & Hr & Hy). split; [eapply lookup_in; eauto|]. apply (NE (fst r)); [exact Hy|].
    pose proof refs_apart as R. rewrite forallb_forall in R. specialize (R g Hg). apply orb_true_iff in R as [R|R].
    - exfalso. apply Nat.eqb_eq in R. apply Hne. apply (mk_fs_id_inj xrows); auto. apply in_xf, id_col.
    - rewrite forallb_forall in R. specialize (R r Hr). now apply negb_true_iff. }
  intros L T. destruct (NE nm f L T) as [N1 N2]. split; [auto|].
  assert (Hf := lookup_in _ _ _ L). clear L T N1. intros y R. induction R as [f y H|f y z H R IH].
  - now destruct (D f y Hf N2 H).
  - destruct (D f z Hf N2 H) as (Hz & _ & Hz2). now apply IH.
Qed.

(** *** The number and the identifiers held *)
Lemma cnt_of s : get FO xfs s "num_assoc_des" [] = conv_of FO (f_d (xf "num_assoc_des")) (stored FO s (xf "num_assoc_des") []).
Proof. apply (get_scalar FO xrows s _ _ cnt_scalar). Qed.
Lemma x_times s n : get FO xfs s "num_assoc_des" [] = Ok (VInt n) -> times FO xrows xsh s n.
Proof.
  intro H. unfold times, eval_shape. rewrite (eval_fld0 FO xrows xrows_wf s [] "num_assoc_des" (xf "num_assoc_des")); try apply cnt_scalar.
  rewrite H. reflexivity.
Qed.
Lemma id_of s n i : get FO xfs s "num_assoc_des" [] = Ok (VInt n) -> (0 <= i < n)%Z ->
  get FO xfs s "assoc_des_id" [i] = conv_of FO (f_d (xf "assoc_des_id")) (stored FO s (xf "assoc_des_id") [i]).
Proof.
  intros H Hi. destruct id_desc as (T & V & _). apply (col_get FO xrows xsh s n _ _ i id_col V); [now rewrite T|now apply x_times|exact Hi].
Qed.
Lemma id_end s n : get FO xfs s "num_assoc_des" [] = Ok (VInt n) -> (0 <= n)%Z -> get FO xfs s "assoc_des_id" [n] = Err EIndex.
Proof.
  intros H Hn. pose proof id_col as C. pose proof C as (L & LL & _). unfold get. rewrite L, (col_key xrows xsh _ _ n C).
  unfold fget, get_pub, get_base. rewrite (has_name_lookup xrows _ _ L).
  unfold check_index, depth. rewrite LL. cbn [List.length Nat.eqb negb last removelast].
  replace (n <? 0)%Z with false by lia. pose proof (x_times s n H) as T. unfold times in T. rewrite T. cbn [bind]. rewrite Z.leb_refl. reflexivity.
Qed.

Lemma ex_walk_all s n : get FO xfs s "assoc_des_id" [n] = Err EIndex -> forall l i fuel,
  (forall j v, nth_error l j = Some v -> get FO xfs s "assoc_des_id" [i + Z.of_nat j]%Z = Ok v) -> (i + Z.of_nat (List.length l))%Z = n ->
  (List.length l < fuel)%nat -> ex_walk FO fuel s i = Ok l.
Proof.
  intro E. induction l as [|v l IH]; intros i fuel H Hn Hf; (destruct fuel as [|fuel]; [lia|]); cbn [ex_walk].
  - cbn in Hn. replace i with n by lia. now rewrite E.
  - pose proof (H 0%nat v eq_refl) as H0. rewrite Z.add_0_r in H0. rewrite H0.
    rewrite (IH (i + 1)%Z fuel); [reflexivity| | |cbn in Hf; lia].
    + intros j w Hj. specialize (H (S j) w Hj). replace (i + 1 + Z.of_nat j)%Z with (i + Z.of_nat (S j))%Z by lia. exact H.
    + cbn [List.length] in Hn. lia.
Qed.
Lemma names_list s ids : names FO s ids -> ex_list FO s = Ok (map (fun t => VStr t) ids).
Proof.
  intros [H1 H2]. unfold ex_list. rewrite H1. cbn [bind]. rewrite Nat2Z.id.
  apply (ex_walk_all s _ (id_end s _ H1 ltac:(lia))); [|now rewrite map_length|rewrite map_length; lia].
  intros j v Hj. rewrite nth_error_map in Hj. destruct (nth_error ids j) as [t|] eqn:E; [|discriminate Hj]. injection Hj as <-. now apply H2.
Qed.
Lemma py_in_texts t ids : py_in FO (VStr t) (map (fun t => VStr t) ids) = Ok (existsb (fun a => list_eqb a t) ids).
Proof. induction ids as [|a ids IH]; auto. cbn [map py_in py_eqb bind existsb]. destruct (list_eqb a t); auto. Qed.

(** *** One addition *)
Lemma ex_add_ok s ids t : st_impl FO s = false -> names FO s ids -> rstrip_by ws_str t = t ->
  exists s', ex_add_id FO t s = (s', Ok tt) /\ st_impl FO s' = false /\ names FO s' (add1 text_dec ids t)
    /\ (forall nm k, two nm = false -> get FO xfs s' nm k = get FO xfs s nm k)
    /\ (no_literals FO xfs s -> no_literals FO xfs s').
Proof.
  intros HI R RS. unfold ex_add_id. rewrite (names_list s ids R). cbn [bind]. rewrite py_in_texts.
  unfold add1. destruct (existsb (fun a => list_eqb a t) ids) eqn:X.
  - exists s. split; [reflexivity|]. split; [exact HI|]. split; [|split; auto]. destruct (in_dec text_dec t ids) as [_|C]; [exact R|]. exfalso. apply C.
    apply existsb_exists in X as (y & Y1 & Y2). apply list_eqb_spec in Y2. now subst y.
  - destruct (in_dec text_dec t ids) as [C|_].
    { exfalso. apply Bool.not_true_iff_false in X. apply X. apply existsb_exists. exists t. split; [exact C|now apply list_eqb_spec]. }
    destruct R as [R1 R2]. unfold ex_count. rewrite R1. cbn [bind]. set (n := Z.of_nat (List.length ids)) in *.
    rewrite (set_scalar FO xrows s _ _ (SVal (VInt (n + 1))) cnt_scalar HI) by discriminate.
    set (s1 := assigned FO s (xf "num_assoc_des") [] (SVal (VInt (n + 1)))).
    assert (C1 : get FO xfs s1 "num_assoc_des" [] = Ok (VInt (n + 1))).
    { rewrite cnt_of. unfold s1. rewrite assigned_self. unfold conv_of, convert. now rewrite cnt_ty. }
    rewrite C1. cbn [bind]. replace (n + 1 - 1)%Z with n by lia. destruct id_desc as (T & V & _).
    rewrite (col_set FO xrows xsh s1 (n + 1) "assoc_des_id" (xf "assoc_des_id") n (VStr t) id_col V); [|now rewrite T|exact HI|now apply x_times|lia|discriminate].
    eexists. split; [reflexivity|]. set (s2 := assigned FO s1 (xf "assoc_des_id") [n] (SVal (VStr t))).
    assert (K1 := in_xf "num_assoc_des" (proj1 cnt_scalar)). assert (K2 := in_xf "assoc_des_id" (proj1 id_col)).
    assert (C2 : get FO xfs s2 "num_assoc_des" [] = Ok (VInt (n + 1))).
    { rewrite <- C1, !cnt_of. unfold s2. rewrite (assigned_same FO xrows) by auto using x_ne. reflexivity. }
    split; [exact HI|]. split; [|split].
    + split; [rewrite app_length; cbn [List.length]; replace (Z.of_nat (List.length ids + 1)) with (n + 1)%Z by lia; exact C2|].
      intros i y Hy. assert (Hi : (i < List.length (ids ++ [t]))%nat) by (apply nth_error_Some; congruence). rewrite app_length in Hi. cbn [List.length] in Hi.
      rewrite (id_of s2 (n + 1) _ C2) by lia. unfold s2. apply nth_snoc in Hy as [[-> ->]|[Hne Hy]].
      * fold n. rewrite assigned_self. unfold conv_of, convert. rewrite T. cbn [conv_str]. now rewrite RS.
      * destruct (assigned_stored FO xrows s1 (xf "assoc_des_id") [n] (SVal (VStr t)) (xf "assoc_des_id") [Z.of_nat i] K2 K2) as [E|[_ E]]; [|injection E as E; lia].
        rewrite E. unfold s1. rewrite (assigned_same FO xrows); auto; [|intro Q; now apply x_ne]. 
        rewrite <- (id_of s n _ R1) by lia. now apply R2.
    + intros nm k Hnm. destruct (lookup xfs nm) as [f|] eqn:L; [|unfold get; now rewrite L]. destruct (x_apart nm f L Hnm) as [[A1 A2] A3].
      assert (S : forall y p, In y (fs_fields xfs) -> y <> xf "num_assoc_des" -> y <> xf "assoc_des_id" -> stored FO s2 y p = stored FO s y p).
      { intros y p Hy N1 N2. unfold s2. rewrite (assigned_same FO xrows) by auto. unfold s1. now rewrite (assigned_same FO xrows) by auto. }
      apply (get_same_reads FO xrows s2 s nm f k L); [apply S; auto; eapply lookup_in; eauto|].
      intros y p Ry. destruct (A3 y Ry). apply S; auto. eapply reaches_in; eauto.
    + intros HN y p b Hy. specialize (HN y p b Hy). unfold s2, s1, assigned in *. cbn [st_val set_raw set_val]. unfold upd.
      repeat match goal with |- context [if ?c then _ else _] => destruct c end; try discriminate; exact HN.
Qed.

Lemma ex_add_all_ok h : forall s ids, st_impl FO s = false -> names FO s ids -> Forall ex_ok h ->
  exists s', ex_add_all FO h s = (s', Ok tt) /\ st_impl FO s' = false /\ names FO s' (once text_dec ids (ex_ids_of h))
    /\ (forall nm k, two nm = false -> get FO xfs s' nm k = get FO xfs s nm k)
    /\ (no_literals FO xfs s -> no_literals FO xfs s').
Proof.
  induction h as [|a h IH]; intros s ids HI R F; [exists s; repeat split; auto; apply R|]. inversion F as [|x y Ha F']; subst.
  assert (exists t, ex_add_one FO a s = ex_add_id FO t s /\ rstrip_by ws_str t = t /\ ex_ids_of (a :: h) = t :: ex_ids_of h) as (t & E & Ht & Ei).
  { destruct a as [t|e]; [exists t; auto|]. destruct Ha as (t & Et & Ht). exists t. cbn [ex_add_one]. unfold ex_add_elem. rewrite own_id_eq, Et.
    split; [reflexivity|]. split; [exact Ht|]. cbn [ex_ids_of flat_map]. now rewrite Et. }
  destruct (ex_add_ok s ids t HI R Ht) as (s1 & E1 & I1 & R1 & G1 & L1). cbn [ex_add_all]. rewrite E, E1, Ei.
  destruct (IH s1 _ I1 R1 F') as (s2 & E2 & I2 & R2 & G2 & L2). exists s2. split; [exact E2|]. split; [exact I2|]. split; [exact R2|].
  split; [|auto]. intros nm k T. now rewrite G2, G1.
Qed.

Lemma x_survives nm sz v v' : In nm ["num_assoc_des"; "assoc_des_id"; "image_uuid"]%string -> survives FO (f_d (xf nm)) sz v v' -> v' = v.
Proof.
  destruct id_desc as (T1 & _ & O1), uid_ty as (T2 & O2). pose proof cnt_ty as T3. pose proof cnt_opt as O3.
  intros Hn [->|[(x & t & y & T & _)|(t & _ & O & _)]]; auto; exfalso;
    cbn in Hn; repeat (destruct Hn as [<-|Hn]; [congruence|]); contradiction.
Qed.
Lemma x_col_valid (s : st) nm f n i : column xrows xsh nm f -> times FO xrows xsh s n -> (0 <= i < n)%Z -> valid_index FO xfs s f [i].
Proof.
  intros C T Hi. pose proof C as (L & LL & _). split; [now rewrite LL|]. rewrite LL. intros j Hj. destruct j as [|j]; [|cbn in Hj; lia].
  cbn [firstn nth]. exists n. split; [|exact Hi]. unfold times, eval_shape in T. unfold count_is.
  destruct (eval FO (G FO xfs s) xfs [] xsh) as [v0|]; [|discriminate]. cbn [bind] in T.
  destruct v0; first [left; split; [reflexivity|congruence]|right; eexists; split; [reflexivity|exact T]].
Qed.
End Add.

(** ** C54 *)
(** Additions to any TRE, for instance one that was read: every addition succeeds, each
    identifier is there once, new ones come at the end in the order of their first addition
    ([C38_once]), the count is their number, and every other field shows what it showed.
    Missing: identifiers ending in white space (refuted below). *)
Theorem C54_added_partial FO (h : list ex_addition) (s : state FO) ids :
  st_impl FO s = false -> names FO s ids -> Forall ex_ok h ->
  exists s', ex_add_all FO h s = (s', Ok tt) /\ names FO s' (once text_dec ids (ex_ids_of h))
    /\ forall nm k, nm <> "num_assoc_des"%string -> nm <> "assoc_des_id"%string -> get FO xfs s' nm k = get FO xfs s nm k.
Proof.
  intros HI R F. destruct (ex_add_all_ok FO h s ids HI R F) as (s' & E & _ & R' & G & _). exists s'. split; [exact E|]. split; [exact R'|].
  intros nm k A B. apply G. unfold two. apply orb_false_iff. split; now apply String.eqb_neq.
Qed.

Lemma x_new FO : names FO (init_state FO) [].
Proof.
  split; [|intros [|i] t H; discriminate H]. rewrite cnt_of. rewrite (proj1 (x_init FO)). unfold conv_of, convert. now rewrite cnt_ty.
Qed.
Lemma uid_of FO s : ex_id FO s = conv_of FO (f_d (xf "image_uuid")) (stored FO s (xf "image_uuid") []).
Proof. apply (get_scalar FO xrows s _ _ uid_scalar). Qed.

(** An object without [id] (or [id] [None] that cannot be generated) is refused and nothing
    changes. *)
Theorem C54_no_id FO (e : element) (s : state FO) : own_id e = None -> ex_add_one FO (ExElem e) s = (s, Err ERuntime).
Proof. intro H. cbn [ex_add_one]. unfold ex_add_elem. now rewrite own_id_eq, H. Qed.

(** The identifiers and the TRE's own survive writing and reading. *)
Theorem C54_file FO (s : state FO) ids u s0 lit b rest : FloatLaws FO -> literals_ok FO xfs s -> names FO s ids -> ex_id FO s = Ok u ->
  write FO xfs s = Ok b ->
  exists s1, read FO xfs lit s0 (b ++ rest) = Ok (s1, rest) /\ names FO s1 ids /\ ex_id FO s1 = Ok u.
Proof.
  intros laws HL [N1 N2] HU HW. destruct (C01_round_trip FO xrows s s0 lit b rest laws xrows_wf HL HW) as (s1 & HR & _ & HG).
  exists s1. split; [exact HR|].
  assert (X : forall nm k v, In nm ["num_assoc_des"; "assoc_des_id"; "image_uuid"]%string -> lookup xfs nm = Some (xf nm) -> valid_index FO xfs s (xf nm) k ->
                get FO xfs s nm k = Ok v -> get FO xfs s1 nm k = Ok v).
  { intros nm k v Hn L Hv Hg. destruct (HG nm (xf nm) k v L Hv Hg) as (v' & sz & E & [->|(_ & S)]); [exact E|].
    rewrite (x_survives FO nm sz v v' Hn S) in E. exact E. }
  assert (SV : forall nm f, scalar xrows nm f -> valid_index FO xfs s f []).
  { intros nm f S. split; [now rewrite (proj1 (proj2 S))|]. intros j Hj. rewrite (proj1 (proj2 S)) in Hj. cbn in Hj. lia. }
  split; [split|].
  - apply X; [cbn; tauto|apply cnt_scalar|eapply SV, cnt_scalar|exact N1].
  - intros i t Ht. assert (Hi : (i < List.length ids)%nat) by (apply nth_error_Some; congruence).
    apply X; [cbn; tauto|apply id_col| |now apply N2].
    apply (x_col_valid FO s "assoc_des_id" _ _ _ id_col (x_times FO s _ N1)). clear - Hi. lia.
  - apply X; [cbn; tauto|apply uid_scalar|eapply SV, uid_scalar|exact HU].
Qed.

(** The TRE's own identifier is made once: an empty one is replaced, another one is kept, and
    asking again changes nothing whatever is offered.  Other fields show what they showed. *)
Lemma uid_unread : forallb (fun f => forallb (fun r => negb (String.eqb (fst r) "image_uuid")) (field_refs f)) (fs_fields xfs) = true.
Proof. vm_compute. reflexivity. Qed.
Theorem C54_uuid FO (s : state FO) t u : st_impl FO s = false -> ex_id FO s = Ok (VStr t) -> rstrip_by ws_str u = u -> u <> [] ->
  exists s', ex_generate FO u s = (s', Ok tt)
    /\ ex_id FO s' = Ok (VStr (match t with [] => u | _ => t end))
    /\ (forall u', ex_generate FO u' s' = (s', Ok tt))
    /\ (forall nm k, nm <> "image_uuid"%string -> get FO xfs s' nm k = get FO xfs s nm k).
Proof.
  intros HI HU RS NU.
  assert (again : forall s' c t', ex_id FO s' = Ok (VStr (c :: t')) -> forall u', ex_generate FO u' s' = (s', Ok tt)).
  { intros s' c t' E u'. unfold ex_generate. now rewrite E. }
  destruct t as [|c t].
  2:{ exists s. split; [eapply again; eauto|]. split; [exact HU|]. split; [eapply again; eauto|auto]. }
  unfold ex_generate at 1. rewrite HU. cbn [bind py_eqb list_eqb].
  rewrite (set_scalar FO xrows s _ _ (SVal (VStr u)) uid_scalar HI) by discriminate. set (s1 := assigned FO s (xf "image_uuid") [] (SVal (VStr u))).
  assert (E1 : ex_id FO s1 = Ok (VStr u)).
  { rewrite uid_of. unfold s1. rewrite assigned_self. unfold conv_of, convert. rewrite (proj1 uid_ty). cbn [conv_str]. now rewrite RS. }
  exists s1. split; [reflexivity|]. split; [exact E1|]. split.
  { destruct u as [|c u]; [contradiction|]. eapply again; eauto. }
  intros nm k Hnm. destruct (lookup xfs nm) as [f|] eqn:L; [|unfold get; now rewrite L].
  assert (K := in_xf "image_uuid" (proj1 uid_scalar)).
  assert (N : forall n g, lookup xfs n = Some g -> n <> "image_uuid"%string -> g <> xf "image_uuid").
  { intros n g Ln Hn. exact (lookup_ne xrows n "image_uuid" g _ Ln (proj1 uid_scalar) Hn). }
  assert (D : forall g y, In g (fs_fields xfs) -> reads_directly xfs g y -> In y (fs_fields xfs) /\ y <> xf "image_uuid").
  { intros g y Hg (r & Hr & Hy). split; [eapply lookup_in; eauto|]. apply (N (fst r)); [exact Hy|].
    pose proof uid_unread as R. rewrite forallb_forall in R. specialize (R g Hg). rewrite forallb_forall in R. specialize (R r Hr).
    apply negb_true_iff, String.eqb_neq in R. exact R. }
  assert (A : forall g y, reaches xfs g y -> In g (fs_fields xfs) -> In y (fs_fields xfs) /\ y <> xf "image_uuid").
  { intros g y R. induction R as [g y H|g y z H R IH]; intro Hg; [now apply (D g)|]. apply IH. now apply (D g z). }
  assert (Hf := lookup_in _ _ _ L).
  apply (get_same_reads FO xrows s1 s nm f k L).
  - unfold s1. apply (assigned_same FO xrows); auto. now apply (N nm).
  - intros y p Ry. destruct (A f y Ry Hf). unfold s1. now apply (assigned_same FO xrows).
Qed.

(** One result for each identifier, in order: the last DES of the file with that identifier,
    [None] if there is none. *)
Theorem C54_found {E} FO (s : state FO) ids (des : list (option (list N) * E)) : names FO s ids ->
  ex_assoc FO s des = Ok (map (fun k => last_with k (candidates des [])) ids).
Proof.
  intro R. unfold ex_assoc. rewrite (names_list FO s ids R). cbn [bind]. rewrite texts_of. cbn [bind]. f_equal. apply (C45_found ids des []).
Qed.

Lemma last_unique {E} (c : list (list N * E)) k e : NoDup (map fst c) -> In (k, e) c -> last_with k c = Some e.
Proof.
  intros ND I. unfold last_with. destruct (find (fun p => list_eqb (fst p) k) (rev c)) as [[k' e']|] eqn:F.
  - apply find_some in F as [F1 F2]. cbn [fst] in F2. apply list_eqb_spec in F2. subst k'. apply in_rev in F1. cbn [option_map snd]. f_equal.
    clear - ND I F1. induction c as [|x c IH]; [contradiction|]. cbn [map] in ND. inversion ND as [|y l A B]; subst.
    destruct I as [->|I], F1 as [E1|F1]; [congruence| | |now apply IH].
    + exfalso. apply A. exact (in_map fst c (k, e') F1).
    + exfalso. apply A. subst x. exact (in_map fst c (k, e) I).
  - exfalso. assert (X := find_none _ _ F (k, e) (proj1 (in_rev _ _) I)). cbn [fst] in X.
    assert (Y : list_eqb k k = true) by now apply list_eqb_spec. congruence.
Qed.

Lemma once_nodup {A} (eqd : forall x y : A, {x = y} + {x <> y}) : forall xs l, NoDup (l ++ xs) -> once eqd l xs = l ++ xs.
Proof.
  induction xs as [|x xs IH]; intros l H; [now rewrite app_nil_r|]. unfold once. cbn [fold_left]. destruct (in_dec eqd x l) as [I|I].
  - exfalso. apply NoDup_remove_2 in H. apply H. apply in_app_iff. now left.
  - fold (once eqd (l ++ [x]) xs). rewrite IH; rewrite <- app_assoc; [reflexivity|exact H].
Qed.

(** DESs of a file whose DESs have different identifiers, added to a new TRE in any order,
    are what the TRE finds in that file, in the order of the additions -- at once, and after
    the TRE was written and read. *)
Theorem C54_link {E} FO (added : list (list N * E)) (des : list (option (list N) * E)) s0 lit b rest :
  (forall d, In d added -> In (Some (fst d), snd d) des /\ rstrip_by ws_str (fst d) = fst d /\ fst d <> []) ->
  NoDup (map fst added) -> NoDup (map fst (candidates des [])) ->
  exists s, ex_add_all FO (map (fun d => ExElem (WithId (fst d) None)) added) (init_state FO) = (s, Ok tt)
    /\ ex_assoc FO s des = Ok (map (fun d => Some (snd d)) added)
    /\ (FloatLaws FO -> write FO xfs s = Ok b ->
        exists s1, read FO xfs lit s0 (b ++ rest) = Ok (s1, rest) /\ ex_assoc FO s1 des = Ok (map (fun d => Some (snd d)) added)).
Proof.
  intros HA N1 N2.
  assert (Ids : ex_ids_of (map (fun d => ExElem (WithId (fst d) None)) added) = map fst added).
  { clear N1 N2. induction added as [|[k e] l IH]; [reflexivity|]. destruct (HA (k, e) (or_introl eq_refl)) as (_ & _ & K). cbn [fst] in K.
    cbn [map ex_ids_of flat_map fst]. fold (ex_ids_of (map (fun d : list N * E => ExElem (WithId (fst d) None)) l)).
    rewrite IH by (intros d Hd; apply HA; now right). destruct k; [contradiction|reflexivity]. }
  assert (F : Forall ex_ok (map (fun d : list N * E => ExElem (WithId (fst d) None)) added)).
  { apply Forall_forall. intros a Ha. apply in_map_iff in Ha as ([k e] & <- & Hd). destruct (HA _ Hd) as (_ & A & B). cbn [fst] in A, B |- *.
    cbn [ex_ok]. exists k. split; [|exact A]. destruct k; [contradiction|reflexivity]. }
  destruct (ex_add_all_ok FO _ (init_state FO) [] eq_refl (x_new FO) F) as (s & E1 & _ & R & G & L). rewrite Ids in R.
  rewrite (once_nodup text_dec (map fst added) []) in R by exact N1. cbn [app] in R.
  assert (Found : forall s, names FO s (map fst added) -> ex_assoc FO s des = Ok (map (fun d => Some (snd d)) added)).
  { intros z Hz. rewrite (C54_found FO z _ des Hz). f_equal. rewrite map_map. apply map_ext_in. intros [k e] Hd. cbn [fst snd].
    apply last_unique; [exact N2|]. unfold candidates. rewrite app_nil_r. apply in_flat_map. exists (Some k, e). split; [apply (HA _ Hd)|]. now left. }
  exists s. split; [exact E1|]. split; [now apply Found|]. intros laws HW.
  assert (U : ex_id FO s = Ok (VStr [])).
  { unfold ex_id. rewrite G by reflexivity. change (ex_id FO (init_state FO) = Ok (VStr [])). rewrite uid_of, (proj2 (x_init FO)).
    unfold conv_of, convert. now rewrite (proj1 uid_ty). }
  assert (HL : literals_ok FO xfs s) by (apply (no_literals_ok FO xrows); apply L, no_literals_init).
  destruct (C54_file FO s _ _ s0 lit b rest laws HL R U HW) as (s1 & HR & R1 & _).
  exists s1. split; [exact HR|]. now apply Found.
Qed.

(** An object without an identifier is refused, the TRE stays as it was and nothing after it is added. *)
Theorem C54_stops FO h h' s s1 e : element_id e = None -> ex_add_all FO h s = (s1, Ok tt) ->
  ex_add_all FO (h ++ ExElem e :: h') s = (s1, Err ERuntime).
Proof.
  intro He. revert s. induction h as [|a h IH]; intros s H; cbn [app ex_add_all] in *.
  - injection H as <-. cbn [ex_add_one]. unfold ex_add_elem. now rewrite He.
  - destruct (ex_add_one FO a s) as [s2 [u|x]] eqn:E; [now apply IH|congruence].
Qed.

(** ** Cases *)
Definition ex_hist : list ex_addition := [ExId [97; 98]%N; ExElem (WithId [] (Some [99]%N)); ExId [97; 98]%N; ExElem (WithId [100]%N None)].
Example C54_case FO : Forall ex_ok ex_hist
  /\ (match ex_add_all FO ex_hist (init_state FO) with
      | (s, Ok _) => (do l <- ex_list FO s; texts FO l, ex_count FO s,
                      ex_assoc FO s [(Some [99]%N, 1%Z); (None, 2%Z); (Some [97; 98]%N, 3%Z); (Some [99]%N, 4%Z)],
                      ex_id FO (fst (ex_generate FO [117]%N s)))
      | _ => (Err EValue, Err EValue, Err EValue, Err EValue)
      end) = (Ok [[97; 98]; [99]; [100]]%N, Ok 3%Z, Ok [Some 3; Some 4; None]%Z, Ok (VStr [117]%N)).
Proof.
  split; [|vm_compute; auto]. unfold ex_hist.
  repeat (apply Forall_cons; [first [reflexivity|eexists; split; reflexivity]|]). apply Forall_nil.
Qed.
(** Two DESs added in the other order than in the file; the TRE with them can be written and
    read again. *)
Example C54_link_case FO :
  (match ex_add_all FO (map (fun d => ExElem (WithId (fst d) None)) [([99]%N, 7%Z); ([97]%N, 5%Z)]) (init_state FO) with
   | (s, Ok _) =>
       (ex_assoc FO s [(Some [97]%N, 5%Z); (None, 6%Z); (Some [99]%N, 7%Z)],
        match write FO xfs s with
        | Ok b => match read FO xfs false (init_state FO) b with
                  | Ok (s1, r) => (List.length b, List.length r, ex_assoc FO s1 [(Some [97]%N, 5%Z); (None, 6%Z); (Some [99]%N, 7%Z)])
                  | Err e => (O, O, Err e) end
        | Err e => (O, O, Err e) end)
   | _ => (Err EValue, (O, O, Err EValue))
   end) = (Ok [Some 7; Some 5]%Z, (332%nat, O, Ok [Some 7; Some 5]%Z)).
Proof. vm_compute. reflexivity. Qed.

(** ** Where the full statement fails *)
(** An identifier ending in a blank is kept twice when added twice. *)
Theorem C54_blank_refuted FO : exists id s, ex_add_all FO [ExId id; ExId id] (init_state FO) = (s, Ok tt)
  /\ exists id', (do l <- ex_list FO s; texts FO l) = Ok [id'; id'].
Proof.
  pose (r := ex_add_all FO [ExId [97; 32]%N; ExId [97; 32]%N] (init_state FO)).
  assert (X : (snd r, (do l <- ex_list FO (fst r); texts FO l)) = (Ok tt, Ok [[97]; [97]]%N)) by (vm_compute; reflexivity).
  exists [97; 32]%N, (fst r). fold r. clearbody r. destruct r as [s x]. cbn [fst snd] in X. injection X as -> X1. split; [reflexivity|]. eauto.
Qed.

Print Assumptions C54_added_partial.
Print Assumptions C54_no_id.
Print Assumptions C54_file.
Print Assumptions C54_uuid.
Print Assumptions C54_found.
Print Assumptions C54_link.
Print Assumptions C54_blank_refuted.
Print Assumptions C54_stops.
