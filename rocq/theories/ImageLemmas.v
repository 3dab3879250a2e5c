(** Facts about the image subheader used for C35 and C36. *)
From Verif Require Import Base BaseLemmas Engine Wf EngineLemmas Codec RoundTrip Rewrite Literal
  Positions Keys Deps Assign Update Spec DescsHdr Utf8 Tre TreLemmas TrePlace TrePlaceLemmas Scalar Security P_Security Image.
From Coq Require Import ZifyBool ZifyNat ZifyN.
Open Scope list_scope.
Ltac Zify.zify_post_hook ::= idtac.

Section Gen.
Variable FO : FloatOps.
Variable rows : list row.
Hypothesis wf : wf_rows rows = true.
Let fs := mk_fs rows.

(** A reference to a field outside of loops has the value the user sees. *)
Lemma eval_fld0 (s : state FO) k nm f : lookup fs nm = Some f -> f_loops f = [] ->
  eval FO (G FO fs s) fs k (EFld nm 0) = get FO fs s nm [].
Proof.
  intros HL HF. cbn [eval]. unfold eval_ref, get. rewrite HL. unfold depth, key_shape_ok, depth. rewrite HF.
  cbn [List.length]. apply (G_get_pub FO rows s f [] wf). eapply lookup_in; eauto.
Qed.

(** A field outside of loops with a condition. *)
Lemma get_cond (s : state FO) nm f c : lookup fs nm = Some f -> f_loops f = [] -> fd_value (f_d f) = None ->
  is_data_ty (fd_ty (f_d f)) = false -> check_condition FO (G FO fs s) fs f [] = Ok c ->
  get FO fs s nm [] = if c then conv_of FO (f_d f) (stored FO s f []) else Ok VNone.
Proof.
  intros HL H1 H2 H3 HC. unfold get. rewrite HL. unfold key_shape_ok, depth. rewrite H1. cbn [List.length].
  unfold fget, get_pub, get_base, check_index. rewrite H1, HC, (has_name_lookup rows nm f HL). cbn [bind].
  destruct c; cbn [negb bind].
  - rewrite H2. unfold conv_of. destruct (convert FO (f_d f) (stored FO s f [])) as [x|e]; cbn; auto.
    destruct (fd_ty (f_d f)); auto; discriminate.
  - destruct (fd_ty (f_d f)); auto; discriminate.
Qed.

(** Any plain assignment that is allowed. *)
Lemma set_allowed (s : state FO) nm f k v : lookup fs nm = Some f -> is_data_ty (fd_ty (f_d f)) = false ->
  key_shape_ok f k = true -> may_assign FO fs s f k v -> set FO fs s nm k v = (assigned FO s f k v, Ok tt).
Proof.
  intros HL HD HK HM. destruct (set_plain FO fs s nm f k v HL HD) as [(_ & _ & H)|(H & _)]; auto. destruct H. split; auto.
Qed.

Lemma assigned_impl (s : state FO) f k v : st_impl FO (assigned FO s f k v) = st_impl FO s.
Proof. reflexivity. Qed.

End Gen.

Notation irows := desc_NitfImageSubheader.
Notation ifs := (mk_fs desc_NitfImageSubheader).

Lemma irows_wf : wf_rows irows = true.
Proof. vm_compute. reflexivity. Qed.

(** The plain fields used below. *)
Definition plain_names : list string :=
  ["iid1"; "iid2"; "idlvl"; "isclas"; "irep"; "icat"; "encryp"; "idatim"; "nrows"; "ncols"; "nbpr"; "nbpc"; "nppbh";
   "nppbv"; "abpp"; "nbpp"; "pvtype"; "nbands"; "ic"; "nicom"; "imode"]%string.
Lemma plain_scalar : forall nm, In nm plain_names -> exists f, scalar irows nm f.
Proof.
  assert (H : forallb (scalarb irows) plain_names = true) by (vm_compute; reflexivity).
  intros nm Hn. rewrite forallb_forall in H. now apply scalarb_ok, H.
Qed.
Definition fld_of (nm : string) : field :=
  match lookup ifs nm with Some f => f | None => {| f_id := 0; f_d := Build_fdesc None (SzInt 0) TStr FrNone DfNone None false 32%N false None 0%Z false; f_loops := [] |} end.
Lemma plain_fld nm : In nm plain_names -> scalar irows nm (fld_of nm).
Proof.
  intro H. destruct (plain_scalar nm H) as (f & Hf). unfold fld_of. destruct (proj1 Hf). 
  destruct Hf as (HL & Hf). rewrite HL. split; auto.
Qed.

(** The type and the optional flag of the plain fields. *)
Definition int_names : list string :=
  ["idlvl"; "encryp"; "nrows"; "ncols"; "nbpr"; "nbpc"; "nppbh"; "nppbv"; "abpp"; "nbpp"; "nbands"; "nicom"]%string.
Definition str_names : list string :=
  ["iid1"; "iid2"; "isclas"; "irep"; "icat"; "idatim"; "pvtype"; "ic"; "imode"]%string.
Lemma int_fld nm : In nm int_names -> scalar irows nm (fld_of nm) /\ fd_ty (f_d (fld_of nm)) = TInt /\ fd_optional (f_d (fld_of nm)) = false.
Proof.
  assert (H : forallb (fun nm => match fd_ty (f_d (fld_of nm)) with TInt => negb (fd_optional (f_d (fld_of nm))) | _ => false end
              && existsb (String.eqb nm) plain_names) int_names = true) by (vm_compute; reflexivity).
  intro Hn. rewrite forallb_forall in H. specialize (H nm Hn). apply andb_true_iff in H as [H1 H2].
  apply existsb_exists in H2 as (x & Hx & E). apply String.eqb_eq in E. subst x. split; [now apply plain_fld|].
  destruct (fd_ty (f_d (fld_of nm))); try discriminate. split; auto. now apply negb_true_iff.
Qed.
Lemma str_fld nm : In nm str_names -> scalar irows nm (fld_of nm) /\ fd_ty (f_d (fld_of nm)) = TStr /\ fd_optional (f_d (fld_of nm)) = false.
Proof.
  assert (H : forallb (fun nm => match fd_ty (f_d (fld_of nm)) with TStr => negb (fd_optional (f_d (fld_of nm))) | _ => false end
              && existsb (String.eqb nm) plain_names) str_names = true) by (vm_compute; reflexivity).
  intro Hn. rewrite forallb_forall in H. specialize (H nm Hn). apply andb_true_iff in H as [H1 H2].
  apply existsb_exists in H2 as (x & Hx & E). apply String.eqb_eq in E. subst x. split; [now apply plain_fld|].
  destruct (fd_ty (f_d (fld_of nm))); try discriminate. split; auto. now apply negb_true_iff.
Qed.

(** [xbands] and the fields of the band loop. *)
Definition bands_loop : expr :=
  EIf (ECmp CGt (EFld "nbands" 0) (EInt 0%Z)) (EFld "nbands" 0) (EFld "xbands" 0).
Lemma xbands_fld : lookup ifs "xbands" = Some (fld_of "xbands") /\ f_loops (fld_of "xbands") = []
  /\ f_d (fld_of "xbands") = Build_fdesc (Some "xbands"%string) (SzInt 5%Z) TInt FrNone DfNone
       (Some (ECmp CEq (EFld "nbands" 0) (EInt 0%Z))) false 32%N false None 0%Z false.
Proof. vm_compute. auto. Qed.
Definition band_names : list string := ["irepband"; "isubcat"; "nluts"]%string.
Lemma band_fld nm : In nm band_names ->
  lookup ifs nm = Some (fld_of nm) /\ f_loops (fld_of nm) = [bands_loop] /\ fd_cond (f_d (fld_of nm)) = None
  /\ fd_hard (f_d (fld_of nm)) = false /\ fd_value (f_d (fld_of nm)) = None /\ is_data_ty (fd_ty (f_d (fld_of nm))) = false.
Proof. cbn. intros [<-|[<-|[<-|[]]]]; vm_compute; auto 10. Qed.

Lemma fld_ne nm nm' f f' : lookup ifs nm = Some f -> lookup ifs nm' = Some f' -> nm <> nm' -> f <> f'.
Proof. intros. eapply (lookup_ne irows nm nm'); eauto. Qed.

Section Image.
Variable FO : FloatOps.
Notation hdr := (hdr FO).
Notation st0 h nm := (stored FO (h_st h) (fld_of nm) []).

(** A header that can be assigned to. *)
Definition open (h : hdr) : Prop := st_impl FO (h_st h) = false /\ h_attr h = [].

(** Slots changed by an assignment: only [nm] at [k]. *)
Definition only (nm : string) (k : list Z) (v : pyval FO) (h h' : hdr) : Prop :=
  stored FO (h_st h') (fld_of nm) k = SVal v
  /\ (forall y p, In y (fs_fields ifs) -> y <> fld_of nm -> stored FO (h_st h') y p = stored FO (h_st h) y p).

Lemma iset_plain nm v (h : hdr) : In nm plain_names -> open h -> v <> VNone ->
  exists h', iset FO nm v h = (h', Ok tt) /\ open h' /\ only nm [] v h h'.
Proof.
  intros Hn (HI & HA) Hv. assert (S := plain_fld nm Hn). unfold iset. rewrite (hset_scalar FO irows h nm (fld_of nm) v S HI Hv).
  eexists. split; [reflexivity|]. split; [split; auto|]. split; [apply assigned_self|].
  intros y p Hy Hne. cbn [h_st]. apply (assigned_same FO irows); auto. eapply scalar_in; eauto.
Qed.

Lemma iget_plain nm (h : hdr) : In nm plain_names -> iget FO h nm = conv_of FO (f_d (fld_of nm)) (st0 h nm).
Proof. intro Hn. unfold iget. apply hget_scalar. now apply plain_fld. Qed.

Lemma iget_int nm (h : hdr) z : In nm int_names -> st0 h nm = SVal (VInt z) -> iget FO h nm = Ok (VInt z).
Proof.
  intros Hn E. destruct (int_fld nm Hn) as (S & T & O). unfold iget. rewrite (hget_scalar FO irows h nm _ S), E.
  unfold conv_of, convert. rewrite T. reflexivity.
Qed.
Lemma iget_str nm (h : hdr) t : In nm str_names -> st0 h nm = SVal (VStr t) -> rstrip_by ws_str t = t -> iget FO h nm = Ok (VStr t).
Proof.
  intros Hn E R. destruct (str_fld nm Hn) as (S & T & O). unfold iget. rewrite (hget_scalar FO irows h nm _ S), E.
  unfold conv_of, convert. rewrite T. cbn. now rewrite R.
Qed.

Lemma get_nbands (h : hdr) : iget FO h "nbands" = get FO ifs (h_st h) "nbands" [].
Proof. unfold iget, hget. destruct (int_fld "nbands" ltac:(cbn; tauto)) as ((L & _) & _). now rewrite L. Qed.

Lemma xbands_cond (h : hdr) z : iget FO h "nbands" = Ok (VInt z) ->
  check_condition FO (G FO ifs (h_st h)) ifs (fld_of "xbands") [] = Ok (z =? 0)%Z.
Proof.
  intro E. destruct xbands_fld as (XL & X1 & X2). unfold check_condition. rewrite X2. cbn [fd_cond].
  cbn [eval]. change (eval_ref FO (G FO ifs (h_st h)) ifs [] "nbands" 0) with (eval FO (G FO ifs (h_st h)) ifs [] (EFld "nbands" 0)).
  destruct (int_fld "nbands" ltac:(cbn; tauto)) as ((L & L1 & _) & _).
  rewrite (eval_fld0 FO irows irows_wf (h_st h) [] "nbands" _ L L1), <- get_nbands, E. reflexivity.
Qed.

Lemma get_xbands (h : hdr) z : iget FO h "nbands" = Ok (VInt z) ->
  iget FO h "xbands" = if (z =? 0)%Z then conv_of FO (f_d (fld_of "xbands")) (st0 h "xbands") else Ok VNone.
Proof.
  intro E. destruct xbands_fld as (XL & X1 & X2). unfold iget, hget. rewrite XL.
  apply (get_cond FO irows (h_st h) "xbands" (fld_of "xbands") _ XL X1); [now rewrite X2|now rewrite X2|].
  now apply xbands_cond.
Qed.

(** The header says there are [n] bands. *)
Definition bands_are (h : hdr) (n : Z) : Prop :=
  (0 < n < 10)%Z /\ st0 h "nbands" = SVal (VInt n)
  \/ (10 <= n)%Z /\ st0 h "nbands" = SVal (VInt 0) /\ st0 h "xbands" = SVal (VInt n).

Lemma bands_get h n : bands_are h n -> number_band FO h = Ok (VInt n).
Proof.
  intro B. unfold number_band, iint, hint. fold (iget FO h "nbands").
  destruct B as [(Hn & E)|(Hn & E & X)].
  - rewrite (iget_int "nbands" h n) by (auto; cbn; tauto). cbn [bind]. replace (n >? 0)%Z with true by lia. reflexivity.
  - assert (E0 := iget_int "nbands" h 0 ltac:(cbn; tauto) E). rewrite E0. cbn [bind Z.gtb Z.compare].
    rewrite (get_xbands h 0 E0), X. cbn [Z.eqb]. unfold conv_of, convert. destruct xbands_fld as (_ & _ & ->). reflexivity.
Qed.

Lemma bands_shape h n k : bands_are h n -> eval_shape FO (G FO ifs (h_st h)) ifs k bands_loop = Ok n.
Proof.
  intro B. unfold eval_shape, bands_loop. cbn [eval].
  change (eval_ref FO (G FO ifs (h_st h)) ifs k "nbands" 0) with (eval FO (G FO ifs (h_st h)) ifs k (EFld "nbands" 0)).
  change (eval_ref FO (G FO ifs (h_st h)) ifs k "xbands" 0) with (eval FO (G FO ifs (h_st h)) ifs k (EFld "xbands" 0)).
  destruct (int_fld "nbands" ltac:(cbn; tauto)) as ((L & L1 & _) & _). destruct xbands_fld as (XL & X1 & X2).
  rewrite (eval_fld0 FO irows irows_wf (h_st h) k "nbands" _ L L1).
  rewrite (eval_fld0 FO irows irows_wf (h_st h) k "xbands" _ XL X1). rewrite <- get_nbands.
  assert (EX : get FO ifs (h_st h) "xbands" [] = iget FO h "xbands") by (unfold iget, hget; now rewrite XL). rewrite EX.
  destruct B as [(Hn & E)|(Hn & E & X)].
  - rewrite (iget_int "nbands" h n) by (auto; cbn; tauto). cbn [bind eval_cmp as_Z].
    replace (cmp_Z CGt n 0) with true by (cbn; lia). reflexivity.
  - assert (E0 := iget_int "nbands" h 0 ltac:(cbn; tauto) E). rewrite E0. cbn [bind eval_cmp as_Z cmp_Z truthy].
    rewrite (get_xbands h 0 E0), X. cbn [Z.eqb]. unfold conv_of, convert. destruct xbands_fld as (_ & _ & ->). reflexivity.
Qed.

Lemma iset_xbands (h : hdr) n : open h -> st0 h "nbands" = SVal (VInt 0) ->
  exists h', iset FO "xbands" (VInt n) h = (h', Ok tt) /\ open h' /\ only "xbands" [] (VInt n) h h'.
Proof.
  intros (HI & HA) E. destruct xbands_fld as (XL & X1 & X2). unfold iset, hset. rewrite XL.
  rewrite (set_allowed FO irows (h_st h) "xbands" (fld_of "xbands") [] (SVal (VInt n)) XL).
  - eexists. split; [reflexivity|]. split; [split; auto|]. split; [apply assigned_self|].
    intros y p Hy Hne. cbn [h_st]. apply (assigned_same FO irows); auto. eapply lookup_in; eauto.
  - now rewrite X2.
  - unfold key_shape_ok, depth. now rewrite X1.
  - unfold may_assign. rewrite X2. cbn [fd_name fd_hard fd_value fd_optional]. split; [discriminate|]. split; [unfold check_index; now rewrite X1|].
    split; [apply (xbands_cond h 0); apply (iget_int "nbands"); auto; cbn; tauto|]. repeat split; auto. discriminate.
Qed.

Lemma iset_band nm (h : hdr) n b v : In nm band_names -> open h -> bands_are h n -> (0 <= b < n)%Z -> v <> VNone ->
  exists h', iset_at FO nm [b] v h = (h', Ok tt) /\ open h' /\ only nm [b] v h h'.
Proof.
  intros Hn (HI & HA) B Hb Hv. destruct (band_fld nm Hn) as (L & L1 & L2 & L3 & L4 & L5). unfold iset_at.
  rewrite (set_allowed FO irows (h_st h) nm (fld_of nm) [b] (SVal v) L L5).
  - eexists. split; [reflexivity|]. split; [split; auto|]. split; [apply assigned_self|].
    intros y p Hy Hne. cbn [h_st]. apply (assigned_same FO irows); auto. eapply lookup_in; eauto.
  - unfold key_shape_ok, depth. now rewrite L1.
  - unfold may_assign. split; [rewrite (has_name_lookup irows nm _ L); discriminate|].
    split; [|split; [unfold check_condition; now rewrite L2|repeat split; auto; congruence]].
    unfold check_index, depth. rewrite L1. cbn [List.length Nat.eqb negb last removelast].
    replace (b <? 0)%Z with false by lia. rewrite (bands_shape h n [] B). cbn [bind]. replace (n <=? b)%Z with false by lia. reflexivity.
Qed.

Lemma only_other nm k v h h' nm' f' : only nm k v h h' -> lookup ifs nm = Some (fld_of nm) -> lookup ifs nm' = Some f' -> nm' <> nm ->
  forall p, stored FO (h_st h') f' p = stored FO (h_st h) f' p.
Proof. intros (_ & H) L L' Hne p. apply H; [eapply lookup_in; eauto|]. eapply fld_ne; eauto. Qed.

(** ** The setters *)
Lemma set_number_band_ok (h : hdr) n : open h -> (1 <= n)%Z ->
  exists h', set_number_band FO n h = (h', Ok tt) /\ open h' /\ bands_are h' n
    /\ (forall y p, In y (fs_fields ifs) -> y <> fld_of "nbands" -> y <> fld_of "xbands" ->
          stored FO (h_st h') y p = stored FO (h_st h) y p).
Proof.
  intros HO Hn. unfold set_number_band. destruct (Z.ltb_spec n 10).
  - destruct (iset_plain "nbands" (VInt n) h) as (h' & E & O' & S1 & S2); auto; [cbn; tauto|discriminate|].
    exists h'. split; [exact E|]. split; [auto|]. split; [left; split; [lia|auto]|]. intros; now apply S2.
  - cbn [steps]. destruct (iset_plain "nbands" (VInt 0) h) as (h1 & E & O1 & S1 & S2); auto; [cbn; tauto|discriminate|].
    rewrite E. destruct (iset_xbands h1 n O1 S1) as (h2 & E2 & O2 & T1 & T2). rewrite E2.
    exists h2. split; [reflexivity|]. split; [auto|].
    destruct xbands_fld as (XL & _). destruct (int_fld "nbands" ltac:(cbn; tauto)) as ((L & _) & _).
    split.
    + right. split; [lia|]. split; [|exact T1]. rewrite T2; [exact S1|eapply lookup_in; eauto|].
      eapply fld_ne; eauto. discriminate.
    + intros y p Hy N1 N2. rewrite T2 by auto. now apply S2.
Qed.

Lemma set_dtype_ok (h : hdr) be d : open h ->
  exists h', set_dtype FO (Np be d) h = (h', Ok tt) /\ open h'
    /\ st0 h' "abpp" = SVal (VInt (fst (dtype_fields d))) /\ st0 h' "nbpp" = SVal (VInt (fst (dtype_fields d)))
    /\ st0 h' "pvtype" = SVal (VStr (str (snd (dtype_fields d))))
    /\ (forall y p, In y (fs_fields ifs) -> y <> fld_of "abpp" -> y <> fld_of "nbpp" -> y <> fld_of "pvtype" ->
          stored FO (h_st h') y p = stored FO (h_st h) y p).
Proof.
  intro HO. unfold set_dtype. destruct (dtype_fields d) as [n p]. cbn [fst snd steps].
  destruct (iset_plain "abpp" (VInt n) h) as (h1 & E1 & O1 & S1 & T1); auto; [cbn; tauto|discriminate|]. rewrite E1.
  destruct (iset_plain "nbpp" (VInt n) h1) as (h2 & E2 & O2 & S2 & T2); auto; [cbn; tauto|discriminate|]. rewrite E2.
  destruct (iset_plain "pvtype" (VStr (str p)) h2) as (h3 & E3 & O3 & S3 & T3); auto; [cbn; tauto|discriminate|]. rewrite E3.
  destruct (int_fld "abpp" ltac:(cbn; tauto)) as ((L1 & _) & _). destruct (int_fld "nbpp" ltac:(cbn; tauto)) as ((L2 & _) & _).
  destruct (str_fld "pvtype" ltac:(cbn; tauto)) as ((L3 & _) & _).
  assert (N12 := fld_ne _ _ _ _ L1 L2 ltac:(discriminate)). assert (N13 := fld_ne _ _ _ _ L1 L3 ltac:(discriminate)).
  assert (N23 := fld_ne _ _ _ _ L2 L3 ltac:(discriminate)).
  assert (I1 := lookup_in _ _ _ L1). assert (I2 := lookup_in _ _ _ L2).
  exists h3. split; [reflexivity|]. split; [auto|]. split; [rewrite T3, T2 by auto; exact S1|].
  split; [rewrite T3 by auto; exact S2|]. split; [exact S3|].
  intros y q Hy A1 A2 A3. rewrite T3, T2, T1 by auto. reflexivity.
Qed.

Lemma dtype_of_fields (h : hdr) d : iget FO h "nbpp" = Ok (VInt (fst (dtype_fields d))) ->
  iget FO h "pvtype" = Ok (VStr (str (snd (dtype_fields d)))) -> get_dtype FO h = Ok d.
Proof.
  intros E1 E2. unfold get_dtype, dtype_table, find_dtype, ieq. rewrite E1, E2.
  destruct d; vm_compute; reflexivity.
Qed.

End Image.
