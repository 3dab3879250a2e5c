(** Writing a file a second time. *)
From Verif Require Import Base BaseLemmas Engine Wf EngineLemmas Codec RoundTrip Rewrite Literal
  Positions Keys Deps Assign Update Ext Spec DescsHdr Utf8 Handles Tre TreLemmas
  TrePlace TrePlaceLemmas PrepTwice Scalar Security Image ImageLemmas File FileLemmas P_TrePlace P_File P_FileKeep.
From Coq Require Import ZifyBool ZifyNat ZifyN.
Open Scope list_scope.
Ltac Zify.zify_post_hook ::= idtac.

(** The areas with the right names: that of graphics has another name for its overflow number. *)
Definition right_areas (k : kind) : list tarea :=
  match k with
  | KGraphic => [{| ta_len := "sxshdl"; ta_ofl := "sxofl"; ta_data := "sxshd" |}]
  | _ => sub_areas k
  end%string.
Lemma right_ok k : areas_ok (sub_rows k) (right_areas k).
Proof.
  destruct k; (split; [vm_compute; reflexivity|split; [|apply nodup_check; vm_compute; reflexivity]]);
    repeat (apply Forall_cons; [repeat split; eexists; vm_compute; reflexivity|]); apply Forall_nil.
Qed.
Lemma right_twin k : Forall2 (twin (sub_rows k)) (sub_areas k) (right_areas k).
Proof.
  destruct k; cbn [sub_areas right_areas];
    repeat (apply Forall2_cons; [split; [reflexivity|]; split; [reflexivity|]|]); try apply Forall2_nil;
    try (left; reflexivity); right; vm_compute; reflexivity.
Qed.
Lemma same_twin rows areas : Forall2 (twin rows) areas areas.
Proof. induction areas; constructor; auto. repeat split; auto. Qed.

Section T.
Variable FO : FloatOps.
Notation st := (state FO).
Notation hdr := (hdr FO).
Notation seg := (seg FO).

(** ** Attributes that are no fields *)

(** The attributes that writing may set on a header object without such a field. *)
Definition loose : list string := ["sxsofl"; "user_subheader_data"]%string.
Definition attr_same (h h' : hdr) : Prop := forall nm, ~ In nm loose -> assoc nm (h_attr h) = assoc nm (h_attr h').
Definition fieldb rows (nm : string) : bool := declared rows nm || existsb (String.eqb nm) loose.
Lemma as_refl h : attr_same h h.
Proof. intros nm _. reflexivity. Qed.
Lemma as_sym a b : attr_same a b -> attr_same b a.
Proof. intros H nm Hn. now rewrite H. Qed.
Lemma as_trans a b c : attr_same a b -> attr_same b c -> attr_same a c.
Proof. intros H1 H2 nm Hn. now rewrite H1, H2. Qed.
Lemma hset_attr rows (h h' : hdr) nm v r : fieldb rows nm = true -> hset FO rows h nm v = (h', r) -> attr_same h' h.
Proof.
  unfold fieldb, declared, hset. intros HF H. destruct (lookup (mk_fs rows) nm).
  - destruct (set FO (mk_fs rows) (h_st h) nm [] (SVal v)) as [s q]. injection H as <- _. intros x _. reflexivity.
  - injection H as <- _. intros x Hx. unfold assoc. cbn [h_attr find fst]. cbn [orb] in HF.
    destruct (String.eqb x nm) eqn:E; [|reflexivity]. exfalso. apply String.eqb_eq in E. subst x. apply Hx.
    apply existsb_exists in HF as (y & Hy & E). apply String.eqb_eq in E. now subst y.
Qed.
Definition areas_fieldb rows (areas : list tarea) : bool := forallb (fun a => fieldb rows (ta_ofl a) && fieldb rows (ta_data a)) areas.
Lemma store_attr rows areas : areas_fieldb rows areas = true -> forall heads (h h' : hdr) r,
  store_areas FO rows h areas heads = (h', r) -> attr_same h' h.
Proof.
  induction areas as [|a areas IH]; intros HA heads h h' r H; cbn [store_areas] in H.
  - injection H as <- _. apply as_refl.
  - destruct heads as [|b heads]; [injection H as <- _; apply as_refl|].
    cbn [areas_fieldb forallb] in HA. apply andb_true_iff in HA as [HA1 HA2]. apply andb_true_iff in HA1 as [A1 A2].
    destruct (hint FO rows h (ta_len a)) as [n|e]; [|injection H as <- _; apply as_refl].
    destruct (if (n >? 0)%Z then hset FO rows h (ta_ofl a) (VInt 0) else (h, Ok tt)) as [h1 r1] eqn:E1.
    assert (S1 : attr_same h1 h).
    { destruct (n >? 0)%Z; [exact (hset_attr _ _ _ _ _ _ A1 E1)|injection E1 as <- _; apply as_refl]. }
    destruct r1 as [u|e]; [|injection H as <- _; exact S1].
    destruct (match b with [] => (h1, Ok tt) | _ :: _ => hset FO rows h1 (ta_data a) (VBytes b) end) as [h2 r2] eqn:E2.
    assert (S2 : attr_same h2 h1).
    { destruct b; [injection E2 as <- _; apply as_refl|exact (hset_attr _ _ _ _ _ _ A2 E2)]. }
    destruct r2 as [u'|e]; [|injection H as <- _; exact (as_trans _ _ _ S2 S1)].
    exact (as_trans _ _ _ (IH HA2 _ _ _ _ H) (as_trans _ _ _ S2 S1)).
Qed.
Lemma prepare_attr rows areas idx (h h' : hdr) ts n o r : areas_fieldb rows areas = true ->
  prepare FO rows areas idx h ts n = (h', o, r) -> attr_same h' h.
Proof.
  intros HA H. unfold prepare in H.
  destruct (place FO ts (map (fun _ => []) areas) []) as [[heads des]|e]; [|injection H as <- _ _; apply as_refl].
  destruct (store_areas FO rows h areas heads) as [h1 r1] eqn:E1. assert (S1 := store_attr rows areas HA _ _ _ _ E1).
  destruct r1 as [u|e]; [|injection H as <- _ _; exact S1].
  destruct des as [|c des]; [injection H as <- _ _; exact S1|].
  destruct areas as [|a areas]; [injection H as <- _ _; exact S1|].
  destruct (hset FO rows h1 (ta_ofl a) (VInt (Z.of_nat (S n)))) as [h2 r2] eqn:E2. injection H as <- _ _.
  cbn [areas_fieldb forallb] in HA. apply andb_true_iff in HA as [HA1 _]. apply andb_true_iff in HA1 as [A1 _].
  exact (as_trans _ _ _ (hset_attr _ _ _ _ _ _ A1 E2) S1).
Qed.
Lemma sub_fields k : areas_fieldb (sub_rows k) (sub_areas k) = true.
Proof. destruct k; vm_compute; reflexivity. Qed.
Lemma file_fields : areas_fieldb hrows file_areas = true.
Proof. vm_compute; reflexivity. Qed.

(** Two headers with the same values. *)
Definition eqx rows (h h' : hdr) : Prop := eqh FO rows h h' /\ attr_same h h'.
Lemma eqx_refl rows h : eqx rows h h.
Proof. split; [apply eqh_refl|apply as_refl]. Qed.
Lemma eqx_trans rows a b c : eqx rows a b -> eqx rows b c -> eqx rows a c.
Proof. intros (A1 & A2) (B1 & B2). split; [exact (eqh_trans _ _ _ _ _ A1 B1)|exact (as_trans _ _ _ A2 B2)]. Qed.
Lemma eqx_sym rows a b : eqx rows a b -> eqx rows b a.
Proof. intros (A1 & A2). split; [exact (eqh_sym _ _ _ _ A1)|exact (as_sym _ _ A2)]. Qed.
Lemma hget_eqx rows (h h' : hdr) nm : existsb (String.eqb nm) loose = false -> eqx rows h h' -> hget FO rows h nm = hget FO rows h' nm.
Proof.
  intros HN (H1 & H2). destruct (declared rows nm) eqn:D; [exact (hget_eq FO rows h h' nm D H1)|].
  unfold declared in D. unfold hget. destruct (lookup (mk_fs rows) nm); [discriminate|]. rewrite H2; [reflexivity|].
  intro HI. assert (X : existsb (String.eqb nm) loose = true) by (apply existsb_exists; exists nm; split; [exact HI|apply String.eqb_refl]). congruence.
Qed.

(** ** Security read from headers with the same values *)
Lemma sec_get_same rows (h h' : hdr) : forall l s, (forall p, In p l -> hget FO rows h (fst p) = hget FO rows h' (fst p)) ->
  sec_get FO rows h l s = sec_get FO rows h' l s.
Proof.
  induction l as [|[nm a] l IH]; intros s H; [reflexivity|]. cbn [sec_get].
  rewrite (H (nm, a) (or_introl eq_refl) : hget FO rows h nm = hget FO rows h' nm).
  destruct (hget FO rows h' nm) as [v|e]; [|destruct e; try reflexivity]; apply IH; intros p Hp; apply H; now right.
Qed.
Lemma sec_strict k : forallb (fun p => negb (existsb (String.eqb (fst p)) loose)) (sec_names (sec_prefix k)) = true.
Proof. destruct k; vm_compute; reflexivity. Qed.
Lemma file_sec_strict : forallb (fun p => negb (existsb (String.eqb (fst p)) loose)) (sec_names "fs") = true.
Proof. vm_compute; reflexivity. Qed.
Lemma security_eqx rows (h h' : hdr) prefix : forallb (fun p => negb (existsb (String.eqb (fst p)) loose)) (sec_names prefix) = true ->
  eqx rows h h' -> get_security FO rows h prefix = get_security FO rows h' prefix.
Proof.
  intros HD H. apply sec_get_same. intros p Hp. rewrite forallb_forall in HD. specialize (HD p Hp). apply negb_true_iff in HD.
  exact (hget_eqx rows h h' (fst p) HD H).
Qed.

(** ** Placing the TREs of a header again *)

(** [k] is like [h'] in the fields of the areas and in the security. *)
Definition alike rows (areas : list tarea) prefix (h' k : hdr) : Prop :=
  st_impl FO (h_st k) = st_impl FO (h_st h')
  /\ (forall y p a nm, In a areas -> In nm (area_names a) -> lookup (mk_fs rows) nm = Some y -> stored FO (h_st k) y p = stored FO (h_st h') y p)
  /\ get_security FO rows k prefix = get_security FO rows h' prefix.

Lemma prep_again rows areas areas' prefix idx (h h' : hdr) ts des des1 :
  areas_ok rows areas' -> Forall2 (twin rows) areas areas' -> areas_fieldb rows areas = true ->
  forallb (fun p => negb (existsb (String.eqb (fst p)) loose)) (sec_names prefix) = true ->
  settled FO rows areas h -> prep FO rows areas prefix idx h ts des = Ok (h', des1) ->
  settled FO rows areas h' /\ exists ov, des1 = des ++ ov /\
    forall (k : hdr) des', List.length des' = List.length des -> alike rows areas prefix h' k ->
      exists k', prep FO rows areas prefix idx k ts des' = Ok (k', des' ++ ov) /\ eqx rows k' k.
Proof.
  intros (Hwf & HA & ND) HT HF HD HS H. unfold prep in H.
  destruct (prepare FO rows areas (Z.of_nat idx) h ts (List.length des)) as [[h1 o] [[]|e]] eqn:E; [|destruct o; discriminate].
  destruct (prepare_places FO rows Hwf areas areas' HT HA ND _ _ _ _ _ _ HS E) as (heads & dd & P1 & P2 & P3 & P4).
  assert (X : h1 = h' /\ exists ov, des1 = des ++ ov /\
    (o = None /\ ov = [] \/ exists ov1 sec dh, o = Some ov1 /\ get_security FO rows h1 prefix = Ok sec /\ overflow_seg FO ov1 sec = (dh, Ok tt)
       /\ ov = [{| s_hdr := dh; s_ush := None; s_tres := []; s_data := DBytes FO (Some (ov_data ov1)); s_linked := true |}])).
  { destruct o as [ov1|].
    - apply bind_ok_elim in H as (sec & S1 & H). destruct (overflow_seg FO ov1 sec) as [dh [[]|e]] eqn:E2; [|discriminate].
      injection H as <- <-. split; [reflexivity|]. eexists. split; [reflexivity|]. right. exists ov1, sec, dh. auto.
    - injection H as <- <-. split; [reflexivity|]. exists []. split; [symmetry; apply app_nil_r|]. left. auto. }
  destruct X as (-> & ov & X1 & X2). split; [exact P4|]. exists ov. split; [exact X1|].
  intros k des' HL (A1 & A2 & A3).
  assert (PL : placed FO rows areas heads dd (List.length des') (h_st k)).
  { rewrite HL. exact (placed_same FO rows areas areas' HT HA heads dd (List.length des) (h_st h') (h_st k) A1 A2 P2). }
  destruct (prepare_placed FO rows Hwf areas areas' HT HA (Z.of_nat idx) k ts (List.length des') heads dd P1 PL) as (k' & K1 & K2).
  rewrite <- P3 in K1. exists k'.
  assert (KX : eqx rows k' k) by (split; [exact K2|exact (prepare_attr rows areas _ _ _ _ _ _ _ HF K1)]).
  split; [|exact KX]. unfold prep. rewrite K1.
  destruct X2 as [(-> & ->)|(ov1 & sec & dh & -> & S1 & S2 & ->)].
  - now rewrite app_nil_r.
  - rewrite (security_eqx rows k' k prefix HD KX), A3, S1. cbn [bind]. rewrite S2. reflexivity.
Qed.

(** ** Segments *)

(** Two segments with the same values in the subheader, the rest being the same. *)
Definition eqseg (k : kind) (s t : seg) : Prop := eqx (sub_rows k) (s_hdr FO s) (s_hdr FO t) /\ same_but_header FO t s.

Lemma eqseg_refl k s : eqseg k s s.
Proof. split; [apply eqx_refl|apply sbh_refl]. Qed.
Lemma eqseg_trans k a b c : eqseg k a b -> eqseg k b c -> eqseg k a c.
Proof. intros (A1 & A2) (B1 & B2). split; [exact (eqx_trans _ _ _ _ A1 B1)|exact (sbh_trans _ _ _ _ B2 A2)]. Qed.

Definition seg_settled (k : kind) (s : seg) : Prop := settled FO (sub_rows k) (sub_areas k) (s_hdr FO s).

Lemma prep_segs_again k : has_tres k = true -> forall l i des l1 des1, Forall (seg_settled k) l ->
  prep_segs FO k i l des = Ok (l1, des1) -> Forall (seg_settled k) l1 /\
  exists ov, des1 = des ++ ov /\ forall l' des', List.length des' = List.length des ->
    Forall2 (eqseg k) l' l1 ->
    exists l2, prep_segs FO k i l' des' = Ok (l2, des' ++ ov) /\ Forall2 (eqseg k) l2 l1.
Proof.
  intro HK. induction l as [|s l IH]; intros i des l1 des1 HS H; cbn [prep_segs] in H.
  - injection H as <- <-. split; [constructor|]. exists []. split; [now rewrite app_nil_r|]. intros l' des' _ HE.
    inversion HE; subst. exists []. split; [|constructor]. cbn [prep_segs]. now rewrite app_nil_r.
  - apply bind_ok_elim in H as ([h des2] & H1 & H). apply bind_ok_elim in H as ([r des3] & H2 & H). injection H as <- <-.
    rewrite HK in H1. inversion_clear HS as [|? ? S1 S2].
    destruct (prep_again _ _ (right_areas k) _ _ _ _ _ _ _ (right_ok k) (right_twin k) (sub_fields k) (sec_strict k) S1 H1) as (Q1 & ov1 & -> & R1).
    destruct (IH _ _ _ _ S2 H2) as (Q2 & ov2 & -> & R2). split; [constructor; [exact Q1|exact Q2]|].
    exists (ov1 ++ ov2). split; [now rewrite app_assoc|]. intros l' des' HL HE.
    inversion HE as [|t ? l'' ? (T1 & T2) HE']; subst. cbn [with_hdr s_hdr] in T1.
    destruct T2 as (B1 & B2 & B3 & B4). cbn [with_hdr s_ush s_tres s_data s_linked] in B1, B2, B3, B4.
    destruct (R1 (s_hdr FO t) des' HL) as (k' & K1 & K2).
    { split; [exact (proj1 (proj1 T1))|]. split.
      - intros y p a nm _ _ Ly. exact (proj2 (proj1 T1) y p (lookup_in _ _ _ Ly)).
      - exact (security_eqx _ _ _ _ (sec_strict k) T1). }
    destruct (R2 l'' (des' ++ ov1)) as (l2 & L1 & L2); [rewrite !app_length, HL; reflexivity|exact HE'|].
    exists (with_hdr FO t k' :: l2). split.
    + cbn [prep_segs]. rewrite HK, B2, K1. cbn [bind]. rewrite L1. cbn [bind]. now rewrite app_assoc.
    + constructor; [|exact L2]. split; [exact (eqx_trans _ _ _ _ K2 T1)|].
      cbn [with_hdr s_hdr]. repeat split; assumption.
Qed.

(** ** The user subheader again *)
Notation drows := desc_NitfDesSubheader.
Notation desshf_d := (Build_fdesc (Some "desshf"%string) (SzExpr (EFld "desshl" 0)) (TData KBytes) FrNone DfNone None false 32%N false None 0%Z false).
Notation desshl_d := (Build_fdesc (Some "desshl"%string) (SzInt 4%Z) TInt FrNone DfNone None false 32%N false None 0%Z false).
Lemma dessh_descs : f_d desshf_fld = desshf_d /\ f_loops desshf_fld = [] /\ f_d desshl_fld = desshl_d /\ f_loops desshl_fld = [].
Proof. repeat split; vm_compute; reflexivity. Qed.

(** What assigning to a bytes field makes of a value. *)
Definition as_bytes (v : pyval FO) : res (list N) :=
  match v with VBytes b => Ok b | VStr s => encode_latin1 s | _ => Err EAttr end.
Definition with_ush (s : st) (b : list N) : st :=
  assigned FO (assigned FO s desshf_fld [] (SVal (VBytes b))) desshl_fld []
    (SVal (VInt (if (Z.of_nat (List.length b) =? 0)%Z then 0 else Z.of_nat (List.length b) + 0))).

Lemma set_desshf (s : st) v :
  set FO (mk_fs drows) s "desshf" [] (SVal v)
  = match as_bytes v with
    | Err e => (s, Err e)
    | Ok b => if st_impl FO s then (s, Err ERuntime) else (with_ush s b, Ok tt)
    end.
Proof.
  destruct desshf_facts as (L1 & L2 & _). destruct dessh_descs as (D1 & P1 & D2 & P2).
  unfold set. rewrite L1. unfold key_shape_ok, depth. rewrite P1. cbn [List.length]. unfold fset, fuel.
  assert (Hdf := lookup_in _ _ _ L1).
  destruct (fs_fields (mk_fs drows)) as [|f0 l0] eqn:EL; [destruct Hdf|]. cbn [List.length setf].
  rewrite D1. cbn [fd_ty]. unfold pack. rewrite D1. cbn [fd_ty]. fold (as_bytes v). destruct (as_bytes v) as [b|e]; [|reflexivity].
  unfold set_base, check_index, check_condition. rewrite !D1, !P1.
  cbn [fd_name fd_cond fd_hard fd_value fd_ty fd_size_not_updated fd_size fd_optional orb bind fd_size_offset].
  destruct (st_impl FO s) eqn:HI; [reflexivity|].
  fold (assigned FO s desshf_fld [] (SVal (VBytes b))). rewrite L2. unfold depth. rewrite !P2. cbn [List.length].
  rewrite !D2. cbn [fd_name fd_cond fd_hard fd_value fd_ty fd_size_not_updated fd_size fd_optional orb bind fd_size_offset].
  replace (st_impl FO (assigned FO s desshf_fld [] (SVal (VBytes b)))) with (st_impl FO s) by reflexivity. rewrite HI. reflexivity.
Qed.

Lemma put_ush_again k (s t : seg) h : put_ush FO k s = Ok h -> eqseg k t (with_hdr FO s h) ->
  exists h2, put_ush FO k t = Ok h2 /\ eqx (sub_rows k) h2 h.
Proof.
  intros H (T1 & (B1 & B2 & B3 & B4)). cbn [with_hdr s_hdr s_ush s_tres s_data s_linked] in *.
  unfold put_ush in *. rewrite B1. apply bind_ok_elim in H as (v & V1 & H). rewrite V1. cbn [bind].
  destruct (hset FO (sub_rows k) (s_hdr FO s) (ush_name k) v) as [h1 [[]|e]] eqn:E; [|discriminate]. injection H as ->.
  destruct k; try (match goal with |- context [hset FO (sub_rows ?K) _ _ _] =>
      assert (L : lookup (mk_fs (sub_rows K)) (ush_name K) = None) by (vm_compute; reflexivity) end;
    destruct (hset FO _ (s_hdr FO t) _ v) as [h2 [[]|e]] eqn:E2;
    [exists h2; split; [reflexivity|]; split;
      [unfold hset in E2; rewrite L in E2; injection E2 as <-; exact (proj1 T1)
      |eapply as_trans; [eapply hset_attr with (2 := E2); vm_compute; reflexivity|exact (proj2 T1)]]
    |unfold hset in E2; rewrite L in E2; discriminate]).
  cbn [sub_rows ush_name] in *. destruct desshf_facts as (L1 & L2 & _).
  assert (I1 := lookup_in _ _ _ L1). assert (I2 := lookup_in _ _ _ L2).
  unfold hset in *. rewrite L1 in *. rewrite set_desshf in *.
  destruct (as_bytes v) as [b|e]; [|discriminate]. destruct (st_impl FO (h_st (s_hdr FO s))) eqn:HI; [discriminate|]. injection E as <-.
  assert (HI2 : st_impl FO (h_st (s_hdr FO t)) = false) by (rewrite (proj1 (proj1 T1)); exact HI). rewrite HI2.
  eexists. split; [reflexivity|]. split; [|exact (proj2 T1)].
  unfold eqh. cbn [h_st]. unfold with_ush at 1.
  assert (Q : eqst FO drows (h_st (s_hdr FO t)) (with_ush (h_st (s_hdr FO s)) b)) by exact (proj1 T1).
  eapply eqst_trans; [apply eq_assigned; [exact I2|apply eq_assigned; [exact I1|exact Q]]|].
  assert (NE : desshf_fld <> desshl_fld) by (apply (lookup_ne drows _ _ _ _ L1 L2); discriminate).
  eapply eqst_trans; [apply eq_assigned; [exact I2|apply eq_reassigned; [exact I1|]]|apply eq_reassigned; [exact I2|]].
  - unfold with_ush. rewrite (assigned_same FO drows _ _ _ _ I2 _ _ I1 NE). apply assigned_self.
  - unfold with_ush. apply assigned_self.
Qed.

(** ** The data again *)

(** Image data is in image segments. *)
Definition image_placed (k : kind) (s : seg) : Prop := match s_data FO s with DImage _ _ _ => k = KImage | _ => True end.

Lemma iget_eqx (h h' : hdr) nm : existsb (String.eqb nm) loose = false -> eqx desc_NitfImageSubheader h h' -> iget FO h nm = iget FO h' nm.
Proof. intros HN H. exact (hget_eqx _ _ _ _ HN H). Qed.

Lemma data_eqx k (s : seg) (h h' : hdr) : image_placed k s -> eqx (sub_rows k) h h' -> data_bytes FO h (s_data FO s) = data_bytes FO h' (s_data FO s).
Proof.
  unfold image_placed, data_bytes. destruct (s_data FO s) as [[b|]|t|c u e|b|m f|z]; try reflexivity. intros -> H.
  cbn [sub_rows] in H. unfold write_image.
  assert (D : dims FO h = dims FO h').
  { unfold dims, shape, number_band, iint, hint. fold (iget FO h "nbands") (iget FO h' "nbands").
    now rewrite !(iget_eqx h h') by (reflexivity || exact H). }
  assert (T : get_dtype FO h = get_dtype FO h').
  { unfold get_dtype. generalize dtype_table. induction l as [|[[n p] d] l IH]; cbn [find_dtype].
    - now rewrite !(iget_eqx h h') by (reflexivity || exact H).
    - unfold ieq. rewrite IH. now rewrite !(iget_eqx h h') by (reflexivity || exact H). }
  rewrite D, T. reflexivity.
Qed.

Lemma ush_cls_eqx E k (h h' : hdr) : eqx (sub_rows k) h h' -> ush_cls FO E k h = ush_cls FO E k h'.
Proof.
  intro H. destruct k; cbn [ush_cls]; try reflexivity; now rewrite (hget_eqx _ h h') by (reflexivity || exact H).
Qed.
Lemma put_ush_cls E k (s : seg) h : put_ush FO k s = Ok h -> ush_cls FO E k h = ush_cls FO E k (s_hdr FO s).
Proof.
  intro H. destruct k; cbn [ush_cls]; try reflexivity.
  - cbn [sub_rows]. destruct desshf_facts as (_ & _ & _ & _ & N1 & N2).
    now rewrite !(hget_scalar FO drows _ _ _ desid_scalar), (put_ush_other FO s h H desid_fld [] desid_in N1 N2).
  - destruct (put_ush_plain FO KRes s h ltac:(discriminate) H) as (E1 & v & E2). unfold hget. cbn [sub_rows].
    replace (lookup (mk_fs desc_NitfResSubheader) "resid") with
      (Some (match lookup (mk_fs desc_NitfResSubheader) "resid" with Some f => f | None => no_field end)) by (vm_compute; reflexivity).
    now rewrite E1.
Qed.

(** ** Patching the file header again *)
Lemma counts_eqst (s t : st) n : eqst FO hrows s t -> counts FO t n -> counts FO s n.
Proof. intros HE C k. rewrite (eq_get FO hrows s t HE). apply C. Qed.

Lemma size_may (s : st) n k b i z : counts FO s n -> (i < n k)%nat -> st_impl FO s = false ->
  may_assign FO hfs s (hfld (size_name k b)) [Z.of_nat i] (SVal (VInt z)).
Proof.
  intros C Hi HI. destruct (size_fld k b) as [L L1 L2 L3 L4 L5 L6 _]. unfold may_assign.
  split; [rewrite (has_name_lookup hrows _ _ L); discriminate|].
  split; [|split; [unfold check_condition; rewrite L2; reflexivity|split; [exact L3|split; [exact L4|split; [exact HI|discriminate]]]]].
  unfold check_index, depth. rewrite L1. cbn [List.length Nat.eqb negb last removelast].
  replace (Z.of_nat i <? 0)%Z with false by lia. rewrite (proj2 (size_shape FO s n k [] b C)). cbn [bind].
  replace (Z.of_nat (n k) <=? Z.of_nat i)%Z with false by lia. reflexivity.
Qed.
Lemma size_patch (s H : st) n file tail k b i z : eqst FO hrows s H -> counts FO H n -> (i < n k)%nat -> st_impl FO H = false ->
  size_stored FO H k b i = SVal (VInt z) -> in_file FO hfs s [] file tail ->
  exists s', update_field FO hfs s file (size_name k b) [Z.of_nat i] (SVal (VInt z)) = (s', Ok file)
    /\ eqst FO hrows s' H /\ in_file FO hfs s' [] file tail.
Proof.
  intros HE C Hi HI HZ HF. assert (C' := counts_eqst s H n HE C). destruct (size_keys FO s n k b C') as (ks & K1 & K2).
  destruct (size_fld k b) as [L L1 L2 L3 L4 L5 L6 L7]. assert (IN := lookup_in _ _ _ L).
  assert (ST : stored FO s (hfld (size_name k b)) [Z.of_nat i] = SVal (VInt z)) by (rewrite (proj2 HE _ _ IN); exact HZ).
  destruct (patch_same FO hrows s file tail _ _ ks [Z.of_nat i] (SVal (VInt z)) L ltac:(now rewrite L5) K1 (K2 i Hi)
    (size_may s n k b i z C' Hi ltac:(rewrite (proj1 HE); exact HI)) ST HF) as (P1 & P2).
  eexists. split; [exact P1|]. split; [|exact P2].
  eapply eqst_trans; [|exact HE]. apply eq_reassigned; [exact IN|exact ST].
Qed.
Lemma total_patch (s H : st) file tail nm z : nm = "hl"%string \/ nm = "fl"%string -> eqst FO hrows s H -> st_impl FO H = false ->
  stored FO H (hfld nm) [] = SVal (VInt z) -> in_file FO hfs s [] file tail ->
  exists s', update_field FO hfs s file nm [] (SVal (VInt z)) = (s', Ok file) /\ eqst FO hrows s' H /\ in_file FO hfs s' [] file tail.
Proof.
  intros Hn HE HI HZ HF. destruct (total_fld nm Hn) as (((L & L1 & L2 & L3 & L4 & L5) & T & O) & U). assert (IN := lookup_in _ _ _ L).
  assert (K : field_keys FO hfs s (hfld nm) = Ok [[]]) by (unfold field_keys; rewrite L1; reflexivity).
  assert (ST : stored FO s (hfld nm) [] = SVal (VInt z)) by (rewrite (proj2 HE _ _ IN); exact HZ).
  assert (M : may_assign FO hfs s (hfld nm) [] (SVal (VInt z))).
  { unfold may_assign. split; [rewrite (has_name_lookup hrows _ _ L); discriminate|].
    split; [unfold check_index, depth; rewrite L1; reflexivity|]. split; [unfold check_condition; rewrite L2; reflexivity|].
    split; [exact L3|]. split; [exact L4|]. split; [rewrite (proj1 HE); exact HI|discriminate]. }
  destruct (patch_same FO hrows s file tail _ _ _ [] (SVal (VInt z)) L L5 K (or_introl eq_refl) M ST HF) as (P1 & P2).
  eexists. split; [exact P1|]. split; [|exact P2]. eapply eqst_trans; [|exact HE]. apply eq_reassigned; [exact IN|exact ST].
Qed.

(** ** Writing the segments again *)

(** [s] was written as [p], leaving [s']; [t] is to be written now. *)
Definition redo (E : env) (k : kind) (s s' : seg) (p : list N * list N) (t : seg) : Prop :=
  wrote FO k s s' p /\ ush_check FO E k s /\ image_placed k s /\ s_linked FO s = true /\ (t = s \/ eqseg k t s').

Lemma redo_wrote E k s s' p t : redo E k s s' p t ->
  exists h2, put_ush FO k t = Ok h2 /\ eqseg k (with_hdr FO t h2) s' /\ write FO (mk_fs (sub_rows k)) (h_st h2) = Ok (fst p)
    /\ data_bytes FO h2 (s_data FO t) = Ok (snd p) /\ ush_check FO E k t /\ s_linked FO t = true.
Proof.
  intros ((h & H1 & -> & H2 & H3) & HC & HI & HL & [->|HT]).
  - exists h. split; [exact H1|]. split; [apply eqseg_refl|]. auto.
  - destruct (put_ush_again k s t h H1 HT) as (h2 & P1 & P2). destruct HT as (T1 & (B1 & B2 & B3 & B4)).
    cbn [with_hdr s_hdr s_ush s_tres s_data s_linked] in *.
    exists h2. split; [exact P1|]. split; [split; [exact P2|cbn; repeat split; assumption]|].
    split; [rewrite (eq_write FO _ _ _ (proj1 P2)); exact H2|].
    split; [rewrite B3, (data_eqx k s h2 h HI P2); exact H3|]. split; [|congruence].
    destruct HC as (c & C1 & C2). exists c. rewrite HL in C1. rewrite B4, HL, B1. split; [|exact C2].
    rewrite (ush_cls_eqx E k _ _ T1), (put_ush_cls E k s h H1). exact C1.
Qed.

Lemma in_file_app s file tail x : in_file FO hfs s [] file tail -> in_file FO hfs s [] (file ++ x) (tail ++ x).
Proof. intros (cs & H1 & H2 & H3). exists cs. split; auto. split; auto. rewrite H2. now rewrite !app_assoc. Qed.

Lemma seg_write_again E n k i s s' p t (hs H : st) file tail : redo E k s s' p t ->
  eqst FO hrows hs H -> counts FO H n -> (i < n k)%nat -> st_impl FO H = false ->
  size_stored FO H k true i = SVal (VInt (Z.of_nat (List.length (fst p)))) ->
  size_stored FO H k false i = SVal (VInt (Z.of_nat (List.length (snd p)))) ->
  in_file FO hfs hs [] file tail ->
  exists t' hs', seg_write FO E k i t hs file = Ok (t', hs', file ++ fst p ++ snd p) /\ eqseg k t' s'
    /\ eqst FO hrows hs' H /\ in_file FO hfs hs' [] (file ++ fst p ++ snd p) (tail ++ fst p ++ snd p).
Proof.
  intros HR HE C Hi HI Z1 Z2 HF. destruct (redo_wrote E k s s' p t HR) as (h2 & P1 & P2 & P3 & P4 & (c & C1 & C2) & P5).
  unfold seg_write. rewrite P5 in *. rewrite C1. cbn [bind]. rewrite C2. cbn [bind]. rewrite P1. cbn [bind]. rewrite P3. cbn [bind].
  rewrite P4. cbn [bind]. change (fst (size_names k)) with (size_name k true). change (snd (size_names k)) with (size_name k false).
  destruct (size_patch hs H n _ _ k true i _ HE C Hi HI Z1 (in_file_app _ _ _ (fst p ++ snd p) HF)) as (s1 & U1 & E1 & F1).
  rewrite U1. destruct (size_patch s1 H n _ _ k false i _ E1 C Hi HI Z2 F1) as (s2 & U2 & E2 & F2). rewrite U2.
  exists (with_hdr FO t h2), s2. auto.
Qed.

Inductive redo_all (E : env) (k : kind) : list seg -> list (list N * list N) -> list seg -> Prop :=
| rd_nil : redo_all E k [] [] []
| rd_cons s s' p t l' ps ts : redo E k s s' p t -> redo_all E k l' ps ts -> redo_all E k (s' :: l') (p :: ps) (t :: ts).

Lemma segs_write_again E n k l' ps ts (H : st) : redo_all E k l' ps ts -> counts FO H n -> st_impl FO H = false -> forall i hs file tail,
  (i + List.length ts <= n k)%nat ->
  (forall j p, nth_error ps j = Some p -> size_stored FO H k true (i + j) = SVal (VInt (Z.of_nat (List.length (fst p))))
          /\ size_stored FO H k false (i + j) = SVal (VInt (Z.of_nat (List.length (snd p))))) ->
  eqst FO hrows hs H -> in_file FO hfs hs [] file tail ->
  exists ts' hs', segs_write FO E k i ts hs file = Ok (ts', hs', file ++ flat ps) /\ Forall2 (eqseg k) ts' l'
    /\ eqst FO hrows hs' H /\ in_file FO hfs hs' [] (file ++ flat ps) (tail ++ flat ps).
Proof.
  intros HR C HI. induction HR as [|s s' p t l' ps ts H1 _ IH]; intros i hs file tail Hi HZ HE HF.
  - exists [], hs. unfold flat. cbn [map List.concat]. rewrite !app_nil_r. split; [reflexivity|]. split; [constructor|]. split; [exact HE|exact HF].
  - cbn [List.length] in Hi. assert (Hi1 : (i < n k)%nat) by (clear - Hi; lia). assert (Hi2 : (S i + List.length ts <= n k)%nat) by (clear - Hi; lia).
    assert (Z0 := HZ 0%nat p eq_refl). rewrite Nat.add_0_r in Z0. destruct Z0 as (Z1 & Z2).
    destruct (seg_write_again E n k i s s' p t hs H file tail H1 HE C Hi1 HI Z1 Z2 HF) as (t' & hs1 & W1 & T1 & E1 & F1).
    destruct (IH (S i) hs1 (file ++ fst p ++ snd p) (tail ++ fst p ++ snd p) Hi2) as (ts' & hs2 & W2 & T2 & E2 & F2); [|exact E1|exact F1|].
    { intros j q Hq. replace (S i + j)%nat with (i + S j)%nat by (clear; lia). exact (HZ (S j) q Hq). }
    assert (FL : flat (p :: ps) = (fst p ++ snd p) ++ flat ps) by reflexivity. rewrite FL.
    exists (t' :: ts'), hs2. cbn [segs_write]. rewrite W1. cbn [bind]. rewrite W2. cbn [bind].
    rewrite !app_assoc in *. split; [reflexivity|]. split; [constructor; assumption|]. split; [exact E2|exact F2].
Qed.

Lemma redo_len E k l' ps ts : redo_all E k l' ps ts -> List.length ts = List.length l'.
Proof. induction 1; cbn; congruence. Qed.
Lemma redo_app E k a b c a' b' c' : redo_all E k a b c -> redo_all E k a' b' c' -> redo_all E k (a ++ a') (b ++ b') (c ++ c').
Proof. induction 1; intro HR; [exact HR|]. cbn [app]. econstructor; eauto. Qed.
Lemma redo_all_eq E k l l' ps ts : wrote_all FO k l l' ps -> Forall (ush_check FO E k) l -> Forall (image_placed k) l ->
  Forall (fun s => s_linked FO s = true) l -> Forall2 (eqseg k) ts l' -> redo_all E k l' ps ts.
Proof.
  intro W. revert ts. induction W as [|s l s' l' p ps W _ IH]; intros ts HC HI HL HE; inversion HE; subst; [constructor|].
  inversion_clear HC as [|? ? C1 C2]. inversion_clear HI as [|? ? I1 I2]. inversion_clear HL as [|? ? L1 L2].
  apply rd_cons with s; [|apply IH; assumption]. repeat (split; [assumption|]). now right.
Qed.
Lemma redo_all_same E k l l' ps : wrote_all FO k l l' ps -> Forall (ush_check FO E k) l -> Forall (image_placed k) l ->
  Forall (fun s => s_linked FO s = true) l -> redo_all E k l' ps l.
Proof.
  induction 1 as [|s l s' l' p ps W _ IH]; intros HC HI HL; [constructor|].
  inversion_clear HC as [|? ? C1 C2]. inversion_clear HI as [|? ? I1 I2]. inversion_clear HL as [|? ? L1 L2].
  apply rd_cons with s; [|apply IH; assumption]. repeat (split; [assumption|]). now left.
Qed.

(** ** Preparing the file again *)
Lemma counts_again (g : kind -> Z) (H : hdr) : st_impl FO (h_st H) = false -> forall ks,
  (forall k, In k ks -> stored FO (h_st H) (hfld (count_name k)) [] = SVal (VInt (g k))) -> forall h, eqx hrows h H ->
  exists h', steps FO (map (fun k h => hset FO hrows h (count_name k) (VInt (g k))) ks) h = (h', Ok tt) /\ eqx hrows h' H.
Proof.
  intros HI. induction ks as [|k ks IH]; intros HS h HE.
  - exists h. split; [reflexivity|exact HE].
  - cbn [map steps]. destruct (count_fld k) as (S & _). assert (IN := lookup_in _ _ _ (proj1 S)).
    rewrite (hset_scalar FO hrows h _ _ (VInt (g k)) S) by (discriminate || (rewrite (proj1 (proj1 HE)); exact HI)).
    apply IH; [intros k' Hk'; apply HS; now right|]. split; [|exact (proj2 HE)].
    eapply eqst_trans; [|exact (proj1 HE)]. apply eq_reassigned; [exact IN|].
    rewrite (proj2 (proj1 HE) _ _ IN). apply HS. now left.
Qed.

(** The fields of the areas and of the security are none of those patched or counted. *)
Definition patched : list string :=
  ["hl"; "fl"; "numi"; "nums"; "numt"; "numdes"; "numres"; "lish"; "li"; "lssh"; "ls"; "ltsh"; "lt"; "ldsh"; "ld"; "lresh"; "lre"]%string.

Section Again.
Variables (E : env) (f f' : nfile FO) (bytes : list N) (h1 : hdr) (g g' : kind -> list seg) (ps : kind -> list (list N * list N)) (hb : list N).
Hypothesis W : written FO E f f' bytes h1 g g' ps hb.

Lemma count_not_total k nm : nm = "hl"%string \/ nm = "fl"%string -> hfld (count_name k) <> hfld nm.
Proof.
  intro Hn. destruct (total_fld nm Hn) as (((L & _) & _) & _). destruct (count_fld k) as ((L' & _) & _).
  apply (lookup_ne hrows _ _ _ _ L' L). destruct Hn as [->| ->], k; discriminate.
Qed.
Lemma count_not_size_fld k k' b : hfld (count_name k) <> hfld (size_name k' b).
Proof.
  destruct (count_fld k) as ((L' & _) & _). apply (lookup_ne hrows _ _ _ _ L' (lp_look _ _ _ (size_fld k' b))). apply count_not_size.
Qed.

Lemma wrote_plain k l l' qs : k <> KDes -> wrote_all FO k l l' qs -> Forall2 (eqseg k) l' l.
Proof.
  intro Hk. induction 1 as [|s l s' l' p qs (h & H & -> & _) _ IH]; constructor; [|exact IH].
  split; [|apply sbh_hdr]. cbn [with_hdr s_hdr]. destruct (put_ush_plain FO k s h Hk H) as (E1 & v & E2).
  split; [unfold eqh; rewrite E1; apply eqst_refl|]. intros nm Hn. rewrite E2. unfold assoc. cbn [find fst].
  destruct (String.eqb nm "user_subheader_data") eqn:E0; [|reflexivity]. exfalso. apply Hn. apply String.eqb_eq in E0. rewrite E0. right. now left.
Qed.
Lemma F2_eqseg_trans k a b c : Forall2 (eqseg k) a b -> Forall2 (eqseg k) b c -> Forall2 (eqseg k) a c.
Proof. intro H. revert c. induction H as [|x y l m H _ IH]; intros c Hc; inversion Hc; subst; constructor; [eapply eqseg_trans; eauto|auto]. Qed.
Lemma eqseg_sym k a b : eqseg k a b -> eqseg k b a.
Proof. intros (A1 & (B1 & B2 & B3 & B4)). split; [exact (eqx_sym _ _ _ A1)|repeat split; congruence]. Qed.
Lemma F2_eqseg_sym k a b : Forall2 (eqseg k) a b -> Forall2 (eqseg k) b a.
Proof. induction 1; constructor; [now apply eqseg_sym|assumption]. Qed.

(** Headers settled for writing. *)
Definition settled_file (x : nfile FO) : Prop :=
  settled FO hrows file_areas (nf_hdr FO x)
  /\ forall k, has_tres k = true -> Forall (seg_settled k) (nf_segs FO x k).

Lemma settled_eqx rows areas (h h' : hdr) : forallb (fun a => declared rows (ta_len a)) areas = true ->
  eqh FO rows h' h -> settled FO rows areas h -> settled FO rows areas h'.
Proof.
  intros HD HE (H1 & H2). split; [rewrite (proj1 HE); exact H1|]. intros a Ha. destruct (H2 a Ha) as (n & N1 & N2 & N3).
  exists n. rewrite (eq_get FO rows _ _ HE). split; [exact N1|]. split; [exact N2|]. intros Hn y Hy.
  rewrite (proj2 HE _ _ (lookup_in _ _ _ Hy)). exact (N3 Hn y Hy).
Qed.
Lemma sub_declared k : forallb (fun a => declared (sub_rows k) (ta_len a)) (sub_areas k) = true.
Proof. destruct k; vm_compute; reflexivity. Qed.

Lemma prepare_file_again : settled_file f ->
  settled FO hrows file_areas (nf_hdr FO f') /\ (forall k, has_tres k = true -> Forall (seg_settled k) (g' k)) /\
  exists des0 ov h2 g2, drop_overflow FO (nf_segs FO f KDes) = Ok des0 /\ g KDes = des0 ++ ov
    /\ forall dl, List.length dl = List.length des0 -> nf_segs FO f' KDes = dl ->
       drop_overflow FO dl = Ok dl ->
       prepare_file FO f' = Ok (h2, g2) /\ eqx hrows h2 (nf_hdr FO f')
       /\ (forall k, k <> KDes -> Forall2 (eqseg k) (g2 k) (g' k)) /\ g2 KDes = dl ++ ov.
Proof.
  intros (SH & SS). destruct W as [WP WA _ _ WAt _ _ _ _ WO WT WSg _ _ WRaw _ WI]. clear WP.
  unfold prepare_file in WRaw.
  apply bind_ok_elim in WRaw as (des0 & D0 & H). apply bind_ok_elim in H as ([h0 des1] & H1 & H).
  apply bind_ok_elim in H as ([im des2] & H2 & H). apply bind_ok_elim in H as ([gr des3] & H3 & H).
  apply bind_ok_elim in H as ([tx des4] & H4 & H).
  destruct areas_shipped as (AF & _ & _).
  destruct (prep_again _ _ file_areas _ _ _ _ _ _ _ AF (same_twin _ _) file_fields file_sec_strict SH H1) as (Q0 & ov0 & -> & R0).
  destruct (prep_segs_again KImage eq_refl _ _ _ _ _ (SS KImage eq_refl) H2) as (Q1 & ov1 & -> & R1).
  destruct (prep_segs_again KGraphic eq_refl _ _ _ _ _ (SS KGraphic eq_refl) H3) as (Q2 & ov2 & -> & R2).
  destruct (prep_segs_again KText eq_refl _ _ _ _ _ (SS KText eq_refl) H4) as (Q3 & ov3 & -> & R3).
  set (gg := fun k => match k with KImage => im | KGraphic => gr | KText => tx | KDes => (((des0 ++ ov0) ++ ov1) ++ ov2) ++ ov3
                                 | KRes => nf_segs FO f KRes end) in *.
  destruct (steps FO _ h0) as [hx [[]|e]] eqn:ES; [|discriminate]. injection H as E1 E2.
  destruct (counts_set FO (fun k => Z.of_nat (List.length (gg k))) kinds kinds_nodup h0 hx ES) as (S1 & S2 & S3).
  subst hx. rewrite <- E2 in WA |- *. clear E2.
  (* the file header against [h0] *)
  assert (HO : forall y p, In y (fs_fields hfs) -> (forall nm q, In nm patched -> lookup hfs nm = Some q -> y <> q) ->
     stored FO (h_st (nf_hdr FO f')) y p = stored FO (h_st h0) y p).
  { intros y p Hy HN. rewrite (WO y p Hy).
    - apply (S3 y p Hy). intros k _. apply (HN (count_name k)); [destruct k; cbn; tauto|]. apply (proj1 (proj1 (count_fld k))).
    - apply (HN "hl"%string); [cbn; tauto|]. apply (total_fld "hl" (or_introl eq_refl)).
    - apply (HN "fl"%string); [cbn; tauto|]. apply (total_fld "fl" (or_intror eq_refl)).
    - intros k b. apply (HN (size_name k b)); [destruct k, b; cbn; tauto|]. apply (lp_look _ _ _ (size_fld k b)). }
  assert (HA : forall y p a nm, In a file_areas -> In nm (area_names a) -> lookup hfs nm = Some y ->
     stored FO (h_st (nf_hdr FO f')) y p = stored FO (h_st h0) y p).
  { intros y p a nm Ha Hn Ly. apply HO; [exact (lookup_in _ _ _ Ly)|]. intros nm' q Hn' Lq.
    apply (lookup_ne hrows _ _ _ _ Ly Lq). intros ->.
    assert (A : apartb (flat_map area_names file_areas) patched = true) by (vm_compute; reflexivity).
    apply (apart_in _ _ nm' A); [|exact Hn']. apply in_flat_map. eauto. }
  assert (HI0 : st_impl FO (h_st h0) = false) by exact (proj1 Q0).
  assert (AL : alike hrows file_areas "fs" h0 (nf_hdr FO f')).
  { split; [rewrite WI, HI0; reflexivity|]. split; [exact HA|]. apply sec_get_same. intros p Hp. unfold hget.
    destruct (lookup hfs (fst p)) as [y|] eqn:L.
    - symmetry. apply (se_get FO hrows patched (nf_hdr FO f') h0 (fst p) []).
      + intros z q Hz HN. symmetry. apply HO; [exact Hz|]. intros nm u Hnm Lu. exact (HN nm u Hnm Lu).
      + apply (closed_independent hrows (map fst (filter (fun p => declared hrows (fst p)) (sec_names "fs")))); [vm_compute; reflexivity ..|].
        apply in_map. apply filter_In. split; [exact Hp|]. unfold declared. now rewrite L.
    - rewrite WAt, S1. reflexivity. }
  assert (SF : settled FO hrows file_areas (nf_hdr FO f')).
  { split; [exact WI|]. intros a Ha. destruct (proj2 Q0 a Ha) as (n & N1 & N2 & N3). exists n.
    rewrite (lens_same FO hrows file_areas file_areas (same_twin _ _) (proj1 (proj2 AF)) (h_st h0) (h_st (nf_hdr FO f')) HA a Ha).
    split; [exact N1|]. split; [exact N2|]. intros Hn y Hy. rewrite (HA y [] a (ta_ofl a) Ha ltac:(cbn; tauto) Hy). exact (N3 Hn y Hy). }
  split; [exact SF|].
  assert (QS : forall k, has_tres k = true -> Forall (seg_settled k) (gg k)) by (intros [| | | |]; cbn; try discriminate; intros _; assumption).
  assert (ES' : forall k, k <> KDes -> Forall2 (eqseg k) (g' k) (gg k)) by (intros k Hk; exact (wrote_plain k _ _ _ Hk (WA k))).
  split.
  { intros k Hk. assert (k <> KDes) as Hd by (intros ->; discriminate). specialize (ES' k Hd). specialize (QS k Hk).
    revert QS. clear - ES'. induction ES' as [|a b l m (X & _) _ IH]; intro HF; [constructor|]. inversion_clear HF as [|? ? F1 F2].
    constructor; [|exact (IH F2)]. exact (settled_eqx _ _ _ _ (sub_declared k) (proj1 X) F1). }
  (* again *)
  assert (PF : forall dl, List.length dl = List.length des0 -> exists k0 l1 l2 l3,
    prep FO hrows file_areas "fs" 0 (nf_hdr FO f') (nf_tres FO f) dl = Ok (k0, dl ++ ov0) /\ eqx hrows k0 (nf_hdr FO f')
    /\ prep_segs FO KImage 0 (g' KImage) (dl ++ ov0) = Ok (l1, (dl ++ ov0) ++ ov1) /\ Forall2 (eqseg KImage) l1 im
    /\ prep_segs FO KGraphic 0 (g' KGraphic) ((dl ++ ov0) ++ ov1) = Ok (l2, ((dl ++ ov0) ++ ov1) ++ ov2) /\ Forall2 (eqseg KGraphic) l2 gr
    /\ prep_segs FO KText 0 (g' KText) (((dl ++ ov0) ++ ov1) ++ ov2) = Ok (l3, (((dl ++ ov0) ++ ov1) ++ ov2) ++ ov3) /\ Forall2 (eqseg KText) l3 tx).
  { intros dl HL. destruct (R0 (nf_hdr FO f') dl HL AL) as (k0 & K1 & K2).
    destruct (R1 (g' KImage) (dl ++ ov0)) as (l1 & L1 & L1'); [rewrite !app_length, HL; reflexivity|exact (ES' KImage ltac:(discriminate))|].
    destruct (R2 (g' KGraphic) ((dl ++ ov0) ++ ov1)) as (l2 & L2 & L2'); [rewrite !app_length, HL; reflexivity|exact (ES' KGraphic ltac:(discriminate))|].
    destruct (R3 (g' KText) (((dl ++ ov0) ++ ov1) ++ ov2)) as (l3 & L3 & L3'); [rewrite !app_length, HL; reflexivity|exact (ES' KText ltac:(discriminate))|].
    exists k0, l1, l2, l3. repeat (split; [assumption|]). assumption. }
  assert (LEN : List.length (nf_segs FO f' KDes) = List.length des0 \/ List.length (nf_segs FO f' KDes) <> List.length des0) by (clear; lia).
  destruct LEN as [LEN|LEN].
  2: { exists des0, (ov0 ++ ov1 ++ ov2 ++ ov3), h0, gg. split; [exact D0|]. split; [cbn [gg]; now rewrite <- !app_assoc|].
       intros dl HL E3 _. exfalso. apply LEN. rewrite E3. exact HL. }
  destruct (PF (nf_segs FO f' KDes) LEN) as (k0 & l1 & l2 & l3 & P0 & X0 & P1 & X1 & P2 & X2 & P3 & X3).
  set (dl := nf_segs FO f' KDes) in *.
  set (g2 := fun k => match k with KImage => l1 | KGraphic => l2 | KText => l3 | KDes => (((dl ++ ov0) ++ ov1) ++ ov2) ++ ov3
                                 | KRes => nf_segs FO f' KRes end).
  assert (LG : forall k, List.length (g2 k) = List.length (gg k)).
  { intros [| | | |]; cbn [g2 gg].
    - clear - X1; induction X1; cbn; congruence.
    - clear - X2; induction X2; cbn; congruence.
    - clear - X3; induction X3; cbn; congruence.
    - rewrite !app_length, LEN. reflexivity.
    - rewrite (WSg KRes ltac:(discriminate)). assert (X := ES' KRes ltac:(discriminate)). cbn [gg] in X. clear - X. induction X; cbn; congruence. }
  destruct (counts_again (fun k => Z.of_nat (List.length (g2 k))) (nf_hdr FO f') WI kinds) with (h := k0) as (h2 & C1 & C2).
  { intros k Hk. rewrite (WO _ _ (lookup_in _ _ _ (proj1 (proj1 (count_fld k))))).
    - rewrite (S2 k Hk), LG. reflexivity.
    - apply count_not_total. now left.
    - apply count_not_total. now right.
    - intros k' b. apply count_not_size_fld. }
  { exact X0. }
  exists des0, (ov0 ++ ov1 ++ ov2 ++ ov3), h2, g2. split; [exact D0|]. split; [cbn [gg]; now rewrite <- !app_assoc|].
  intros dl' HL' <- HD. fold dl in HD |- *. split; [|split; [exact C2|split]].
  - unfold prepare_file. fold dl. rewrite HD. cbn [bind]. rewrite WT, P0. cbn [bind].
    rewrite (WSg KImage ltac:(discriminate)), (WSg KGraphic ltac:(discriminate)), (WSg KText ltac:(discriminate)).
    rewrite P1. cbn [bind]. rewrite P2. cbn [bind]. rewrite P3. cbn [bind].
    match goal with |- context [steps FO ?a k0] => change (steps FO a k0) with
      (steps FO (map (fun k h => hset FO hrows h (count_name k) (VInt (Z.of_nat (List.length (g2 k))))) kinds) k0) end.
    rewrite C1. reflexivity.
  - intros [| | | |] Hk; cbn [g2].
    + eapply F2_eqseg_trans; [exact X1|]. apply F2_eqseg_sym. exact (ES' KImage Hk).
    + eapply F2_eqseg_trans; [exact X2|]. apply F2_eqseg_sym. exact (ES' KGraphic Hk).
    + eapply F2_eqseg_trans; [exact X3|]. apply F2_eqseg_sym. exact (ES' KText Hk).
    + contradiction.
    + rewrite (WSg KRes Hk). clear. induction (g' KRes); constructor; [apply eqseg_refl|assumption].
  - cbn [g2]. now rewrite <- !app_assoc.
Qed.
End Again.
End T.
