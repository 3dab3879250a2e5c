(** Properties C26 (file round trip) and C44 (data that cannot be interpreted). *)
From Verif Require Import Base BaseLemmas Engine Wf EngineLemmas Codec RoundTrip Rewrite Literal
  Positions Keys Deps Assign Update Spec Reach Decimal DecimalLemmas DescsHdr Utf8 Handles Tre TreLemmas P_RoundTrip P_Fields P_Tre
  TrePlace TrePlaceLemmas P_TrePlace Scalar Security P_Security Image ImageLemmas P_Image File FileLemmas P_File FileRead.
From Coq Require Import ZifyBool ZifyNat ZifyN Permutation.
Open Scope list_scope.
Ltac Zify.zify_post_hook ::= idtac.

(** ** Specification vocabulary *)

(** The kinds of segments a data handler is for. *)
Definition kinds_of (hd : handler) : list kind :=
  match hd with
  | HOverflow | HFields _ | HDesCopy => [KDes] | HText => [KText] | HGraphicRaw => [KGraphic] | HResRaw => [KRes]
  | HNumpy | HImageHole => [KImage] | HHole => in_file_order
  end.
Definition opt_bytes (o : option (list N)) : list N := match o with Some b => b | None => [] end.

Section Spec.
Variable FO : FloatOps.
Notation hdr := (hdr FO).
Notation seg := (seg FO).

Definition des_id (h : hdr) (t : list N) : Prop :=
  get FO (mk_fs desc_NitfDesSubheader) (h_st h) "desid" [] = Ok (VStr t).

(** A handler that does not want the segment: it is for other kinds, for another desid, or the
    image is one the numpy reader does not know. *)
Inductive declines (k : kind) (h : hdr) : handler -> Prop :=
| dec_kind hd : ~ In k (kinds_of hd) -> declines k h hd
| dec_overflow t : k = KDes -> des_id h t -> t <> str "TRE_OVERFLOW" -> declines k h HOverflow
| dec_fields c t : k = KDes -> des_id h t -> t <> dc_tag c -> declines k h (HFields c)
| dec_numpy : k = KImage -> np_plan FO h = Ok None -> declines k h HNumpy.

(** A handler that can read the data [b] of the segment. *)
Definition accepts (k : kind) (s : seg) (b : list N) (hd : handler) : Prop :=
  In k (kinds_of hd) /\
  match hd with
  | HOverflow => des_id (s_hdr FO s) (str "TRE_OVERFLOW")
  | HFields c => des_id (s_hdr FO s) (dc_tag c) /\ wf_rows (dc_rows c) = true
      /\ exists st ex, s_data FO s = DFields FO c st ex /\ literals_ok FO (mk_fs (dc_rows c)) st
           /\ (opt_bytes ex = [] \/ dc_after c = true /\ dc_copy c = true)
  | HNumpy => exists il d nb nr nc, np_plan FO (s_hdr FO s) = Ok (Some (il, d)) /\ dims FO (s_hdr FO s) = Ok (nb, nr, nc)
      /\ (0 <= nb)%Z /\ (0 <= nr)%Z /\ (0 <= nc)%Z /\ Z.of_nat (List.length b) = (nb * nr * nc * itemsize d)%Z
  | _ => True
  end.
(** The handler the reader chooses: it accepts, and those before it and beside it decline. *)
Definition taken_by (E : env) (k : kind) (s : seg) (b : list N) (hd : handler) : Prop :=
  accepts k s b hd /\
  exists before l1 l2 after, e_levels E = before ++ (l1 ++ hd :: l2) :: after
    /\ Forall (declines k (s_hdr FO s)) (List.concat before ++ l1 ++ l2).

(** What the handler makes of the bytes [b] of segment [s]. *)
Definition data_read (hd : handler) (s : seg) (b : list N) (d : sdata FO) : Prop :=
  match hd with
  | HFields c => exists st ex st1 ex1, s_data FO s = DFields FO c st ex /\ d = DFields FO c st1 ex1
      /\ same_fields FO (dc_rows c) st st1 /\ opt_bytes ex1 = opt_bytes ex
  | HNumpy | HImageHole => d = DFile FO b
  | HHole => d = DHole FO (Z.of_nat (List.length b))
  | _ => d = DBytes FO (Some b)
  end.
(** The class registered for an id: the last registration, which comes first in the list. *)
Definition class_for (l : list (list N * ucls)) (t : list N) (c : ucls) : Prop :=
  exists l1 l2, l = l1 ++ (t, c) :: l2 /\ ~ In t (map fst l1).

(** The user subheader fits what is registered: a DES has one exactly if its desid has a class,
    and of that class; other segments have none, and no class is registered for the resid. *)
Definition user_ok (E : env) (k : kind) (s : seg) : Prop :=
  match k with
  | KDes => exists t, des_id (s_hdr FO s) t /\
      match s_ush FO s with
      | None => ~ In t (map fst (e_des E))
      | Some u => class_for (e_des E) t (us_cls FO u) /\ wf_rows (uc_rows (us_cls FO u)) = true
                  /\ literals_ok FO (mk_fs (uc_rows (us_cls FO u))) (us_st FO u)
      end
  | KRes => s_ush FO s = None /\ exists t,
      get FO (mk_fs desc_NitfResSubheader) (h_st (s_hdr FO s)) "resid" [] = Ok (VStr t) /\ ~ In t (map fst (e_res E))
  | _ => s_ush FO s = None
  end.
Definition same_ush (o o1 : option (ush FO)) : Prop :=
  match o, o1 with
  | None, None => True
  | Some u, Some u1 => us_cls FO u1 = us_cls FO u /\ same_fields FO (uc_rows (us_cls FO u)) (us_st FO u) (us_st FO u1)
  | _, _ => False
  end.

(** A segment that the reader set up as [E] can read. *)
Definition readable (E : env) (k : kind) (s : seg) : Prop :=
  literals_ok FO (mk_fs (sub_rows k)) (h_st (s_hdr FO s)) /\ user_ok E k s
  /\ forall b, data_bytes FO (s_hdr FO s) (s_data FO s) = Ok b -> exists hd, taken_by E k s b hd.

(** The same segment, apart from its TREs. *)
Definition same_segment (E : env) (k : kind) (s s1 : seg) : Prop :=
  same_fields FO (sub_rows k) (h_st (s_hdr FO s)) (h_st (s_hdr FO s1)) /\ same_ush (s_ush FO s) (s_ush FO s1)
  /\ forall b hd, data_bytes FO (s_hdr FO s) (s_data FO s) = Ok b -> taken_by E k s b hd -> data_read hd s b (s_data FO s1).

(** The TREs [ts1] are [ts]: the same ones with the same values, in the same order if they all
    fit into the first area. *)
Definition tres_back (ts ts1 : list (tre FO)) : Prop :=
  exists ts', Permutation ts ts' /\ Forall2 (same_tre FO) ts' ts1
    /\ (forall rs, records FO ts rs -> (Z.of_nat (List.length (List.concat rs)) < 99996)%Z -> ts' = ts).

(** Headers and TREs for which placing works (see C23 and C24): for a new header only the
    recognition of the TREs is asked for ([empty_sound]).  Graphics have no TREs (see C23). *)
Definition tre_ready_in (E : env) (rows : list row) (areas : list tarea) (h : hdr) (ts : list (tre FO)) : Prop :=
  Forall (recognised FO (e_reg E)) ts /\ sound_header FO rows areas h
  /\ (forall a, In a areas -> no_stale FO rows h a) /\ refilled FO rows areas h ts.
Definition tre_ready (E : env) (k : kind) (s : seg) : Prop :=
  match k with
  | KImage => tre_ready_in E desc_NitfImageSubheader image_areas (s_hdr FO s) (s_tres FO s)
  | KText => tre_ready_in E desc_NitfTextSubheader text_areas (s_hdr FO s) (s_tres FO s)
  | KGraphic => s_tres FO s = [] /\ get FO (mk_fs desc_NitfGraphicSubheader) (h_st (s_hdr FO s)) "sxshdl" [] = Ok (VInt 0)
  | _ => s_tres FO s = []
  end.

(** The reader takes overflow segments for what they are. *)
Definition overflow_ready (E : env) : Prop :=
  ~ In (str "TRE_OVERFLOW") (map fst (e_des E))
  /\ exists before l1 hd l2 after, e_levels E = before ++ (l1 ++ hd :: l2) :: after
       /\ (hd = HOverflow \/ hd = HDesCopy)
       /\ Forall (fun x => ~ In KDes (kinds_of x) \/ exists c, x = HFields c /\ dc_tag c <> str "TRE_OVERFLOW")
            (List.concat before ++ l1 ++ l2).
End Spec.

Section R.
Variable FO : FloatOps.
Notation st := (state FO).
Notation hdr := (hdr FO).
Notation seg := (seg FO).
Hypothesis laws : FloatLaws FO.

(** Two headers that agree on the plain fields. *)
Definition agree (k : kind) (h h1 : hdr) : Prop :=
  forall nm, plain_name (sub_rows k) nm = true -> get FO (mk_fs (sub_rows k)) (h_st h1) nm [] = get FO (mk_fs (sub_rows k)) (h_st h) nm [].

Lemma kinds_of_for hd k : In k (kinds_of hd) <-> for_kind hd k = true.
Proof. destruct hd, k; cbn; intuition discriminate. Qed.

Lemma desid_plain : plain_name (sub_rows KDes) "desid" = true.
Proof. vm_compute. reflexivity. Qed.
Lemma desid_hget (h : hdr) : hget FO (sub_rows KDes) h "desid" = get FO (mk_fs (sub_rows KDes)) (h_st h) "desid" [].
Proof. apply hget_field. vm_compute. discriminate. Qed.
Lemma np_agree (h h1 : hdr) : agree KImage h h1 -> forall nm, In nm np_names -> iget FO h1 nm = iget FO h nm.
Proof.
  intros A nm Hnm. assert (P : plain_name desc_NitfImageSubheader nm = true).
  { pose proof np_plain as P. rewrite forallb_forall in P. exact (P nm Hnm). }
  assert (L : lookup (mk_fs desc_NitfImageSubheader) nm <> None).
  { unfold plain_name in P. destruct (lookup (mk_fs desc_NitfImageSubheader) nm); discriminate. }
  unfold iget. rewrite !(hget_field FO _ _ _ L). exact (A nm P).
Qed.

Lemma handle_declines k (h h1 : hdr) sz file hd pos : agree k h h1 -> declines FO k h hd ->
  handle_h FO k h1 sz file hd pos = Ok (None, pos).
Proof.
  intros A HD. destruct HD as [hd Hk|t -> HI HN|c t -> HI HN| -> HP]; unfold handle_h.
  - destruct (for_kind hd k) eqn:E; [|reflexivity]. apply kinds_of_for in E. contradiction.
  - cbn [for_kind negb]. rewrite desid_hget, (A _ desid_plain). unfold des_id in HI. cbn [sub_rows]. rewrite HI. cbn [bind py_eqb].
    destruct (list_eqb t overflow_id) eqn:E; [|reflexivity]. apply list_eqb_spec in E. contradiction.
  - cbn [for_kind negb]. rewrite desid_hget, (A _ desid_plain). unfold des_id in HI. cbn [sub_rows]. rewrite HI. cbn [bind py_eqb].
    destruct (list_eqb t (dc_tag c)) eqn:E; [|reflexivity]. apply list_eqb_spec in E. contradiction.
  - cbn [for_kind negb]. unfold np_read. rewrite (proj1 (np_same FO h h1 (np_agree h h1 A))), HP. reflexivity.
Qed.

Lemma handle_accepts k (s : seg) (h1 : hdr) pre b post hd : agree k (s_hdr FO s) h1 -> accepts FO k s b hd ->
  data_bytes FO (s_hdr FO s) (s_data FO s) = Ok b ->
  exists d, handle_h FO k h1 (Z.of_nat (List.length b)) (pre ++ b ++ post) hd (List.length pre) = Ok (Some d, List.length (pre ++ b))
    /\ data_read FO hd s b d.
Proof.
  intros A (Hk & HA) HB. unfold handle_h. rewrite (proj1 (kinds_of_for hd k) Hk). cbn [negb].
  destruct hd as [|c| | | | | | |].
  - cbn in Hk. destruct Hk as [<-|[]]. rewrite desid_hget, (A _ desid_plain). unfold des_id in HA. cbn [sub_rows]. rewrite HA. cbn [bind py_eqb].
    change (str "TRE_OVERFLOW") with overflow_id. rewrite (proj2 overflow_enc). cbn [negb].
    rewrite take_at_ok. eexists. split; reflexivity.
  - cbn in Hk. destruct Hk as [<-|[]]. destruct HA as (HI & Hwf & s0 & ex & ED & HL & HX).
    rewrite desid_hget, (A _ desid_plain). unfold des_id in HI. cbn [sub_rows]. rewrite HI. cbn [bind py_eqb].
    replace (list_eqb (dc_tag c) (dc_tag c)) with true by (symmetry; now apply list_eqb_spec). cbn [negb].
    rewrite ED in HB. cbn [data_bytes] in HB. apply bind_ok_elim in HB as (b0 & HW & HB). injection HB as <-.
    fold (opt_bytes ex). rewrite <- app_assoc.
    destruct (read_at_ok FO laws (dc_rows c) s0 b0 pre (opt_bytes ex ++ post) Hwf HL HW) as (s1 & R & HS). rewrite R. cbn [bind].
    replace (Z.of_nat (List.length (b0 ++ opt_bytes ex)) - (Z.of_nat (List.length (pre ++ b0)) - Z.of_nat (List.length pre)))%Z
      with (Z.of_nat (List.length (opt_bytes ex))) by (rewrite !app_length; lia).
    destruct (opt_bytes ex) as [|x l] eqn:EX.
    + cbn [List.length Z.of_nat Z.eqb]. eexists. split; [rewrite app_nil_r; reflexivity|].
      exists s0, ex, s1, None. rewrite EX. repeat (split; [assumption || reflexivity|]). reflexivity.
    + destruct HX as [HX|[HX1 HX2]]; [discriminate|]. replace (_ =? 0)%Z with false by (cbn [List.length]; lia).
      rewrite HX1, HX2. cbn [negb]. rewrite app_assoc, take_at_ok. eexists. split; [rewrite <- !app_assoc; reflexivity|].
      exists s0, ex, s1, (Some (x :: l)). rewrite EX. repeat (split; [assumption || reflexivity|]). reflexivity.
  - rewrite take_at_ok. eexists. split; reflexivity.
  - rewrite take_at_ok. eexists. split; reflexivity.
  - rewrite take_at_ok. eexists. split; reflexivity.
  - rewrite take_at_ok. eexists. split; reflexivity.
  - cbn in Hk. destruct Hk as [<-|[]]. destruct HA as (il & dt & nb & nr & nc & P & D & B1 & B2 & B3 & BL).
    destruct (np_same FO (s_hdr FO s) h1 (np_agree _ h1 A)) as (E1 & E2).
    unfold np_read. rewrite E1, P. cbn [bind].
    destruct (np_map_ok FO h1 il dt (Z.of_nat (List.length (pre ++ b ++ post))) (Z.of_nat (List.length pre)) nb nr nc) as (m & M & MS);
      [rewrite E2; exact D|exact B1|exact B2|exact B3|rewrite !app_length; lia|].
    rewrite M. cbn [bind]. rewrite MS, <- BL, firstn_at. eexists. split; [|reflexivity].
    f_equal. f_equal. rewrite app_length. lia.
  - rewrite seek_by_ok. cbn [bind]. rewrite firstn_at. eexists. split; reflexivity.
  - rewrite seek_by_ok. cbn [bind]. eexists. split; reflexivity.
Qed.

Lemma try_declined k (h h1 : hdr) sz file pos l found : agree k h h1 -> Forall (declines FO k h) l ->
  try_level handler nat (sdata FO) (handle_h FO k h1 sz file) l found pos = Ok (found, pos).
Proof.
  intros A. induction 1 as [|hd l Hd _ IH]; [reflexivity|]. cbn [try_level].
  rewrite (handle_declines k h h1 sz file hd pos A Hd). cbn [bind]. exact IH.
Qed.
Lemma try_level_app H S R (f : H -> S -> res (option R * S)) l1 l2 found s found' s' : try_level H S R f l1 found s = Ok (found', s') ->
  try_level H S R f (l1 ++ l2) found s = try_level H S R f l2 found' s'.
Proof.
  revert found s. induction l1 as [|h l1 IH]; intros found s E; cbn [app try_level] in *; [now injection E as <- <-|].
  destruct (f h s) as [[[r|] s1]|e]; cbn [bind] in *; [|apply IH; exact E|discriminate]. destruct found; [discriminate|]. apply IH. exact E.
Qed.

Lemma levels_taken k (s : seg) (h1 : hdr) pre b post hd E : agree k (s_hdr FO s) h1 -> taken_by FO E k s b hd ->
  data_bytes FO (s_hdr FO s) (s_data FO s) = Ok b ->
  exists d, handle_levels handler nat (sdata FO) (handle_h FO k h1 (Z.of_nat (List.length b)) (pre ++ b ++ post)) (e_levels E) (List.length pre)
      = Ok (d, List.length (pre ++ b)) /\ data_read FO hd s b d.
Proof.
  intros A (HA & before & l1 & l2 & after & EL & HD) HB. rewrite EL. clear EL.
  destruct (handle_accepts k s h1 pre b post hd A HA HB) as (d & H1 & H2). exists d. split; [|exact H2].
  apply Forall_app in HD as (D1 & D2). apply Forall_app in D2 as (D2 & D3).
  induction before as [|lv before IH]; cbn [app handle_levels].
  - rewrite (try_level_app _ _ _ _ l1 _ _ _ _ _ (try_declined k (s_hdr FO s) h1 _ _ _ l1 None A D2)). cbn [try_level].
    rewrite H1. cbn [bind]. rewrite (try_declined k (s_hdr FO s) h1 _ _ _ l2 (Some d) A D3). reflexivity.
  - cbn [List.concat] in D1. apply Forall_app in D1 as (D0 & D1).
    rewrite (try_declined k (s_hdr FO s) h1 _ _ _ lv None A D0). cbn [bind]. exact (IH D1).
Qed.

(** ** One segment *)

(** The bytes of the user subheader are in the subheader of a DES. *)
Definition ush_stored (k : kind) (s : seg) : Prop :=
  k = KDes -> forall u, s_ush FO s = Some u -> exists ub, write FO (mk_fs (uc_rows (us_cls FO u))) (us_st FO u) = Ok ub
    /\ get FO (mk_fs desc_NitfDesSubheader) (h_st (s_hdr FO s)) "desshf" [] = Ok (VBytes ub).

Lemma desshf_desc : fd_ty (f_d desshf_fld) = TData KBytes /\ fd_size (f_d desshf_fld) = SzExpr (EFld "desshl" 0)
  /\ fd_size_offset (f_d desshf_fld) = 0%Z /\ fd_size_not_updated (f_d desshf_fld) = false
  /\ fd_ty (f_d desshl_fld) = TInt /\ fd_cond (f_d desshf_fld) = None /\ f_loops desshf_fld = [].
Proof. repeat split; vm_compute; reflexivity. Qed.

Lemma wrote_ush k (s s' : seg) p : wrote FO k s s' p -> ush_stored k s'.
Proof.
  intros (h & HP & -> & _) -> u Hu. cbn [with_hdr s_ush] in Hu. unfold put_ush in HP. rewrite Hu in HP.
  apply bind_ok_elim in HP as (v & Hv & HP). apply bind_ok_elim in Hv as (ub & Hw & Hv). injection Hv as <-.
  exists ub. split; [exact Hw|]. cbn [with_hdr s_hdr]. cbn [sub_rows ush_name] in HP. unfold hset in HP.
  destruct desshf_facts as (L1 & L2 & _). rewrite L1 in HP.
  destruct (set FO (mk_fs desc_NitfDesSubheader) (h_st (s_hdr FO s)) "desshf" [] (SVal (VBytes ub))) as [s1 r1] eqn:ES.
  destruct r1 as [[]|e]; [|discriminate]. injection HP as <-. cbn [h_st].
  destruct desshf_desc as (D1 & D2 & D3 & D4 & D5 & D6 & D7).
  destruct (C11_data FO _ _ _ _ _ _ _ _ _ _ _ (sub_rows_wf KDes) L1 D1 (or_intror eq_refl) D2 ltac:(rewrite D3; lia) D4 L2 D5 ES) as (b & Hb & _ & HG).
  assert (b = ub) by (destruct Hb as [Hb|(Hb & _)]; [now injection Hb|discriminate]). subst b.
  apply HG.
  - split; rewrite D7; [reflexivity|cbn; lia].
  - apply cond_is_check. unfold check_condition. rewrite D6. reflexivity.
Qed.

Lemma reg_get_none l t : ~ In t (map fst l) -> reg_get FO l (VStr t) = None.
Proof.
  intro H. unfold reg_get. destruct (find _ l) as [p|] eqn:E; [|reflexivity]. exfalso. apply find_some in E as (E1 & E2).
  apply list_eqb_spec in E2. apply H. rewrite <- E2. now apply in_map.
Qed.
Lemma reg_get_class l t c : class_for l t c -> reg_get FO l (VStr t) = Some c.
Proof.
  intros (l1 & l2 & -> & H). unfold reg_get. induction l1 as [|[t' c'] l1 IH]; cbn [app find fst].
  - replace (list_eqb t t) with true by (symmetry; now apply list_eqb_spec). reflexivity.
  - destruct (list_eqb t' t) eqn:E; [apply list_eqb_spec in E; exfalso; apply H; now left|].
    apply IH. intro HI. apply H. now right.
Qed.

Lemma resid_plain : plain_name (sub_rows KRes) "resid" = true.
Proof. vm_compute. reflexivity. Qed.
Lemma desshf_exact : exact_name (sub_rows KDes) "desshf" = true.
Proof. vm_compute. reflexivity. Qed.

Lemma seg_read_ok E k (s : seg) p pre post : segment_bytes FO k s p -> ush_stored k s -> readable FO E k s ->
  exists s1, seg_read FO E k (Z.of_nat (List.length (snd p))) (pre ++ (fst p ++ snd p) ++ post) (List.length pre)
      = Ok (s1, List.length (pre ++ fst p ++ snd p))
    /\ same_segment FO E k s s1 /\ s_tres FO s1 = [] /\ s_linked FO s1 = true /\ h_attr (s_hdr FO s1) = [].
Proof.
  intros (HW & HB) HU (HL & HUO & HT). destruct p as [sub data]. cbn [fst snd] in *.
  destruct (HT data HB) as (hd & HTk). unfold seg_read. rewrite <- app_assoc.
  destruct (read_at_ok FO laws (sub_rows k) _ sub pre (data ++ post) (sub_rows_wf k) HL HW) as (st1 & R & HS).
  rewrite R. cbn [bind]. set (h1 := {| h_st := st1; h_attr := [] |}).
  assert (A : agree k (s_hdr FO s) h1).
  { intros nm Hnm. exact (same_plain FO laws (sub_rows k) _ st1 sub nm (sub_rows_wf k) HL HW HS Hnm). }
  assert (U : exists u1, (do c <- ush_cls FO E k h1;
      match c with
      | None => Ok None
      | Some c => do v <- hget FO (sub_rows k) h1 (ush_name k);
                  do b <- match v with VBytes b => Ok b | VNone => Ok [] | _ => Err EType end;
                  do (s, _) <- read FO (mk_fs (uc_rows c)) false (init_state FO) b;
                  Ok (Some {| us_cls := c; us_st := s |})
      end) = Ok u1 /\ same_ush FO (s_ush FO s) u1).
  { unfold user_ok in HUO. destruct k; cbn [ush_cls].
    - exists None. rewrite HUO. split; [reflexivity|exact I].
    - exists None. rewrite HUO. split; [reflexivity|exact I].
    - exists None. rewrite HUO. split; [reflexivity|exact I].
    - destruct HUO as (t & HI & HUO). rewrite desid_hget, (A _ desid_plain). unfold des_id in HI. cbn [sub_rows]. rewrite HI. cbn [bind].
      destruct (s_ush FO s) as [u|] eqn:EU.
      + destruct HUO as (HC & HWf & HLu). rewrite (reg_get_class _ _ _ HC).
        destruct (HU eq_refl u EU) as (ub & HWu & HG).
        assert (HG1 := same_get FO (sub_rows KDes) _ st1 "desshf" _ HS desshf_exact HG). cbn [ush_name].
        rewrite (hget_field FO desc_NitfDesSubheader h1 "desshf") by (vm_compute; discriminate). cbn [h1 h_st]. cbn [sub_rows] in HG1. rewrite HG1. cbn [bind].
        destruct (C01_round_trip FO _ _ (init_state FO) false ub [] laws HWf HLu HWu) as (us1 & RU & U1 & U2). rewrite app_nil_r in RU.
        rewrite RU. cbn [bind]. eexists. split; [reflexivity|]. cbn [same_ush us_cls us_st]. split; [reflexivity|]. split; assumption.
      + rewrite (reg_get_none _ _ HUO). exists None. split; [reflexivity|exact I].
    - destruct HUO as (HN & t & HI & HUO). rewrite HN.
      rewrite (hget_field FO (sub_rows KRes) h1 "resid") by (vm_compute; discriminate).
      rewrite (A _ resid_plain). cbn [sub_rows]. rewrite HI. cbn [bind]. rewrite (reg_get_none _ _ HUO). exists None. split; [reflexivity|exact I]. }
  destruct U as (u1 & U1 & U2).
  destruct (levels_taken k s h1 (pre ++ sub) data post hd E A HTk HB) as (d & D1 & D2). rewrite <- !app_assoc in D1.
  apply bind_ok_elim in U1 as (c & C1 & C2). rewrite C1. cbn [bind]. rewrite C2. cbn [bind]. rewrite D1. cbn [bind].
  eexists. split; [reflexivity|]. cbn [s_tres s_linked s_hdr h_attr h1]. split; [|repeat split].
  unfold same_segment. cbn [s_hdr s_ush s_data h_st]. split; [exact HS|]. split; [exact U2|]. intros b' hd' HB' HT'.
  rewrite HB in HB'. injection HB' as <-.
  destruct (levels_taken k s h1 (pre ++ sub) data post hd' E A HT' HB) as (d' & D1' & D2'). rewrite <- !app_assoc in D1'.
  rewrite D1 in D1'. injection D1' as <-. exact D2'.
Qed.

Lemma flat_cons p ps : flat (p :: ps) = (fst p ++ snd p) ++ flat ps.
Proof. reflexivity. Qed.

Definition reads (E : env) (k : kind) (s s1 : seg) : Prop :=
  same_segment FO E k s s1 /\ s_tres FO s1 = [] /\ s_linked FO s1 = true /\ h_attr (s_hdr FO s1) = [].

Lemma segs_read_ok E k l ps : Forall2 (segment_bytes FO k) l ps -> Forall (ush_stored k) l -> Forall (readable FO E k) l ->
  forall pre post, exists l1, segs_read FO E k (map (fun p => Z.of_nat (List.length (snd p))) ps) (pre ++ flat ps ++ post) (List.length pre)
      = Ok (l1, List.length (pre ++ flat ps)) /\ Forall2 (reads E k) l l1.
Proof.
  induction 1 as [|s p l ps HB _ IH]; intros HU HR pre post.
  - exists []. cbn [map segs_read flat List.concat]. split; [|constructor]. f_equal. f_equal. cbn. now rewrite app_nil_r.
  - inversion_clear HU as [|? ? U1 U2]. inversion_clear HR as [|? ? R1 R2]. cbn [map segs_read]. rewrite flat_cons, <- app_assoc.
    destruct (seg_read_ok E k s p pre (flat ps ++ post) HB U1 R1) as (s1 & S1 & S2). rewrite S1. cbn [bind].
    destruct (IH U2 R2 (pre ++ fst p ++ snd p) post) as (l1 & L1 & L2).
    rewrite <- app_assoc in L1. rewrite L1. cbn [bind]. exists (s1 :: l1). split; [|constructor; assumption].
    f_equal. f_equal. rewrite <- !app_assoc. reflexivity.
Qed.

(** ** The sizes in the header *)

Lemma map_res_upto {A} (F : Z -> res A) l : (forall j x, nth_error l j = Some x -> F (Z.of_nat j) = Ok x) ->
  map_res F (upto (Z.of_nat (List.length l))) = Ok l.
Proof.
  unfold upto. rewrite Nat2Z.id. intro H.
  assert (G : forall m l0 n, (forall j x, nth_error l0 j = Some x -> F (Z.of_nat (n + j)) = Ok x) -> List.length l0 = m ->
    map_res F (map Z.of_nat (seq n m)) = Ok l0).
  { induction m as [|m IH]; intros [|a l0] n Hj HL; try discriminate; [reflexivity|]. cbn [seq map map_res].
    rewrite <- (Nat.add_0_r n) at 1. rewrite (Hj 0%nat a eq_refl). cbn [bind].
    rewrite (IH l0 (S n)); [reflexivity| |now injection HL]. intros j x Hx. rewrite Nat.add_succ_comm. exact (Hj (S j) x Hx). }
  apply (G _ l 0%nat); [exact H|reflexivity].
Qed.

Lemma size_exact k b : exactb (hfld (size_name k b)) = true.
Proof. destruct (size_fld k b). unfold exactb. now rewrite lp_ty. Qed.
Lemma count_exact k : exact_name hrows (count_name k) = true.
Proof. destruct k; vm_compute; reflexivity. Qed.

Lemma sizes_ok (s s1 : st) (ps : list (list N * list N)) n k : same_fields FO hrows s s1 -> counts FO s n -> n k = List.length ps ->
  (forall j p, nth_error ps j = Some p -> size_stored FO s k true j = SVal (VInt (Z.of_nat (List.length (fst p))))
     /\ size_stored FO s k false j = SVal (VInt (Z.of_nat (List.length (snd p))))) ->
  sizes FO s1 k = Ok (map (fun p => Z.of_nat (List.length (snd p))) ps).
Proof.
  intros HS HC Hn HP. unfold sizes. rewrite (same_get FO hrows s s1 _ _ HS (count_exact k) (HC k)). cbn [bind].
  rewrite Hn. rewrite <- (map_length (fun p => Z.of_nat (List.length (snd p))) ps). apply map_res_upto.
  intros j x Hx. rewrite nth_error_map in Hx. destruct (nth_error ps j) as [p|] eqn:E; [|discriminate]. injection Hx as <-.
  assert (Hj : (j < n k)%nat) by (rewrite Hn; apply nth_error_Some; rewrite E; discriminate).
  destruct (HP j p E) as (P1 & P2).
  assert (K : forall b z, size_stored FO s k b j = SVal (VInt z) -> size_at FO s1 (size_name k b) (Z.of_nat j) = Ok z).
  { intros b z Hz. unfold size_at. assert (G := get_size_int FO s n k b j z HC Hj Hz).
    destruct (size_keys FO s n k b HC) as (ks & K1 & K2).
    assert (HV : valid_index FO hfs s (hfld (size_name k b)) [Z.of_nat j]) by (apply (valid_key FO hfs s _ ks _ K1); exact (K2 j Hj)).
    rewrite (same_exact FO hrows s s1 _ _ _ _ HS (lp_look _ _ _ (size_fld k b)) (size_exact k b) HV G). reflexivity. }
  change (fst (size_names k)) with (size_name k true). change (snd (size_names k)) with (size_name k false).
  rewrite (K true _ P1). cbn [bind]. exact (K false _ P2).
Qed.

(** ** The TREs *)

(** Values found in [h] are found in [h1]. *)
Definition passes (rows : list row) (h h1 : hdr) : Prop :=
  forall nm v, exact_name rows nm = true -> get FO (mk_fs rows) (h_st h) nm [] = Ok v -> get FO (mk_fs rows) (h_st h1) nm [] = Ok v.

Lemma exact_look rows nm : exact_name rows nm = true -> lookup (mk_fs rows) nm <> None.
Proof. unfold exact_name. destruct (lookup (mk_fs rows) nm); discriminate. Qed.

Lemma hget_passes rows (h h1 : hdr) nm v : passes rows h h1 -> exact_name rows nm = true ->
  hget FO rows h nm = Ok v -> hget FO rows h1 nm = Ok v.
Proof. intros HP HE. rewrite !hget_field by (now apply exact_look). exact (HP nm v HE). Qed.
Lemma hint_passes rows (h h1 : hdr) nm z : passes rows h h1 -> exact_name rows nm = true ->
  hint FO rows h nm = Ok z -> hint FO rows h1 nm = Ok z.
Proof.
  intros HP HE H. unfold hint in *. apply bind_ok_elim in H as (v & Hv & H). rewrite (hget_passes rows h h1 nm v HP HE Hv). exact H.
Qed.

Lemma read_areas_passes rows reg (h h1 : hdr) des areas : passes rows h h1 ->
  (forall a nm, In a areas -> In nm (area_names a) -> exact_name rows nm = true) ->
  forall ts, read_areas FO rows reg h des areas = Ok ts -> read_areas FO rows reg h1 des areas = Ok ts.
Proof.
  intros HP. induction areas as [|a areas IH]; intros HE ts H; [exact H|]. cbn [read_areas] in *.
  assert (E1 : exact_name rows (ta_len a) = true) by (apply (HE a); [now left|cbn; tauto]).
  assert (E2 : exact_name rows (ta_ofl a) = true) by (apply (HE a); [now left|cbn; tauto]).
  assert (E3 : exact_name rows (ta_data a) = true) by (apply (HE a); [now left|cbn; tauto]).
  apply bind_ok_elim in H as (n & Hn & H). rewrite (hint_passes rows h h1 _ n HP E1 Hn). cbn [bind].
  apply bind_ok_elim in H as (t & Ht & H). apply bind_ok_elim in H as (t' & Ht' & H). injection H as <-.
  rewrite (IH (fun a' nm Ha => HE a' nm (or_intror Ha)) t' Ht').
  destruct (n >? 0)%Z; [|injection Ht as <-; reflexivity].
  apply bind_ok_elim in Ht as (i & Hi & Ht). rewrite (hint_passes rows h h1 _ i HP E2 Hi). cbn [bind].
  apply bind_ok_elim in Ht as (t1 & Ht1 & Ht). rewrite Ht1. cbn [bind].
  apply bind_ok_elim in Ht as (v & Hv & Ht). rewrite (hget_passes rows h h1 _ v HP E3 Hv). cbn [bind]. rewrite Ht. reflexivity.
Qed.

Lemma areas_exact k : k = KImage \/ k = KText -> forall a nm, In a (sub_areas k) -> In nm (area_names a) -> exact_name (sub_rows k) nm = true.
Proof.
  intros Hk a nm Ha Hn.
  assert (A : forallb (fun a => forallb (exact_name (sub_rows k)) (area_names a)) (sub_areas k) = true)
    by (destruct Hk as [->| ->]; vm_compute; reflexivity).
  rewrite forallb_forall in A. specialize (A a Ha). rewrite forallb_forall in A. exact (A nm Hn).
Qed.
Lemma file_areas_exact a nm : In a file_areas -> In nm (area_names a) -> exact_name hrows nm = true.
Proof.
  intros Ha Hn. assert (A : forallb (fun a => forallb (exact_name hrows) (area_names a)) file_areas = true) by (vm_compute; reflexivity).
  rewrite forallb_forall in A. specialize (A a Ha). rewrite forallb_forall in A. exact (A nm Hn).
Qed.

Lemma ready_read E rows areas idx (h : hdr) ts dl more h' o : areas_ok rows areas -> areas <> [] ->
  tre_ready_in FO E rows areas h ts -> prepare FO rows areas idx h ts (List.length dl) = (h', o, Ok tt) ->
  exists ts1, read_areas FO rows (e_reg E) h' (dl ++ appended o ++ more) areas = Ok ts1 /\ tres_back FO ts ts1.
Proof.
  intros HA HN (R1 & R2 & R3 & R4) HP.
  destruct (read_back FO rows areas idx h ts dl more h' o (e_reg E) laws HA R2 R3 R4 R1 HP) as (ts' & ts1 & A & B & C & D).
  exists ts1. split; [exact A|]. exists ts'. split; [exact B|]. split; [exact C|]. intros rs H1 H2. exact (D rs H1 H2 HN).
Qed.

Lemma sxshdl_look (h : hdr) : hint FO (sub_rows KGraphic) h "sxshdl" =
  do v <- get FO (mk_fs desc_NitfGraphicSubheader) (h_st h) "sxshdl" []; match v with VInt z => Ok z | _ => Err EType end.
Proof. unfold hint. rewrite hget_field by (vm_compute; discriminate). reflexivity. Qed.

(** What a prepared segment shows, whatever the header is read through. *)
Lemma seg_tres E k (s : seg) i (dl more : list (res (list N))) h o : has_tres k = true -> tre_ready FO E k s ->
  prepare FO (sub_rows k) (sub_areas k) (Z.of_nat i) (s_hdr FO s) (s_tres FO s) (List.length dl) = (h, o, Ok tt) ->
  exists ts1, tres_back FO (s_tres FO s) ts1 /\
    forall h1, passes (sub_rows k) h h1 -> read_areas FO (sub_rows k) (e_reg E) h1 (dl ++ appended o ++ more) (sub_areas k) = Ok ts1.
Proof.
  intros Hk HR HP. destruct areas_shipped as (_ & AI & AT). destruct k; try discriminate.
  - destruct (ready_read E _ _ _ _ _ _ more _ _ AI ltac:(discriminate) HR HP) as (ts1 & A & B). exists ts1. split; [exact B|].
    intros h1 H1. exact (read_areas_passes _ _ h h1 _ _ H1 (areas_exact KImage (or_introl eq_refl)) ts1 A).
  - destruct HR as (HT & HZ). exists []. rewrite HT. split.
    + exists []. split; [apply Permutation_refl|]. split; [constructor|]. reflexivity.
    + intros h1 H1. rewrite HT in HP. unfold prepare in HP. cbn [sub_areas graphic_areas map place store_areas ta_len] in HP.
      assert (Z0 : hint FO (sub_rows KGraphic) (s_hdr FO s) "sxshdl" = Ok 0%Z) by (rewrite sxshdl_look, HZ; reflexivity).
      rewrite Z0 in HP. cbn [Z.gtb Z.compare] in HP. injection HP as <- <-.
      assert (E1 : exact_name (sub_rows KGraphic) "sxshdl" = true) by (vm_compute; reflexivity).
      unfold sub_areas, graphic_areas. cbn [read_areas ta_len]. rewrite (hint_passes _ _ h1 _ _ H1 E1 Z0). reflexivity.
  - destruct (ready_read E _ _ _ _ _ _ more _ _ AT ltac:(discriminate) HR HP) as (ts1 & A & B). exists ts1. split; [exact B|].
    intros h1 H1. exact (read_areas_passes _ _ h h1 _ _ H1 (areas_exact KText (or_intror eq_refl)) ts1 A).
Qed.

Lemma ov_data_is o ov : Forall2 (ov_is FO) (ov_list o) ov -> map (des_data FO) ov = appended o.
Proof.
  intro H. destruct o as [o|]; inversion H as [|? ? ? ? H1 H2]; subst; [|reflexivity]. inversion H2; subst.
  destruct H1 as (_ & _ & _ & _ & D & _). cbn [map appended]. unfold des_data. rewrite D. reflexivity.
Qed.

Definition shows (E : env) (k : kind) (dd : list (res (list N))) (s : seg) (ts : list (tre FO)) : Prop :=
  tres_back FO (s_tres FO s) ts /\
  forall h1, passes (sub_rows k) (s_hdr FO s) h1 -> read_areas FO (sub_rows k) (e_reg E) h1 dd (sub_areas k) = Ok ts.

Lemma prepped_shows E k i l n l' ov : has_tres k = true -> prepped FO k i l n l' ov -> Forall (tre_ready FO E k) l ->
  forall dl more, List.length dl = n -> exists tss, Forall2 (shows E k (dl ++ map (des_data FO) ov ++ more)) l' tss.
Proof.
  intros Hk. induction 1 as [i n|i s l n h o ov l' ov' H1 H2 _ IH]; intros HF dl more Hn.
  - exists []. constructor.
  - inversion_clear HF as [|? ? F1 F2]. rewrite Hk in H1. subst n.
    destruct (seg_tres E k s i dl (map (des_data FO) ov' ++ more) h o Hk F1 H1) as (ts1 & T1 & T2).
    destruct (IH F2 (dl ++ map (des_data FO) ov) more) as (tss & HT); [rewrite app_length, map_length; reflexivity|].
    exists (ts1 :: tss). rewrite map_app. constructor.
    + split; [exact T1|]. intros h1 P1. cbn [with_hdr s_hdr] in P1. rewrite (ov_data_is o ov H2), <- app_assoc. exact (T2 h1 P1).
    + rewrite <- app_assoc. rewrite <- app_assoc in HT. exact HT.
Qed.

(** Through writing and reading. *)
Lemma wrote_passes k (s s' : seg) p : k <> KDes -> wrote FO k s s' p -> passes (sub_rows k) (s_hdr FO s) (s_hdr FO s') /\ s_tres FO s' = s_tres FO s.
Proof.
  intros Hk (h & HP & -> & _). destruct (put_ush_plain FO k s h Hk HP) as (E & _). cbn [with_hdr s_hdr s_tres]. split; [|reflexivity].
  intros nm v _ H. rewrite E. exact H.
Qed.
Lemma passes_trans rows (a b c : hdr) : passes rows a b -> passes rows b c -> passes rows a c.
Proof. intros H1 H2 nm v E H. exact (H2 nm v E (H1 nm v E H)). Qed.
Lemma same_passes rows (h h1 : hdr) : same_fields FO rows (h_st h) (h_st h1) -> passes rows h h1.
Proof. intros HS nm v E H. exact (same_get FO rows _ _ nm v HS E H). Qed.

Definition same_seg (E : env) (k : kind) (s s1 : seg) : Prop :=
  same_segment FO E k s s1 /\ tres_back FO (s_tres FO s) (s_tres FO s1).

Lemma map_with_tres E k dd l l' ps l1 tss : has_tres k = true -> wrote_all FO k l l' ps -> Forall2 (shows E k dd) l tss ->
  Forall2 (reads E k) l' l1 -> exists l2, map_res (with_tres FO E k dd) l1 = Ok l2 /\ Forall2 (same_seg E k) l' l2.
Proof.
  intros Hk HW. revert l1 tss. induction HW as [|s l s' l' p ps W _ IH]; intros l1 tss HS HR.
  - inversion HR; subst. exists []. split; [reflexivity|constructor].
  - inversion HS as [|? ts ? tss' (S1 & S2) S3]; subst. inversion HR as [|? s1 ? l1' (R1 & R2) R3]; subst.
    destruct (IH l1' tss' S3 R3) as (l2 & L1 & L2).
    assert (NK : k <> KDes) by (intros ->; discriminate).
    destruct (wrote_passes k s s' p NK W) as (P1 & P2).
    cbn [map_res]. unfold with_tres at 1. rewrite Hk.
    rewrite (S2 (s_hdr FO s1) (passes_trans _ _ _ _ P1 (same_passes _ _ _ (proj1 R1)))). cbn [bind]. rewrite L1. cbn [bind].
    eexists. split; [reflexivity|]. constructor; [|exact L2]. split; [|cbn [s_tres]; rewrite P2; exact S1]. exact R1.
Qed.

(** ** The areas of the file header *)

Lemma area_reaches rows a nm f y : area_ok rows a -> In nm (area_names a) -> lookup (mk_fs rows) nm = Some f ->
  reaches (mk_fs rows) f y -> lookup (mk_fs rows) (ta_len a) = Some y.
Proof.
  intros ((i1 & L1) & (i2 & L2) & (i3 & L3)) Hn L HR.
  assert (N0 : forall z, ~ reaches (mk_fs rows) {| f_id := i1; f_d := len_desc a; f_loops := [] |} z).
  { intros z Hz. inversion Hz as [(r & Hr & _)|w (r & Hr & _) _]; destruct Hr. }
  assert (D : forall z, reads_directly (mk_fs rows) f z -> lookup (mk_fs rows) (ta_len a) = Some z).
  { intros z (r & Hr & Hz). destruct Hn as [<-|[<-|[<-|[]]]].
    - rewrite L1 in L. injection L as <-. destruct Hr.
    - rewrite L2 in L. injection L as <-. destruct Hr as [<-|[]]. exact Hz.
    - rewrite L3 in L. injection L as <-. destruct Hr as [<-|[]]. exact Hz. }
  inversion HR as [HD|z HD HR']; subst; [exact (D _ HD)|]. apply D in HD. rewrite L1 in HD. injection HD as <-. destruct (N0 _ HR').
Qed.

Definition touched : list string :=
  ["hl"; "fl"; "numi"; "nums"; "numt"; "numdes"; "numres"; "lish"; "li"; "lssh"; "ls"; "ltsh"; "lt"; "ldsh"; "ld"; "lresh"; "lre"]%string.
Lemma area_apart a nm nm' : In a file_areas -> In nm (area_names a) -> In nm' touched -> nm <> nm'.
Proof.
  intros Ha Hn Hn' <-.
  assert (A : forallb (fun a => forallb (fun x => negb (existsb (String.eqb x) touched)) (area_names a)) file_areas = true) by (vm_compute; reflexivity).
  rewrite forallb_forall in A. specialize (A a Ha). rewrite forallb_forall in A. specialize (A nm Hn).
  apply negb_true_iff in A. assert (T : existsb (String.eqb nm) touched = true) by (apply existsb_exists; exists nm; split; [exact Hn'|apply String.eqb_refl]).
  congruence.
Qed.

Lemma header_areas (h0 h1 : hdr) : (forall y p, In y (fs_fields hfs) -> y <> hfld "hl" -> y <> hfld "fl" ->
     (forall k b, y <> hfld (size_name k b)) -> (forall k, y <> hfld (count_name k)) ->
     stored FO (h_st h1) y p = stored FO (h_st h0) y p) ->
  forall reg des ts, read_areas FO hrows reg h0 des file_areas = Ok ts ->
  forall h2, passes hrows h1 h2 -> read_areas FO hrows reg h2 des file_areas = Ok ts.
Proof.
  intros HS reg des ts HT h2 H2.
  destruct areas_shipped as ((_ & AF & _) & _). rewrite Forall_forall in AF.
  assert (ST : forall a nm f p, In a file_areas -> In nm (area_names a) -> lookup hfs nm = Some f ->
     stored FO (h_st h1) f p = stored FO (h_st h0) f p).
  { intros a nm f p Ha Hn L.
    assert (NE : forall nm' f', In nm' touched -> lookup hfs nm' = Some f' -> f <> f').
    { intros nm' f' Ht L'. apply (lookup_ne hrows nm nm' f f' L L'). exact (area_apart a nm nm' Ha Hn Ht). }
    apply HS; [exact (lookup_in _ _ _ L)|..].
    - apply (NE "hl"%string); [cbn; tauto|]. apply (total_fld "hl" (or_introl eq_refl)).
    - apply (NE "fl"%string); [cbn; tauto|]. apply (total_fld "fl" (or_intror eq_refl)).
    - intros k b. apply (NE (size_name k b)); [destruct k, b; cbn; tauto|]. apply (lp_look _ _ _ (size_fld k b)).
    - intros k. apply (NE (count_name k)); [destruct k; cbn; tauto|]. apply (proj1 (proj1 (count_fld k))). }
  (* only the names of the areas are read *)
  assert (EQ : forall a nm, In a file_areas -> In nm (area_names a) -> get FO hfs (h_st h1) nm [] = get FO hfs (h_st h0) nm []).
  { intros a nm Ha Hn. assert (HE := file_areas_exact a nm Ha Hn). apply exact_look in HE.
    destruct (lookup (mk_fs hrows) nm) as [f|] eqn:L; [|congruence].
    apply (get_same_reads FO hrows _ _ nm f [] L).
    - exact (ST a nm f [] Ha Hn L).
    - intros y p Hy. assert (Ly := area_reaches hrows a nm f y (AF a Ha) Hn L Hy).
      apply (ST a (ta_len a) y p Ha); [cbn; tauto|exact Ly]. }
  set (P := fun nm => exists a, In a file_areas /\ In nm (area_names a)).
  assert (G : forall areas, incl areas file_areas -> forall ts, read_areas FO hrows reg h0 des areas = Ok ts -> read_areas FO hrows reg h1 des areas = Ok ts).
  { clear ts HT. induction areas as [|a areas IH]; intros HI ts HT; [exact HT|].
    assert (Ha : In a file_areas) by (apply HI; now left).
    assert (HG : forall nm, In nm (area_names a) -> hget FO hrows h1 nm = hget FO hrows h0 nm).
    { intros nm Hn. rewrite !hget_field by (exact (exact_look _ _ (file_areas_exact a nm Ha Hn))). exact (EQ a nm Ha Hn). }
    cbn [read_areas] in *. unfold hint in *.
    rewrite (HG (ta_len a)), (HG (ta_ofl a)), (HG (ta_data a)) by (cbn; tauto).
    apply bind_ok_elim in HT as (n & Hn & HT). rewrite Hn. cbn [bind].
    apply bind_ok_elim in HT as (t & Ht & HT). rewrite Ht. cbn [bind].
    apply bind_ok_elim in HT as (t' & Ht' & HT). rewrite (IH (fun x Hx => HI x (or_intror Hx)) t' Ht'). exact HT. }
  apply (read_areas_passes hrows reg h1 h2 des file_areas H2 (fun a nm => file_areas_exact a nm)).
  exact (G file_areas (incl_refl _) ts HT).
Qed.

(** ** Overflow segments *)

Lemma hset_no_lit rows (h h' : hdr) nm v r : no_literals FO (mk_fs rows) (h_st h) -> hset FO rows h nm v = (h', r) ->
  no_literals FO (mk_fs rows) (h_st h').
Proof.
  intros HN H. unfold hset in H. destruct (lookup (mk_fs rows) nm) as [f|] eqn:L; [|injection H as <- _; exact HN].
  destruct (set FO (mk_fs rows) (h_st h) nm [] (SVal v)) as [s1 r1] eqn:E. injection H as <- _. cbn [h_st].
  unfold set in E. rewrite L in E. destruct (key_shape_ok f []); [|injection E as <- _; exact HN].
  assert (X := no_literals_setf FO rows (fuel (mk_fs rows)) (h_st h) f [] (SVal v) (lookup_in _ _ _ L) HN I).
  unfold fset in E. rewrite E in X. exact X.
Qed.
Lemma sec_set_no_lit rows l sec : forall (h h' : hdr) r, no_literals FO (mk_fs rows) (h_st h) -> sec_set FO rows h l sec = (h', r) ->
  no_literals FO (mk_fs rows) (h_st h').
Proof.
  induction l as [|[nm a] l IH]; intros h h' r HN H; cbn [sec_set] in H; [injection H as <- _; exact HN|].
  destruct (hget FO rows h nm) as [v|[]]; try (injection H as <- _; exact HN); [|exact (IH _ _ _ HN H)].
  destruct (hset FO rows h nm (sec a)) as [h1 [[]|e]] eqn:E.
  - exact (IH _ _ _ (hset_no_lit _ _ _ _ _ _ HN E) H).
  - injection H as <- _. exact (hset_no_lit _ _ _ _ _ _ HN E).
Qed.
Lemma overflow_no_lit o sec dh : overflow_seg FO o sec = (dh, Ok tt) -> no_literals FO (mk_fs desc_NitfDesSubheader) (h_st dh).
Proof.
  rewrite overflow_steps. intro H.
  apply steps_ok_cons in H as (h1 & E1 & H). apply steps_ok_cons in H as (h2 & E2 & H).
  apply steps_ok_cons in H as (h3 & E3 & H). apply steps_ok_cons in H as (h4 & E4 & H).
  apply steps_ok_cons in H as (h5 & E5 & H). apply steps_ok_nil in H. subst h5.
  assert (N0 : no_literals FO (mk_fs desc_NitfDesSubheader) (h_st (new_hdr FO))) by exact (no_literals_init FO desc_NitfDesSubheader).
  assert (N1 := hset_no_lit _ _ _ _ _ _ N0 E1). assert (N2 := hset_no_lit _ _ _ _ _ _ N1 E2).
  assert (N3 := hset_no_lit _ _ _ _ _ _ N2 E3). assert (N4 := hset_no_lit _ _ _ _ _ _ N3 E4).
  exact (sec_set_no_lit _ _ _ _ _ _ N4 E5).
Qed.

Lemma overflow_readable E o (s s' : seg) p : overflow_ready E -> ov_is FO o s -> wrote FO KDes s s' p -> 
  readable FO E KDes s' /\ overflow_des FO s' /\ forall s1, same_segment FO E KDes s' s1 -> des_data FO s1 = des_data FO s.
Proof.
  intros (HN & bf & l1 & hd & l2 & af & HLv & HD & HF) (_ & HO & HU & _ & HDat & sec & HS) (h & HP & -> & _ & HB).
  cbn [with_hdr s_hdr s_ush s_data] in *.
  assert (I1 : overflow_des FO (with_hdr FO s h)).
  { apply is_overflow_true. cbn [with_hdr s_hdr]. rewrite (put_ush_desid FO s h HP). exact HO. }
  assert (I2 : des_id FO h (str "TRE_OVERFLOW")) by exact I1.
  assert (NL : no_literals FO (mk_fs desc_NitfDesSubheader) (h_st h)).
  { unfold put_ush in HP. apply bind_ok_elim in HP as (v & _ & HP).
    destruct (hset FO (sub_rows KDes) (s_hdr FO s) (ush_name KDes) v) as [h2 [[]|e]] eqn:E2; [|discriminate]. injection HP as <-.
    exact (hset_no_lit _ _ _ _ _ _ (overflow_no_lit o sec _ HS) E2). }
  assert (TK : forall b, taken_by FO E KDes (with_hdr FO s h) b hd).
  { intro b. split.
    - destruct HD as [->| ->]; (split; [cbn; tauto|]); [exact I2|exact I].
    - exists bf, l1, l2, af. split; [exact HLv|]. eapply Forall_impl; [|exact HF]. intros x [Hx|(c & -> & Hc)].
      + now apply dec_kind.
      + cbn [with_hdr s_hdr]. apply (dec_fields FO KDes h c (str "TRE_OVERFLOW") eq_refl I2). congruence. }
  split; [|split; [exact I1|]].
  - split; [apply no_literals_ok; exact NL|]. split.
    + exists (str "TRE_OVERFLOW"). split; [exact I2|]. cbn [with_hdr s_ush]. rewrite HU. exact HN.
    + intros b _. exists hd. apply TK.
  - intros s1 (_ & _ & S3). cbn [with_hdr s_hdr s_data] in S3. rewrite HDat in *. cbn [data_bytes] in *.
    specialize (S3 _ hd eq_refl (TK _)). unfold des_data at 2. rewrite HDat.
    destruct HD as [->| ->]; cbn [data_read] in S3; unfold des_data; rewrite S3; reflexivity.
Qed.

(** ** The file *)

Lemma wrote_all_ush k l l' ps : wrote_all FO k l l' ps -> Forall (ush_stored k) l'.
Proof. induction 1; constructor; [eapply wrote_ush; eauto|assumption]. Qed.

Lemma overflow_all E l l' ps : overflow_ready E -> Forall (fun s => exists o, ov_is FO o s) l -> wrote_all FO KDes l l' ps ->
  Forall (readable FO E KDes) l' /\ Forall (overflow_des FO) l'
  /\ forall l1, Forall2 (reads E KDes) l' l1 -> map (des_data FO) l1 = map (des_data FO) l.
Proof.
  intros HO HF HW. revert HF. induction HW as [|s l s' l' p ps W _ IH]; intro HF.
  - split; [constructor|]. split; [constructor|]. intros l1 H. inversion H. reflexivity.
  - inversion_clear HF as [|? ? (o & F1) F2]. destruct (IH F2) as (I1 & I2 & I3).
    destruct (overflow_readable E o s s' p HO F1 W) as (R1 & R2 & R3).
    split; [constructor; assumption|]. split; [constructor; assumption|].
    intros l1 H. inversion H as [|? s1 ? l1' (H1 & _) H2]; subst. cbn [map]. rewrite (R3 s1 H1), (I3 l1' H2). reflexivity.
Qed.

Lemma ov_all o ov : Forall2 (ov_is FO) (ov_list o) ov -> Forall (fun s => exists o, ov_is FO o s) ov.
Proof. induction 1; constructor; eauto. Qed.

Lemma Forall2_app_l {A B} (R : A -> B -> Prop) l1 l2 m : Forall2 R (l1 ++ l2) m ->
  exists m1 m2, m = m1 ++ m2 /\ Forall2 R l1 m1 /\ Forall2 R l2 m2.
Proof. intro H. apply Forall2_app_inv_l in H as (m1 & m2 & H1 & H2 & ->). eauto. Qed.
Lemma Forall2_with {A B} (R S : A -> B -> Prop) l m : Forall2 R l m -> (forall a b, In a l -> R a b -> S a b) -> Forall2 S l m.
Proof.
  induction 1 as [|a b l m H _ IH]; intro HS; constructor; [apply HS; [now left|exact H]|].
  apply IH. intros a' b' Ha. apply HS. now right.
Qed.

Lemma tres_back_nil : tres_back FO [] [].
Proof. exists []. split; [apply Permutation_refl|]. split; [constructor|reflexivity]. Qed.

Lemma reads_same E k l l1 : Forall (fun s => s_tres FO s = []) l -> Forall2 (reads E k) l l1 -> Forall2 (same_seg E k) l l1.
Proof.
  intros HT H. eapply Forall2_with; [exact H|]. intros s s1 Hs (R1 & R2 & _). split; [exact R1|].
  rewrite Forall_forall in HT. rewrite (HT s Hs), R2. apply tres_back_nil.
Qed.

Lemma wrote_no_tres k l l' ps : wrote_all FO k l l' ps -> Forall (fun s => s_tres FO s = []) l -> Forall (fun s => s_tres FO s = []) l'.
Proof.
  induction 1 as [|s l s' l' p ps (h & _ & -> & _) _ IH]; intro HF; [constructor|]. inversion_clear HF as [|? ? F1 F2].
  constructor; [exact F1|exact (IH F2)].
Qed.

Theorem C26_round_trip E f f' bytes : linked FO f -> file_write FO E f = Ok (f', bytes) ->
  Z.of_nat (List.length bytes) <> 999999999999%Z ->
  literals_ok FO (mk_fs desc_NitfFileHeader) (h_st (nf_hdr FO f')) ->
  tre_ready_in FO E desc_NitfFileHeader file_areas (nf_hdr FO f) (nf_tres FO f) ->
  (forall k, Forall (tre_ready FO E k) (nf_segs FO f k)) ->
  (forall k, Forall (readable FO E k) (nf_segs FO f' k)) -> overflow_ready E ->
  exists g, file_read FO E bytes = Ok g
    /\ same_fields FO desc_NitfFileHeader (h_st (nf_hdr FO f')) (h_st (nf_hdr FO g))
    /\ tres_back FO (nf_tres FO f') (nf_tres FO g)
    /\ (forall k, k <> KDes -> Forall2 (same_seg E k) (nf_segs FO f' k) (nf_segs FO g k))
    /\ exists des ov, nf_segs FO g KDes = des ++ ov /\ Forall2 (same_seg E KDes) (nf_segs FO f' KDes) des
         /\ Forall (overflow_des FO) ov.
Proof.
  intros HL HW Hfl HLit HTF HTS HRd HOv.
  destruct (file_write_ok FO E f f' bytes HL HW) as (h1 & g & g' & ps & hb & [WP WA WH WB WAt WC WS WHl WFl WO WT WSg WD WR _ _ _]).
  destruct WP as (des0 & h0 & o & ov0 & ov1 & ov2 & ov3 & D0 & PF & O0 & P1 & P2 & P3 & G1 & G2 & _ & _ & HC).
  destruct (prepped_linked _ _ _ _ _ _ _ P1) as (_ & _ & O1). destruct (prepped_linked _ _ _ _ _ _ _ P2) as (_ & _ & O2).
  destruct (prepped_linked _ _ _ _ _ _ _ P3) as (_ & _ & O3). apply ov_all in O0 as O0'.
  set (ovs := ov0 ++ ov1 ++ ov2 ++ ov3).
  assert (OVS : Forall (fun s => exists o, ov_is FO o s) ovs) by (unfold ovs; repeat (apply Forall_app; split); assumption).
  assert (G1' : g KDes = des0 ++ ovs) by (rewrite G1; unfold ovs; rewrite <- !app_assoc; reflexivity).
  (* the DES list *)
  assert (WDes := WA KDes). rewrite G1' in WDes.
  destruct (wrote_all_app _ _ _ _ _ _ WDes) as (dl' & ov' & pa & pb & E1 & E2 & WDa & WDb).
  destruct (overflow_all E ovs ov' pb HOv OVS WDb) as (OR & OD & ODat).
  assert (ED : nf_segs FO f' KDes = dl').
  { destruct WD as (ov2' & W1 & W2 & W3). destruct (drop_overflow_kept _ _ _ D0) as (_ & K0).
    assert (KA := wrote_all_desid _ _ _ _ _ WDa K0).
    assert (KB : Forall (fun s => is_overflow FO (s_hdr FO s) = Ok true) ov').
    { apply (wrote_all_desid _ _ _ _ _ WDb). eapply Forall_impl; [|exact OVS]. intros s (o' & _ & Ho & _). exact Ho. }
    assert (X := drop_overflow_split _ _ _ KA KB). assert (Y := drop_overflow_split _ _ _ W2 W3).
    rewrite <- E1 in X. rewrite <- W1, X in Y. now injection Y. }
  assert (RD : forall k, Forall (readable FO E k) (g' k)).
  { intro k. destruct (kind_eqb k KDes) eqn:EK.
    - assert (k = KDes) by (destruct k; try discriminate; reflexivity). subst k. rewrite E1. apply Forall_app.
      split; [rewrite <- ED; exact (HRd KDes)|exact OR].
    - rewrite <- WSg by (intros ->; discriminate). exact (HRd k). }
  assert (SB := fun k => wrote_bytes FO k _ _ _ (WA k)). assert (US := fun k => wrote_all_ush k _ _ _ (WA k)).
  (* the header *)
  destruct (read_at_ok FO laws hrows _ hb [] (flat_map (fun k => flat (ps k)) kinds) eq_refl HLit WH) as (st1 & R0 & S0).
  cbn [app List.length] in R0. rewrite <- WB in R0. set (hd := {| h_st := st1; h_attr := [] |} : hdr).
  assert (FL : hget FO hrows hd "fl" = Ok (VInt (Z.of_nat (List.length bytes)))).
  { rewrite hget_field by (vm_compute; discriminate). cbn [hd h_st]. apply (same_get FO hrows _ st1 "fl" _ S0); [vm_compute; reflexivity|].
    destruct (total_fld "fl" (or_intror eq_refl)) as ((Sc & T1 & T2) & _). rewrite (get_scalar FO hrows _ _ _ Sc).
    exact (conv_of_int FO _ _ _ T1 T2 WFl). }
  assert (SZ : forall k, sizes FO st1 k = Ok (map (fun p => Z.of_nat (List.length (snd p))) (ps k))).
  { intro k. apply (sizes_ok _ st1 (ps k) _ k S0 WC); [|exact (WS k)]. destruct (wrote_all_len _ _ _ _ _ (WA k)) as (_ & X). now symmetry. }
  (* the segments *)
  assert (RB : forall k pre post, exists l1, segs_read FO E k (map (fun p => Z.of_nat (List.length (snd p))) (ps k)) (pre ++ flat (ps k) ++ post) (List.length pre)
     = Ok (l1, List.length (pre ++ flat (ps k))) /\ Forall2 (reads E k) (g' k) l1)
    by (intros k; exact (segs_read_ok E k _ _ (SB k) (US k) (RD k))).
  assert (WB' : bytes = hb ++ flat (ps KImage) ++ flat (ps KGraphic) ++ flat (ps KText) ++ flat (ps KDes) ++ flat (ps KRes)).
  { rewrite WB. cbn [flat_map kinds]. rewrite app_nil_r. reflexivity. }
  destruct (RB KImage hb (flat (ps KGraphic) ++ flat (ps KText) ++ flat (ps KDes) ++ flat (ps KRes))) as (im & RI1 & RI2).
  destruct (RB KGraphic (hb ++ flat (ps KImage)) (flat (ps KText) ++ flat (ps KDes) ++ flat (ps KRes))) as (gr & RG1 & RG2).
  destruct (RB KText ((hb ++ flat (ps KImage)) ++ flat (ps KGraphic)) (flat (ps KDes) ++ flat (ps KRes))) as (tx & RT1 & RT2).
  destruct (RB KDes (((hb ++ flat (ps KImage)) ++ flat (ps KGraphic)) ++ flat (ps KText)) (flat (ps KRes))) as (de & RDe1 & RDe2).
  destruct (RB KRes ((((hb ++ flat (ps KImage)) ++ flat (ps KGraphic)) ++ flat (ps KText)) ++ flat (ps KDes)) []) as (rs & RR1 & RR2).
  rewrite <- !app_assoc in RG1. rewrite <- !app_assoc in RT1. rewrite <- !app_assoc in RDe1. rewrite <- !app_assoc in RR1.
  rewrite app_nil_r in RR1. rewrite <- WB' in RI1. rewrite <- WB' in RG1. rewrite <- WB' in RT1. rewrite <- WB' in RDe1. rewrite <- WB' in RR1.
  (* the DES data *)
  rewrite E1 in RDe2. destruct (Forall2_app_l _ _ _ _ RDe2) as (dr & ovr & -> & RD1 & RD2).
  set (dd := map (des_data FO) (dr ++ ovr)).
  assert (DD : dd = map (des_data FO) dr ++ map (des_data FO) ov0 ++ map (des_data FO) ov1 ++ map (des_data FO) ov2 ++ map (des_data FO) ov3).
  { unfold dd. rewrite map_app, (ODat ovr RD2). unfold ovs. rewrite !map_app. reflexivity. }
  assert (LD : List.length dr = List.length des0).
  { assert (X0 : forall A B (R : A -> B -> Prop) l m, Forall2 R l m -> List.length l = List.length m) by (clear; induction 1; cbn; congruence).
    apply X0 in RD1. destruct (wrote_all_len _ _ _ _ _ WDa) as (X & _). congruence. }
  (* TREs of the file *)
  destruct areas_shipped as (AF & _).
  assert (PF' : prepare FO hrows file_areas 0 (nf_hdr FO f) (nf_tres FO f) (List.length (map (des_data FO) dr)) = (h0, o, Ok tt))
    by (rewrite map_length, LD; exact PF).
  destruct (ready_read E hrows file_areas 0 _ _ (map (des_data FO) dr) (map (des_data FO) ov1 ++ map (des_data FO) ov2 ++ map (des_data FO) ov3)
     h0 o AF ltac:(discriminate) HTF PF') as (ts1 & T1 & T2).
  rewrite <- (ov_data_is o ov0 O0), <- DD in T1.
  assert (T3 : read_areas FO hrows (e_reg E) hd dd file_areas = Ok ts1).
  { apply (header_areas h0 (nf_hdr FO f')) with (2 := T1); [|exact (same_passes hrows (nf_hdr FO f') hd S0)].
    intros y p Hy N1 N2 N3 N4. rewrite (WO y p Hy N1 N2 N3). exact (HC y p Hy N4). }
  (* TREs of the segments *)
  destruct (prepped_shows E KImage _ _ _ _ _ eq_refl P1 (HTS KImage) (map (des_data FO) (dr ++ ov0)) (map (des_data FO) (ov2 ++ ov3))) as (ti & TI).
  { rewrite map_length, !app_length, LD. reflexivity. }
  destruct (prepped_shows E KGraphic _ _ _ _ _ eq_refl P2 (HTS KGraphic) (map (des_data FO) (dr ++ ov0 ++ ov1)) (map (des_data FO) ov3)) as (tg & TG).
  { rewrite map_length, !app_length, LD. clear. lia. }
  destruct (prepped_shows E KText _ _ _ _ _ eq_refl P3 (HTS KText) (map (des_data FO) (dr ++ ov0 ++ ov1 ++ ov2)) []) as (tt' & TT).
  { rewrite map_length, !app_length, LD. clear. lia. }
  replace (map (des_data FO) (dr ++ ov0) ++ map (des_data FO) ov1 ++ map (des_data FO) (ov2 ++ ov3)) with dd in TI
    by (rewrite DD, !map_app, <- !app_assoc; reflexivity).
  replace (map (des_data FO) (dr ++ ov0 ++ ov1) ++ map (des_data FO) ov2 ++ map (des_data FO) ov3) with dd in TG
    by (rewrite DD, !map_app, <- !app_assoc; reflexivity).
  replace (map (des_data FO) (dr ++ ov0 ++ ov1 ++ ov2) ++ map (des_data FO) ov3 ++ []) with dd in TT
    by (rewrite DD, !map_app, <- !app_assoc, app_nil_r; reflexivity).
  destruct (map_with_tres E KImage dd _ _ _ _ _ eq_refl (WA KImage) TI RI2) as (im' & MI1 & MI2).
  destruct (map_with_tres E KGraphic dd _ _ _ _ _ eq_refl (WA KGraphic) TG RG2) as (gr' & MG1 & MG2).
  destruct (map_with_tres E KText dd _ _ _ _ _ eq_refl (WA KText) TT RT2) as (tx' & MT1 & MT2).
  exists {| nf_hdr := hd; nf_tres := ts1; nf_segs := fun k => match k with KImage => im' | KGraphic => gr' | KText => tx' | KDes => dr ++ ovr | KRes => rs end;
            nf_refs := fun _ => false |}.
  split; [|cbn [nf_hdr nf_tres nf_segs]; split; [exact S0|]; split; [rewrite WT; exact T2|]; split].
  - unfold file_read. fold hrows. rewrite R0. cbn [bind]. fold hd. rewrite FL. cbn [bind py_eqb as_Z].
    replace (Z.of_nat (List.length bytes) =? 999999999999)%Z with false by (clear - Hfl; lia).
    rewrite !SZ. cbn [bind]. rewrite RI1. cbn [bind]. rewrite RG1. cbn [bind].
    rewrite RT1. cbn [bind]. rewrite RDe1. cbn [bind]. rewrite RR1. cbn [bind]. fold dd. rewrite T3. cbn [bind].
    rewrite MI1. cbn [bind]. rewrite MG1. cbn [bind]. rewrite MT1. cbn [bind]. reflexivity.
  - intros k Hk. rewrite (WSg k Hk). destruct k; [exact MI2|exact MG2|exact MT2|contradiction|].
    apply reads_same; [|exact RR2]. apply (wrote_no_tres KRes _ _ _ (WA KRes)). rewrite G2. exact (HTS KRes).
  - exists dr, ovr. split; [reflexivity|]. split.
    + rewrite ED. apply reads_same; [|exact RD1]. apply (wrote_no_tres KDes _ _ _ WDa).
      destruct (drop_overflow_kept _ _ _ D0) as (I & _). apply Forall_forall. intros s Hs.
      pose proof (HTS KDes) as HD. rewrite Forall_forall in HD. exact (HD s (I s Hs)).
    + clear - OD RD2. revert OD. induction RD2 as [|s s1 l l1 (R & _) _ IH]; intro OD; [constructor|].
      inversion_clear OD as [|? ? D1 D2]. constructor; [|exact (IH D2)].
      unfold overflow_des, des_says in *. exact (same_get FO desc_NitfDesSubheader _ _ "desid" _ (proj1 R) (eq_refl _) D1).
Qed.
End R.

Print Assumptions C26_round_trip.
