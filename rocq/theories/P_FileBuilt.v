(** Property C26 from conditions on the file object before it is written, and C44 for files
    written by the library. *)
From Verif Require Import Base BaseLemmas Engine Wf EngineLemmas Codec RoundTrip Rewrite Literal
  Positions Keys Deps Assign Update Spec Reach Decimal DecimalLemmas DescsHdr Utf8 Handles Tre TreLemmas P_RoundTrip P_Fields P_Tre
  TrePlace TrePlaceLemmas P_TrePlace Scalar Security P_Security Image ImageLemmas P_Image File FileLemmas P_File FileRead P_FileKeep P_FileRead P_Skip.
From Verif Require Import ImageNew Ext PrepTwice FileTwice P_FileTwice.
From Coq Require Import ZifyBool ZifyNat ZifyN Permutation.
Open Scope list_scope.
Ltac Zify.zify_post_hook ::= idtac.

Section B.
Variable FO : FloatOps.
Notation st := (state FO).
Notation hdr := (hdr FO).
Notation seg := (seg FO).

(** ** No literals *)

Lemma store_no_lit rows areas : forall heads (h h' : hdr) r,
  no_literals FO (mk_fs rows) (h_st h) -> store_areas FO rows h areas heads = (h', r) -> no_literals FO (mk_fs rows) (h_st h').
Proof.
  induction areas as [|a areas IH]; intros heads h h' r HN H; cbn [store_areas] in H.
  - injection H as <- _. exact HN.
  - destruct heads as [|b heads]; [injection H as <- _; exact HN|].
    destruct (hint FO rows h (ta_len a)) as [n|e]; [|injection H as <- _; exact HN].
    destruct (if (n >? 0)%Z then hset FO rows h (ta_ofl a) (VInt 0) else (h, Ok tt)) as [h1 r1] eqn:E1.
    assert (S1 : no_literals FO (mk_fs rows) (h_st h1)).
    { destruct (n >? 0)%Z; [exact (hset_no_lit FO _ _ _ _ _ _ HN E1)|injection E1 as <- _; exact HN]. }
    destruct r1 as [u|e]; [|injection H as <- _; exact S1].
    destruct (match b with [] => (h1, Ok tt) | _ :: _ => hset FO rows h1 (ta_data a) (VBytes b) end) as [h2 r2] eqn:E2.
    assert (S2 : no_literals FO (mk_fs rows) (h_st h2)).
    { destruct b; [injection E2 as <- _; exact S1|exact (hset_no_lit FO _ _ _ _ _ _ S1 E2)]. }
    destruct r2 as [u'|e]; [|injection H as <- _; exact S2].
    exact (IH _ _ _ _ S2 H).
Qed.
Lemma prepare_no_lit rows areas idx (h h' : hdr) ts n o r : no_literals FO (mk_fs rows) (h_st h) ->
  prepare FO rows areas idx h ts n = (h', o, r) -> no_literals FO (mk_fs rows) (h_st h').
Proof.
  intros HN H. unfold prepare in H.
  destruct (place FO ts (map (fun _ => []) areas) []) as [[heads des]|e]; [|injection H as <- _ _; exact HN].
  destruct (store_areas FO rows h areas heads) as [h1 r1] eqn:E1. assert (S1 := store_no_lit rows areas _ _ _ _ HN E1).
  destruct r1 as [u|e]; [|injection H as <- _ _; exact S1].
  destruct des as [|c des]; [injection H as <- _ _; exact S1|].
  destruct areas as [|a areas]; [injection H as <- _ _; exact S1|].
  destruct (hset FO rows h1 (ta_ofl a) (VInt (Z.of_nat (S n)))) as [h2 r2] eqn:E2. injection H as <- _ _.
  exact (hset_no_lit FO _ _ _ _ _ _ S1 E2).
Qed.
Definition plain_seg (k : kind) (s : seg) : Prop := no_literals FO (mk_fs (sub_rows k)) (h_st (s_hdr FO s)).
Lemma prepped_no_lit k i l n l' ov : prepped FO k i l n l' ov -> Forall (plain_seg k) l -> Forall (plain_seg k) l'.
Proof.
  induction 1 as [|i s l n h o ov l' ov' H1 _ _ IH]; intro HF; [constructor|]. inversion_clear HF as [|? ? F1 F2].
  constructor; [|exact (IH F2)]. unfold plain_seg. cbn [with_hdr s_hdr].
  destruct (has_tres k); [exact (prepare_no_lit _ _ _ _ _ _ _ _ _ F1 H1)|]. destruct H1 as (-> & _). exact F1.
Qed.
Lemma wrote_no_lit k l l' ps : wrote_all FO k l l' ps -> Forall (plain_seg k) l -> Forall (plain_seg k) l'.
Proof.
  induction 1 as [|s l s' l' p ps (h & H & -> & _) _ IH]; intro HF; [constructor|]. inversion_clear HF as [|? ? F1 F2].
  constructor; [|exact (IH F2)]. unfold plain_seg. cbn [with_hdr s_hdr].
  unfold put_ush in H. apply bind_ok_elim in H as (v & _ & H).
  destruct (hset FO (sub_rows k) (s_hdr FO s) (ush_name k) v) as [h2 [[]|e]] eqn:E; [|discriminate]. injection H as <-.
  exact (hset_no_lit FO _ _ _ _ _ _ F1 E).
Qed.
Lemma update_no_lit rows (s s' : st) file nm k v r : plain_value FO v -> no_literals FO (mk_fs rows) s ->
  update_field FO (mk_fs rows) s file nm k v = (s', r) -> no_literals FO (mk_fs rows) s'.
Proof.
  intros Hv HN H. unfold update_field in H. destruct (lookup (mk_fs rows) nm) as [f|] eqn:L; [|injection H as <- _; exact HN].
  assert (X := no_literals_setf FO rows (fuel (mk_fs rows)) s f k v (lookup_in _ _ _ L) HN Hv).
  unfold fset in H. destruct (setf FO (fuel (mk_fs rows)) (mk_fs rows) s f k v) as [s1 [u|e]]; cbn [fst] in X; [|injection H as <- _; exact X].
  destruct (check_condition _ _ _ f k) as [[]|e]; try (injection H as <- _; exact X).
  destruct (st_loc FO s1 (f_id f) k); [|injection H as <- _; exact X].
  destruct (field_bytes _ _ _ _ f k); injection H as <- _; exact X.
Qed.
Lemma segs_write_no_lit E k l : forall i (hs hs' : st) file l' file', no_literals FO (mk_fs desc_NitfFileHeader) hs ->
  segs_write FO E k i l hs file = Ok (l', hs', file') -> no_literals FO (mk_fs desc_NitfFileHeader) hs'.
Proof.
  induction l as [|s l IH]; intros i hs hs' file l' file' HN H; cbn [segs_write] in H; [injection H as _ <- _; exact HN|].
  apply bind_ok_elim in H as ([[s' hs1] file1] & H1 & H). apply bind_ok_elim in H as ([[r hs2] file2] & H2 & H). injection H as _ <- _.
  refine (IH _ _ _ _ _ _ _ H2). clear H2 IH. unfold seg_write in H1.
  apply bind_ok_elim in H1 as (c & _ & H1). apply bind_ok_elim in H1 as (u & _ & H1).
  apply bind_ok_elim in H1 as (h & _ & H1). apply bind_ok_elim in H1 as (b & _ & H1). apply bind_ok_elim in H1 as (d & _ & H1).
  destruct (s_linked FO s); [|injection H1 as _ <- _; exact HN].
  destruct (update_field FO (mk_fs desc_NitfFileHeader) hs _ (fst (size_names k)) _ _) as [a [fa|e]] eqn:U1; [|discriminate].
  destruct (update_field FO (mk_fs desc_NitfFileHeader) a _ (snd (size_names k)) _ _) as [b' [fb|e]] eqn:U2; [|discriminate].
  injection H1 as _ <- _. exact (update_no_lit _ _ _ _ _ _ (SVal _) _ I (update_no_lit _ _ _ _ _ _ (SVal _) _ I HN U1) U2).
Qed.
Lemma counts_no_lit (g : kind -> list seg) l : forall (h h' : hdr) r, no_literals FO (mk_fs desc_NitfFileHeader) (h_st h) ->
  steps FO (map (fun k h => hset FO desc_NitfFileHeader h (count_name k) (VInt (Z.of_nat (List.length (g k))))) l) h = (h', r) ->
  no_literals FO (mk_fs desc_NitfFileHeader) (h_st h').
Proof.
  induction l as [|k l IH]; intros h h' r HN H; cbn [map steps] in H; [injection H as <- _; exact HN|].
  destruct (hset FO desc_NitfFileHeader h (count_name k) _) as [h1 [u|e]] eqn:E; assert (X := hset_no_lit FO _ _ _ _ _ _ HN E).
  - exact (IH _ _ _ X H).
  - injection H as <- _. exact X.
Qed.
Lemma header_no_lit E f f' bytes : no_literals FO (mk_fs desc_NitfFileHeader) (h_st (nf_hdr FO f)) ->
  file_write FO E f = Ok (f', bytes) -> no_literals FO (mk_fs desc_NitfFileHeader) (h_st (nf_hdr FO f')).
Proof.
  intros HN H. unfold file_write in H. apply bind_ok_elim in H as ([h1 g] & HP & H).
  assert (N1 : no_literals FO (mk_fs desc_NitfFileHeader) (h_st h1)).
  { unfold prepare_file in HP. apply bind_ok_elim in HP as (des0 & _ & HP). apply bind_ok_elim in HP as ([h0 des1] & P0 & HP).
    apply bind_ok_elim in HP as ([im d2] & _ & HP). apply bind_ok_elim in HP as ([gr d3] & _ & HP).
    apply bind_ok_elim in HP as ([tx d4] & _ & HP). cbv zeta in HP.
    match type of HP with context [steps FO ?l h0] => destruct (steps FO l h0) as [h2 [u|e]] eqn:ES; [|discriminate] end.
    injection HP as <- _. refine (counts_no_lit _ _ _ _ _ _ ES).
    unfold prep in P0. destruct (prepare FO desc_NitfFileHeader file_areas _ (nf_hdr FO f) (nf_tres FO f) _) as [[hh oo] [v|e]] eqn:EP;
      [|destruct oo; discriminate]. assert (X := prepare_no_lit _ _ _ _ _ _ _ _ _ HN EP).
    destruct oo as [o|]; [|injection P0 as <- _; exact X].
    apply bind_ok_elim in P0 as (sec & _ & P0). destruct (overflow_seg FO o sec) as [dh [w|e]]; [|discriminate]. injection P0 as <- _. exact X. }
  apply bind_ok_elim in H as ([s1 file1] & HW & H).
  assert (N2 : no_literals FO (mk_fs desc_NitfFileHeader) s1).
  { unfold write_file in HW. apply bind_ok_elim in HW as (cs & _ & HW). injection HW as <- _.
    intros y p b Hy. rewrite (proj1 (record_locs_val FO cs (h_st h1) _)). exact (N1 y p b Hy). }
  destruct (update_field FO (mk_fs desc_NitfFileHeader) s1 file1 "hl" [] _) as [s2 [file2|e]] eqn:U1; [|discriminate].
  assert (N3 := update_no_lit _ _ _ _ _ _ (SVal _) _ I N2 U1).
  apply bind_ok_elim in H as ([[im s3] file3] & W1 & H). apply bind_ok_elim in H as ([[gr s4] file4] & W2 & H).
  apply bind_ok_elim in H as ([[tx s5] file5] & W3 & H). apply bind_ok_elim in H as ([[de s6] file6] & W4 & H).
  apply bind_ok_elim in H as ([[rs s7] file7] & W5 & H).
  destruct (update_field FO (mk_fs desc_NitfFileHeader) s7 file7 "fl" [] _) as [s8 [file8|e]] eqn:U2; [|discriminate].
  apply bind_ok_elim in H as (de' & _ & H). injection H as <- _. cbn [nf_hdr h_st].
  assert (N4 := segs_write_no_lit _ _ _ _ _ _ _ _ _ N3 W1). assert (N5 := segs_write_no_lit _ _ _ _ _ _ _ _ _ N4 W2).
  assert (N6 := segs_write_no_lit _ _ _ _ _ _ _ _ _ N5 W3). assert (N7 := segs_write_no_lit _ _ _ _ _ _ _ _ _ N6 W4).
  assert (N8 := segs_write_no_lit _ _ _ _ _ _ _ _ _ N7 W5). exact (update_no_lit _ _ _ _ _ _ (SVal _) _ I N8 U2).
Qed.

(** ** What is readable stays so *)

Lemma desid_indep : independent_of (sub_rows KDes) (rewritten KDes) "desid".
Proof. apply (closed_independent _ ["desid"%string]); [vm_compute; reflexivity|vm_compute; reflexivity|now left]. Qed.
Lemma resid_indep : independent_of (sub_rows KRes) (rewritten KRes) "resid".
Proof. apply (closed_independent _ ["resid"%string]); [vm_compute; reflexivity|vm_compute; reflexivity|now left]. Qed.
Lemma np_indep nm : In nm np_names -> independent_of (sub_rows KImage) (rewritten KImage) nm.
Proof. apply (closed_independent _ np_names); vm_compute; reflexivity. Qed.

Lemma kept_np (s s' : seg) : kept FO KImage s s' ->
  np_plan FO (s_hdr FO s') = np_plan FO (s_hdr FO s) /\ dims FO (s_hdr FO s') = dims FO (s_hdr FO s)
  /\ get_dtype FO (s_hdr FO s') = get_dtype FO (s_hdr FO s).
Proof.
  intros (_ & K). assert (A : forall nm, In nm np_names -> iget FO (s_hdr FO s') nm = iget FO (s_hdr FO s) nm).
  { intros nm Hn. assert (P : plain_name desc_NitfImageSubheader nm = true).
    { pose proof np_plain as P. rewrite forallb_forall in P. exact (P nm Hn). }
    assert (L : lookup (mk_fs desc_NitfImageSubheader) nm <> None).
    { unfold plain_name in P. destruct (lookup (mk_fs desc_NitfImageSubheader) nm); discriminate. }
    unfold iget. rewrite !(hget_field FO _ _ _ L). exact (K nm [] (np_indep nm Hn)). }
  destruct (np_same FO _ _ A) as (A1 & A2). split; [exact A1|]. split; [exact A2|].
  unfold get_dtype. exact (find_dtype_same FO _ _ dtype_table A).
Qed.
Lemma kept_desid (s s' : seg) t : kept FO KDes s s' -> des_id FO (s_hdr FO s') t <-> des_id FO (s_hdr FO s) t.
Proof. intros (_ & K). unfold des_id. assert (X := K "desid"%string [] desid_indep). cbn [sub_rows] in X. rewrite X. tauto. Qed.

Lemma kept_declines k (s s' : seg) hd : kept FO k s s' -> declines FO k (s_hdr FO s) hd -> declines FO k (s_hdr FO s') hd.
Proof.
  intros K HD. destruct HD as [hd Hk|t -> HI HN|c t -> HI HN| -> HP].
  - now apply dec_kind.
  - apply (dec_overflow FO _ _ t eq_refl); [|exact HN]. now apply (kept_desid s s' t K).
  - apply (dec_fields FO _ _ c t eq_refl); [|exact HN]. now apply (kept_desid s s' t K).
  - apply (dec_numpy FO _ _ eq_refl). rewrite (proj1 (kept_np s s' K)). exact HP.
Qed.
Lemma kept_taken E k (s s' : seg) b hd : kept FO k s s' -> taken_by FO E k s b hd -> taken_by FO E k s' b hd.
Proof.
  intros K ((Hk & HA) & before & l1 & l2 & after & EL & HD). split.
  - split; [exact Hk|]. destruct hd; try exact I.
    + cbn in Hk. destruct Hk as [<-|[]]. now apply (kept_desid s s' _ K).
    + cbn in Hk. destruct Hk as [<-|[]]. destruct HA as (A1 & A2 & st0 & ex & A3 & A4 & A5). split; [now apply (kept_desid s s' _ K)|].
      split; [exact A2|]. exists st0, ex. destruct K as ((_ & _ & KD & _) & _). rewrite KD. auto.
    + cbn in Hk. destruct Hk as [<-|[]]. destruct HA as (il & d & nb & nr & nc & A1 & A2 & A3).
      destruct (kept_np s s' K) as (K1 & K2 & _). exists il, d, nb, nr, nc. rewrite K1, K2. auto.
  - exists before, l1, l2, after. split; [exact EL|]. eapply Forall_impl; [|exact HD]. intros x Hx. exact (kept_declines k s s' x K Hx).
Qed.
Lemma kept_data k (s s' : seg) : kept FO k s s' -> image_placed FO k s ->
  data_bytes FO (s_hdr FO s') (s_data FO s') = data_bytes FO (s_hdr FO s) (s_data FO s).
Proof.
  intros K HP. destruct (proj1 K) as (_ & _ & KD & _). rewrite KD. unfold image_placed, data_bytes in *.
  destruct (s_data FO s) as [[b|]|t|c u e|b|m f|z]; try reflexivity. subst k. destruct (kept_np s s' K) as (_ & K2 & K3).
  unfold write_image. rewrite K2, K3. reflexivity.
Qed.
Lemma kept_user E k (s s' : seg) : kept FO k s s' -> user_ok FO E k s -> user_ok FO E k s'.
Proof.
  intros K H. destruct (proj1 K) as (KU & _). unfold user_ok in *. rewrite KU. destruct k; try exact H.
  - destruct H as (t & H1 & H2). exists t. split; [now apply (kept_desid s s' t K)|exact H2].
  - destruct H as (H0 & t & H1 & H2). split; [exact H0|]. exists t. split; [|exact H2].
    assert (X := proj2 K "resid"%string [] resid_indep). cbn [sub_rows] in X. rewrite X. exact H1.
Qed.

(** A segment the reader can read, before writing: it holds no literals, its user subheader fits,
    image data is in an image segment, and some handler of the reader accepts the data. *)
Definition ready (E : env) (k : kind) (s : seg) : Prop :=
  no_literals FO (mk_fs (sub_rows k)) (h_st (s_hdr FO s)) /\ user_ok FO E k s /\ image_placed FO k s
  /\ forall b, data_bytes FO (s_hdr FO s) (s_data FO s) = Ok b -> exists hd, taken_by FO E k s b hd.

Lemma kept_readable E k l l' : Forall2 (kept FO k) l l' -> Forall (plain_seg k) l' -> Forall (ready E k) l -> Forall (readable FO E k) l'.
Proof.
  induction 1 as [|s s' l l' K _ IH]; intros HN HR; [constructor|]. inversion_clear HN as [|? ? N1 N2]. inversion_clear HR as [|? ? (_ & R2 & R3 & R4) R5].
  constructor; [|exact (IH N2 R5)]. split; [apply no_literals_ok; exact N1|]. split; [exact (kept_user E k s s' K R2)|].
  intros b Hb. rewrite (kept_data k s s' K R3) in Hb. destruct (R4 b Hb) as (hd & HT). exists hd. exact (kept_taken E k s s' b hd K HT).
Qed.
Lemma wo_split R (l l' : list seg) : without_overflow FO R l l' -> exists l0, Forall2 R l0 l' /\ incl l0 l.
Proof.
  induction 1 as [|s l l' _ _ (l0 & I1 & I2)|s s' l l' _ HR _ (l0 & I1 & I2)].
  - exists []. split; [constructor|apply incl_refl].
  - exists l0. split; [exact I1|]. apply incl_tl. exact I2.
  - exists (s :: l0). split; [constructor; assumption|]. apply incl_cons; [now left|]. apply incl_tl. exact I2.
Qed.
Lemma segs_no_lit E f f' bytes : linked FO f -> file_write FO E f = Ok (f', bytes) ->
  (forall k, Forall (plain_seg k) (nf_segs FO f k)) -> forall k, Forall (plain_seg k) (nf_segs FO f' k).
Proof.
  intros HL HW HN k.
  destruct (file_write_ok FO E f f' bytes HL HW) as (h1 & g & g' & ps & hb & [WP WA _ _ _ _ _ _ _ _ _ WSg WD _ _ _ _]).
  destruct WP as (des0 & h0 & o & ov0 & ov1 & ov2 & ov3 & D0 & PF & O0 & P1 & P2 & P3 & G1 & G2 & _ & _ & HC).
  destruct k.
  - rewrite (WSg KImage) by discriminate. exact (wrote_no_lit _ _ _ _ (WA KImage) (prepped_no_lit _ _ _ _ _ _ P1 (HN KImage))).
  - rewrite (WSg KGraphic) by discriminate. exact (wrote_no_lit _ _ _ _ (WA KGraphic) (prepped_no_lit _ _ _ _ _ _ P2 (HN KGraphic))).
  - rewrite (WSg KText) by discriminate. exact (wrote_no_lit _ _ _ _ (WA KText) (prepped_no_lit _ _ _ _ _ _ P3 (HN KText))).
  - destruct WD as (ov' & W1 & _). assert (X : Forall (plain_seg KDes) (g' KDes)).
    { apply (wrote_no_lit _ _ _ _ (WA KDes)). rewrite G1.
      destruct (prepped_linked _ _ _ _ _ _ _ P1) as (_ & _ & O1). destruct (prepped_linked _ _ _ _ _ _ _ P2) as (_ & _ & O2).
      destruct (prepped_linked _ _ _ _ _ _ _ P3) as (_ & _ & O3). apply ov_all in O0.
      assert (OV : forall l, Forall (fun s => exists o, ov_is FO o s) l -> Forall (plain_seg KDes) l).
      { intros l Hl. eapply Forall_impl; [|exact Hl]. intros s (o' & _ & _ & _ & _ & _ & sec & HS). exact (overflow_no_lit FO o' sec _ HS). }
      repeat (apply Forall_app; split); try (apply OV; assumption).
      destruct (drop_overflow_kept _ _ _ D0) as (I0 & _). apply Forall_forall. intros s Hs.
      pose proof (HN KDes) as HD. rewrite Forall_forall in HD. exact (HD s (I0 s Hs)). }
    rewrite W1 in X. apply Forall_app in X. exact (proj1 X).
  - rewrite (WSg KRes) by discriminate. apply (wrote_no_lit _ _ _ _ (WA KRes)). rewrite G2. exact (HN KRes).
Qed.
Lemma file_readable E f f' bytes : linked FO f -> file_write FO E f = Ok (f', bytes) ->
  (forall k, Forall (ready E k) (nf_segs FO f k)) -> forall k, Forall (readable FO E k) (nf_segs FO f' k).
Proof.
  intros HL HW HR k. destruct (C27_keeps FO E f f' bytes HL HW) as (_ & K1 & K2 & _).
  assert (HN : forall k, Forall (plain_seg k) (nf_segs FO f' k)).
  { apply (segs_no_lit E f f' bytes HL HW). intro k'. eapply Forall_impl; [|exact (HR k')]. intros s Hs. exact (proj1 Hs). }
  destruct (kind_eqb k KDes) eqn:EK.
  - assert (k = KDes) by (destruct k; try discriminate; reflexivity). subst k.
    destruct (wo_split _ _ _ K2) as (l0 & F & I0). apply (kept_readable E KDes _ _ F (HN KDes)).
    apply Forall_forall. intros s Hs. pose proof (HR KDes) as X. rewrite Forall_forall in X. exact (X s (I0 s Hs)).
  - exact (kept_readable E k _ _ (K1 k ltac:(intros ->; discriminate)) (HN k) (HR k)).
Qed.

(** ** C26 *)

Theorem C26_built E f f' bytes : FloatLaws FO -> linked FO f -> file_write FO E f = Ok (f', bytes) ->
  Z.of_nat (List.length bytes) <> 999999999999%Z ->
  no_literals FO (mk_fs desc_NitfFileHeader) (h_st (nf_hdr FO f)) ->
  tre_ready_in FO E desc_NitfFileHeader file_areas (nf_hdr FO f) (nf_tres FO f) ->
  (forall k, Forall (tre_ready FO E k) (nf_segs FO f k)) ->
  (forall k, Forall (ready E k) (nf_segs FO f k)) -> overflow_ready E ->
  exists g, file_read FO E bytes = Ok g
    /\ same_fields FO desc_NitfFileHeader (h_st (nf_hdr FO f')) (h_st (nf_hdr FO g))
    /\ tres_back FO (nf_tres FO f) (nf_tres FO g)
    /\ (forall k, k <> KDes -> Forall2 (same_seg FO E k) (nf_segs FO f' k) (nf_segs FO g k))
    /\ exists des ov, nf_segs FO g KDes = des ++ ov /\ Forall2 (same_seg FO E KDes) (nf_segs FO f' KDes) des
         /\ Forall (overflow_des FO) ov.
Proof.
  intros laws HL HW HF HN HT HS HR HO.
  destruct (C26_round_trip FO laws E f f' bytes HL HW HF) as (g & R1 & R2 & R3 & R4).
  - apply no_literals_ok. exact (header_no_lit E f f' bytes HN HW).
  - exact HT.
  - exact HS.
  - exact (file_readable E f f' bytes HL HW HR).
  - exact HO.
  - exists g. rewrite (proj1 (C27_keeps FO E f f' bytes HL HW)) in R3. split; [exact R1|]. split; [exact R2|]. split; [exact R3|exact R4].
Qed.

(** ** C44 for files that were written *)

(** The data of every segment that the reader does not understand is skipped, and everything
    else comes back all the same. *)
Theorem C44_others_unharmed E f f' bytes : FloatLaws FO -> linked FO f -> file_write FO E f = Ok (f', bytes) ->
  Z.of_nat (List.length bytes) <> 999999999999%Z ->
  no_literals FO (mk_fs desc_NitfFileHeader) (h_st (nf_hdr FO f)) ->
  tre_ready_in FO E desc_NitfFileHeader file_areas (nf_hdr FO f) (nf_tres FO f) ->
  (forall k, Forall (tre_ready FO E k) (nf_segs FO f k)) -> overflow_ready E ->
  (forall k, Forall (fun s => plain_seg k s /\ user_ok FO E k s /\ image_placed FO k s
       /\ (not_understood FO E k s \/ forall b, data_bytes FO (s_hdr FO s) (s_data FO s) = Ok b -> exists hd, taken_by FO E k s b hd))
     (nf_segs FO f k)) ->
  exists g, file_read FO E bytes = Ok g
    /\ (forall k, k <> KDes -> Forall2 (fun s s1 => same_seg FO E k s s1
          /\ forall b, not_understood FO E k s -> data_bytes FO (s_hdr FO s) (s_data FO s) = Ok b ->
               s_data FO s1 = DHole FO (Z.of_nat (List.length b))) (nf_segs FO f' k) (nf_segs FO g k))
    /\ exists des ov, nf_segs FO g KDes = des ++ ov
         /\ Forall2 (fun s s1 => same_seg FO E KDes s s1
          /\ forall b, not_understood FO E KDes s -> data_bytes FO (s_hdr FO s) (s_data FO s) = Ok b ->
               s_data FO s1 = DHole FO (Z.of_nat (List.length b))) (nf_segs FO f' KDes) des
         /\ Forall (overflow_des FO) ov.
Proof.
  intros laws HL HW HF HN HT HS HO HR.
  assert (HH : forall k s b, not_understood FO E k s -> taken_by FO E k s b HHole).
  { intros k s b H. split; [|exact H]. split; [destruct k; cbn; tauto|exact I]. }
  destruct (C26_built E f f' bytes laws HL HW HF HN HT HS) as (g & R1 & R2 & R3 & R4 & des & ov & R5 & R6 & R7).
  { intro k. eapply Forall_impl; [|exact (HR k)]. intros s (A1 & A2 & A3 & A4). split; [exact A1|]. split; [exact A2|]. split; [exact A3|].
    intros b Hb. destruct A4 as [A4|A4]; [exists HHole; apply HH; exact A4|exact (A4 b Hb)]. }
  { exact HO. }
  assert (X : forall k l l1, Forall2 (same_seg FO E k) l l1 -> Forall2 (fun s s1 => same_seg FO E k s s1
          /\ forall b, not_understood FO E k s -> data_bytes FO (s_hdr FO s) (s_data FO s) = Ok b ->
               s_data FO s1 = DHole FO (Z.of_nat (List.length b))) l l1).
  { intros k l l1 H. eapply Forall2_with; [exact H|]. intros s s1 _ HS1. split; [exact HS1|]. intros b Hu Hb.
    destruct HS1 as ((_ & _ & D) & _). exact (D b HHole Hb (HH k s b Hu)). }
  exists g. split; [exact R1|]. split; [intros k Hk; exact (X k _ _ (R4 k Hk))|].
  exists des, ov. split; [exact R5|]. split; [exact (X KDes _ _ R6)|exact R7].
Qed.
End B.

(** ** Headers that are settled are ready for their TREs *)

Lemma settled_sound FO rows areas (h : hdr FO) : areas_ok rows areas -> settled FO rows areas h ->
  sound_header FO rows areas h /\ forall a, In a areas -> no_stale FO rows h a.
Proof.
  intros (Hwf & HA & _) (HI & H). rewrite Forall_forall in HA. split.
  - split; [exact HI|]. intros a Ha. destruct (H a Ha) as (n & H1 & H2 & _). exists n. split; [exact H2|exact H1].
  - intros a Ha. destruct (H a Ha) as (n & H1 & H2 & H3). destruct (Z.eq_dec n 0) as [->|Hn]; [|left; exists n; split; [clear - H2 Hn; lia|exact H1]].
    right. specialize (H3 eq_refl). destruct (area_fields rows a (HA a Ha)) as (lf & of & df & A).
    intros b s' Hb E. rewrite (set_data FO rows a lf of df A) in E by exact HI. injection E as <-.
    assert (K : get FO (mk_fs rows) (with_data FO lf df (h_st h) b) (ta_len a) [] = Ok (VInt (Z.of_nat (List.length b) + 3))).
    { rewrite (get_len FO rows a lf of df A). unfold with_data. rewrite assigned_self. unfold conv_of, convert. cbn.
      destruct b; [congruence|]. cbn [List.length]. replace (_ =? 0)%Z with false by lia. reflexivity. }
    rewrite (get_ofl FO rows a lf of df A Hwf _ _ K). replace (_ =? 0)%Z with false by (clear; lia).
    destruct (afields_ne rows a lf of df A) as (N1 & N2 & N3). unfold with_data.
    assert (I1 := lookup_in _ _ _ (af_len _ _ _ _ _ A)). assert (I2 := lookup_in _ _ _ (af_ofl _ _ _ _ _ A)).
    assert (I3 := lookup_in _ _ _ (af_dat _ _ _ _ _ A)).
    rewrite !(stored_assigned_ne FO rows) by auto. rewrite (H3 of (af_ofl _ _ _ _ _ A)). reflexivity.
Qed.
Lemma settled_empty FO E rows areas (h : hdr FO) ts : areas_ok rows areas -> settled FO rows areas h ->
  (forall a, In a areas -> get FO (mk_fs rows) (h_st h) (ta_len a) [] = Ok (VInt 0)) -> Forall (recognised FO (e_reg E)) ts ->
  tre_ready_in FO E rows areas h ts.
Proof.
  intros HA HS H0 HR. destruct (settled_sound FO rows areas h HA HS) as (S1 & S2). split; [exact HR|]. split; [exact S1|]. split; [exact S2|].
  intros ps i a _ _ Hi. right. apply H0. eapply nth_error_In; eauto.
Qed.

(** ** Images made by the library are ready *)

(** Whatever the mode, size, type and pixels: a new image can be read by every reader that has the
    numpy reader as its first choice for images. *)
Theorem C26_new_image FO E m nrow ncol be d n a sec f (px : Z * Z * Z -> item) (h : hdr FO) u ts l before l1 l2 after :
  (1 <= n)%Z -> (0 <= nrow)%Z -> (0 <= ncol)%Z -> marking FO sec ->
  new_image FO m nrow ncol (Np be d) n a sec = (h, u) ->
  supplies m f n nrow ncol px ->
  (forall p, in_image n nrow ncol p -> Z.of_nat (List.length (px p)) = itemsize d) ->
  e_levels E = before ++ (l1 ++ HNumpy :: l2) :: after ->
  Forall (fun hd => ~ In KImage (kinds_of hd)) (List.concat before ++ l1 ++ l2) ->
  ready FO E KImage {| s_hdr := h; s_ush := None; s_tres := ts; s_data := DImage FO m f; s_linked := l |}.
Proof.
  intros Hn Hr Hc HM HN HS HL HE HD.
  destruct (new_image_ok FO m nrow ncol be d n a sec Hn HM) as (h' & E0 & Y). rewrite HN in E0. injection E0 as <- _.
  destruct (layout_is FO _ _ _ _ _ _ (says_layout FO _ _ _ _ _ _ Y)) as (HI & HP).
  assert (W := C36_write FO m h f n nrow ncol d px HI ltac:(lia) Hr Hc HS).
  assert (Z := C36_size m n nrow ncol d px ltac:(lia) Hr Hc HL).
  split; [exact (proj2 (sy_clean _ _ _ _ _ _ _ Y))|]. split; [reflexivity|]. split; [reflexivity|].
  cbn [s_hdr s_data data_bytes]. intros b Hb. rewrite W in Hb. injection Hb as <-. exists HNumpy. split.
  - split; [now left|]. exists (interleaved m), d, n, nrow, ncol. cbn [s_hdr]. split; [exact HP|]. split; [exact (proj1 HI)|].
    split; [lia|]. split; [exact Hr|]. split; [exact Hc|exact Z].
  - exists before, l1, l2, after. split; [exact HE|]. eapply Forall_impl; [|exact HD]. intros x Hx. now apply dec_kind.
Qed.

(** ** Examples *)

Section Ex.
Variable FO : FloatOps.

(** A condition on segments that does not mention the link holds of a file built by appending. *)
Lemma all_append (P : kind -> seg FO -> Prop) f k s : (forall k, Forall (P k) (nf_segs FO f k)) -> P k s ->
  P k {| s_hdr := s_hdr FO s; s_ush := s_ush FO s; s_tres := s_tres FO s; s_data := s_data FO s; s_linked := true |} ->
  forall k', Forall (P k') (nf_segs FO (append_seg FO f k s) k').
Proof.
  intros H HK1 HK2 k'. unfold append_seg, put_segs. cbn [nf_segs]. destruct (kind_eqb k k') eqn:E; [|apply H].
  assert (k = k') by (destruct k, k'; (reflexivity || discriminate)). subst k'.
  apply Forall_app. split; [apply H|]. constructor; [|constructor]. destruct (nf_refs FO f k); assumption.
Qed.
Lemma all_new (P : kind -> seg FO -> Prop) sec : forall k, Forall (P k) (nf_segs FO (fst (new_file FO sec)) k).
Proof. intro k. rewrite new_no_segs. constructor. Qed.

Lemma unk_recognised tag body : plain_tag tag -> recognised FO [] (TUnk tag body).
Proof. intro H. split; [exact H|]. intros c s ((_ & l1 & l2 & H1 & _) & _). destruct l1; discriminate. Qed.

Definition ex_image_seg := ex_seg FO (ex_hdr FO GAll U2 2 3 12) (DImage FO GAll (ex_supplier GAll)) [ex_wide FO; ex_wide FO; ex_wide FO].
Definition ex_text_seg := ex_seg FO (new_hdr FO) (DStr FO (str "hello")) [TUnk (str "SMALL") (str "x")].
Definition ex_des_seg (t : list N) := ex_seg FO (new_hdr FO) (DBytes FO (Some t)) [].


Lemma ex_image_ready l : ready FO ex_env KImage {| s_hdr := ex_hdr FO GAll U2 2 3 12; s_ush := None;
  s_tres := [ex_wide FO; ex_wide FO; ex_wide FO]; s_data := DImage FO GAll (ex_supplier GAll); s_linked := l |}.
Proof.
  unfold ex_hdr. destruct (new_image FO GAll 2 3 (Np true U2) 12 ex_args (sec_default FO)) as [h u] eqn:E. cbn [fst].
  apply (C26_new_image FO ex_env GAll 2 3 true U2 12 ex_args (sec_default FO) (ex_supplier GAll) ex_px h u _ l [] [HOverflow] [HText] [[HImageHole]; [HHole]]);
    try exact E; try lia.
  - apply ex_marking.
  - apply ex_supplies.
  - intros [[b r] c] _. reflexivity.
  - reflexivity.
  - do 2 (apply Forall_cons; [cbn; intuition discriminate|]). apply Forall_nil.
Qed.
Lemma ex_text_ready l : ready FO ex_env KText {| s_hdr := new_hdr FO; s_ush := None; s_tres := [TUnk (str "SMALL") (str "x")];
  s_data := DStr FO (str "hello"); s_linked := l |}.
Proof.
  split; [exact (no_literals_init FO desc_NitfTextSubheader)|]. split; [reflexivity|]. split; [exact I|].
  intros b _. exists HText. split; [split; [now left|exact I]|]. exists [], [HOverflow; HNumpy], [], [[HImageHole]; [HHole]].
  split; [reflexivity|]. do 2 (apply Forall_cons; [apply dec_kind; cbn; intuition discriminate|]). apply Forall_nil.
Qed.
Lemma ex_des_ready t l : ready FO ex_env KDes {| s_hdr := new_hdr FO; s_ush := None; s_tres := []; s_data := DBytes FO (Some t); s_linked := l |}.
Proof.
  assert (D : des_id FO (new_hdr FO) []) by (vm_compute; reflexivity).
  split; [exact (no_literals_init FO desc_NitfDesSubheader)|]. split; [exists []; split; [exact D|exact (fun H => H)]|]. split; [exact I|].
  intros b _. exists HHole. split; [split; [cbn; tauto|exact I]|]. exists [[HOverflow; HNumpy; HText]; [HImageHole]], [], [], [].
  split; [reflexivity|]. apply Forall_cons; [apply (dec_overflow FO _ _ [] eq_refl D); discriminate|].
  do 3 (apply Forall_cons; [apply dec_kind; cbn; intuition discriminate|]). apply Forall_nil.
Qed.
Lemma ex_all_ready : forall k, Forall (ready FO ex_env k) (nf_segs FO (ex_file FO) k).
Proof.
  unfold ex_file. apply all_append; [|exact (ex_des_ready _ _)|exact (ex_des_ready _ _)].
  apply all_append; [|exact (ex_des_ready _ _)|exact (ex_des_ready _ _)].
  apply all_append; [|exact (ex_text_ready _)|exact (ex_text_ready _)].
  apply all_append; [|exact (ex_image_ready _)|exact (ex_image_ready _)]. apply all_new.
Qed.

Lemma ex_wide_recognised : recognised FO [] (ex_wide FO).
Proof. apply unk_recognised, plain_check. reflexivity. Qed.
Lemma ex_image_tre l : tre_ready FO ex_env KImage {| s_hdr := ex_hdr FO GAll U2 2 3 12; s_ush := None;
  s_tres := [ex_wide FO; ex_wide FO; ex_wide FO]; s_data := DImage FO GAll (ex_supplier GAll); s_linked := l |}.
Proof.
  unfold tre_ready. cbn [s_hdr s_tres]. apply settled_empty; [exact (proj1 (proj2 areas_shipped))|exact (ex_hdr_settled FO)| |].
  - intros x [<-|[<-|[]]]; vm_compute; reflexivity.
  - do 3 (apply Forall_cons; [exact ex_wide_recognised|]). apply Forall_nil.
Qed.
Lemma ex_text_tre l : tre_ready FO ex_env KText {| s_hdr := new_hdr FO; s_ush := None; s_tres := [TUnk (str "SMALL") (str "x")];
  s_data := DStr FO (str "hello"); s_linked := l |}.
Proof.
  unfold tre_ready. cbn [s_hdr s_tres]. apply settled_empty; [exact (proj2 (proj2 areas_shipped))|exact (settled_new FO KText)| |].
  - intros x [<-|[]]; vm_compute; reflexivity.
  - apply Forall_cons; [apply unk_recognised, plain_check; reflexivity|apply Forall_nil].
Qed.
Lemma ex_all_tre : forall k, Forall (tre_ready FO ex_env k) (nf_segs FO (ex_file FO) k).
Proof.
  unfold ex_file. do 2 (apply all_append; [|reflexivity|reflexivity]).
  apply all_append; [|exact (ex_text_tre _)|exact (ex_text_tre _)].
  apply all_append; [|exact (ex_image_tre _)|exact (ex_image_tre _)]. apply all_new.
Qed.
Lemma ex_overflow_ready : overflow_ready ex_env.
Proof.
  split; [exact (fun H => H)|]. exists [], [], HOverflow, [HNumpy; HText], [[HImageHole]; [HHole]].
  split; [reflexivity|]. split; [now left|]. do 2 (apply Forall_cons; [left; cbn; intuition discriminate|]). apply Forall_nil.
Qed.
Lemma append_hdr (f : nfile FO) k s : nf_hdr FO (append_seg FO f k s) = nf_hdr FO f.
Proof. reflexivity. Qed.
Lemma append_tres (f : nfile FO) k s : nf_tres FO (append_seg FO f k s) = nf_tres FO f.
Proof. reflexivity. Qed.
Lemma new_tres sec : nf_tres FO (fst (new_file FO sec)) = [].
Proof. unfold new_file. destruct (set_security FO desc_NitfFileHeader (new_hdr FO) "fs" sec). reflexivity. Qed.
Lemma new_plain sec : no_literals FO (mk_fs desc_NitfFileHeader) (h_st (nf_hdr FO (fst (new_file FO sec)))).
Proof.
  unfold new_file. rewrite set_security_eq.
  destruct (sec_set FO desc_NitfFileHeader (new_hdr FO) (sec_names "fs") sec) as [h r] eqn:E. cbn [fst nf_hdr].
  refine (sec_set_no_lit FO _ _ _ (new_hdr FO) _ _ _ E). exact (no_literals_init FO desc_NitfFileHeader).
Qed.
Lemma ex_file_hdr : nf_hdr FO (ex_file FO) = nf_hdr FO (fst (new_file FO (sec_default FO))).
Proof. unfold ex_file. rewrite !append_hdr. reflexivity. Qed.
Lemma ex_file_tres : nf_tres FO (ex_file FO) = [].
Proof. unfold ex_file. rewrite !append_tres. apply new_tres. Qed.
Lemma ex_header_plain : no_literals FO (mk_fs desc_NitfFileHeader) (h_st (nf_hdr FO (ex_file FO))).
Proof. rewrite ex_file_hdr. apply new_plain. Qed.
Lemma ex_header_tre : tre_ready_in FO ex_env desc_NitfFileHeader file_areas (nf_hdr FO (ex_file FO)) (nf_tres FO (ex_file FO)).
Proof.
  rewrite ex_file_hdr, ex_file_tres.
  apply settled_empty; [exact (proj1 areas_shipped)|exact (ex_new_settled FO)| |apply Forall_nil].
  intros x [<-|[<-|[]]]; vm_compute; reflexivity.
Qed.
(** The file of [ex_c25], with TREs that overflow, comes back. *)
Example ex_c26 : FloatLaws FO -> match file_write FO ex_env (ex_file FO) with
  | Ok (f', b) => exists g, file_read FO ex_env b = Ok g
      /\ Forall2 (same_seg FO ex_env KImage) (nf_segs FO f' KImage) (nf_segs FO g KImage)
  | Err _ => False end.
Proof.
  intro laws. pose proof (ex_c25 FO) as X. destruct (file_write FO ex_env (ex_file FO)) as [[f' b]|e] eqn:E; [|exact X]. destruct X as (_ & X & _).
  destruct (C26_built FO ex_env _ f' b laws (ex_c25_linked FO) E) as (g & R1 & _ & _ & R4 & _).
  - rewrite X. discriminate.
  - exact ex_header_plain.
  - exact ex_header_tre.
  - exact ex_all_tre.
  - exact ex_all_ready.
  - exact ex_overflow_ready.
  - exists g. split; [exact R1|]. apply R4. discriminate.
Qed.

(** Computed: a reader that knows no image, text or other data finds the segments all the same. *)
Definition blind : env := {| e_reg := []; e_des := []; e_res := []; e_levels := [[HOverflow]; [HHole]] |}.
Lemma blind_image (s : seg FO) : not_understood FO blind KImage s.
Proof. exists [[HOverflow]], [], [], []. split; [reflexivity|]. apply Forall_cons; [apply dec_kind; cbn; intuition discriminate|apply Forall_nil]. Qed.
Lemma blind_text (s : seg FO) : not_understood FO blind KText s.
Proof. exists [[HOverflow]], [], [], []. split; [reflexivity|]. apply Forall_cons; [apply dec_kind; cbn; intuition discriminate|apply Forall_nil]. Qed.
Lemma blind_des (s : seg FO) : des_id FO (s_hdr FO s) [] -> not_understood FO blind KDes s.
Proof.
  intro D. exists [[HOverflow]], [], [], []. split; [reflexivity|].
  apply Forall_cons; [apply (dec_overflow FO _ _ [] eq_refl D); discriminate|apply Forall_nil].
Qed.
Example ex_c44_hyp : forall k, Forall (fun s => plain_seg FO k s /\ user_ok FO blind k s /\ image_placed FO k s
    /\ (not_understood FO blind k s \/ forall b, data_bytes FO (s_hdr FO s) (s_data FO s) = Ok b -> exists hd, taken_by FO blind k s b hd))
  (nf_segs FO (ex_file FO) k).
Proof.
  assert (D : des_id FO (new_hdr FO) []) by (vm_compute; reflexivity).
  unfold ex_file.
  do 2 (apply all_append; [|split; [exact (no_literals_init FO desc_NitfDesSubheader)|]; split; [exists []; split; [exact D|exact (fun H => H)]|];
    split; [exact I|left; apply blind_des; exact D]|split; [exact (no_literals_init FO desc_NitfDesSubheader)|];
    split; [exists []; split; [exact D|exact (fun H => H)]|]; split; [exact I|left; apply blind_des; exact D]]).
  apply all_append; [|split; [exact (no_literals_init FO desc_NitfTextSubheader)|]; split; [reflexivity|]; split; [exact I|left; apply blind_text]
    |split; [exact (no_literals_init FO desc_NitfTextSubheader)|]; split; [reflexivity|]; split; [exact I|left; apply blind_text]].
  apply all_append; [|split; [exact (proj1 (ex_image_ready _))|]; split; [reflexivity|]; split; [reflexivity|left; apply blind_image]
    |split; [exact (proj1 (ex_image_ready _))|]; split; [reflexivity|]; split; [reflexivity|left; apply blind_image]].
  exact (all_new _ _).
Qed.
Example ex_c44 : match file_write FO ex_env (ex_file FO) with
  | Ok (f', b) => match file_read FO blind b with
      | Ok g => map (fun s => match s_data FO s with DHole _ n => n | _ => (-1)%Z end)
                  (nf_segs FO g KImage ++ nf_segs FO g KText ++ nf_segs FO g KDes) = [144; 5; 4; 4; -1]%Z
                /\ List.length (List.concat (map (fun s => s_tres FO s) (nf_segs FO g KText))) = 1%nat
      | Err _ => False end
  | Err _ => False end.
Proof. vm_compute. auto. Qed.
End Ex.

Print Assumptions C26_built.
Print Assumptions C26_new_image.
Print Assumptions C44_positions.
Print Assumptions C44_others_unharmed.
