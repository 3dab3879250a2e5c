(** Properties of whole files: C25 (the header describes the file), C28 (enumeration and lookup). *)
From Verif Require Import Base BaseLemmas Engine Wf EngineLemmas Codec RoundTrip Rewrite Literal
  Positions Keys Deps Assign Update Spec Decimal DecimalLemmas DescsHdr Utf8 Handles Tre TreLemmas P_Tre
  TrePlace TrePlaceLemmas P_TrePlace Scalar Security P_Security Image P_Image File FileLemmas.
From Coq Require Import ZifyBool ZifyNat ZifyN Sorted.
Open Scope list_scope.
Ltac Zify.zify_post_hook ::= idtac.

(** ** Specification vocabulary *)

(** The place of a kind of segment in a file. *)
Definition rank (k : kind) : nat :=
  match k with KImage => 0 | KGraphic => 1 | KText => 2 | KDes => 3 | KRes => 4 end.
(** The header fields about a kind of segment: number, subheader lengths, data lengths. *)
Definition header_names (k : kind) : string * string * string :=
  match k with
  | KImage => ("numi", "lish", "li") | KGraphic => ("nums", "lssh", "ls") | KText => ("numt", "ltsh", "lt")
  | KDes => ("numdes", "ldsh", "ld") | KRes => ("numres", "lresh", "lre")
  end%string.
Definition in_file_order : list kind := [KImage; KGraphic; KText; KDes; KRes].

Section P.
Variable FO : FloatOps.
Notation seg := (seg FO).
Notation nfile := (nfile FO).

(** Field [nm] of the file header holds the integer [z]. *)
Definition header_says (f : nfile) (nm : string) (key : list Z) (z : Z) : Prop :=
  get FO (mk_fs desc_NitfFileHeader) (h_st (nf_hdr FO f)) nm key = Ok (VInt z).
(** Field [nm] of the subheader of the image segment holds [v]. *)
Definition image_says (s : seg) (nm : string) (v : pyval FO) : Prop :=
  get FO (mk_fs desc_NitfImageSubheader) (h_st (s_hdr FO s)) nm [] = Ok v.
(** The desid of a DES segment. *)
Definition des_says (s : seg) (t : list N) : Prop :=
  get FO (mk_fs desc_NitfDesSubheader) (h_st (s_hdr FO s)) "desid" [] = Ok (VStr t).
Definition overflow_des (s : seg) : Prop := des_says s (str "TRE_OVERFLOW").
Definition ordinary_des (s : seg) : Prop := exists t, des_says s t /\ t <> str "TRE_OVERFLOW".

(** ** C28 *)

Lemma enumerate_nth {A} (l : list A) i a : In (i, a) (enumerate l) <-> nth_error l i = Some a.
Proof.
  unfold enumerate. assert (G : forall n, In (i, a) (combine (seq n (List.length l)) l) <-> (n <= i)%nat /\ nth_error l (i - n) = Some a).
  { induction l as [|x l IH]; intro n; cbn [List.length seq combine].
    - split; [intros []|]. intros (_ & H). destruct (i - n)%nat; discriminate.
    - cbn [In]. rewrite IH. split.
      + intros [H|(H1 & H2)].
        * injection H as <- <-. rewrite Nat.sub_diag. split; [lia|reflexivity].
        * split; [lia|]. replace (i - n)%nat with (S (i - S n)) by lia. exact H2.
      + intros (H1 & H2). destruct (Nat.eq_dec n i) as [->|Hne].
        * rewrite Nat.sub_diag in H2. injection H2 as ->. now left.
        * right. split; [lia|]. replace (i - n)%nat with (S (i - S n)) in H2 by lia. exact H2. }
  rewrite G. rewrite Nat.sub_0_r. split; [intros (_ & H); exact H|intro H; split; [lia|exact H]].
Qed.

Theorem C28_every_segment f k i s : In (k, i, s) (segments FO f) <-> nth_error (nf_segs FO f k) i = Some s.
Proof.
  unfold segments. rewrite in_flat_map. split.
  - intros (k' & _ & H). apply in_map_iff in H as ([j x] & H & HI). injection H as -> -> ->.
    now apply enumerate_nth.
  - intro H. exists k. split; [apply kinds_all|]. apply in_map_iff. exists (i, s). split; [reflexivity|]. now apply enumerate_nth.
Qed.

(** The order of positions in a file. *)
Definition before (p q : kind * nat) : Prop :=
  (rank (fst p) < rank (fst q))%nat \/ (fst p = fst q /\ (snd p < snd q)%nat).

Lemma sorted_enumerate {A} (l : list A) k :
  StronglySorted before (map fst (map (fun p => (k, fst p, snd p)) (enumerate l))).
Proof.
  unfold enumerate. generalize 0%nat. induction l as [|x l IH]; intro n; cbn [List.length seq combine map]; [constructor|].
  constructor; [apply IH|]. apply Forall_forall. intros [k' j] H. rewrite map_map in H.
  apply in_map_iff in H as ([j' y] & H & HI). injection H as <- <-. right. split; [reflexivity|]. cbn [fst snd].
  apply in_combine_l in HI. apply in_seq in HI. lia.
Qed.

Lemma sorted_app {A} (R : A -> A -> Prop) l m : StronglySorted R l -> StronglySorted R m ->
  (forall a b, In a l -> In b m -> R a b) -> StronglySorted R (l ++ m).
Proof.
  induction 1 as [|a l Hl IH Ha]; intros Hm HR; [exact Hm|]. cbn [app]. constructor.
  - apply IH; [exact Hm|]. intros x y Hx Hy. apply HR; [now right|exact Hy].
  - apply Forall_app. split; [exact Ha|]. apply Forall_forall. intros y Hy. apply HR; [now left|exact Hy].
Qed.

(** In file order, so each position once. *)
Theorem C28_in_order f : StronglySorted before (map fst (segments FO f)).
Proof.
  unfold segments, kinds.
  assert (G : forall l, StronglySorted lt (map rank l) ->
    StronglySorted before (map fst (flat_map (fun k => map (fun p => (k, fst p, snd p)) (enumerate (nf_segs FO f k))) l))).
  { induction l as [|k l IH]; intro HS; [constructor|]. cbn [flat_map]. rewrite map_app. cbn [map] in HS. inversion_clear HS as [|? ? H1 H2].
    apply sorted_app; [apply sorted_enumerate|exact (IH H1)|].
    intros [k1 i1] [k2 i2] Ha Hb. left. cbn [fst].
    apply in_map_iff in Ha as ([[k1' i1'] s1] & Ea & Ha). injection Ea as -> ->. apply in_map_iff in Ha as (p1 & Ea & _). injection Ea as <- _ _.
    apply in_map_iff in Hb as ([[k2' i2'] s2] & Eb & Hb). injection Eb as -> ->. apply in_flat_map in Hb as (k3 & Hk3 & Hb).
    apply in_map_iff in Hb as (p2 & Eb & _). injection Eb as <- _ _.
    apply Forall_forall with (x := rank k3) in H2; [exact H2|]. apply in_map. exact Hk3. }
  apply G. cbn [map rank]. repeat (constructor; [|repeat (constructor; [lia|]); constructor]). constructor.
Qed.

Corollary C28_once f : NoDup (map fst (segments FO f)).
Proof.
  generalize (C28_in_order f). generalize (map fst (segments FO f)). induction 1 as [|p l _ IH H]; constructor; [|exact IH].
  intro HI. apply Forall_forall with (x := p) in H; [|exact HI]. destruct H as [H|(_ & H)]; lia.
Qed.

(** Image segments whose [iid1] are the texts [ts], and those holding [v]. *)
Definition matching (l : list seg) (ts : list (list N)) (v : list N) : list seg :=
  map fst (filter (fun p => list_eqb (snd p) v) (combine l ts)).

Lemma hget_field rows (h : hdr FO) nm : lookup (mk_fs rows) nm <> None -> hget FO rows h nm = get FO (mk_fs rows) (h_st h) nm [].
Proof. unfold hget. destruct (lookup (mk_fs rows) nm); [reflexivity|intro H; now elim H]. Qed.
Lemma attr_eq_text (s : seg) nm t v : lookup (mk_fs desc_NitfImageSubheader) nm <> None -> image_says s nm (VStr t) ->
  attr_eq FO nm (VStr v) s = Ok (list_eqb t v).
Proof. intros Hn H. unfold attr_eq, sub_rows. rewrite (hget_field _ _ _ Hn). unfold image_says in H. rewrite H. reflexivity. Qed.
Lemma attr_eq_int (s : seg) nm t v : lookup (mk_fs desc_NitfImageSubheader) nm <> None -> image_says s nm (VInt t) ->
  attr_eq FO nm (VInt v) s = Ok (t =? v)%Z.
Proof. intros Hn H. unfold attr_eq, sub_rows. rewrite (hget_field _ _ _ Hn). unfold image_says in H. rewrite H. reflexivity. Qed.
Lemma has_iid1 : lookup (mk_fs desc_NitfImageSubheader) "iid1" <> None.
Proof. vm_compute. discriminate. Qed.
Lemma has_idlvl : lookup (mk_fs desc_NitfImageSubheader) "idlvl" <> None.
Proof. vm_compute. discriminate. Qed.

Theorem C28_by_iid1 l ts v : Forall2 (fun s t => image_says s "iid1" (VStr t)) l ts ->
  iseg_by_iid1 FO (VStr v) l = Ok (matching l ts v).
Proof.
  induction 1 as [|s t l ts H _ IH]; [reflexivity|]. cbn [iseg_by_iid1].
  rewrite (attr_eq_text s "iid1" t v has_iid1 H), IH. cbn [bind].
  unfold matching. cbn [combine filter snd]. destruct (list_eqb t v); reflexivity.
Qed.

(** The single one, or an error that tells none from several. *)
Theorem C28_single l ts v : Forall2 (fun s t => image_says s "iid1" (VStr t)) l ts ->
  (forall s, iseg_by_iid1_single FO (VStr v) l = Ok s <-> matching l ts v = [s])
  /\ (iseg_by_iid1_single FO (VStr v) l = Err EKey <-> matching l ts v = [])
  /\ (iseg_by_iid1_single FO (VStr v) l = Err ERuntime <-> (2 <= List.length (matching l ts v))%nat).
Proof.
  intro H. unfold iseg_by_iid1_single. rewrite (C28_by_iid1 l ts v H). cbn [bind].
  destruct (matching l ts v) as [|a [|b m]]; cbn [List.length].
  - split; [intro s; split; discriminate|]. split; [tauto|]. split; [discriminate|lia].
  - split; [intro s; split; intro E; [injection E as ->; reflexivity|injection E as ->; reflexivity]|].
    split; [split; discriminate|]. split; [discriminate|lia].
  - split; [intro s; split; discriminate|]. split; [split; discriminate|]. split; [lia|reflexivity].
Qed.

(** The first segment with the display level, if there is one. *)
Theorem C28_by_idlvl l ts v : Forall2 (fun s t => image_says s "idlvl" (VInt t)) l ts ->
  (forall s, iseg_by_idlvl FO (VInt v) l = Ok s <->
     exists i, nth_error l i = Some s /\ nth_error ts i = Some v /\ forall j, (j < i)%nat -> nth_error ts j <> Some v)
  /\ (iseg_by_idlvl FO (VInt v) l = Err EKey <-> ~ In v ts).
Proof.
  induction 1 as [|s t l ts H _ (IH1 & IH2)].
  - split; [|split; [intros _ []|reflexivity]]. intro s. split; [discriminate|]. intros (i & H & _). destruct i; discriminate.
  - cbn [iseg_by_idlvl]. rewrite (attr_eq_int s "idlvl" t v has_idlvl H). cbn [bind].
    destruct (Z.eqb_spec t v) as [->|Hne].
    + split; [|split; [discriminate|intro HN; elim HN; now left]]. intro x. split.
      * intro E. injection E as <-. exists 0%nat. repeat split; try reflexivity. intros j Hj. lia.
      * intros (i & E1 & E2 & E3). destruct i as [|i]; [cbn in E1; now injection E1 as ->|]. elim (E3 0%nat); [lia|reflexivity].
    + split.
      * intro x. rewrite IH1. split.
        -- intros (i & E1 & E2 & E3). exists (S i). split; [exact E1|]. split; [exact E2|]. intros [|j] Hj; [cbn; congruence|].
           cbn. apply E3. lia.
        -- intros (i & E1 & E2 & E3). destruct i as [|i]; [cbn in E2; congruence|]. exists i. split; [exact E1|]. split; [exact E2|].
           intros j Hj. apply (E3 (S j)). lia.
      * rewrite IH2. cbn [In]. tauto.
Qed.

(** ** C25 *)

(** Every segment knows the file it is in, as [append] on the lists of a NitfFile arranges and
    reading does. *)
Definition linked (f : nfile) : Prop := forall k, Forall (fun s => s_linked FO s = true) (nf_segs FO f k).

Lemma linked_new sec : linked (fst (new_file FO sec)) /\ forall k, nf_refs FO (fst (new_file FO sec)) k = true.
Proof.
  unfold new_file, linked. destruct (set_security FO desc_NitfFileHeader (new_hdr FO) "fs" sec) as [h r].
  cbn [fst nf_segs nf_refs]. split; [constructor|reflexivity].
Qed.
Lemma linked_append f k s : linked f -> nf_refs FO f k = true -> linked (append_seg FO f k s).
Proof.
  intros HL HR k'. unfold append_seg, put_segs. rewrite HR. cbn [nf_segs]. destruct (kind_eqb k k') eqn:E; [|apply HL].
  apply Forall_app. split; [apply HL|]. constructor; [reflexivity|constructor].
Qed.

(** The bytes of a segment: its subheader and its data. *)
Definition segment_bytes (k : kind) (s : seg) (p : list N * list N) : Prop :=
  write FO (mk_fs (sub_rows k)) (h_st (s_hdr FO s)) = Ok (fst p) /\ data_bytes FO (s_hdr FO s) (s_data FO s) = Ok (snd p).

Lemma wrote_bytes k l l' ps : wrote_all FO k l l' ps -> Forall2 (segment_bytes k) l' ps.
Proof.
  induction 1 as [|s s' p l l' ps H _ IH]; constructor; [|exact IH].
  destruct H as (h & H1 & -> & H2 & H3). split; [exact H2|exact H3].
Qed.

Lemma is_overflow_true (s : seg) : is_overflow FO (s_hdr FO s) = Ok true -> overflow_des s.
Proof.
  unfold is_overflow, sub_rows. rewrite (hget_scalar FO _ _ _ _ desid_scalar), <- (get_scalar FO _ _ _ _ desid_scalar).
  unfold overflow_des, des_says. destruct (get FO _ (h_st (s_hdr FO s)) "desid" []) as [[| | |t| |]|e]; try discriminate.
  cbn [bind]. destruct (utf8_enc t) as [b|] eqn:E; [|discriminate]. intro H. injection H as H. apply list_eqb_spec in H. subst b.
  apply utf8_enc_dec in E. rewrite (utf8_enc_dec overflow_id overflow_id (proj1 overflow_enc)) in E. injection E as <-. reflexivity.
Qed.
Lemma is_overflow_false (s : seg) : is_overflow FO (s_hdr FO s) = Ok false -> ordinary_des s.
Proof.
  unfold is_overflow, sub_rows. rewrite (hget_scalar FO _ _ _ _ desid_scalar), <- (get_scalar FO _ _ _ _ desid_scalar).
  unfold ordinary_des, des_says. destruct (get FO _ (h_st (s_hdr FO s)) "desid" []) as [[| | |t| |]|e]; try discriminate.
  cbn [bind]. destruct (utf8_enc t) as [b|] eqn:E; [|discriminate]. intro H. injection H as H. exists t. split; [reflexivity|].
  intros ->. change (str "TRE_OVERFLOW") with overflow_id in E. rewrite (proj1 overflow_enc) in E. injection E as <-.
  rewrite (proj2 overflow_enc) in H. discriminate.
Qed.

Theorem C25_header_describes_file E f f' bytes : linked f -> file_write FO E f = Ok (f', bytes) ->
  exists hb pieces ov,
    write FO (mk_fs desc_NitfFileHeader) (h_st (nf_hdr FO f')) = Ok hb
    /\ bytes = hb ++ List.concat (map (fun k => List.concat (map (fun p => fst p ++ snd p) (pieces k))) in_file_order)
    /\ header_says f' "hl" [] (Z.of_nat (List.length hb))
    /\ header_says f' "fl" [] (Z.of_nat (List.length bytes))
    /\ (forall k, let '(num, sub, data) := header_names k in
          header_says f' num [] (Z.of_nat (List.length (pieces k)))
          /\ forall j p, nth_error (pieces k) j = Some p ->
               header_says f' sub [Z.of_nat j] (Z.of_nat (List.length (fst p)))
               /\ header_says f' data [Z.of_nat j] (Z.of_nat (List.length (snd p))))
    /\ (forall k, Forall2 (segment_bytes k) (nf_segs FO f' k ++ (if kind_eqb k KDes then ov else [])) (pieces k))
    /\ Forall overflow_des ov /\ Forall ordinary_des (nf_segs FO f' KDes).
Proof.
  intros HL H. destruct (file_write_ok FO E f f' bytes HL H) as (h1 & g & g' & ps & hb & W). clear H.
  destruct W as [_ WA WH WB _ WC WS WHL WFL _ _ WSg (ov & WD1 & WD2 & WD3) _].
  exists hb, ps, ov.
  split; [exact WH|]. split; [rewrite WB, flat_map_concat_map; reflexivity|].
  destruct (total_fld "hl" (or_introl eq_refl)) as ((S1 & T1 & O1) & _).
  destruct (total_fld "fl" (or_intror eq_refl)) as ((S2 & T2 & O2) & _).
  split. { unfold header_says. rewrite (get_scalar FO hrows _ _ _ S1). exact (conv_of_int FO _ _ _ T1 O1 WHL). }
  split. { unfold header_says. rewrite (get_scalar FO hrows _ _ _ S2). exact (conv_of_int FO _ _ _ T2 O2 WFL). }
  split.
  - assert (G : forall k, header_says f' (count_name k) [] (Z.of_nat (List.length (ps k)))
       /\ forall j p, nth_error (ps k) j = Some p ->
               header_says f' (size_name k true) [Z.of_nat j] (Z.of_nat (List.length (fst p)))
               /\ header_says f' (size_name k false) [Z.of_nat j] (Z.of_nat (List.length (snd p)))).
    { intro k. destruct (wrote_all_len FO k _ _ _ (WA k)) as (_ & LP). rewrite LP. split; [exact (WC k)|].
      intros j p Hj. assert (Hlt : (j < List.length (g k))%nat).
      { rewrite <- LP. apply nth_error_Some. rewrite Hj. discriminate. }
      destruct (WS k j p Hj) as (A & B). split.
      - exact (get_size_int FO _ _ k true j _ WC Hlt A).
      - exact (get_size_int FO _ _ k false j _ WC Hlt B). }
    intro k. destruct k; [exact (G KImage)|exact (G KGraphic)|exact (G KText)|exact (G KDes)|exact (G KRes)].
  - split.
    + intro k. apply (wrote_bytes k (g k)). replace (nf_segs FO f' k ++ _) with (g' k); [apply WA|].
      destruct k; cbn [kind_eqb]; try (rewrite app_nil_r; symmetry; apply WSg; discriminate). exact WD1.
    + split; [|]; eapply Forall_impl; [| exact WD3 | | exact WD2]; [exact is_overflow_true|exact is_overflow_false].
Qed.

(** ** C27: what writing leaves alone *)

(** The same segment except for its subheader. *)
Definition same_but_header (s s' : seg) : Prop :=
  s_ush FO s' = s_ush FO s /\ s_tres FO s' = s_tres FO s /\ s_data FO s' = s_data FO s /\ s_linked FO s' = s_linked FO s.
(** The DES segments without the overflow segments, each related to its original by [R]. *)
Inductive without_overflow (R : seg -> seg -> Prop) : list seg -> list seg -> Prop :=
| wo_nil : without_overflow R [] []
| wo_drop s l l' : overflow_des s -> without_overflow R l l' -> without_overflow R (s :: l) l'
| wo_keep s s' l l' : ordinary_des s -> R s s' -> without_overflow R l l' -> without_overflow R (s :: l) (s' :: l').

Lemma sbh_refl s : same_but_header s s.
Proof. repeat split. Qed.
Lemma sbh_hdr s h : same_but_header s (with_hdr FO s h).
Proof. repeat split. Qed.
Lemma sbh_trans a b c : same_but_header a b -> same_but_header b c -> same_but_header a c.
Proof. intros (A1 & A2 & A3 & A4) (B1 & B2 & B3 & B4). repeat split; congruence. Qed.

Lemma prepped_same k i l n l' ov : prepped FO k i l n l' ov -> Forall2 same_but_header l l'.
Proof. induction 1; constructor; [apply sbh_hdr|assumption]. Qed.
Lemma wrote_same k l l' ps : wrote_all FO k l l' ps -> Forall2 same_but_header l l'.
Proof. induction 1 as [|s l s' l' p ps (h & _ & -> & _) _ IH]; constructor; [apply sbh_hdr|assumption]. Qed.
Lemma same_trans l l' l'' : Forall2 same_but_header l l' -> Forall2 same_but_header l' l'' -> Forall2 same_but_header l l''.
Proof.
  intro H. revert l''. induction H as [|a b l l' H1 _ IH]; intros l'' H2; inversion_clear H2; constructor.
  - eapply sbh_trans; eauto.
  - auto.
Qed.
Lemma drop_without R l l' : drop_overflow FO l = Ok l' -> forall l'', Forall2 R l' l'' -> without_overflow R l l''.
Proof.
  revert l'. induction l as [|s l IH]; intros l' H l'' HS; cbn [drop_overflow] in H.
  - injection H as <-. inversion_clear HS. constructor.
  - apply bind_ok_elim in H as (b & Hb & H). apply bind_ok_elim in H as (r & Hr & H). injection H as <-. destruct b.
    + apply wo_drop; [now apply is_overflow_true|]. exact (IH r Hr _ HS).
    + inversion_clear HS. apply wo_keep; [now apply is_overflow_false|assumption|]. eapply IH; eauto.
Qed.

Theorem C27_leaves_segments E f f' bytes : linked f -> file_write FO E f = Ok (f', bytes) ->
  nf_tres FO f' = nf_tres FO f
  /\ (forall k, k <> KDes -> Forall2 same_but_header (nf_segs FO f k) (nf_segs FO f' k))
  /\ without_overflow same_but_header (nf_segs FO f KDes) (nf_segs FO f' KDes)
  /\ linked f'.
Proof.
  intros HL H. destruct (file_write_ok FO E f f' bytes HL H) as (h1 & g & g' & ps & hb & W). clear H.
  destruct W as [WP WA _ _ _ _ _ _ _ _ WT WSg (ov & WD1 & WD2 & WD3) _].
  destruct (prepared_linked FO f h1 g HL WP) as (GL & des0 & ovs & D0 & G0 & OV).
  destruct WP as (des0' & h0 & o & ov0 & ov1 & ov2 & ov3 & D & _ & F0 & P1 & P2 & P3 & G1 & G2 & _).
  rewrite D0 in D. injection D as <-.
  assert (A : forall k, k <> KDes -> Forall2 same_but_header (nf_segs FO f k) (g k)).
  { intros [| | | |] Hk; [exact (prepped_same _ _ _ _ _ _ P1)|exact (prepped_same _ _ _ _ _ _ P2)|exact (prepped_same _ _ _ _ _ _ P3)|now elim Hk|].
    rewrite G2. clear. induction (nf_segs FO f KRes); constructor; [apply sbh_refl|assumption]. }
  assert (B : Forall2 same_but_header des0 (nf_segs FO f' KDes)).
  { pose proof (wrote_same _ _ _ _ (WA KDes)) as WD. rewrite G0, WD1 in WD.
    assert (WA' := WA KDes). rewrite G0 in WA'. destruct (wrote_all_app FO _ _ _ _ _ WA') as (a' & b' & pa & pb & E1 & _ & A1 & B1).
    assert (Ea : nf_segs FO f' KDes = a').
    { apply drop_overflow_kept in D0 as (_ & D0). assert (F1 := wrote_all_desid FO _ _ _ _ A1 D0).
      assert (F2 : Forall (fun s => is_overflow FO (s_hdr FO s) = Ok true) b').
      { apply (wrote_all_desid FO _ _ _ _ B1). eapply Forall_impl; [|exact OV]. intros s (o' & _ & Ho & _). exact Ho. }
      assert (Q1 := drop_overflow_split FO _ _ F1 F2). assert (Q2 := drop_overflow_split FO _ _ WD2 WD3).
      rewrite <- E1, WD1, Q2 in Q1. now injection Q1. }
    rewrite Ea. exact (wrote_same _ _ _ _ A1). }
  split; [exact WT|]. split.
  { intros k Hk. rewrite (WSg k Hk). eapply same_trans; [exact (A k Hk)|]. exact (wrote_same _ _ _ _ (WA k)). }
  split; [exact (drop_without _ _ _ D0 _ B)|].
  assert (LK : forall l l', Forall2 same_but_header l l' -> Forall (fun s => s_linked FO s = true) l -> Forall (fun s => s_linked FO s = true) l').
  { clear. induction 1 as [|a b l l' (_ & _ & _ & H) _ IH]; intro HF; [constructor|]. inversion_clear HF. constructor; [congruence|auto]. }
  intros k. destruct (kind_eqb k KDes) eqn:EK.
  - assert (k = KDes) by (destruct k; (reflexivity || discriminate)). subst k.
    apply (LK des0 _ B). apply drop_overflow_kept in D0 as (D0 & _). apply Forall_forall. intros s Hs.
    pose proof (HL KDes) as HD. rewrite Forall_forall in HD. exact (HD s (D0 s Hs)).
  - rewrite (WSg k) by (intros ->; discriminate). apply (LK (g k)); [|apply GL]. exact (wrote_same _ _ _ _ (WA k)).
Qed.
End P.

(** ** Examples *)

Definition ex_env : env := {| e_reg := []; e_des := []; e_res := [];
  e_levels := [[HOverflow; HNumpy; HText]; [HImageHole]; [HHole]] |}.
Section Ex.
Variable FO : FloatOps.
Definition ex_seg (h : hdr FO) d ts : seg FO := {| s_hdr := h; s_ush := None; s_tres := ts; s_data := d; s_linked := false |}.
Definition ex_wide : tre FO := TUnk (str "BIGTRE") (repeat 65%N (Z.to_nat 60000)).
(** An image of 2 by 3 pixels in 12 bands with three large TREs, a text, and two DES. *)
Definition ex_file : nfile FO :=
  append_seg FO (append_seg FO (append_seg FO (append_seg FO (fst (new_file FO (sec_default FO)))
    KImage (ex_seg (ex_hdr FO GAll U2 2 3 12) (DImage FO GAll (ex_supplier GAll)) [ex_wide; ex_wide; ex_wide]))
    KText (ex_seg (new_hdr FO) (DStr FO (str "hello")) [TUnk (str "SMALL") (str "x")]))
    KDes (ex_seg (new_hdr FO) (DBytes FO (Some (str "data"))) []))
    KDes (ex_seg (new_hdr FO) (DBytes FO (Some (str "more"))) []).

Example ex_c25_linked : linked FO ex_file.
Proof. unfold ex_file. repeat (apply linked_append; [|vm_compute; reflexivity]). apply linked_new. Qed.

Definition hdr_int (f : nfile FO) (nm : string) (key : list Z) : option Z :=
  match get FO (mk_fs desc_NitfFileHeader) (h_st (nf_hdr FO f)) nm key with Ok (VInt z) => Some z | _ => None end.
Example ex_c25 : match file_write FO ex_env ex_file with
  | Ok (f', b) => map (fun p => hdr_int f' (fst p) (snd p))
      [("hl", []); ("fl", []); ("numi", []); ("lish", [0%Z]); ("li", [0%Z]); ("numt", []); ("lt", [0%Z]);
       ("numdes", []); ("ld", [0%Z]); ("ld", [1%Z]); ("ld", [2%Z])]%string
      = [Some 452; Some 182141; Some 1; Some 120615; Some 144; Some 1; Some 5; Some 3; Some 4; Some 4; Some 60011]%Z
      /\ Z.of_nat (List.length b) = 182141%Z
      /\ map (fun k => List.length (nf_segs FO f' k)) in_file_order = [1; 0; 1; 2; 0]%nat
  | Err _ => False
  end.
Proof. vm_compute. auto. Qed.
Example ex_c27 : match file_write FO ex_env ex_file with
  | Ok (f', b) => match file_write FO ex_env f' with Ok (f2, b2) => list_eqb b b2 = true | Err _ => False end
  | Err _ => False
  end.
Proof. vm_compute. reflexivity. Qed.

(** Images with the iid1 values a, b, a and the idlvl values 1, 2, 3. *)
Definition ex_image (t : list N) (z : Z) : seg FO :=
  ex_seg {| h_st := assign_all FO desc_NitfImageSubheader (init_state FO)
              [("iid1"%string, [], SVal (VStr t)); ("idlvl"%string, [], SVal (VInt z))]; h_attr := [] |} (DBytes FO None) [].
Definition ex_images : list (seg FO) := [ex_image (str "a") 1; ex_image (str "b") 2; ex_image (str "a") 3].
Example ex_c28_hyp : Forall2 (fun s t => image_says FO s "iid1" (VStr t)) ex_images [str "a"; str "b"; str "a"]
  /\ Forall2 (fun s t => image_says FO s "idlvl" (VInt t)) ex_images [1; 2; 3]%Z.
Proof. split; repeat (constructor; [vm_compute; reflexivity|]); constructor. Qed.
Example ex_c28 : matching FO ex_images [str "a"; str "b"; str "a"] (str "a") = [ex_image (str "a") 1; ex_image (str "a") 3]
  /\ map fst (segments FO ex_file) = [(KImage, 0); (KText, 0); (KDes, 0); (KDes, 1)]%nat.
Proof. split; [reflexivity|vm_compute; reflexivity]. Qed.

(** A segment appended to a file that was read is not linked to it, since the lists made by
    reading are plain: its sizes do not get into the header, and the file is no longer readable
    as written. *)
Definition ex_text : seg FO := ex_seg (new_hdr FO) (DStr FO (str "hello")) [].
Lemma appended_run : match file_write FO ex_env (fst (new_file FO (sec_default FO))) with
  | Ok (f1, b0) => match file_read FO ex_env b0 with
    | Ok g => match file_write FO ex_env (append_seg FO g KText ex_text) with
      | Ok (f', bytes) => header_says FO f' "numt" [] 1 /\ header_says FO f' "lt" [0%Z] 0
      | Err _ => False end
    | Err _ => False end
  | Err _ => False end.
Proof. vm_compute. auto. Qed.
Theorem C25_appended_refuted : exists f0 f1 b0 g f' bytes (s : seg FO) d,
  linked FO f0 /\ file_write FO ex_env f0 = Ok (f1, b0) /\ file_read FO ex_env b0 = Ok g
  /\ file_write FO ex_env (append_seg FO g KText s) = Ok (f', bytes)
  /\ data_bytes FO (s_hdr FO s) (s_data FO s) = Ok d /\ List.length d = 5%nat
  /\ header_says FO f' "numt" [] 1 /\ header_says FO f' "lt" [0%Z] 0.
Proof.
  pose proof appended_run as H. remember (fst (new_file FO (sec_default FO))) as f0 eqn:F0.
  remember (file_write FO ex_env f0) as r1 eqn:R1. destruct r1 as [[f1 b0]|]; [|destruct H].
  remember (file_read FO ex_env b0) as r2 eqn:R2. destruct r2 as [g|]; [|destruct H].
  remember (file_write FO ex_env (append_seg FO g KText ex_text)) as r3 eqn:R3. destruct r3 as [[f' bytes]|]; [|destruct H].
  exists f0, f1, b0, g, f', bytes, ex_text, (str "hello").
  split; [rewrite F0; apply linked_new|]. symmetry in R1, R2, R3.
  split; [exact R1|]. split; [exact R2|]. split; [exact R3|]. split; [vm_compute; reflexivity|]. split; [reflexivity|exact H].
Qed.
End Ex.

Print Assumptions C28_every_segment.
Print Assumptions C28_in_order.
Print Assumptions C28_once.
Print Assumptions C28_by_iid1.
Print Assumptions C28_single.
Print Assumptions C28_by_idlvl.
Print Assumptions C25_header_describes_file.
Print Assumptions C25_appended_refuted.
Print Assumptions C27_leaves_segments.
