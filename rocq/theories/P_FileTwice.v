(** C27: writing a file any number of times. *)
From Verif Require Import Base BaseLemmas Engine Wf EngineLemmas Codec RoundTrip Rewrite Literal
  Positions Keys Deps Assign Update Ext Spec DescsHdr Utf8 Handles Tre TreLemmas
  TrePlace TrePlaceLemmas PrepTwice Scalar Security Image ImageLemmas P_Image File FileLemmas P_TrePlace P_File P_FileKeep FileTwice.
From Coq Require Import ZifyBool ZifyNat ZifyN.
Open Scope list_scope.
Ltac Zify.zify_post_hook ::= idtac.

Section P.
Variable FO : FloatOps.
Notation st := (state FO).
Notation hdr := (hdr FO).
Notation seg := (seg FO).

(** Image data is given to image segments only. *)
Definition images_placed (f : nfile FO) : Prop := forall k, Forall (image_placed FO k) (nf_segs FO f k).

Lemma placed_same_data k l l' : Forall2 (same_but_header FO) l l' -> Forall (image_placed FO k) l -> Forall (image_placed FO k) l'.
Proof.
  induction 1 as [|s s' l l' (_ & _ & H & _) _ IH]; intro HF; [constructor|]. inversion_clear HF as [|? ? F1 F2].
  constructor; [|exact (IH F2)]. unfold image_placed. rewrite H. exact F1.
Qed.
Lemma ov_placed l : Forall (fun s => exists o, ov_is FO o s) l -> Forall (image_placed FO KDes) l.
Proof.
  intro H. eapply Forall_impl; [|exact H]. intros s (o & _ & _ & _ & _ & Ho & _). unfold image_placed. now rewrite Ho.
Qed.

(** The second write, and what makes it possible to go on. *)
Lemma write_again E f f' bytes : linked FO f -> settled_file FO f -> images_placed f -> file_write FO E f = Ok (f', bytes) ->
  settled_file FO f' /\ images_placed f' /\ linked FO f' /\ exists f2, file_write FO E f' = Ok (f2, bytes).
Proof.
  intros HL HS HI HW. destruct (C27_leaves_segments FO E f f' bytes HL HW) as (_ & K & KD & L').
  destruct (file_write_ok FO E f f' bytes HL HW) as (h1 & g & g' & ps & hb & W).
  destruct (prepare_file_again FO E f f' bytes h1 g g' ps hb W HS) as (S1 & S2 & des0 & ov & h2 & g2 & D0 & G0 & PA).
  assert (W' := W). destruct W' as [WP WA WHd WB WAt WC WS WHl WFl _ WT WSg WD _ _ WCk WI].
  destruct (prepared_linked FO f h1 g HL WP) as (GL & des0' & ov' & D0' & G0' & OV).
  rewrite D0 in D0'. injection D0' as <-. rewrite G0 in G0'. apply app_inv_head in G0'. subst ov'.
  (* the DES segments *)
  assert (WDes := WA KDes). rewrite G0 in WDes.
  destruct (wrote_all_app FO _ _ _ _ _ WDes) as (dl & ov' & pa & pb & E1 & E2 & WDa & WDb).
  destruct (drop_overflow_kept FO _ _ D0) as (DI & K0). assert (KA := wrote_all_desid FO _ _ _ _ WDa K0).
  assert (KB : Forall (fun s => is_overflow FO (s_hdr FO s) = Ok true) ov').
  { apply (wrote_all_desid FO _ _ _ _ WDb). eapply Forall_impl; [|exact OV]. intros s (o' & _ & Ho & _). exact Ho. }
  assert (ED : nf_segs FO f' KDes = dl).
  { destruct WD as (ov2' & W1 & W2 & W3). assert (X := drop_overflow_split FO _ _ KA KB). assert (Y := drop_overflow_split FO _ _ W2 W3).
    rewrite <- E1 in X. rewrite <- W1, X in Y. now injection Y. }
  assert (LD : List.length dl = List.length des0) by (clear - WDa; induction WDa; cbn; congruence).
  assert (DD : drop_overflow FO dl = Ok dl) by (rewrite <- (app_nil_r dl) at 1; apply drop_overflow_split; [exact KA|constructor]).
  destruct (PA dl LD ED DD) as (PF & X2 & G2 & G2D). clear PA.
  (* images *)
  assert (I0 : Forall (image_placed FO KDes) des0).
  { apply Forall_forall. intros s Hs. assert (X := HI KDes). rewrite Forall_forall in X. exact (X s (DI s Hs)). }
  assert (GI : forall k, Forall (image_placed FO k) (g k)).
  { destruct WP as (d0 & h0 & o & ov0 & ov1 & ov2 & ov3 & Q0 & PFi & O0 & P1 & P2 & P3 & G1 & GR & _).
    intros [| | | |].
    - exact (placed_same_data KImage _ _ (prepped_same FO _ _ _ _ _ _ P1) (HI KImage)).
    - exact (placed_same_data KGraphic _ _ (prepped_same FO _ _ _ _ _ _ P2) (HI KGraphic)).
    - exact (placed_same_data KText _ _ (prepped_same FO _ _ _ _ _ _ P3) (HI KText)).
    - rewrite G0. apply Forall_app. split; [exact I0|exact (ov_placed ov OV)].
    - rewrite GR. exact (HI KRes). }
  assert (IF : images_placed f').
  { intro k. destruct (kind_eqb k KDes) eqn:EK.
    - assert (k = KDes) by (destruct k; (reflexivity || discriminate)). subst k. rewrite ED.
      exact (placed_same_data KDes _ _ (wrote_same FO KDes _ _ _ WDa) I0).
    - assert (Hk : k <> KDes) by (intros ->; discriminate). exact (placed_same_data k _ _ (K k Hk) (HI k)). }
  split.
  { split; [exact S1|]. intros k Hk. rewrite (WSg k) by (intros ->; discriminate). exact (S2 k Hk). }
  split; [exact IF|]. split; [exact L'|].
  (* what is to be written *)
  assert (RD : forall k, redo_all FO E k (g' k) (ps k) (g2 k)).
  { intro k. destruct (kind_eqb k KDes) eqn:EK.
    - assert (k = KDes) by (destruct k; (reflexivity || discriminate)). subst k. rewrite G2D, E1, E2.
      assert (C0 := WCk KDes). rewrite G0 in C0. apply Forall_app in C0 as [C1 C2].
      assert (L0 := GL KDes). rewrite G0 in L0. apply Forall_app in L0 as [L1 L2].
      apply redo_app.
      + apply (redo_all_eq FO E KDes des0); try assumption. clear. induction dl; constructor; [apply eqseg_refl|assumption].
      + apply (redo_all_same FO E KDes ov); try assumption. exact (ov_placed ov OV).
    - assert (Hk : k <> KDes) by (intros ->; discriminate).
      apply (redo_all_eq FO E k (g k)); [apply WA|apply WCk|apply GI|apply GL|exact (G2 k Hk)]. }
  assert (LG : forall k, List.length (g2 k) = List.length (g k)).
  { intro k. rewrite (redo_len FO _ _ _ _ _ (RD k)). generalize (WA k). generalize (g k) (g' k) (ps k).
    clear. induction 1; cbn; congruence. }
  set (H := h_st (nf_hdr FO f')) in *. set (n := fun k => List.length (g k)) in *.
  assert (WR : write FO hfs (h_st h2) = Ok hb) by (rewrite (eq_write FO hrows _ _ (proj1 X2)); exact WHd).
  assert (WF : exists s1, write_file FO hfs (h_st h2) [] = Ok (s1, hb) /\ eqst FO hrows s1 H /\ in_file FO hfs s1 [] hb []).
  { unfold write in WR. apply bind_ok_elim in WR as (cs & Hcs & WR). injection WR as WR.
    assert (WX : write_file FO hfs (h_st h2) [] = Ok (record_locs FO (h_st h2) (Z.of_nat (List.length (@nil N))) cs, hb)).
    { unfold write_file. rewrite Hcs. cbn [bind]. rewrite <- WR. reflexivity. }
    eexists. split; [exact WX|]. destruct (record_locs_val FO cs (h_st h2) (Z.of_nat (List.length (@nil N)))) as (V & _ & VI). split.
    - eapply eqst_trans; [|exact (proj1 X2)]. split; [exact VI|]. intros y p _. unfold stored. now rewrite V.
    - assert (HF := write_file_in_file FO hrows _ _ _ _ [] WX). rewrite app_nil_r in HF. exact HF. }
  destruct WF as (s1 & WF & Q1 & F1).
  destruct (total_patch FO s1 H hb [] "hl" _ (or_introl eq_refl) Q1 WI WHl F1) as (s2 & U1 & Q2 & F2).
  assert (LE : forall k, (0 + List.length (g2 k) <= n k)%nat) by (intro k; rewrite LG; apply le_n).
  destruct (segs_write_again FO E n KImage _ _ _ H (RD KImage) WC WI 0 s2 hb [] (LE KImage) (WS KImage) Q2 F2) as (t1 & s3 & V1 & T1 & Q3 & F3).
  destruct (segs_write_again FO E n KGraphic _ _ _ H (RD KGraphic) WC WI 0 s3 _ _ (LE KGraphic) (WS KGraphic) Q3 F3) as (t2 & s4 & V2 & T2 & Q4 & F4).
  destruct (segs_write_again FO E n KText _ _ _ H (RD KText) WC WI 0 s4 _ _ (LE KText) (WS KText) Q4 F4) as (t3 & s5 & V3 & T3 & Q5 & F5).
  destruct (segs_write_again FO E n KDes _ _ _ H (RD KDes) WC WI 0 s5 _ _ (LE KDes) (WS KDes) Q5 F5) as (t4 & s6 & V4 & T4 & Q6 & F6).
  destruct (segs_write_again FO E n KRes _ _ _ H (RD KRes) WC WI 0 s6 _ _ (LE KRes) (WS KRes) Q6 F6) as (t5 & s7 & V5 & T5 & Q7 & F7).
  assert (BY : ((((hb ++ flat (ps KImage)) ++ flat (ps KGraphic)) ++ flat (ps KText)) ++ flat (ps KDes)) ++ flat (ps KRes) = bytes).
  { rewrite WB. cbn [flat_map kinds app]. rewrite app_nil_r, <- !app_assoc. reflexivity. }
  rewrite BY in *.
  destruct (total_patch FO s7 H bytes _ "fl" _ (or_intror eq_refl) Q7 WI WFl F7) as (s8 & U2 & Q8 & F8).
  assert (DO : exists de, drop_overflow FO t4 = Ok de).
  { rewrite E1 in T4. apply Forall2_app_inv_r in T4 as (ta & tb & TA & TB & ->). exists ta. apply drop_overflow_split.
    - revert KA. clear - TA. induction TA as [|a b l m (HE & _) _ IH]; intro KA; [constructor|]. inversion_clear KA as [|? ? A1 A2].
      constructor; [|exact (IH A2)]. rewrite <- A1. apply is_overflow_same. exact (proj2 (proj1 HE) _ _ desid_in).
    - revert KB. clear - TB. induction TB as [|a b l m (HE & _) _ IH]; intro KB; [constructor|]. inversion_clear KB as [|? ? A1 A2].
      constructor; [|exact (IH A2)]. rewrite <- A1. apply is_overflow_same. exact (proj2 (proj1 HE) _ _ desid_in). }
  destruct DO as (de & DO).
  eexists. unfold file_write. rewrite PF. cbn [bind]. rewrite WF. cbn [bind]. rewrite U1. rewrite V1. cbn [bind]. rewrite V2. cbn [bind].
  rewrite V3. cbn [bind]. rewrite V4. cbn [bind]. rewrite V5. cbn [bind]. rewrite U2. rewrite DO. cbn [bind]. reflexivity.
Qed.

(** [n] times in a row, with the contents written each time. *)
Fixpoint write_times (E : env) (n : nat) (f : nfile FO) : res (nfile FO * list (list N)) :=
  match n with
  | O => Ok (f, [])
  | S n' => do (f1, b) <- file_write FO E f; do (f2, bs) <- write_times E n' f1; Ok (f2, b :: bs)
  end.

(** A linked file whose TRE areas hold no forgotten overflow number ([settled]): once it has been
    written, it can be written again and again, and every time the same bytes come out. *)
Theorem C27_repeat E f f' bytes : linked FO f -> settled_file FO f -> images_placed f -> file_write FO E f = Ok (f', bytes) ->
  forall n, exists f2, write_times E n f' = Ok (f2, repeat bytes n).
Proof.
  intros HL HS HI HW n. revert f f' HL HS HI HW. induction n as [|n IH]; intros f f' HL HS HI HW.
  - exists f'. reflexivity.
  - destruct (write_again E f f' bytes HL HS HI HW) as (S1 & I1 & L1 & f2 & W2).
    destruct (IH f' f2 L1 S1 I1 W2) as (f3 & W3). exists f3. cbn [write_times]. rewrite W2. cbn [bind]. rewrite W3. reflexivity.
Qed.

(** Headers never touched are settled. *)
Lemma settled_new k : settled FO (sub_rows k) (sub_areas k) (new_hdr FO).
Proof.
  split; [reflexivity|]. intros a Ha. exists 0%Z.
  destruct k; cbn [sub_areas] in Ha; repeat (destruct Ha as [<-|Ha]; [split; [vm_compute; reflexivity|]; split; [lia|]; intros _ y Hy; vm_compute in Hy; ((injection Hy as <-; vm_compute; reflexivity) || discriminate)|]); destruct Ha.
Qed.
Lemma settled_new_file : settled FO desc_NitfFileHeader file_areas (new_hdr FO).
Proof.
  split; [reflexivity|]. intros a Ha. exists 0%Z.
  cbn in Ha; repeat (destruct Ha as [<-|Ha]; [split; [vm_compute; reflexivity|]; split; [lia|]; intros _ y Hy; vm_compute in Hy; ((injection Hy as <-; vm_compute; reflexivity) || discriminate)|]); destruct Ha.
Qed.

(** Files are built by appending. *)
Lemma settled_append f k s : settled_file FO f -> (has_tres k = true -> seg_settled FO k s) -> settled_file FO (append_seg FO f k s).
Proof.
  intros (H1 & H2) HK. split; [exact H1|]. intros k' Hk'. unfold append_seg, put_segs. cbn [nf_segs].
  destruct (kind_eqb k k') eqn:E; [|exact (H2 k' Hk')].
  assert (k = k') by (destruct k, k'; (reflexivity || discriminate)). subst k'.
  apply Forall_app. split; [exact (H2 k Hk')|]. constructor; [|constructor]. destruct (nf_refs FO f k); exact (HK Hk').
Qed.
Lemma images_append f k s : images_placed f -> image_placed FO k s -> images_placed (append_seg FO f k s).
Proof.
  intros H HK k'. unfold append_seg, put_segs. cbn [nf_segs]. destruct (kind_eqb k k') eqn:E; [|apply H].
  assert (k = k') by (destruct k, k'; (reflexivity || discriminate)). subst k'.
  apply Forall_app. split; [apply H|]. constructor; [|constructor]. destruct (nf_refs FO f k); exact HK.
Qed.

(** Setting other fields leaves a header settled. *)
Lemma settled_else rows areas areas' names (h h' : hdr) : areas_ok rows areas' -> Forall2 (twin rows) areas areas' ->
  apartb (flat_map area_names areas) names = true -> st_impl FO (h_st h') = st_impl FO (h_st h) ->
  same_else FO rows names h h' -> settled FO rows areas h -> settled FO rows areas h'.
Proof.
  intros (Hwf & HA & ND) HT AP HI SE (S1 & S2). split; [congruence|].
  assert (X : forall y p a nm, In a areas -> In nm (area_names a) -> lookup (mk_fs rows) nm = Some y -> stored FO (h_st h') y p = stored FO (h_st h) y p).
  { intros y p a nm Ha Hn Ly. apply SE; [exact (lookup_in _ _ _ Ly)|]. intros nm' q Hn' Lq. apply (lookup_ne rows _ _ _ _ Ly Lq). intros ->.
    apply (apart_in _ _ nm' AP); [|exact Hn']. apply in_flat_map. eauto. }
  intros a Ha. destruct (S2 a Ha) as (n & N1 & N2 & N3). exists n.
  rewrite (lens_same FO rows areas areas' HT HA (h_st h) (h_st h') X a Ha). split; [exact N1|]. split; [exact N2|].
  intros Hn y Hy. rewrite (X y [] a (ta_ofl a) Ha ltac:(cbn; tauto) Hy). exact (N3 Hn y Hy).
Qed.

(** ** Examples *)

Ltac settle := lazymatch goal with |- settled _ _ _ _ => split; [vm_compute; reflexivity|]; let a := fresh in let Ha := fresh in intros a Ha; exists 0%Z;
  cbn in Ha; repeat (destruct Ha as [<-|Ha]; [split; [vm_compute; reflexivity|]; split; [lia|];
    let y := fresh in let Hy := fresh in intros _ y Hy; vm_compute in Hy; ((injection Hy as <-; vm_compute; reflexivity) || discriminate)|]); destruct Ha end.
Lemma settled_ex_hdr m d a b c : settled FO (sub_rows KImage) (sub_areas KImage) (ex_hdr FO m d a b c) -> seg_settled FO KImage (ex_seg FO (ex_hdr FO m d a b c) (DImage FO m (ex_supplier m)) [ex_wide FO; ex_wide FO; ex_wide FO]).
Proof. exact (fun H => H). Qed.
Lemma ex_hdr_settled : settled FO desc_NitfImageSubheader image_areas (ex_hdr FO GAll U2 2 3 12).
Proof. settle. Qed.
Lemma ex_new_settled : settled FO desc_NitfFileHeader file_areas (nf_hdr FO (fst (new_file FO (sec_default FO)))).
Proof. settle. Qed.
Lemma new_no_segs sec k : nf_segs FO (fst (new_file FO sec)) k = [].
Proof. unfold new_file. destruct (set_security FO desc_NitfFileHeader (new_hdr FO) "fs" sec). reflexivity. Qed.
Example ex_c27_settled : settled_file FO (ex_file FO) /\ images_placed (ex_file FO).
Proof.
  unfold ex_file. split.
  - do 2 (apply settled_append; [|discriminate]). apply settled_append; [|intros _; exact (settled_new KText)].
    apply settled_append; [|intros _; exact (settled_ex_hdr GAll U2 2 3 12 ex_hdr_settled)].
    split; [exact ex_new_settled|]. intros k _. rewrite new_no_segs. apply Forall_nil.
  - do 3 (apply images_append; [|exact I]). apply images_append; [|reflexivity]. intro k. rewrite new_no_segs. apply Forall_nil.
Qed.
Example ex_c27_written : match file_write FO ex_env (ex_file FO) with
  | Ok (f', b) => exists f2, write_times ex_env 5 f' = Ok (f2, [b; b; b; b; b]) | Err _ => False end.
Proof.
  pose proof (ex_c25 FO) as X. destruct (file_write FO ex_env (ex_file FO)) as [[f' b]|e] eqn:E; [|exact X]. clear X.
  exact (C27_repeat ex_env _ f' b (ex_c25_linked FO) (proj1 ex_c27_settled) (proj2 ex_c27_settled) E 5%nat).
Qed.

(** ** Without [settled] *)

(** An image whose extended subheader had data and an overflow number, which was then removed by
    assigning no data.  The TRE it is given is written with the old overflow number; the second
    write clears it, since now the area has content (nitf_tre.py:210-211). *)
Definition stale_image : seg :=
  let rows := desc_NitfImageSubheader in
  let h0 := ex_hdr FO GAll U2 2 3 1 in
  let h1 := fst (hset FO rows (fst (hset FO rows (fst (hset FO rows h0 "ixshd" (VBytes (str "x")))) "ixofl" (VInt 1))) "ixshd" (VBytes [])) in
  ex_seg FO h1 (DBytes FO (Some (repeat 7%N 12))) [TUnk (str "ABCDEF") (str "xy")].
Definition stale_file : nfile FO := append_seg FO (fst (new_file FO (sec_default FO))) KImage stale_image.
Lemma stale_run : match file_write FO ex_env stale_file with
  | Ok (f1, b1) => match file_write FO ex_env f1 with Ok (f2, b2) => list_eqb b1 b2 = false | Err _ => False end
  | Err _ => False end.
Proof. vm_compute. reflexivity. Qed.
Theorem C27_repeat_refuted : exists f f1 b1 f2 b2, linked FO f /\ images_placed f
  /\ file_write FO ex_env f = Ok (f1, b1) /\ file_write FO ex_env f1 = Ok (f2, b2) /\ b1 <> b2.
Proof.
  pose proof stale_run as H. assert (HL : linked FO stale_file) by (apply linked_append; [apply linked_new|vm_compute; reflexivity]).
  assert (HI : images_placed stale_file) by (apply images_append; [intro k; rewrite new_no_segs; apply Forall_nil|exact I]).
  remember stale_file as f eqn:F0. clear F0.
  remember (file_write FO ex_env f) as r1 eqn:R1. destruct r1 as [[f1 b1]|]; [|destruct H].
  remember (file_write FO ex_env f1) as r2 eqn:R2. destruct r2 as [[f2 b2]|]; [|destruct H].
  exists f, f1, b1, f2, b2. symmetry in R1, R2. repeat (split; [assumption|]). intros ->.
  rewrite (proj2 (list_eqb_spec b2 b2) eq_refl) in H. discriminate.
Qed.
End P.

Print Assumptions C27_repeat.
Print Assumptions C27_repeat_refuted.
