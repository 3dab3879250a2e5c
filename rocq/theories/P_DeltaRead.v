(** Deltas of files that were read (C50). *)
From Verif Require Import Base BaseLemmas Engine Wf EngineLemmas Codec RoundTrip Rewrite Literal
  Positions Keys Deps Assign Update Spec Reach Decimal DescsHdr Utf8 Handles Tre TreLemmas P_RoundTrip P_Fields P_Tre
  TrePlace TrePlaceLemmas Security Image File FileRead P_Skip P_FileKeep P_FileRead FileAgain P_FileAgain
  Copy P_Copy Diff P_Diff FileDiff P_FileDiff P_FileDiffRead Delta P_Delta.
From Coq Require Import ZifyBool ZifyNat ZifyN.
Open Scope list_scope.
Ltac Zify.zify_post_hook ::= idtac.

(** A table whose values come back from their text: no floating point numbers, and no text that
    may be left empty. *)
Definition text_exact (rows : list row) : bool :=
  forallb (fun f => match fd_ty (f_d f) with TFloat => false | TStr => negb (fd_optional (f_d f)) | _ => true end) (fs_fields (mk_fs rows)).
Definition exact_table (rows : list row) : Prop := good_table rows /\ text_exact rows = true.

Section P.
Variable FO : FloatOps.
Notation st := (state FO).
Notation hdr := (hdr FO).
Notation tre := (tre FO).
Notation seg := (seg FO).
Notation sdata := (sdata FO).
Notation nfile := (nfile FO).
Hypothesis laws : FloatLaws FO.

Lemma exact_lasting rows (s : st) : text_exact rows = true -> lasting FO rows s.
Proof.
  intros H nm f L k v _ _. unfold text_exact in H. rewrite forallb_forall in H. specialize (H f (lookup_in _ _ _ L)). split.
  - intros sz x t y T. rewrite T in H. discriminate H.
  - intros t T O. rewrite T, O in H. discriminate H.
Qed.
Lemma read_sound rows (s : st) inp rest : exact_table rows -> read FO (mk_fs rows) false (init_state FO) inp = Ok (s, rest) -> sound FO rows s.
Proof.
  intros ((W & G) & X) R. split; [exact W|]. split; [|split; [exact (exact_lasting rows s X)|exact (read_legible FO rows _ s inp rest W G R)]].
  unfold text_exact in X. rewrite forallb_forall in X. split; [|split].
  - intros f sz Hf T. specialize (X f Hf). rewrite T in X. discriminate X.
  - exact (no_literals_read FO rows _ _ _ _ (no_literals_init FO rows) R).
  - intros f k t Hf T O. specialize (X f Hf). rewrite T, O in X. discriminate X.
Qed.
Lemma headers_exact : text_exact desc_NitfFileHeader = true /\ forall k, text_exact (sub_rows k) = true.
Proof. split; [vm_compute; reflexivity|]. intros []; vm_compute; reflexivity. Qed.
Lemma read_hdr_sound rows (s : st) file p q : exact_table rows -> read_at FO rows file p = Ok (s, q) -> hdr_sound FO rows {| h_st := s; h_attr := [] |}.
Proof.
  intros X R. unfold read_at in R. apply bind_ok_elim in R as ((s' & rest) & R & Y). injection Y as -> _.
  destruct (read_sound rows s _ rest X R) as (_ & (_ & N & _) & A & B). split; [exact (no_literals_ok _ _ _ N)|]. split; [exact A|exact B].
Qed.

Variable CO : CmpOps FO.
Variable fp : dtype -> dtype -> item -> item -> bool.
Variable C : fcfg FO.
Variable E : File.env.
Hypothesis HC : plain_cfg FO CO fp C.
Hypothesis HE : compared_classes FO C E.

(** The classes the file is read with have exact tables. *)
Definition exact_classes : Prop :=
  (forall c, In c (e_reg E) -> exact_table (tc_rows c) /\ plain_tag (tc_tag c))
  /\ (forall t u, In (t, u) (e_des E) \/ In (t, u) (e_res E) -> exact_table (uc_rows u))
  /\ forall lv c, In lv (e_levels E) -> In (HFields c) lv -> exact_table (dc_rows c).
Hypothesis HX : exact_classes.

Lemma rec_sound inp t rest : rec_read FO (e_reg E) inp = Ok (t, rest) -> tre_sound FO t.
Proof.
  intro R. assert (U : forall t rest, unk_read FO inp = Ok (t, rest) -> tre_sound FO t).
  { intros t0 r0 U. unfold unk_read in U. apply bind_ok_elim in U as ((tag & i1) & _ & U). apply bind_ok_elim in U as ((cel & i2) & _ & U).
    destruct (fread cel i2). injection U as <- <-. exact I. }
  unfold rec_read in R.
  destruct (reg_find (e_reg E) (firstn 6 inp)) as [c|] eqn:F.
  2: { destruct (unk_read FO inp) as [x|] eqn:EU; [injection R as ->; exact (U _ _ eq_refl)|].
       destruct (utf8_dec (firstn 6 inp)); discriminate R. }
  destruct (obj_read FO c inp) as [x|] eqn:EO; [|destruct (utf8_dec (firstn 6 inp)); [exact (U _ _ R)|discriminate R]].
  injection R as ->. unfold obj_read in EO. apply bind_ok_elim in EO as ((tag & i1) & _ & EO). destruct (negb _); [discriminate|].
  apply bind_ok_elim in EO as ((cel & i2) & _ & EO). apply bind_ok_elim in EO as ((s & i3) & RS & EO). destruct (_ =? _)%Z; [|discriminate].
  injection EO as <- <-. assert (Ic : In c (e_reg E)) by (unfold reg_find in F; apply find_some in F as (I & _); now apply in_rev).
  destruct (proj1 HX c Ic) as (Xc & Tc). split; [exact Tc|exact (read_sound _ _ _ _ Xc RS)].
Qed.
Lemma stream_sound : forall n inp ts, stream_read FO n (e_reg E) inp = Ok ts -> Forall (tre_sound FO) ts.
Proof.
  induction n as [|n IH]; intros inp ts R; cbn [stream_read] in R; [discriminate|].
  destruct inp as [|x inp]; [injection R as <-; constructor|]. destruct (_ <? 6)%nat; [discriminate|].
  apply bind_ok_elim in R as ((t & rest) & R1 & R). apply bind_ok_elim in R as (ts' & R2 & R). injection R as <-.
  constructor; [exact (rec_sound _ _ _ R1)|exact (IH _ _ R2)].
Qed.
Lemma areas_sound rows h des : forall areas ts, read_areas FO rows (e_reg E) h des areas = Ok ts -> Forall (tre_sound FO) ts.
Proof.
  assert (S : forall b ts, read_tre_data FO (e_reg E) b = Ok ts -> Forall (tre_sound FO) ts) by (intros b ts R; exact (stream_sound _ _ _ R)).
  induction areas as [|a areas IH]; intros ts R; cbn [read_areas] in R; [injection R as <-; constructor|].
  apply bind_ok_elim in R as (n & _ & R). apply bind_ok_elim in R as (t0 & R0 & R). apply bind_ok_elim in R as (t' & R' & R). injection R as <-.
  apply Forall_app. split; [|exact (IH _ R')]. destruct (n >? 0)%Z; [|injection R0 as <-; constructor].
  apply bind_ok_elim in R0 as (i & _ & R0). apply bind_ok_elim in R0 as (t1 & R1 & R0). apply bind_ok_elim in R0 as (v & _ & R0).
  apply bind_ok_elim in R0 as (t2 & R2 & R0). injection R0 as <-. apply Forall_app. split.
  - destruct (i >? 0)%Z; [|injection R1 as <-; constructor]. apply bind_ok_elim in R1 as (d & _ & R1). exact (S _ _ R1).
  - destruct v; try discriminate R2. exact (S _ _ R2).
Qed.

(** What reading gives: a segment that is sound, and an image that can be looked at. *)
Definition read_ok (k : kind) (s : seg) : Prop :=
  seg_sound FO C k s
  /\ (k = KImage -> forall b, s_data FO s = DFile FO b -> fc_numpy FO C = true -> exists r, np_read FO (s_hdr FO s) b 0 = Ok r).

Lemma handled_sound k (h : hdr) sz file p d q :
  handle_levels handler nat sdata (handle_h FO k h sz file) (e_levels E) p = Ok (d, q) ->
  data_sound FO d /\ (k = KText -> forall c x e, d <> DFields FO c x e).
Proof.
  intro L. destruct (levels_declined _ _ _ (declined_pos FO k h sz file) _ _ _ _ L) as (l1 & lv & l2 & hd & EL & Hhd & HD & _).
  assert (CC := proj1 (proj2 (proj2 HE)) lv hd). rewrite EL in CC. specialize (CC ltac:(apply in_or_app; right; now left) Hhd).
  unfold handle_h in HD. destruct (negb (for_kind hd k)) eqn:FK; [discriminate|].
  destruct hd; cbn [compared_class] in CC; try contradiction; cbn [for_kind] in FK.
  - destruct k; try discriminate FK. apply bind_ok_elim in HD as (v & V & HD). apply bind_ok_elim in HD as (e & Ee & HD).
    destruct e; [|discriminate]. split; [|discriminate]. revert HD. cbn [negb].
    destruct (take_at sz file p). intro HD. injection HD as <- _. exact I.
  - destruct k; try discriminate FK. apply bind_ok_elim in HD as (v & V & HD). apply bind_ok_elim in HD as (e & Ee & HD).
    destruct e; [|discriminate]. cbn [negb] in HD. apply bind_ok_elim in HD as ((s & r) & RS & HD).
    split; [|discriminate]. assert (X : exists x, d = DFields FO c s x).
    { cbv zeta in HD. destruct ((sz - (Z.of_nat r - Z.of_nat p)) =? 0)%Z; [injection HD as <- _; eauto|]. destruct (negb (dc_after c)); [discriminate|].
      destruct (dc_copy c); [destruct (take_at (sz - (Z.of_nat r - Z.of_nat p)) file r); injection HD as <- _; eauto|].
      apply bind_ok_elim in HD as (z & _ & HD). injection HD as <- _. eauto. }
    destruct X as (x & ->). cbn [data_sound]. unfold read_at in RS. apply bind_ok_elim in RS as ((s' & rest) & RS & Y). injection Y as -> _.
    apply (read_sound _ _ _ _) with (2 := RS). apply (proj2 (proj2 HX) lv c); [|exact Hhd]. rewrite EL. apply in_or_app. right. now left.
  - destruct (take_at sz file p). injection HD as <- _. split; [exact I|]. intros _ c x e X. discriminate X.
  - destruct k; try discriminate FK. apply bind_ok_elim in HD as (r & R & HD). destruct r as [(m & p')|]; [|discriminate].
    injection HD as <- _. split; [exact I|discriminate].
  - destruct k; try discriminate FK. apply bind_ok_elim in HD as (r & R & HD). injection HD as <- _. split; [exact I|discriminate].
  - apply bind_ok_elim in HD as (r & R & HD). injection HD as <- _. split; [exact I|]. intros _ c x e X. discriminate X.
Qed.

Lemma seg_read_sound k sz file p s q : seg_read FO E k sz file p = Ok (s, q) -> read_ok k s.
Proof.
  intro R0. destruct (seg_ready FO CO fp C E (proj1 HC) HE k sz file p s q R0) as ((_ & UE & DE) & _). revert R0.
  unfold seg_read. intro R. apply bind_ok_elim in R as ((st0 & p1) & RS & R). apply bind_ok_elim in R as (c & Ec & R).
  apply bind_ok_elim in R as (u & U & R). apply bind_ok_elim in R as ((d & p2) & L & R). injection R as <- _.
  cbn [s_hdr s_ush s_data s_tres] in UE, DE. destruct (handled_sound _ _ _ _ _ _ _ L) as (DS & DT). split; [split; [|split; [|split; [|split; [|split]]]]|].
  - cbn [s_hdr]. apply (read_hdr_sound _ _ file p p1); [|exact RS]. split; [exact (proj2 good_headers k)|exact (proj2 headers_exact k)].
  - cbn [s_ush]. destruct c as [c|]; [|injection U as <-; exact I]. apply bind_ok_elim in U as (v & V & U). apply bind_ok_elim in U as (b & B & U).
    apply bind_ok_elim in U as ((s & rest) & RU & U). injection U as <-. cbn [ush_sound us_cls us_st].
    assert (IC : exists t, In (t, c) (e_des E) \/ In (t, c) (e_res E)).
    { assert (RG : forall l v, reg_get FO l v = Some c -> exists t, In (t, c) l).
      { intros l v0 X. destruct v0; try discriminate X. cbn [reg_get] in X. destruct (find _ l) as [(t & c')|] eqn:F; [|discriminate].
        injection X as ->. apply find_some in F as (F & _). eauto. }
      unfold ush_cls in Ec. destruct k; try discriminate Ec; apply bind_ok_elim in Ec as (w & _ & Ec); injection Ec as Ec;
        destruct (RG _ _ Ec) as (t & I); exists t; auto. }
    destruct IC as (t & IC). exact (read_sound _ _ _ _ (proj1 (proj2 HX) t c IC) RU).
  - cbn [s_ush]. intros u0 ->. cbn [ush_equal] in UE. destruct UE as (_ & cf & Ef & _). congruence.
  - constructor.
  - exact DS.
  - exact DT.
  - cbn [s_hdr s_data]. intros -> b -> NP. destruct DE as [(X & _)|[X|X]]; [discriminate X|discriminate X|]. cbn [data_equal] in X.
    destruct X as (_ & X). destruct (X NP) as (_ & _ & r & Rr & _). eauto.
Qed.
Lemma segs_read_sound k file : forall szs p l q, segs_read FO E k szs file p = Ok (l, q) -> Forall (read_ok k) l.
Proof.
  induction szs as [|sz szs IH]; intros p l q R; cbn [segs_read] in R; [injection R as <- _; constructor|].
  apply bind_ok_elim in R as ((s & p1) & R1 & R). apply bind_ok_elim in R as ((r & p2) & R2 & R). injection R as <- _.
  constructor; [exact (seg_read_sound _ _ _ _ _ _ R1)|exact (IH _ _ _ R2)].
Qed.
Lemma with_sound k dd : forall l l', map_res (with_tres FO E k dd) l = Ok l' -> Forall (read_ok k) l -> Forall (read_ok k) l'.
Proof.
  induction l as [|s l IH]; intros l' M F; cbn [map_res] in M; [injection M as <-; constructor|].
  apply bind_ok_elim in M as (s' & S & M). apply bind_ok_elim in M as (r & R & M). injection M as <-. inversion_clear F as [|? ? H F'].
  constructor; [|exact (IH _ R F')]. unfold with_tres in S. destruct (has_tres k); [|injection S as <-; exact H].
  apply bind_ok_elim in S as (ts & T & S). injection S as <-. destruct H as ((A1 & A2 & A3 & _ & A5 & A6) & B).
  split; [|exact B]. split; [exact A1|]. split; [exact A2|]. split; [exact A3|]. cbn [s_tres s_data]. split; [exact (areas_sound _ _ _ _ _ T)|]. split; [exact A5|exact A6].
Qed.

(** The data of two segments known by the same names: kept in the delta, or the same. *)
Definition same_data (k : kind) (s s2 : seg) : Prop :=
  match k, s_data FO s, s_data FO s2 with
  | KText, _, _ | KDes, DFields _ _ _ _, _ | KDes, DHole _ _, DHole _ _ => True
  | KImage, DFile _ b1, DFile _ b2 => b1 = b2
  | _, _, _ => False
  end.
(** What is asked of the file the delta is merged with. *)
Definition fits_data (f1 f2 : nfile) : Prop :=
  (nf_tres FO f1 = [] -> nf_tres FO f2 = [])
  /\ (forall k, k <> KGraphic -> k <> KRes -> (nf_segs FO f1 k = [] -> nf_segs FO f2 k = [])
        /\ forall s s2, In s (nf_segs FO f1 k) -> In s2 (nf_segs FO f2 k) -> same_id FO k s s2 -> same_data k s s2)
  /\ forall k, k = KGraphic \/ k = KRes -> Forall2 (seg_equal FO CO fp C k) (nf_segs FO f1 k) (nf_segs FO f2 k).

(** Whatever the fields, TREs, texts and DESs of the other file are: a file that was read is the
    same as the merger of its delta with a file that has the same image data. *)
Theorem C50_read_partial bytes f1 f2 d d' g : file_read FO E bytes = Ok f1 ->
  (forall s, In s (nf_segs FO f1 KDes) -> ~ P_FileDiff.des_id FO (s_hdr FO s) (str "TRE_OVERFLOW")) -> fits_data f1 f2 ->
  create_delta FO f1 = Ok d -> load_delta FO d = Ok d' -> merge_delta FO d' f2 = Ok g -> file_same FO CO fp C f1 g = Ok true.
Proof.
  intros R NO (F1 & F2 & F3) D L M.
  assert (S : file_sound FO C f1 /\ forall k, Forall (read_ok k) (nf_segs FO f1 k)).
  { clear D L M F1 F2 F3. unfold file_read in R. apply bind_ok_elim in R as ((st0 & p0) & RH & R).
    apply bind_ok_elim in R as (fl & _ & R). apply bind_ok_elim in R as (str0 & _ & R). destruct str0; [discriminate R|].
    apply bind_ok_elim in R as (zi & _ & R). apply bind_ok_elim in R as (zg & _ & R). apply bind_ok_elim in R as (zt & _ & R).
    apply bind_ok_elim in R as (zd & _ & R). apply bind_ok_elim in R as (zr & _ & R).
    apply bind_ok_elim in R as ((im & p1) & R1 & R). apply bind_ok_elim in R as ((gr & p2) & R2 & R).
    apply bind_ok_elim in R as ((tx & p3) & R3 & R). apply bind_ok_elim in R as ((de & p4) & R4 & R).
    apply bind_ok_elim in R as ((rs & p5) & R5 & R). apply bind_ok_elim in R as (ts & TS & R).
    apply bind_ok_elim in R as (im' & M1 & R). apply bind_ok_elim in R as (gr' & M2 & R). apply bind_ok_elim in R as (tx' & M3 & R).
    injection R as <-. cbn [nf_segs] in NO.
    assert (F : forall k, Forall (read_ok k) (match k with KImage => im' | KGraphic => gr' | KText => tx' | KDes => de | KRes => rs end)).
    { intros [].
      - exact (with_sound _ _ _ _ M1 (segs_read_sound _ _ _ _ _ _ R1)).
      - exact (with_sound _ _ _ _ M2 (segs_read_sound _ _ _ _ _ _ R2)).
      - exact (with_sound _ _ _ _ M3 (segs_read_sound _ _ _ _ _ _ R3)).
      - exact (segs_read_sound _ _ _ _ _ _ R4).
      - exact (segs_read_sound _ _ _ _ _ _ R5). }
    split; [|exact F]. split; [|split; [|split]].
    - cbn [nf_hdr]. apply (read_hdr_sound _ _ bytes 0 p0); [|exact RH]. split; [exact (proj1 good_headers)|exact (proj1 headers_exact)].
    - cbn [nf_tres]. exact (areas_sound _ _ _ _ _ TS).
    - intros k _ _. cbn [nf_segs]. eapply Forall_impl; [|exact (F k)]. intros s H. exact (proj1 H).
    - exact NO. }
  destruct S as (S & RO). apply (C50_same_partial FO laws CO fp C HC f1 f2 d d' g S); auto.
  split; [exact F1|]. split; [|exact F3]. intros k N1 N2. split; [exact (proj1 (F2 k N1 N2))|]. specialize (RO k). rewrite Forall_forall in RO |- *.
  intros s Hs s2 Hs2 HI. assert (SD := proj2 (F2 k N1 N2) s s2 Hs Hs2 HI). destruct (RO s Hs) as (_ & NP). unfold data_match. unfold same_data in SD.
  destruct k; try contradiction; auto. destruct (s_data FO s) as [| | |b1| |] eqn:E1; try contradiction. destruct (s_data FO s2) as [| | |b2| |]; try contradiction.
  split; [exact SD|]. exact (NP eq_refl b1 eq_refl).
Qed.
End P.
