(** Delta files (C50): what the merged file shows, and when it compares the same as the file the
    delta was made of. *)
From Verif Require Import Base BaseLemmas Engine Wf EngineLemmas Codec RoundTrip Rewrite Literal
  Positions Keys Deps Assign Update Spec Reach Decimal DescsHdr Utf8 Handles Tre TreLemmas P_RoundTrip P_Fields P_Tre
  TrePlace TrePlaceLemmas Security Image File FileRead P_FileKeep P_FileRead FileAgain P_FileAgain
  Copy P_Copy Diff P_Diff FileDiff P_FileDiff P_FileDiffRead Delta.
From Coq Require Import ZifyBool ZifyNat ZifyN.
Open Scope list_scope.
Ltac Zify.zify_post_hook ::= idtac.

Section P.
Variable FO : FloatOps.
Notation st := (state FO).
Notation hdr := (hdr FO).
Notation tre := (tre FO).
Notation seg := (seg FO).
Notation sdata := (sdata FO).
Notation nfile := (nfile FO).
Hypothesis laws : FloatLaws FO.
Notation rd := (P_Diff.readable FO).

(** ** Copies *)

(** Values that come back from their text unchanged: numbers that are what their printed text
    says, and no optional text that looks like a field left empty. *)
Definition lasting_at (rows : list row) (s : st) (nm : string) (f : field) : Prop :=
  forall k v, valid_index FO (mk_fs rows) s f k -> get FO (mk_fs rows) s nm k = Ok v ->
    (forall sz x t y, fd_ty (f_d f) = TFloat -> size_is FO (mk_fs rows) s f k sz -> v = VFloat x ->
       fl_fmt FO (float_spec (f_d f) sz) x = Some t -> fl_parse FO t = Some y -> y = x)
    /\ (forall t, fd_ty (f_d f) = TStr -> fd_optional (f_d f) = true -> v = VStr t -> fill_only (f_d f) t = false).
Definition lasting (rows : list row) (s : st) : Prop :=
  forall nm f, lookup (mk_fs rows) nm = Some f -> lasting_at rows s nm f.

Definition all_readable (rows : list row) (s : st) : Prop :=
  forall nm f, lookup (mk_fs rows) nm = Some f -> rd (mk_fs rows) s f.

Lemma key_len rows (s : st) f ks k : field_keys FO (mk_fs rows) s f = Ok ks -> In k ks -> key_shape_ok f k = true.
Proof.
  unfold field_keys, key_shape_ok, depth. intros K H. destruct (f_loops f) as [|e l]; [|reflexivity].
  cbn [keys_from] in K. injection K as <-. destruct H as [<-|[]]. reflexivity.
Qed.
Lemma deepcopy_inv rows (s s' : st) : deepcopy FO (mk_fs rows) s = Ok s' ->
  exists b rest, write FO (mk_fs rows) s = Ok b /\ read FO (mk_fs rows) false (init_state FO) b = Ok (s', rest).
Proof.
  unfold deepcopy. intro H. apply bind_ok_elim in H as (b & W & H). apply bind_ok_elim in H as ((s1 & r) & R & X). injection X as <-. eauto.
Qed.

Lemma reread_shown rows (s s' : st) b rest rest' nm f : wf_rows rows = true -> literals_ok FO (mk_fs rows) s -> lasting_at rows s nm f ->
  write FO (mk_fs rows) s = Ok b -> read FO (mk_fs rows) false (init_state FO) (b ++ rest) = Ok (s', rest') ->
  lookup (mk_fs rows) nm = Some f -> rd (mk_fs rows) s f -> same_shown FO (mk_fs rows) s s' f.
Proof.
  intros Hwf HL HA HW HR L (ks & K & V).
  destruct (round_trip_counts FO laws rows s false HL (init_state FO) b rest Hwf HW) as (s1 & R1 & C).
  rewrite HR in R1. injection R1 as <- _.
  destruct (C01_round_trip FO rows s (init_state FO) false b rest laws Hwf HL HW) as (s1 & R2 & _ & H).
  rewrite HR in R2. injection R2 as <- _.
  split; [apply C; exact (lookup_in _ _ _ L)|]. intros ks' k K' Hk. rewrite K in K'. injection K' as <-.
  destruct (V k Hk) as (v & E). assert (KS := key_len rows s f ks k K Hk).
  assert (HV : valid_index FO (mk_fs rows) s f k) by now apply (valid_key FO (mk_fs rows) s f ks k K).
  assert (Eg : get FO (mk_fs rows) s nm k = Ok v) by (unfold get; now rewrite L, KS).
  destruct (H nm f k v L HV Eg) as (v' & sz & E' & D).
  unfold get in E'. rewrite L, KS in E'. rewrite E, E'. f_equal.
  destruct D as [->|(Sz & Sv)]; [reflexivity|]. destruct (HA k v HV Eg) as (A1 & A2).
  destruct Sv as [->|[(x & t & y & T & -> & F & P & ->)|(t & T & O & -> & F & ->)]]; [reflexivity| |].
  - now rewrite (A1 sz x t y T Sz eq_refl F P).
  - rewrite (A2 t T O eq_refl) in F. discriminate.
Qed.
Lemma copy_shown rows (s s' : st) nm f : wf_rows rows = true -> literals_ok FO (mk_fs rows) s -> lasting_at rows s nm f ->
  deepcopy FO (mk_fs rows) s = Ok s' -> lookup (mk_fs rows) nm = Some f -> rd (mk_fs rows) s f -> same_shown FO (mk_fs rows) s s' f.
Proof.
  intros Hwf HL HA HD. destruct (deepcopy_inv rows s s' HD) as (b & rest & W & R). rewrite <- (app_nil_r b) in R.
  exact (reread_shown rows s s' b [] rest nm f Hwf HL HA W R).
Qed.
Lemma copy_readable rows (s s' : st) : good_table rows -> deepcopy FO (mk_fs rows) s = Ok s' -> all_readable rows s'.
Proof.
  intros (W & G) HD. destruct (deepcopy_inv rows s s' HD) as (b & rest & _ & R). intros nm f L.
  exact (read_legible FO rows _ s' b rest W G R nm f L).
Qed.
Lemma copy_no_lit rows (s s' : st) : deepcopy FO (mk_fs rows) s = Ok s' -> no_literals FO (mk_fs rows) s'.
Proof.
  intro HD. destruct (deepcopy_inv rows s s' HD) as (b & rest & _ & R).
  exact (no_literals_read FO rows _ _ _ _ (no_literals_init FO rows) R).
Qed.
(** Copying the copy again makes no difference. *)
Lemma copy_copy rows (s s' s2 : st) : wf_rows rows = true -> rewritable FO rows s ->
  deepcopy FO (mk_fs rows) s = Ok s' -> deepcopy FO (mk_fs rows) s' = Ok s2 -> s2 = s'.
Proof.
  intros Hwf HR D1 D2. destruct (deepcopy_inv rows s s' D1) as (b & rest & W & R).
  assert (W' : write FO (mk_fs rows) s' = Ok b).
  { rewrite <- (app_nil_r b) in R. exact (reread_write FO laws rows s s' b [] rest Hwf W R HR). }
  unfold deepcopy in D2. rewrite W' in D2. cbn [bind] in D2. rewrite R in D2. cbn [bind fst] in D2. now injection D2.
Qed.

Lemma counts_trans fs (s1 s2 s3 : st) : forall shs lead, RoundTrip.same_counts FO fs s1 s2 lead shs -> RoundTrip.same_counts FO fs s2 s3 lead shs ->
  RoundTrip.same_counts FO fs s1 s3 lead shs.
Proof.
  induction shs as [|e shs IH]; intros lead H1 H2; [exact I|]. destruct H1 as (n & A1 & A2 & A). destruct H2 as (m & B1 & B2 & B).
  rewrite A2 in B1. injection B1 as <-. exists n. split; [exact A1|]. split; [exact B2|]. intros i Hi. exact (IH _ (A i Hi) (B i Hi)).
Qed.
Lemma shown_trans fs (s1 s2 s3 : st) f : same_shown FO fs s1 s2 f -> same_shown FO fs s2 s3 f -> same_shown FO fs s1 s3 f.
Proof.
  intros (A1 & A2) (B1 & B2). split; [exact (counts_trans fs s1 s2 s3 _ _ A1 B1)|]. intros ks k K Hk. rewrite (A2 ks k K Hk).
  apply (B2 ks k); [|exact Hk]. unfold field_keys in *. now rewrite <- (keys_counts FO fs s1 s2 _ _ A1).
Qed.
Lemma shown_readable fs (s1 s2 : st) f : same_shown FO fs s1 s2 f -> rd fs s1 f -> rd fs s2 f.
Proof.
  intros (A1 & A2) (ks & K & V). exists ks. split; [unfold field_keys in *; now rewrite <- (keys_counts FO fs s1 s2 _ _ A1)|].
  intros k Hk. rewrite <- (A2 ks k K Hk). now apply V.
Qed.

(** ** Structures of classes *)

(** Everything of [s] can be read, and [s'] shows the same. *)
Definition shows_same (rows : list row) (s s' : st) : Prop :=
  forall nm f, lookup (mk_fs rows) nm = Some f -> rd (mk_fs rows) s f /\ rd (mk_fs rows) s' f /\ same_shown FO (mk_fs rows) s s' f.

(** What is asked of a structure that goes into a delta: every field can be read, and values come
    back from their text unchanged. *)
Definition sound (rows : list row) (s : st) : Prop :=
  wf_rows rows = true /\ rewritable FO rows s /\ lasting rows s /\ all_readable rows s.
Definition tre_sound (t : tre) : Prop :=
  match t with TObj c s => plain_tag (tc_tag c) /\ sound (tc_rows c) s | TUnk _ _ => True end.

Lemma sound_reread rows (s s' : st) b rest rest' : sound rows s -> write FO (mk_fs rows) s = Ok b ->
  read FO (mk_fs rows) false (init_state FO) (b ++ rest) = Ok (s', rest') ->
  shows_same rows s s' /\ write FO (mk_fs rows) s' = Ok b /\ read FO (mk_fs rows) false (init_state FO) b = Ok (s', []).
Proof.
  intros (W & R & A & V) HW HR. split; [|split].
  - intros nm f L. assert (S : same_shown FO (mk_fs rows) s s' f).
    { apply (reread_shown rows s s' b rest rest' nm f W); auto; [apply no_literals_ok; exact (proj1 (proj2 R))|now apply (V nm)]. }
    split; [now apply (V nm)|]. split; [|exact S]. apply (shown_readable _ s s' f S). now apply (V nm).
  - exact (reread_write FO laws rows s s' b rest rest' W HW HR R).
  - destruct (C01_round_trip FO rows s (init_state FO) false b [] laws W (no_literals_ok _ _ _ (proj1 (proj2 R))) HW) as (s1 & R1 & _).
    assert (R2 := read_ext FO (mk_fs rows) false (init_state FO) (b ++ []) s1 [] rest R1). rewrite app_nil_r in R1, R2. cbn [app] in R2.
    rewrite HR in R2. injection R2 as <- _. exact R1.
Qed.

Lemma tre_delta (t t1 t2 : tre) : tre_sound t -> copy_tre FO t = Ok t1 -> load_tre FO t1 = Ok t2 ->
  exists c s s', t = TObj c s /\ t2 = TObj c s' /\ shows_same (tc_rows c) s s'.
Proof.
  intros HS H1 H2. unfold copy_tre in H1. apply bind_ok_elim in H1 as (b & W & H1). apply bind_ok_elim in H1 as ((t1' & r) & R & X).
  injection X as <-. destruct t as [c s|tag body].
  - destruct HS as (HT & HS). destruct (tre_write_record FO (TObj c s) b HT W) as (body & Eb & HR). cbn [tre_tag tre_body] in Eb, HR.
    rewrite <- (app_nil_r b) in R. destruct (obj_read_bad FO c b (tc_tag c) body [] _ HT HR R) as (_ & s' & F & X). injection X as -> _.
    cbn [fst load_tre] in H2. unfold fields_of in F. rewrite <- (app_nil_r body) in F.
    destruct (sound_reread (tc_rows c) s s' body [] [] HS Eb F) as (S & W' & R').
    unfold copy_tre in H2. rewrite (tre_write_eq FO (TObj c s') (TObj c s) eq_refl) in H2 by (cbn [tre_body]; congruence).
    rewrite W in H2. cbn [bind] in H2. rewrite <- (app_nil_r b) in H2. rewrite (obj_read_record FO c b body [] HT HR s' R') in H2.
    cbn [bind fst] in H2. injection H2 as <-. eauto 6.
  - exfalso. unfold unk_read in R. apply bind_ok_elim in R as ((tg & i1) & _ & R). apply bind_ok_elim in R as ((cel & i2) & _ & R).
    destruct (fread cel i2). injection R as <- _. discriminate H2.
Qed.
Definition ush_sound (o : option (ush FO)) : Prop :=
  match o with None => True | Some u => sound (uc_rows (us_cls FO u)) (us_st FO u) end.
Lemma sound_copy rows (s s' s2 : st) : sound rows s -> deepcopy FO (mk_fs rows) s = Ok s' -> deepcopy FO (mk_fs rows) s' = Ok s2 ->
  shows_same rows s s2.
Proof.
  intros HS D1 D2. destruct (deepcopy_inv rows s s' D1) as (b & rest & W & R). rewrite <- (app_nil_r b) in R.
  destruct (sound_reread rows s s' b [] rest HS W R) as (S & W' & R'). unfold deepcopy in D2. rewrite W' in D2. cbn [bind] in D2.
  rewrite R' in D2. cbn [bind fst] in D2. injection D2 as <-. exact S.
Qed.
Lemma ush_delta (o o1 o2 : option (ush FO)) : ush_sound o -> copy_ush FO o = Ok o1 -> copy_ush FO o1 = Ok o2 ->
  match o, o2 with
  | None, None => True
  | Some u, Some u2 => us_cls FO u2 = us_cls FO u /\ shows_same (uc_rows (us_cls FO u)) (us_st FO u) (us_st FO u2)
  | _, _ => False
  end.
Proof.
  intros HS H1 H2. destruct o as [u|]; cbn [copy_ush] in H1; [|injection H1 as <-; cbn in H2; now injection H2 as <-].
  apply bind_ok_elim in H1 as (s1 & D1 & X). injection X as <-. cbn [copy_ush us_cls us_st] in H2.
  apply bind_ok_elim in H2 as (s2 & D2 & X). injection X as <-. cbn [us_cls us_st]. split; [reflexivity|].
  exact (sound_copy _ _ _ _ HS D1 D2).
Qed.

(** Data a delta may hold: text, or a DES of fields with nothing after the fields. *)
Definition data_sound (d : sdata) : Prop := match d with DFields _ c s x => sound (dc_rows c) s | _ => True end.
Lemma data_delta (d d1 d2 : sdata) : data_sound d -> copy_data FO d = Ok d1 -> copy_data FO d1 = Ok d2 ->
  (exists t, text_of FO d t /\ d2 = DStr FO t)
  \/ exists c s x s', d = DFields FO c s x /\ d2 = DFields FO c s' None /\ shows_same (dc_rows c) s s'.
Proof.
  intros HS H1 H2. destruct d as [o|t|c s x|b|m f|n]; cbn [copy_data] in H1; try discriminate H1.
  - left. destruct o as [b|]; [|discriminate H1]. destruct (utf8_dec b) as [t|] eqn:U; [|discriminate H1]. injection H1 as <-.
    cbn [copy_data] in H2. injection H2 as <-. exists t. split; [right; eauto|reflexivity].
  - left. injection H1 as <-. cbn [copy_data] in H2. injection H2 as <-. exists t. split; [now left|reflexivity].
  - right. apply bind_ok_elim in H1 as (b & W & H1). apply bind_ok_elim in H1 as ((s1 & r) & R & X). injection X as <-.
    destruct (sound_reread (dc_rows c) s s1 b _ r HS W R) as (S & W' & R').
    cbn [copy_data fst] in H2. rewrite W' in H2. cbn [bind] in H2. rewrite app_nil_r, R' in H2. cbn [bind fst] in H2. injection H2 as <-.
    eauto 8.
Qed.

(** ** Headers *)

(** No field outside [names] looks at one of them. *)
Definition isolatedb (rows : list row) (names : list string) : bool :=
  forallb (fun f => match fd_name (f_d f) with Some nm => existsb (String.eqb nm) names | None => false end
                    || forallb (fun r => negb (existsb (String.eqb (fst r)) names)) (own_refs f ++ flat_map expr_refs (f_loops f)))
    (fs_fields (mk_fs rows)).
Lemma last_in {A} (l : list A) : forall x, In (last l x) (x :: l).
Proof.
  intro x. destruct l as [|a l]; [now left|]. right. destruct (exists_last (l := a :: l) ltac:(discriminate)) as (m & z & ->).
  rewrite last_last. apply in_or_app. right. now left.
Qed.
Lemma shape_refs_in f r : In r (shape_refs f) -> In r (flat_map expr_refs (f_loops f)).
Proof.
  unfold shape_refs. destruct (f_loops f) as [|e l]; [intros []|]. intro H. apply in_flat_map. exists (last l e). split; [apply last_in|exact H].
Qed.

Section Frame.
Variables (rows : list row) (names : list string).
Hypothesis ISO : isolatedb rows names = true.
Let fs := mk_fs rows.
Let unaffected (y : field) : Prop := In y (fs_fields fs) /\ forall nm, In nm names -> fd_name (f_d y) <> Some nm.

Lemma iso_refs y r y' : unaffected y -> In r (own_refs y ++ flat_map expr_refs (f_loops y)) -> lookup fs (fst r) = Some y' -> unaffected y'.
Proof.
  intros (Hy & HN) Hr L. unfold isolatedb in ISO. rewrite forallb_forall in ISO. specialize (ISO y Hy). apply orb_true_iff in ISO as [E|E].
  - exfalso. destruct (fd_name (f_d y)) as [nm|] eqn:N; [|discriminate E]. apply existsb_exists in E as (x & Hx & E). apply String.eqb_eq in E.
    subst x. now apply (HN nm Hx).
  - split; [exact (lookup_in _ _ _ L)|]. intros nm Hnm N. rewrite (lookup_name _ _ _ L) in N. injection N as N.
    rewrite forallb_forall in E. specialize (E r Hr). apply negb_true_iff in E.
    assert (T : existsb (String.eqb (fst r)) names = true) by (apply existsb_exists; exists nm; split; [exact Hnm|rewrite N; apply String.eqb_refl]).
    congruence.
Qed.
Variables s t : st.
Hypothesis HS : forall y p, unaffected y -> stored FO s y p = stored FO t y p.
Lemma iso_getf n : forall y p, unaffected y -> getf FO n fs s y p = getf FO n fs t y p.
Proof.
  induction n as [|n IH]; intros y p Hy; auto.
  change (get_pub FO (getf FO n fs s) fs s y p = get_pub FO (getf FO n fs t) fs t y p).
  apply get_pub_ext; auto. intros r f Hr HL k. apply IH. apply (iso_refs y r f Hy); [|exact HL].
  unfold field_refs in Hr. apply in_or_app. apply in_app_or in Hr as [Hr|Hr]; [now left|right; now apply shape_refs_in].
Qed.
Lemma iso_obs y : unaffected y -> same_obs FO fs s t y.
Proof.
  intro Hy. split.
  - intro k. apply (iso_getf (S (fuel fs)) y k Hy).
  - intros lead e He. apply eval_shape_ext. intros r f Hr HL k. apply iso_getf. apply (iso_refs y r f Hy); [|exact HL].
    apply in_or_app. right. apply in_flat_map. eauto.
Qed.
End Frame.

Lemma blank_frame rows names : forall nms (h h' : hdr), forallb (withinb rows names) nms = true -> blank_areas FO rows nms h = Ok h' ->
  same_else FO rows names h h' /\ (no_literals FO (mk_fs rows) (h_st h) -> no_literals FO (mk_fs rows) (h_st h')).
Proof.
  induction nms as [|nm l IH]; intros h h' HW H; cbn [blank_areas] in H.
  - injection H as <-. split; [apply se_refl|auto].
  - cbn [forallb] in HW. apply andb_true_iff in HW as [W1 W2]. destruct (hset FO rows h nm (VBytes [])) as [h1 r] eqn:E.
    apply bind_ok_elim in H as (x & _ & H). destruct (IH h1 h' W2 H) as (A & B).
    split; [exact (se_trans FO rows names h h1 h' (hset_within FO rows names h h1 nm _ r W1 E) A)|].
    intro N. apply B. exact (hset_no_lit FO rows h h1 nm _ r N E).
Qed.

(** A header whose [names] may change. *)
Definition hdr_sound (rows : list row) (h : hdr) : Prop :=
  literals_ok FO (mk_fs rows) (h_st h) /\ lasting rows (h_st h) /\ all_readable rows (h_st h).
Lemma lasting_shown rows (s s' : st) nm f : lookup (mk_fs rows) nm = Some f -> fd_ty (f_d f) <> TFloat -> rd (mk_fs rows) s f ->
  same_shown FO (mk_fs rows) s s' f -> lasting_at rows s nm f -> lasting_at rows s' nm f.
Proof.
  intros L T R S A k v HV Hg. split; [intros; contradiction|]. intros t Tt O E. subst v.
  assert (R' := shown_readable _ _ _ _ S R). destruct R as (ks & K & V). destruct S as (S1 & S2). destruct R' as (ks' & K' & V').
  assert (ks' = ks) by (unfold field_keys in K, K'; rewrite (keys_counts FO _ s s' _ _ S1) in K; congruence). subst ks'.
  assert (Hk : In k ks) by now apply (valid_key FO _ s' f ks k K').
  assert (HV0 : valid_index FO (mk_fs rows) s f k) by now apply (valid_key FO _ s f ks k K).
  destruct (A k (VStr t) HV0) as (_ & B); [|now apply (B t)].
  unfold get in *. rewrite L in *. rewrite (key_len rows s f ks k K Hk) in *. rewrite (S2 ks k K Hk). exact Hg.
Qed.
Lemma header_delta rows names nms (h h1 h2 h3 : hdr) : good_table rows -> plain_fields rows = true ->
  isolatedb rows names = true -> forallb (withinb rows names) nms = true -> hdr_sound rows h ->
  copy_hdr FO rows h = Ok h1 -> blank_areas FO rows nms h1 = Ok h2 -> copy_hdr FO rows h2 = Ok h3 ->
  all_readable rows (h_st h3)
  /\ forall nm f, lookup (mk_fs rows) nm = Some f -> ~ In nm names -> same_shown FO (mk_fs rows) (h_st h) (h_st h3) f.
Proof.
  intros HG HP ISO HW (HL & HA & HR) C1 B C2. unfold copy_hdr in C1, C2.
  apply bind_ok_elim in C1 as (s1 & D1 & X). injection X as <-. apply bind_ok_elim in C2 as (s3 & D3 & X). injection X as <-. cbn [h_st].
  split; [exact (copy_readable rows _ _ HG D3)|]. intros nm f L Nn.
  destruct (blank_frame rows names nms _ h2 HW B) as (SE & NL). cbn [h_st] in NL. specialize (NL (copy_no_lit rows _ _ D1)).
  assert (R1 := copy_readable rows _ _ HG D1 nm f L).
  assert (S1 : same_shown FO (mk_fs rows) (h_st h) s1 f) by exact (copy_shown rows (h_st h) s1 nm f (proj1 HG) HL (HA nm f L) D1 L (HR nm f L)).
  assert (S2 : same_shown FO (mk_fs rows) s1 (h_st h2) f).
  { apply same_obs_shown; [exact R1|]. apply (iso_obs rows names ISO s1 (h_st h2)).
    - intros y p (Hy & Hn). symmetry. apply (SE y p Hy). intros nm' f' Hn' L' ->. apply (Hn nm' Hn'). exact (lookup_name _ _ _ L').
    - split; [exact (lookup_in _ _ _ L)|]. intros nm' Hn' E. rewrite (lookup_name _ _ _ L) in E. injection E as ->. contradiction. }
  assert (S12 := shown_trans _ _ _ _ _ S1 S2).
  apply (shown_trans _ _ (h_st h2) _ _ S12).
  apply (copy_shown rows (h_st h2) s3 nm f (proj1 HG) (no_literals_ok _ _ _ NL)); [|exact D3|exact L|exact (shown_readable _ _ _ _ S2 R1)].
  apply (lasting_shown rows (h_st h) (h_st h2) nm f L); [|exact (HR nm f L)|exact S12|exact (HA nm f L)].
  unfold plain_fields in HP. rewrite forallb_forall in HP. specialize (HP f (lookup_in _ _ _ L)). intro T. rewrite T in HP. discriminate HP.
Qed.

(** ** Segments *)

(** What a segment is known by: fields of its subheader, and for a DES the [id] or [des_id1] of its
    user subheader. *)
Definition id_names (k : kind) : list string :=
  match k with KImage => ["iid1"; "idlvl"] | KGraphic => ["sid"] | KText => ["textid"] | KDes => ["desid"] | KRes => [] end%string.
Definition ush_id (s : seg) : res (pyval FO) :=
  match s_ush FO s with
  | None => Ok VNone
  | Some u => let rows := uc_rows (us_cls FO u) in
              match lookup (mk_fs rows) "id", lookup (mk_fs rows) "des_id1" with
              | Some _, _ => get FO (mk_fs rows) (us_st FO u) "id" []
              | None, Some _ => get FO (mk_fs rows) (us_st FO u) "des_id1" []
              | None, None => Ok VNone
              end
  end.
Definition same_id (k : kind) (s s2 : seg) : Prop :=
  (forall nm, In nm (id_names k) -> exists v, hget FO (sub_rows k) (s_hdr FO s) nm = Ok v /\ hget FO (sub_rows k) (s_hdr FO s2) nm = Ok v)
  /\ (k = KDes -> exists v, ush_id s = Ok v /\ ush_id s2 = Ok v).

Definition no_bool (v : pyval FO) : Prop := match v with VBool _ => False | _ => True end.
Lemma get_no_bool rows (s : st) nm k v : get FO (mk_fs rows) s nm k = Ok v -> no_bool v.
Proof.
  unfold get. destruct (lookup (mk_fs rows) nm) as [f|] eqn:L; [|discriminate]. destruct (key_shape_ok f k); [|discriminate]. intro E.
  assert (HN : fd_name (f_d f) <> None) by (rewrite (lookup_name _ _ _ L); discriminate).
  assert (DF : nonfloat f \/ ~ nonfloat f).
  { unfold nonfloat. destruct (fd_ty (f_d f)) as [ | | | |kd]; try (left; split; discriminate); [right; intros (A & _); now apply A|].
    destruct kd; try (left; split; discriminate). right. intros (_ & A). now apply A. }
  destruct DF as [N|N]; [pose proof (fget_plain FO _ _ _ _ _ N E) as P|pose proof (floaty FO _ _ _ _ _ N HN E) as P];
    destruct v; cbn in P |- *; auto.
Qed.
Lemma eqb_same (a b : pyval FO) : no_bool a -> no_bool b -> py_eqb FO a b = Ok true -> a = b.
Proof.
  destruct a, b; cbn; intros Ha Hb E; try contradiction; try discriminate E; try reflexivity; injection E as E.
  - apply Z.eqb_eq in E. now subst.
  - apply list_eqb_spec in E. now subst.
  - apply list_eqb_spec in E. now subst.
Qed.
Lemma eqb_refl (a b : pyval FO) r : py_eqb FO a b = Ok r -> a = b -> r = true.
Proof.
  intros E <-. destruct a; cbn in E; try discriminate E; injection E as <-; auto; try apply Z.eqb_refl; try now apply list_eqb_spec.
Qed.
Lemma hget_no_bool k (h : hdr) nm v : In nm (id_names k) -> hget FO (sub_rows k) h nm = Ok v -> no_bool v.
Proof.
  intros Hn. unfold hget. destruct (lookup (mk_fs (sub_rows k)) nm) as [f|] eqn:L; [apply get_no_bool|].
  exfalso. destruct k; cbn [id_names In] in Hn; intuition (subst; vm_compute in L; discriminate L).
Qed.
Lemma ush_id_no_bool (s : seg) v : ush_id s = Ok v -> no_bool v.
Proof.
  unfold ush_id. destruct (s_ush FO s) as [u|]; [|intro X; injection X as <-; exact I].
  destruct (lookup (mk_fs (uc_rows (us_cls FO u))) "id"); [apply get_no_bool|].
  destruct (lookup (mk_fs (uc_rows (us_cls FO u))) "des_id1"); [apply get_no_bool|intro X; injection X as <-; exact I].
Qed.

Lemma hole_key (s : seg) (r : res (option (list (pyval FO)))) a :
  match s_data FO s with DHole _ _ => Ok None | _ => r end = Ok (Some a) -> r = Ok (Some a).
Proof. destruct (s_data FO s); intro H; first [exact H|discriminate H]. Qed.
Lemma key_same k (s s2 : seg) a b : seg_key FO k s = Ok (Some a) -> seg_key FO k s2 = Ok (Some b) -> keys_eqb FO b a = Ok true -> same_id k s s2.
Proof.
  assert (U : forall t : seg, match s_ush FO t with Some u => ush_key FO u | None => Ok VNone end = ush_id t)
    by (intro t; unfold ush_id, ush_key; destruct (s_ush FO t); reflexivity).
  assert (One : forall nm x y, In nm (id_names k) -> hget FO (sub_rows k) (s_hdr FO s) nm = Ok x -> hget FO (sub_rows k) (s_hdr FO s2) nm = Ok y ->
            py_eqb FO y x = Ok true -> exists v, hget FO (sub_rows k) (s_hdr FO s) nm = Ok v /\ hget FO (sub_rows k) (s_hdr FO s2) nm = Ok v).
  { intros nm x y Hn Hx Hy E. exists x. split; [exact Hx|]. rewrite Hy. f_equal.
    exact (eqb_same y x (hget_no_bool k _ nm y Hn Hy) (hget_no_bool k _ nm x Hn Hx) E). }
  intros Ka Kb E. unfold seg_key in Ka, Kb. destruct k.
  - apply (hole_key s) in Ka. apply (hole_key s2) in Kb.
    apply bind_ok_elim in Ka as (x1 & X1 & Ka). apply bind_ok_elim in Ka as (x2 & X2 & Ka). injection Ka as <-.
    apply bind_ok_elim in Kb as (y1 & Y1 & Kb). apply bind_ok_elim in Kb as (y2 & Y2 & Kb). injection Kb as <-.
    cbn [keys_eqb] in E. apply bind_ok_elim in E as (r1 & E1 & E). destruct r1; [|discriminate E].
    apply bind_ok_elim in E as (r2 & E2 & E). destruct r2; [|discriminate E].
    split; [|intro; discriminate]. intros nm Hn. cbn [id_names In] in Hn. destruct Hn as [<-|[<-|[]]].
    + exact (One _ x1 y1 (or_introl eq_refl) X1 Y1 E1).
    + exact (One _ x2 y2 (or_intror (or_introl eq_refl)) X2 Y2 E2).
  - apply (hole_key s) in Ka. apply (hole_key s2) in Kb.
    apply bind_ok_elim in Ka as (x1 & X1 & Ka). injection Ka as <-.
    apply bind_ok_elim in Kb as (y1 & Y1 & Kb). injection Kb as <-.
    cbn [keys_eqb] in E. apply bind_ok_elim in E as (r1 & E1 & E). destruct r1; [|discriminate E].
    split; [|intro; discriminate]. intros nm Hn. cbn [id_names In] in Hn. destruct Hn as [<-|[]].
    exact (One _ x1 y1 (or_introl eq_refl) X1 Y1 E1).
  - apply bind_ok_elim in Ka as (x1 & X1 & Ka). injection Ka as <-.
    apply bind_ok_elim in Kb as (y1 & Y1 & Kb). injection Kb as <-.
    cbn [keys_eqb] in E. apply bind_ok_elim in E as (r1 & E1 & E). destruct r1; [|discriminate E].
    split; [|intro; discriminate]. intros nm Hn. cbn [id_names In] in Hn. destruct Hn as [<-|[]].
    exact (One _ x1 y1 (or_introl eq_refl) X1 Y1 E1).
  - apply bind_ok_elim in Ka as (x1 & X1 & Ka). apply bind_ok_elim in Ka as (x2 & X2 & Ka). injection Ka as <-.
    apply bind_ok_elim in Kb as (y1 & Y1 & Kb). apply bind_ok_elim in Kb as (y2 & Y2 & Kb). injection Kb as <-.
    rewrite U in X2, Y2.
    cbn [keys_eqb] in E. apply bind_ok_elim in E as (r1 & E1 & E). destruct r1; [|discriminate E].
    apply bind_ok_elim in E as (r2 & E2 & E). destruct r2; [|discriminate E]. split.
    + intros nm Hn. cbn [id_names In] in Hn. destruct Hn as [<-|[]]. exact (One _ x1 y1 (or_introl eq_refl) X1 Y1 E1).
    + intros _. exists x2. split; [exact X2|]. rewrite Y2. f_equal. exact (eqb_same y2 x2 (ush_id_no_bool s2 y2 Y2) (ush_id_no_bool s x2 X2) E2).
  - discriminate Ka.
Qed.

Lemma with_key_in k key : forall l r s, with_key FO k key l = Ok r -> In s r ->
  In s l /\ exists b, seg_key FO k s = Ok (Some b) /\ keys_eqb FO b key = Ok true.
Proof.
  induction l as [|x l IH]; intros r s H Hs; cbn [with_key] in H; [injection H as <-; destruct Hs|].
  apply bind_ok_elim in H as (o & O & H). apply bind_ok_elim in H as (b & B & H). apply bind_ok_elim in H as (r' & R & H). injection H as <-.
  destruct b; [destruct Hs as [<-|Hs]|].
  - split; [now left|]. destruct o as [b|]; [eauto|discriminate B].
  - destruct (IH r' s R Hs) as (I & X). split; [now right|exact X].
  - destruct (IH r' s R Hs) as (I & X). split; [now right|exact X].
Qed.

(** ** Comparing the merged file *)

Section Cmp.
Variable CO : CmpOps FO.
Variable fp : dtype -> dtype -> item -> item -> bool.
Variable C : fcfg FO.

Definition area_fields_of (k : kind) : list string := flat_map area_names (sub_areas k).
Definition file_area_fields : list string := flat_map area_names file_areas.

(** Equal values are the same, nothing is left out but the fields that hold TREs. *)
Definition plain_cfg : Prop :=
  reflexive FO CO fp C /\ (forall t, fc_skip_tre FO C t = false) /\ (forall k s, fc_skip_seg FO C k s = false)
  /\ (forall nm, In nm file_area_fields -> ~ looked_at FO (fc_hdr FO C) nm)
  /\ forall k nm, k <> KGraphic -> In nm (area_fields_of k) -> ~ looked_at FO (fc_sub FO C k) nm.
Hypothesis HC : plain_cfg.

Lemma shows_equal c rows (s s' : st) : reflexive_config FO CO c -> shows_same rows s s' -> fields_equal FO CO c rows s s'.
Proof.
  intros Hc H. split; [intros nm f L; destruct (H nm f L) as (A & B & _); auto|]. split; [intros nm f L _; exact (proj2 (proj2 (H nm f L)))|].
  intros nm f k v L E. destruct (Hc nm) as (A & B). split; [intros g; apply A|]. intros x _. apply B.
Qed.

Definition seg_sound (k : kind) (s : seg) : Prop :=
  hdr_sound (sub_rows k) (s_hdr FO s) /\ ush_sound (s_ush FO s)
  /\ (forall u, s_ush FO s = Some u -> fc_ush FO C (uc_name (us_cls FO u)) <> None)
  /\ Forall tre_sound (s_tres FO s) /\ data_sound (s_data FO s) /\ (k = KText -> forall c x e, s_data FO s <> DFields FO c x e).

(** Where the delta has no data of its own, those of the base are the same and can be compared. *)
Definition data_match (k : kind) (s s2 : seg) : Prop :=
  match k, s_data FO s, s_data FO s2 with
  | KText, _, _ => True
  | KDes, DFields _ _ _ _, _ => True
  | KDes, DHole _ _, DHole _ _ => True
  | KImage, DFile _ b1, DFile _ b2 => b1 = b2 /\ (fc_numpy FO C = true -> exists r, np_read FO (s_hdr FO s) b1 0 = Ok r)
  | _, _, _ => False
  end.
Definition base_match (k : kind) (base : list seg) (s : seg) : Prop :=
  forall s2, In s2 base -> same_id k s s2 -> data_match k s s2.

Lemma sub_isolated k : k <> KGraphic -> isolatedb (sub_rows k) (area_fields_of k) = true.
Proof. intro N. destruct k; [|contradiction|..]; vm_compute; reflexivity. Qed.
Lemma sub_within k : k <> KGraphic -> forallb (withinb (sub_rows k) (area_fields_of k)) (tre_fields k) = true.
Proof. intro N. destruct k; [|contradiction|..]; vm_compute; reflexivity. Qed.
Lemma file_isolated : isolatedb desc_NitfFileHeader file_area_fields = true.
Proof. vm_compute. reflexivity. Qed.
Lemma file_within : forallb (withinb desc_NitfFileHeader file_area_fields) ["udhd"; "xhd"]%string = true.
Proof. vm_compute. reflexivity. Qed.
Lemma np_outside : forallb (fun nm => negb (existsb (String.eqb nm) (area_fields_of KImage))) np_names = true.
Proof. vm_compute. reflexivity. Qed.

Lemma header_equal rows names nms (h h1 h2 h3 : hdr) c : good_table rows -> plain_fields rows = true ->
  isolatedb rows names = true -> forallb (withinb rows names) nms = true -> hdr_sound rows h ->
  (forall nm, In nm names -> ~ looked_at FO c nm) -> reflexive_config FO CO c ->
  copy_hdr FO rows h = Ok h1 -> blank_areas FO rows nms h1 = Ok h2 -> copy_hdr FO rows h2 = Ok h3 ->
  fields_equal FO CO c rows (h_st h) (h_st h3).
Proof.
  intros HG HP ISO HW HS HN Hc C1 B C2. destruct (header_delta rows names nms h h1 h2 h3 HG HP ISO HW HS C1 B C2) as (R & S).
  split; [intros nm f L; split; [exact (proj2 (proj2 HS) nm f L)|exact (R nm f L)]|]. split.
  - intros nm f L Lk. apply (S nm f L). intro I. exact (HN nm I Lk).
  - intros nm f k v L E. destruct (Hc nm) as (A & D). split; [intros g; apply A|]. intros x _. apply D.
Qed.

Lemma left_all (l : list tre) : left_tres FO C l = l.
Proof.
  unfold left_tres. induction l as [|t l IH]; [reflexivity|]. cbn [filter]. rewrite (proj1 (proj2 HC) t). cbn [negb]. now f_equal.
Qed.
Lemma left_all_segs k (l : list seg) : left_segs FO C k l = l.
Proof.
  unfold left_segs. induction l as [|t l IH]; [reflexivity|]. cbn [filter]. rewrite (proj1 (proj2 (proj2 HC)) k t). cbn [negb]. now f_equal.
Qed.
Lemma tres_delta : forall ts ts1 ts2, Forall tre_sound ts -> map_res (copy_tre FO) ts = Ok ts1 -> map_res (load_tre FO) ts1 = Ok ts2 ->
  Forall2 (tre_equal FO CO C) ts ts2.
Proof.
  induction ts as [|t ts IH]; intros ts1 ts2 F M1 M2; cbn [map_res] in M1.
  - injection M1 as <-. cbn in M2. injection M2 as <-. constructor.
  - apply bind_ok_elim in M1 as (t1 & T1 & M1). apply bind_ok_elim in M1 as (r1 & R1 & M1). injection M1 as <-.
    cbn [map_res] in M2. apply bind_ok_elim in M2 as (t2 & T2 & M2). apply bind_ok_elim in M2 as (r2 & R2 & M2). injection M2 as <-.
    inversion_clear F as [|? ? H F']. constructor; [|exact (IH _ _ F' R1 R2)].
    destruct (tre_delta t t1 t2 H T1 T2) as (c & s & s' & -> & -> & S). cbn [tre_equal]. split; [reflexivity|].
    apply shows_equal; [|exact S]. apply (proj1 (proj2 (proj2 (proj2 (proj1 HC))))).
Qed.

Lemma merged_data k (g : dseg FO) base d : merge_data FO k g base = Ok d ->
  match g_data FO g with
  | Some x => d = x
  | None => exists key s2 b, g_key FO g = Some key /\ In s2 base /\ d = s_data FO s2 /\ seg_key FO k s2 = Ok (Some b) /\ keys_eqb FO b key = Ok true
  end.
Proof.
  unfold merge_data. destruct (g_data FO g) as [x|]; [intro H; now injection H|]. intro H.
  apply bind_ok_elim in H as (l & W & H). destruct l as [|s2 [|s3 l]]; try discriminate H. injection H as <-.
  destruct (g_key FO g) as [key|]; [|discriminate W]. destruct (with_key_in k key base [s2] s2 W (or_introl eq_refl)) as (I & b & B & E).
  exists key, s2, b. auto.
Qed.

Lemma np_shown (h h3 : hdr) : (forall nm f, lookup (mk_fs (sub_rows KImage)) nm = Some f -> ~ In nm (area_fields_of KImage) ->
    same_shown FO (mk_fs (sub_rows KImage)) (h_st h) (h_st h3) f) -> np_plan FO h = np_plan FO h3 /\ dims FO h = dims FO h3.
Proof.
  intro S. destruct (np_same FO h3 h); [|split; congruence]. intros nm Hn. pose proof np_plain as P. rewrite forallb_forall in P. specialize (P nm Hn).
  pose proof np_outside as O. rewrite forallb_forall in O. specialize (O nm Hn). apply negb_true_iff in O.
  unfold plain_name in P. unfold iget, hget. change (sub_rows KImage) with desc_NitfImageSubheader in S.
  destruct (lookup (mk_fs desc_NitfImageSubheader) nm) as [f|] eqn:L; [|discriminate P].
  unfold get. rewrite L. destruct (f_loops f) as [|e l] eqn:Sh; [|discriminate P]. unfold key_shape_ok, depth. rewrite Sh. cbn [List.length].
  destruct (S nm f L) as (_ & V).
  - intro I. assert (T : existsb (String.eqb nm) (area_fields_of KImage) = true) by (apply existsb_exists; exists nm; split; [exact I|apply String.eqb_refl]). congruence.
  - apply (V [[]] []); [|now left]. unfold field_keys. now rewrite Sh.
Qed.

Definition carries (k : kind) (s : seg) : bool :=
  match k with KText => true | KDes => match s_data FO s with DFields _ _ _ _ => true | _ => false end | _ => false end.
Lemma seg_delta_equal k (s : seg) g g' base s' : k <> KGraphic -> k <> KRes -> seg_sound k s -> base_match k base s ->
  seg_delta FO k (carries k s) s = Ok g -> load_seg FO k g = Ok g' -> merge_seg FO k base g' = Ok s' -> seg_equal FO CO fp C k s s'.
Proof.
  intros N1 N2 (HH & HU & HUC & HT & HD & HDT) HB D L M. right.
  unfold seg_delta in D. apply bind_ok_elim in D as (h1 & C1 & D). apply bind_ok_elim in D as (h2 & B & D).
  apply bind_ok_elim in D as (u1 & U1 & D). apply bind_ok_elim in D as (t1 & T1 & D). apply bind_ok_elim in D as (key & K & D).
  apply bind_ok_elim in D as (d1 & D1 & D). injection D as <-.
  unfold load_seg in L. cbn [g_hdr g_ush g_tres g_data g_key] in L.
  apply bind_ok_elim in L as (h3 & C3 & L). apply bind_ok_elim in L as (u2 & U2 & L). apply bind_ok_elim in L as (t2 & T2 & L).
  apply bind_ok_elim in L as (d2 & D2 & L). injection L as <-.
  unfold merge_seg in M. apply bind_ok_elim in M as (d & MD & M). injection M as <-. cbn [s_hdr s_ush s_tres s_data g_hdr g_ush g_tres].
  apply merged_data in MD. cbn [g_data g_key] in MD.
  split; [|split; [|split]].
  - apply (header_equal (sub_rows k) (area_fields_of k) (tre_fields k) (s_hdr FO s) h1 h2 h3); auto using sub_isolated, sub_within, sub_plain.
    + exact (proj2 good_headers k).
    + intros nm Hn. exact (proj2 (proj2 (proj2 (proj2 HC))) k nm N1 Hn).
    + apply (proj1 (proj2 (proj1 HC))).
  - assert (U := ush_delta _ _ _ HU U1 U2). unfold ush_equal. destruct (s_ush FO s) as [u|]; [|exact I]. destruct u2 as [u2|]; [|exact U].
    destruct U as (E & S). split; [now symmetry|]. destruct (fc_ush FO C (uc_name (us_cls FO u))) as [c|] eqn:Ec; [|now apply (HUC u eq_refl) in Ec].
    exists c. split; [reflexivity|]. apply shows_equal; [|exact S]. exact (proj1 (proj2 (proj2 (proj1 HC))) _ c Ec).
  - rewrite !left_all. exact (tres_delta _ _ _ HT T1 T2).
  - destruct (carries k s) eqn:EC.
    + apply bind_ok_elim in D1 as (x & X1 & D1). injection D1 as <-. apply bind_ok_elim in D2 as (y & Y & D2). injection D2 as <-.
      subst d. destruct (data_delta _ _ _ HD X1 Y) as [(t & Tt & ->)|(c & s0 & x0 & s1 & E & -> & S)].
      * destruct k; try discriminate EC; try contradiction.
        -- cbn [data_equal]. assert (X : exists t0, text_of FO (s_data FO s) t0 /\ text_of FO (DStr FO t) t0) by (exists t; split; [exact Tt|now left]).
           destruct (s_data FO s); exact X.
        -- exfalso. cbn [carries] in EC. destruct Tt as [E|(b & E & _)]; rewrite E in EC; discriminate EC.
      * destruct k; try discriminate EC; try contradiction; [exfalso; exact (HDT eq_refl _ _ _ E)|]. rewrite E.
        cbn [data_equal]. split; [reflexivity|]. apply shows_equal; [|exact S]. apply (proj1 (proj2 (proj2 (proj2 (proj2 (proj1 HC)))))).
    + injection D1 as <-. injection D2 as <-. destruct MD as (ky & s2 & b & E & Hin & -> & Kb & Eb). subst key.
      assert (HM := HB s2 Hin (key_same k s s2 ky b K Kb Eb)). unfold data_match in HM.
      destruct k; try contradiction; try discriminate EC.
      * destruct (s_data FO s) as [| | |b1| |n1]; try contradiction. destruct (s_data FO s2) as [| | |b2| |n2]; try contradiction.
        destruct HM as (-> & HR). cbn [data_equal]. split; [reflexivity|]. intro NP.
        assert (NG : KImage <> KGraphic) by discriminate.
        destruct (header_delta (sub_rows KImage) (area_fields_of KImage) (tre_fields KImage) (s_hdr FO s) h1 h2 h3) as (_ & S);
          auto using sub_isolated, sub_within, sub_plain; [exact (proj2 good_headers KImage)|].
        destruct (np_shown (s_hdr FO s) h3 S) as (P1 & P2). split; [exact P1|]. split; [exact P2|].
        destruct (HR NP) as (r & R). exists r. split; [exact R|]. intros m p _ _ x. apply (proj2 (proj2 (proj2 (proj2 (proj2 (proj1 HC)))))).
      * cbn [carries] in EC. destruct (s_data FO s) as [| |c0 s0 x0|b1| |n1]; try contradiction; [discriminate EC|]. destruct (s_data FO s2); try contradiction. exact I.
Qed.

Lemma des_deltas_all : forall l r, (forall s : seg, In s l -> ~ P_FileDiff.des_id FO (s_hdr FO s) (str "TRE_OVERFLOW")) -> des_deltas FO l = Ok r ->
  Forall2 (fun s g => seg_delta FO KDes (carries KDes s) s = Ok g) l r.
Proof.
  induction l as [|s l IH]; intros r H D; cbn [des_deltas] in D; [injection D as <-; constructor|].
  apply bind_ok_elim in D as (o & O & D). destruct o.
  - exfalso. apply (H s (or_introl eq_refl)). unfold holds_overflow in O. apply bind_ok_elim in O as (v & V & O). injection O as O.
    unfold P_FileDiff.des_id. rewrite V. destruct v; try discriminate O. apply list_eqb_spec in O. now subst.
  - apply bind_ok_elim in D as (g & G1 & D). apply bind_ok_elim in D as (r' & R & D). injection D as <-.
    constructor; [exact G1|]. apply IH; [|exact R]. intros x Hx. apply H. now right.
Qed.
Lemma map_res_F2 {A B} (f : A -> res B) : forall l r, map_res f l = Ok r -> Forall2 (fun a b => f a = Ok b) l r.
Proof.
  induction l as [|a l IH]; intros r H; cbn [map_res] in H; [injection H as <-; constructor|].
  apply bind_ok_elim in H as (b & E & H). apply bind_ok_elim in H as (r' & R & H). injection H as <-. constructor; auto.
Qed.
Lemma segs_delta_equal k base : k <> KGraphic -> k <> KRes -> forall l gs gs' l', Forall (seg_sound k) l -> Forall (base_match k base) l ->
  Forall2 (fun s g => seg_delta FO k (carries k s) s = Ok g) l gs -> map_res (load_seg FO k) gs = Ok gs' ->
  map_res (merge_seg FO k base) gs' = Ok l' -> Forall2 (seg_equal FO CO fp C k) l l'.
Proof.
  intros N1 N2 l gs gs' l' HS HB HD. revert gs' l' HS HB. induction HD as [|s g l gs D _ IH]; intros gs' l' HS HB L M; cbn [map_res] in L.
  - injection L as <-. cbn in M. injection M as <-. constructor.
  - apply bind_ok_elim in L as (g1 & L1 & L). apply bind_ok_elim in L as (r1 & R1 & L). injection L as <-. cbn [map_res] in M.
    apply bind_ok_elim in M as (s1 & M1 & M). apply bind_ok_elim in M as (r2 & R2 & M). injection M as <-.
    inversion_clear HS as [|? ? S1 HS']. inversion_clear HB as [|? ? B1 HB'].
    constructor; [exact (seg_delta_equal k s g g1 base s1 N1 N2 S1 B1 D L1 M1)|exact (IH _ _ HS' HB' R1 R2)].
Qed.

(** What is asked of the file the delta is made of. *)
Definition file_sound (f : nfile) : Prop :=
  hdr_sound desc_NitfFileHeader (nf_hdr FO f) /\ Forall tre_sound (nf_tres FO f)
  /\ (forall k, k <> KGraphic -> k <> KRes -> Forall (seg_sound k) (nf_segs FO f k))
  /\ (forall s, In s (nf_segs FO f KDes) -> ~ P_FileDiff.des_id FO (s_hdr FO s) (str "TRE_OVERFLOW")).
(** And of the file it is merged with: no list of it takes the place of an empty one, graphics and
    reserved segments agree, and so do the data of the segments known by the same names. *)
Definition fits (f1 f2 : nfile) : Prop :=
  (nf_tres FO f1 = [] -> nf_tres FO f2 = [])
  /\ (forall k, k <> KGraphic -> k <> KRes -> (nf_segs FO f1 k = [] -> nf_segs FO f2 k = []) /\ Forall (base_match k (nf_segs FO f2 k)) (nf_segs FO f1 k))
  /\ forall k, k = KGraphic \/ k = KRes -> Forall2 (seg_equal FO CO fp C k) (nf_segs FO f1 k) (nf_segs FO f2 k).

(** Comparing a file with the merger of its delta and another file says they are the same, provided
    the merger can be made. *)
Theorem C50_same_partial f1 f2 d d' g : file_sound f1 -> fits f1 f2 ->
  create_delta FO f1 = Ok d -> load_delta FO d = Ok d' -> merge_delta FO d' f2 = Ok g -> file_same FO CO fp C f1 g = Ok true.
Proof.
  intros (SH & ST & SS & SO) (FT & FS & FG) D L M. apply C47_no_false_alarm.
  unfold create_delta in D. apply bind_ok_elim in D as (ts & T1 & D). apply bind_ok_elim in D as (h1 & C1 & D).
  apply bind_ok_elim in D as (h2 & B & D). apply bind_ok_elim in D as (im & I1 & D). apply bind_ok_elim in D as (tx & X1 & D).
  apply bind_ok_elim in D as (de & E1 & D). injection D as <-.
  unfold load_delta in L. cbn [d_hdr d_tres d_segs] in L. apply bind_ok_elim in L as (h3 & C3 & L).
  apply bind_ok_elim in L as (im2 & I2 & L). apply bind_ok_elim in L as (tx2 & X2 & L). apply bind_ok_elim in L as (de2 & E2 & L).
  apply bind_ok_elim in L as (ts2 & T2 & L). injection L as <-.
  unfold merge_delta in M. cbn [d_hdr d_tres d_segs] in M. apply bind_ok_elim in M as (im3 & I3 & M).
  cbn [map_res bind] in M. apply bind_ok_elim in M as (tx3 & X3 & M). apply bind_ok_elim in M as (de3 & E3 & M). injection M as <-.
  unfold file_equal. cbn [nf_hdr nf_tres nf_segs]. split; [|split].
  - apply (header_equal desc_NitfFileHeader file_area_fields ["udhd"; "xhd"]%string (nf_hdr FO f1) h1 h2 h3); auto using file_isolated, file_within, header_plain.
    + exact (proj1 good_headers).
    + apply (proj1 (proj2 (proj2 (proj2 HC)))).
    + apply (proj1 (proj1 HC)).
  - rewrite !left_all. assert (F := tres_delta _ _ _ ST T1 T2). destruct ts2; [|exact F]. inversion F as [Z|]. now rewrite FT.
  - assert (W : forall k l l', k <> KGraphic -> k <> KRes -> nf_segs FO f1 k = l -> Forall2 (seg_equal FO CO fp C k) l l' ->
       Forall2 (seg_equal FO CO fp C k) l (match l' with [] => nf_segs FO f2 k | _ => l' end)).
    { intros k l l' N1 N2 E F. destruct l'; [|exact F]. inversion F; subst. rewrite (proj1 (FS k N1 N2)); [constructor|congruence]. }
    intros []; rewrite !left_all_segs.
    + apply W; try discriminate; [reflexivity|].
      apply (segs_delta_equal KImage (nf_segs FO f2 KImage)) with (gs := im) (gs' := im2); try discriminate; auto;
        [apply SS; discriminate|apply FS; discriminate|]. exact (map_res_F2 _ _ _ I1).
    + apply FG. now left.
    + apply W; try discriminate; [reflexivity|].
      apply (segs_delta_equal KText (nf_segs FO f2 KText)) with (gs := tx) (gs' := tx2); try discriminate; auto;
        [apply SS; discriminate|apply FS; discriminate|]. exact (map_res_F2 _ _ _ X1).
    + apply W; try discriminate; [reflexivity|].
      apply (segs_delta_equal KDes (nf_segs FO f2 KDes)) with (gs := de) (gs' := de2); try discriminate; auto;
        [apply SS; discriminate|apply FS; discriminate|]. exact (des_deltas_all _ _ SO E1).
    + apply FG. now right.
Qed.
End Cmp.
End P.
