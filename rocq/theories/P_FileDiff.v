(** Comparing files: what "the same" means, and no false alarms (C47). *)
From Verif Require Import Base BaseLemmas Engine Wf EngineLemmas RoundTrip Literal Positions Keys Deps Spec Decimal Utf8 Tre Handles TrePlace Security Image
  DescsHdr File Diff P_Diff FileDiff.
From Coq Require Import ZifyBool ZifyNat ZifyN.
Open Scope list_scope.
Ltac Zify.zify_post_hook ::= idtac.

Section P.
Variable FO : FloatOps.
Variable CO : CmpOps FO.
Variable fp : dtype -> dtype -> item -> item -> bool.
Notation pyval := (pyval FO).
Notation state := (state FO).
Notation config := (config FO).
Notation hdr := (hdr FO).
Notation tre := (tre FO).
Notation seg := (seg FO).
Notation sdata := (sdata FO).
Notation nfile := (nfile FO).

(** ** What the statements are about *)

(** Two values the comparison may take for the same: equal, or floating point numbers that are
    close (or equal, which for floating point numbers is not the same as identical). *)
Definition close_values (c : config) (nm : string) (v w : pyval) : Prop :=
  v = w \/ exists x y, v = VFloat x /\ w = VFloat y
             /\ (fl_close CO (c_rel FO c nm) (c_abs FO c nm) x y = Ok true \/ fl_eq CO x y = true).

(** The fields that are looked at, count and have no function of their own, and have at most one
    dimension or the same indices in both, have the same indices and close values. *)
Definition fields_alike (c : config) (rows : list row) (s1 s2 : state) : Prop :=
  let fs := mk_fs rows in
  forall nm f, lookup fs nm = Some f -> looked_at FO c nm -> ~ In nm (c_warn FO c) -> c_eq FO c nm = None ->
    (List.length (f_loops f) <= 1)%nat \/ field_keys FO fs s1 f = field_keys FO fs s2 f ->
    exists ks, field_keys FO fs s1 f = Ok ks /\ field_keys FO fs s2 f = Ok ks
      /\ forall k, In k ks -> exists v w, fget FO fs s1 f k = Ok v /\ fget FO fs s2 f k = Ok w /\ close_values c nm v w.

(** Two structures the comparison cannot tell apart: every field can be read in both, those
    looked at agree, and what compares them takes equal values for the same. *)
Definition fields_equal (c : config) (rows : list row) (s1 s2 : state) : Prop :=
  (forall nm f, lookup (mk_fs rows) nm = Some f -> readable FO (mk_fs rows) s1 f /\ readable FO (mk_fs rows) s2 f)
  /\ (forall nm f, lookup (mk_fs rows) nm = Some f -> looked_at FO c nm -> same_shown FO (mk_fs rows) s1 s2 f)
  /\ agrees_on_equal FO CO c (mk_fs rows) s1.

Definition des_id (h : hdr) (t : list N) : Prop := hget FO (sub_rows KDes) h "desid" = Ok (VStr t).
Definition overflow_pair (k : kind) (h1 h2 : hdr) : Prop := k = KDes /\ des_id h1 (str "TRE_OVERFLOW") /\ des_id h2 (str "TRE_OVERFLOW").

Definition text_of (d : sdata) (t : list N) : Prop := d = DStr FO t \/ exists b, d = DBytes FO (Some b) /\ utf8_dec b = Some t.

(** The value of an integer pixel: big endian, two's complement if signed; [None] for a type
    that is not an integer. *)
Fixpoint big_endian (p : list N) : Z :=
  match p with [] => 0%Z | x :: p' => (Z.of_N x * 256 ^ Z.of_nat (List.length p') + big_endian p')%Z end.
Definition pixel_value (d : dtype) (p : item) : option Z :=
  let u := big_endian p in
  let signed bits := Some (if (u <? 2 ^ (bits - 1))%Z then u else (u - 2 ^ bits)%Z) in
  match d with
  | U1 | U2 | U4 => Some u
  | I1 => signed 8%Z | I2 => signed 16%Z | I4 => signed 32%Z
  | F4 | C8 | F8 | C16 => None
  end.
(** Pixels: integers the same up to one part in 100000 (and below that one hundred-millionth). *)
Definition pixels_close (d1 d2 : dtype) (p1 p2 : item) : Prop :=
  match pixel_value d1 p1, pixel_value d2 p2 with
  | Some x, Some y => (100000000 * Z.abs (x - y) <= 1 + 1000 * Z.abs y)%Z
  | _, _ => fp d1 d2 p1 p2 = true
  end.

Section C.
Variable C : fcfg FO.

Definition tre_alike (t1 t2 : tre) : Prop :=
  match t1, t2 with
  | TUnk g1 b1, TUnk g2 b2 => g1 = g2 /\ b1 = b2
  | TObj c1 s1, TObj c2 s2 =>
      tc_tag c1 = tc_tag c2 /\ (tc_rows c1 = tc_rows c2 -> fields_alike (fc_tre FO C (tc_tag c1)) (tc_rows c1) s1 s2)
  | TObj c _, TUnk g _ | TUnk g _, TObj c _ =>
      tc_tag c = g /\ forall nm, In nm (dict_names (mk_fs (tc_rows c))) -> nm = "No_field"%string
  end.
Definition tre_equal (t1 t2 : tre) : Prop :=
  match t1, t2 with
  | TUnk g1 b1, TUnk g2 b2 => g1 = g2 /\ b1 = b2
  | TObj c1 s1, TObj c2 s2 => c1 = c2 /\ fields_equal (fc_tre FO C (tc_tag c1)) (tc_rows c1) s1 s2
  | _, _ => False
  end.

Definition ush_alike (o1 o2 : option (ush FO)) : Prop :=
  match o1 with
  | None => True
  | Some u1 => exists u2 c, o2 = Some u2 /\ uc_name (us_cls FO u1) = uc_name (us_cls FO u2) /\ fc_ush FO C (uc_name (us_cls FO u1)) = Some c
      /\ (uc_rows (us_cls FO u1) = uc_rows (us_cls FO u2) -> fields_alike c (uc_rows (us_cls FO u1)) (us_st FO u1) (us_st FO u2))
  end.
Definition ush_equal (o1 o2 : option (ush FO)) : Prop :=
  match o1, o2 with
  | None, _ => True
  | Some u1, Some u2 => us_cls FO u1 = us_cls FO u2 /\ exists c, fc_ush FO C (uc_name (us_cls FO u1)) = Some c
      /\ fields_equal c (uc_rows (us_cls FO u1)) (us_st FO u1) (us_st FO u2)
  | Some _, None => False
  end.

(** Images: of the same size with close pixels if both can be read as arrays, anything if
    neither can. *)
Definition image_alike (h1 h2 : hdr) (b1 b2 : list N) : Prop :=
  (exists m1 m2 p1 p2, fc_numpy FO C = true /\ np_read FO h1 b1 0 = Ok (Some (m1, p1)) /\ np_read FO h2 b2 0 = Ok (Some (m2, p2))
     /\ mp_dims m1 = mp_dims m2
     /\ forall b r c nb nr nc, mp_dims m1 = (nb, nr, nc) -> (0 <= b < nb)%Z -> (0 <= r < nr)%Z -> (0 <= c < nc)%Z ->
          pixels_close (mp_dt m1) (mp_dt m2) (mp_item b1 m1 b r c) (mp_item b2 m2 b r c))
  \/ fc_numpy FO C = false \/ np_read FO h1 b1 0 = Ok None /\ np_read FO h2 b2 0 = Ok None.

Definition data_alike (k : kind) (h1 h2 : hdr) (d1 d2 : sdata) : Prop :=
  match k, d1, d2 with
  | _, DHole _ _, DHole _ _ => True
  | KText, _, _ => exists t, text_of d1 t /\ text_of d2 t
  | KImage, DFile _ b1, DFile _ b2 => image_alike h1 h2 b1 b2
  | KDes, DFields _ c1 s1 _, DFields _ c2 s2 _ =>
      dc_tag c1 = dc_tag c2 /\ (dc_rows c1 = dc_rows c2 -> fields_alike (fc_des FO C (dc_tag c1)) (dc_rows c1) s1 s2)
  | _, _, _ => False
  end.
(** Data a handler can compare, the same in both. *)
Definition image_equal (h1 h2 : hdr) (b1 b2 : list N) : Prop :=
  b1 = b2 /\ (fc_numpy FO C = true -> np_plan FO h1 = np_plan FO h2 /\ dims FO h1 = dims FO h2
    /\ exists r, np_read FO h1 b1 0 = Ok r
       /\ forall m p, r = Some (m, p) -> pixel_value (mp_dt m) [] = None -> forall x, fp (mp_dt m) (mp_dt m) x x = true).
Definition data_equal (k : kind) (h1 h2 : hdr) (d1 d2 : sdata) : Prop :=
  match k, d1, d2 with
  | _, DHole _ _, DHole _ _ => True
  | KText, _, _ => exists t, text_of d1 t /\ text_of d2 t
  | KImage, DFile _ b1, DFile _ b2 => image_equal h1 h2 b1 b2
  | KDes, DFields _ c1 s1 _, DFields _ c2 s2 _ => c1 = c2 /\ fields_equal (fc_des FO C (dc_tag c1)) (dc_rows c1) s1 s2
  | _, _, _ => False
  end.

Definition left_tres (l : list tre) := filter (fun t => negb (fc_skip_tre FO C t)) l.
Definition left_segs (k : kind) (l : list seg) := filter (fun s => negb (fc_skip_seg FO C k s)) l.

Definition seg_alike (k : kind) (s1 s2 : seg) : Prop :=
  overflow_pair k (s_hdr FO s1) (s_hdr FO s2)
  \/ fields_alike (fc_sub FO C k) (sub_rows k) (h_st (s_hdr FO s1)) (h_st (s_hdr FO s2))
     /\ ush_alike (s_ush FO s1) (s_ush FO s2)
     /\ Forall2 tre_alike (left_tres (s_tres FO s1)) (left_tres (s_tres FO s2))
     /\ data_alike k (s_hdr FO s1) (s_hdr FO s2) (s_data FO s1) (s_data FO s2).
Definition seg_equal (k : kind) (s1 s2 : seg) : Prop :=
  overflow_pair k (s_hdr FO s1) (s_hdr FO s2)
  \/ fields_equal (fc_sub FO C k) (sub_rows k) (h_st (s_hdr FO s1)) (h_st (s_hdr FO s2))
     /\ ush_equal (s_ush FO s1) (s_ush FO s2)
     /\ Forall2 tre_equal (left_tres (s_tres FO s1)) (left_tres (s_tres FO s2))
     /\ data_equal k (s_hdr FO s1) (s_hdr FO s2) (s_data FO s1) (s_data FO s2).

Definition file_alike (f1 f2 : nfile) : Prop :=
  fields_alike (fc_hdr FO C) desc_NitfFileHeader (h_st (nf_hdr FO f1)) (h_st (nf_hdr FO f2))
  /\ Forall2 tre_alike (left_tres (nf_tres FO f1)) (left_tres (nf_tres FO f2))
  /\ forall k, Forall2 (seg_alike k) (left_segs k (nf_segs FO f1 k)) (left_segs k (nf_segs FO f2 k)).
Definition file_equal (f1 f2 : nfile) : Prop :=
  fields_equal (fc_hdr FO C) desc_NitfFileHeader (h_st (nf_hdr FO f1)) (h_st (nf_hdr FO f2))
  /\ Forall2 tre_equal (left_tres (nf_tres FO f1)) (left_tres (nf_tres FO f2))
  /\ forall k, Forall2 (seg_equal k) (left_segs k (nf_segs FO f1 k)) (left_segs k (nf_segs FO f2 k)).

(** ** Fields *)

Lemma fields_same_true rows s1 s2 c : fields_same FO CO rows rows s1 s2 c = Ok true -> fields_alike c rows s1 s2.
Proof.
  unfold fields_same. intros E nm f L Lk Nw Ce D. apply bind_ok_elim in E as ((b & l) & E & X). injection X as X. cbn in X. subst b.
  set (fs := mk_fs rows) in *.
  assert (NT : ~ told FO c nm true l).
  { unfold told. destruct (existsb (String.eqb nm) (c_warn FO c)) eqn:W; [apply mem_in in W; contradiction|]. intros (_ & X). discriminate. }
  assert (K : exists ks1 ks2, field_keys FO fs s1 f = Ok ks1 /\ field_keys FO fs s2 f = Ok ks2).
  { destruct (f_loops f) as [|e shs] eqn:Sh.
    - exists [[]], [[]]. split; now apply keys_scalar.
    - assert (D' : f_loops f <> []) by congruence.
      assert (I : In nm (dict_names fs)) by (apply dict_names_lookup; eauto).
      destruct (reported FO CO _ _ _ _ _ _ _ E I) as (y & F & H). apply skipped_spec in Lk.
      unfold step in F. rewrite Lk, !(getattr_fld FO _ _ _ _ L D') in F. cbn [bind differs] in F.
      destruct (cmp_field FO fs fs s1 s2 f f _) as [d|] eqn:Cf; [|discriminate]. cbn [bind] in F. injection F as <-.
      destruct d; [exfalso; apply NT; now apply (one_told FO CO c fs s1 s2)|].
      unfold cmp_field in Cf. destruct (shape_equal FO fs fs s1 s2 f f) as [sh|]; [|discriminate]. cbn [bind] in Cf. destruct sh; [|discriminate].
      destruct (field_keys FO fs s1 f) as [ks1|]; [|discriminate]. destruct (field_keys FO fs s2 f) as [ks2|]; [|discriminate]. eauto. }
  destruct K as (ks1 & ks2 & K1 & K2). change (mk_fs rows) with fs.
  destruct (untold FO CO c fs s1 s2 true l nm f ks1 ks2 E L Lk K1 K2) as [T|(Ks & V)]; [|contradiction|].
  { destruct D as [D|D]; [left; exact D|right; congruence]. }
  subst ks2. exists ks1. split; [exact K1|]. split; [exact K2|]. intros k Hk.
  destruct (V k Hk) as (v & w & isf & E1 & E2 & Cm & F & _). exists v, w. split; [exact E1|]. split; [exact E2|].
  unfold cmp_fun in Cm. rewrite Ce in Cm.
  assert (HN : fd_name (f_d f) <> None) by (rewrite (lookup_name _ _ _ L); discriminate).
  assert (DF : nonfloat f \/ ~ nonfloat f).
  { unfold nonfloat. destruct (fd_ty (f_d f)) as [ | | | |kd]; try (left; split; discriminate); [right; intros (A & _); now apply A|].
    destruct kd; try (left; split; discriminate). right. intros (_ & A). now apply A. }
  destruct DF as [N|N].
  - left. pose proof (fget_plain FO _ _ _ _ _ N E1) as P1. pose proof (fget_plain FO _ _ _ _ _ N E2) as P2.
    destruct isf.
    + destruct (F eq_refl) as [T|(x & ->)]; [destruct N; congruence|destruct P1].
    + injection Cm as Cm. now apply (py_eq_plain FO CO).
  - pose proof (floaty FO _ _ _ _ _ N HN E1) as P1. pose proof (floaty FO _ _ _ _ _ N HN E2) as P2.
    destruct isf.
    + destruct v; try contradiction; destruct w; try contradiction; cbn in Cm; try discriminate; [now left|].
      right. eauto 8.
    + injection Cm as Cm. destruct v; try contradiction; destruct w; try contradiction; cbn in Cm; try discriminate; [now left|].
      right. eauto 8.
Qed.

Lemma fields_equal_same rows s1 s2 c : fields_equal c rows s1 s2 -> fields_same FO CO rows rows s1 s2 c = Ok true.
Proof. intros (A & B & D). unfold fields_same. now rewrite (C40_no_false_alarm FO CO c (mk_fs rows) s1 s2 A B D). Qed.

(** Against a structure without fields. *)
Lemma compare_none_r fs1 fs2 s1 s2 c : forall n ns l, NoDup ns -> (List.length ns <= n)%nat ->
  compare_from FO CO fs1 fs2 s1 s2 n c ns [] = Ok (true, l) -> forall nm, In nm ns -> nm = "No_field"%string.
Proof.
  induction n as [|n IH]; intros ns l ND Hn E nm I; [destruct ns; [destruct I|cbn in Hn; lia]|].
  destruct ns as [|x ns]; [destruct I|]. cbn [compare_from next_item] in E. destruct (getattr FO fs1 s1 x) as [a|]; [|discriminate].
  cbn [bind fst snd tl] in E. destruct (String.eqb x "No_field") eqn:Ex; cbn [negb] in E; [|discriminate].
  apply String.eqb_eq in Ex. destruct I as [<-|I]; [exact Ex|]. inversion_clear ND as [|? ? N1 N2].
  assert (X : exists l', compare_from FO CO fs1 fs2 s1 s2 n c ns [] = Ok (true, l')).
  { destruct (skipped FO c x); [eauto|]. destruct (differs FO CO fs1 fs2 s1 s2 c x a (AVal FO VNone)) as [d|]; [|discriminate]. cbn [bind] in E.
    destruct (compare_from FO CO fs1 fs2 s1 s2 n c ns []) as [(b & l')|]; [|discriminate]. cbn [bind fst snd] in E.
    destruct d; [destruct (existsb _ _); [|discriminate]|]; injection E as -> _; eauto. }
  destruct X as (l' & X). apply (IH ns l' N2 ltac:(cbn in Hn; lia) X nm I).
Qed.
Lemma compare_none_l fs1 fs2 s1 s2 c : forall n ns l, NoDup ns -> (List.length ns <= n)%nat ->
  compare_from FO CO fs1 fs2 s1 s2 n c [] ns = Ok (true, l) -> forall nm, In nm ns -> nm = "No_field"%string.
Proof.
  induction n as [|n IH]; intros ns l ND Hn E nm I; [destruct ns; [destruct I|cbn in Hn; lia]|].
  destruct ns as [|x ns]; [destruct I|]. cbn [compare_from next_item bind] in E. destruct (getattr FO fs2 s2 x) as [a|]; [|discriminate].
  cbn [bind fst snd tl] in E. destruct (String.eqb "No_field" x) eqn:Ex; cbn [negb] in E; [|discriminate].
  apply String.eqb_eq in Ex. destruct I as [<-|I]; [now symmetry|]. inversion_clear ND as [|? ? N1 N2].
  assert (X : exists l', compare_from FO CO fs1 fs2 s1 s2 n c [] ns = Ok (true, l')).
  { destruct (skipped FO c "No_field"); [eauto|]. destruct (differs FO CO fs1 fs2 s1 s2 c "No_field" (AVal FO VNone) a) as [d|]; [|discriminate]. cbn [bind] in E.
    destruct (compare_from FO CO fs1 fs2 s1 s2 n c [] ns) as [(b & l')|]; [|discriminate]. cbn [bind fst snd] in E.
    destruct d; [destruct (existsb _ _); [|discriminate]|]; injection E as -> _; eauto. }
  destruct X as (l' & X). apply (IH ns l' N2 ltac:(cbn in Hn; lia) X nm I).
Qed.

(** ** TREs *)

Lemma tre_same_true t1 t2 : tre_same FO CO C t1 t2 = Ok true -> tre_alike t1 t2.
Proof.
  destruct t1 as [c1 s1|g1 b1], t2 as [c2 s2|g2 b2]; cbn [tre_same tre_alike tre_tag]; intro E.
  - destruct (list_eqb (tc_tag c1) (tc_tag c2)) eqn:T; [|discriminate]. apply list_eqb_spec in T. cbn [negb] in E. split; [exact T|].
    intro R. rewrite <- R in E. now apply fields_same_true.
  - destruct (list_eqb (tc_tag c1) g2) eqn:T; [|discriminate]. apply list_eqb_spec in T. cbn [negb] in E. split; [exact T|].
    unfold fields_same in E. apply bind_ok_elim in E as ((b & l) & E & X). injection X as X. cbn in X. subst b.
    refine (compare_none_r _ _ _ _ _ _ _ l (dict_names_nodup _) _ E). apply Nat.le_max_l.
  - destruct (list_eqb g1 (tc_tag c2)) eqn:T; [|discriminate]. apply list_eqb_spec in T. cbn [negb] in E. split; [now symmetry|].
    unfold fields_same in E. apply bind_ok_elim in E as ((b & l) & E & X). injection X as X. cbn in X. subst b.
    refine (compare_none_l _ _ _ _ _ _ _ l (dict_names_nodup _) _ E). apply Nat.le_max_r.
  - destruct (list_eqb g1 g2) eqn:T; [|discriminate]. apply list_eqb_spec in T. cbn [negb] in E.
    destruct (list_eqb b1 b2) eqn:B; [apply list_eqb_spec in B; auto|]. destruct (utf8_dec b1); [destruct (utf8_dec b2)|]; discriminate.
Qed.
Lemma tre_equal_same t1 t2 : tre_equal t1 t2 -> tre_same FO CO C t1 t2 = Ok true.
Proof.
  destruct t1 as [c1 s1|g1 b1], t2 as [c2 s2|g2 b2]; cbn [tre_same tre_equal tre_tag]; try contradiction.
  - intros (<- & H). rewrite (proj2 (list_eqb_spec _ _) eq_refl). cbn [negb]. now apply fields_equal_same.
  - intros (<- & <-). rewrite !(proj2 (list_eqb_spec _ _) eq_refl). reflexivity.
Qed.

(** ** Lists *)

Lemma pairs_true {A} (p : A -> A -> res bool) (R : A -> A -> Prop) : (forall a b, p a b = Ok true -> R a b) ->
  forall l1 l2, lists_same p l1 l2 = Ok true -> Forall2 R l1 l2.
Proof.
  intros H. unfold lists_same. induction l1 as [|a l1 IH]; intros [|b l2] E; cbn in E; try discriminate; [constructor|].
  destruct (p a b) as [r|] eqn:Ep; [|discriminate]. cbn [bind] in E. destruct (pairs_same p l1 l2) as [r'|] eqn:E'; [|discriminate].
  cbn [bind] in E. injection E as E. destruct r; [|lia]. destruct r'; [|lia].
  constructor; [now apply H|]. apply IH. rewrite E'. cbn [bind]. f_equal. lia.
Qed.
Lemma pairs_equal {A} (p : A -> A -> res bool) (R : A -> A -> Prop) : (forall a b, R a b -> p a b = Ok true) ->
  forall l1 l2, Forall2 R l1 l2 -> lists_same p l1 l2 = Ok true.
Proof.
  intros H. unfold lists_same. induction 1 as [|a b l1 l2 Hab F IH]; [reflexivity|].
  cbn. rewrite (H a b Hab). cbn [bind]. destruct (pairs_same p l1 l2) as [r|]; [|discriminate]. exact IH.
Qed.

(** ** Data *)

Lemma image_plan_spec h b p : image_plan FO C h b = Ok p ->
  fc_numpy FO C = false /\ p = None \/ fc_numpy FO C = true /\ exists r, np_read FO h b 0 = Ok r /\ p = option_map fst r.
Proof.
  unfold image_plan. destruct (fc_numpy FO C); [|intro E; injection E as <-; auto]. intro E. right. split; [reflexivity|].
  apply bind_ok_elim in E as (r & E & X). exists r. split; [exact E|]. injection X as <-. destruct r as [(m & q)|]; reflexivity.
Qed.

Lemma upto_in n i : In i (upto n) <-> (0 <= i < n)%Z.
Proof.
  unfold upto. rewrite in_map_iff. split.
  - intros (x & <- & H). apply in_seq in H. lia.
  - intro H. exists (Z.to_nat i). split; [lia|]. apply in_seq. lia.
Qed.
Lemma indices_in nb nr nc b r c : In (b, r, c) (indices nb nr nc) <-> (0 <= b < nb)%Z /\ (0 <= r < nr)%Z /\ (0 <= c < nc)%Z.
Proof.
  unfold indices. rewrite in_flat_map. split.
  - intros (x & Hx & H). apply in_flat_map in H as (y & Hy & H). apply in_map_iff in H as (z & E & Hz). injection E as -> -> ->.
    rewrite upto_in in *. auto.
  - intros (Hb & Hr & Hc). exists b. rewrite upto_in. split; [exact Hb|]. apply in_flat_map. exists r. rewrite upto_in. split; [exact Hr|].
    apply in_map_iff. exists c. rewrite upto_in. auto.
Qed.
Lemma be_from p : forall a, fold_left (fun a x => (256 * a + Z.of_N x)%Z) p a = (a * 256 ^ Z.of_nat (List.length p) + big_endian p)%Z.
Proof.
  induction p as [|x p IH]; intro a; [cbn; lia|]. cbn [fold_left big_endian List.length]. rewrite IH, Nat2Z.inj_succ, Z.pow_succ_r by lia. ring.
Qed.
Lemma pix_int_value d p : pix_int d p = pixel_value d p.
Proof.
  assert (B : be p = big_endian p) by (unfold be; rewrite be_from; lia).
  destruct d; unfold pix_int, pixel_value; rewrite ?B; try reflexivity; cbn [itemsize]; f_equal;
    match goal with |- context [(2 ^ (8 * ?n))%Z] => let v := eval vm_compute in (2 ^ (8 * n))%Z in change (2 ^ (8 * n))%Z with v end;
    match goal with |- context [(2 ^ (?n - 1))%Z] => let v := eval vm_compute in (2 ^ (n - 1))%Z in change (2 ^ (n - 1))%Z with v end;
    match goal with |- context [(2 ^ ?n)%Z] => let v := eval vm_compute in (2 ^ n)%Z in change (2 ^ n)%Z with v end;
    destruct (_ <? _)%Z eqn:E1; destruct (big_endian p <? _)%Z eqn:E2; lia.
Qed.
Lemma pix_close_spec d1 d2 p1 p2 : pix_close fp d1 d2 p1 p2 = true <-> pixels_close d1 d2 p1 p2.
Proof.
  unfold pix_close, pixels_close. rewrite !pix_int_value. destruct (pixel_value d1 p1) as [x|]; [|tauto]. destruct (pixel_value d2 p2) as [y|]; [|tauto].
  unfold int_close. apply Z.leb_le.
Qed.
Lemma arrays_same_spec m1 m2 b1 b2 : arrays_same fp m1 m2 b1 b2 = true <-> mp_dims m1 = mp_dims m2
     /\ forall b r c nb nr nc, mp_dims m1 = (nb, nr, nc) -> (0 <= b < nb)%Z -> (0 <= r < nr)%Z -> (0 <= c < nc)%Z ->
          pixels_close (mp_dt m1) (mp_dt m2) (mp_item b1 m1 b r c) (mp_item b2 m2 b r c).
Proof.
  unfold arrays_same. destruct (mp_dims m1) as ((nb & nr) & nc), (mp_dims m2) as ((nb' & nr') & nc').
  rewrite !andb_true_iff, !Z.eqb_eq, forallb_forall. split.
  - intros (((-> & ->) & ->) & H). split; [reflexivity|]. intros b r c x y z E Hb Hr Hc. injection E as <- <- <-.
    apply pix_close_spec. apply (H (b, r, c)). now apply indices_in.
  - intros (E & H). injection E as <- <- <-. split; [auto|]. intros ((b & r) & c) I. apply indices_in in I as (Hb & Hr & Hc).
    apply pix_close_spec. exact (H b r c nb nr nc eq_refl Hb Hr Hc).
Qed.

Lemma image_same_true h1 h2 b1 b2 : image_same FO fp C h1 h2 b1 b2 = Ok true -> image_alike h1 h2 b1 b2.
Proof.
  unfold image_same. intro E. apply bind_ok_elim in E as (p1 & E1 & E). apply bind_ok_elim in E as (p2 & E2 & E).
  apply image_plan_spec in E1 as [(N & ->)|(N & r1 & R1 & ->)]; [right; now left|].
  apply image_plan_spec in E2 as [(N' & ->)|(_ & r2 & R2 & ->)]; [congruence|].
  destruct r1 as [(m1 & q1)|], r2 as [(m2 & q2)|]; cbn [option_map fst] in E; try discriminate.
  - left. exists m1, m2, q1, q2. injection E as E. apply arrays_same_spec in E as (D & E). auto 8.
  - right. right. auto.
Qed.
Lemma pix_int_ty d x y z : pixel_value d x = Some z -> exists z', pixel_value d y = Some z'.
Proof. destruct d; cbn; intro H; try discriminate; eauto. Qed.
Lemma np_read_ext h1 h2 b : np_plan FO h1 = np_plan FO h2 -> dims FO h1 = dims FO h2 -> np_read FO h1 b 0 = np_read FO h2 b 0.
Proof. intros A B. unfold np_read, np_map. now rewrite A, B. Qed.
Lemma image_equal_same h1 h2 b1 b2 : image_equal h1 h2 b1 b2 -> image_same FO fp C h1 h2 b1 b2 = Ok true.
Proof.
  intros (<- & H). unfold image_same, image_plan. destruct (fc_numpy FO C) eqn:N; [|reflexivity].
  destruct (H eq_refl) as (A & B & r & R & F). rewrite <- (np_read_ext h1 h2 b1 A B), R. cbn [bind].
  destruct r as [(m & q)|]; [|reflexivity]. f_equal. apply arrays_same_spec. split; [reflexivity|].
  intros b r c nb nr nc _ _ _ _. unfold pixels_close. set (p := mp_item b1 m b r c).
  destruct (pixel_value (mp_dt m) p) as [x|] eqn:E; [rewrite Z.sub_diag; cbn [Z.abs]; lia|].
  apply (F m q eq_refl). destruct (pixel_value (mp_dt m) []) as [z|] eqn:E'; [|reflexivity].
  destruct (pix_int_ty _ _ p _ E') as (z' & X). congruence.
Qed.

Lemma text_str_ok d t : text_str FO d = Some (Ok t) <-> text_of d t.
Proof.
  unfold text_of. destruct d; cbn.
  - destruct o as [b|]; [|split; [discriminate|intros [X|(b & X & _)]; discriminate]].
    destruct (utf8_dec b) as [u|] eqn:E; split.
    + intro X. injection X as <-. eauto.
    + intros [X|(b' & X & Y)]; [discriminate|]. injection X as <-. congruence.
    + discriminate.
    + intros [X|(b' & X & Y)]; [discriminate|]. injection X as <-. congruence.
  - split; [intro X; injection X as <-; auto|]. intros [X|(b' & X & Y)]; [now injection X as <-|discriminate].
  - split; [discriminate|]. intros [X|(b' & X & Y)]; discriminate.
  - split; [discriminate|]. intros [X|(b' & X & Y)]; discriminate.
  - split; [discriminate|]. intros [X|(b' & X & Y)]; discriminate.
  - split; [discriminate|]. intros [X|(b' & X & Y)]; discriminate.
Qed.
Lemma text_same_spec d1 d2 : text_same FO d1 d2 = Ok true <-> exists t, text_of d1 t /\ text_of d2 t.
Proof.
  unfold text_same. split.
  - destruct (text_str FO d1) as [[t1|]|] eqn:E1; try discriminate; destruct (text_str FO d2) as [[t2|]|] eqn:E2; try discriminate.
    cbn [bind]. intro E. injection E as E. apply list_eqb_spec in E. subst t2. exists t1. split; now apply text_str_ok.
  - intros (t & H1 & H2). apply text_str_ok in H1, H2. rewrite H1, H2. cbn [bind]. now rewrite (proj2 (list_eqb_spec _ _) eq_refl).
Qed.

Lemma data_same_true k h1 h2 d1 d2 : data_same FO CO fp C k h1 h2 d1 d2 = Ok true -> data_alike k h1 h2 d1 d2.
Proof.
  assert (T : match d1, d2 with DHole _ _, DHole _ _ => True | _, _ => text_same FO d1 d2 = Ok true -> exists t, text_of d1 t /\ text_of d2 t end).
  { destruct d1, d2; try exact I; apply text_same_spec. }
  unfold data_same, data_alike.
  destruct k, d1, d2; try exact (fun _ => I); try exact T; try discriminate; try apply image_same_true.
  intro E. destruct (list_eqb (dc_tag c) (dc_tag c0)) eqn:Tg; [|discriminate]. apply list_eqb_spec in Tg. cbn [negb] in E. split; [exact Tg|].
  intro R. rewrite <- R in E. now apply fields_same_true.
Qed.
Lemma data_equal_same k h1 h2 d1 d2 : data_equal k h1 h2 d1 d2 -> data_same FO CO fp C k h1 h2 d1 d2 = Ok true.
Proof.
  assert (T : (exists t, text_of d1 t /\ text_of d2 t) -> text_same FO d1 d2 = Ok true) by apply text_same_spec.
  unfold data_same, data_equal.
  destruct k, d1, d2; try exact (fun _ => eq_refl); try exact T; try contradiction; try apply image_equal_same.
  intros (<- & H). rewrite (proj2 (list_eqb_spec _ _) eq_refl). cbn [negb]. now apply fields_equal_same.
Qed.

(** ** Segments *)

Lemma py_eqb_str v t : py_eqb FO v (VStr t) = Ok true <-> v = VStr t.
Proof.
  split.
  - destruct v; cbn; try discriminate. intro E. injection E as E. apply list_eqb_spec in E. now subst.
  - intros ->. cbn. now rewrite (proj2 (list_eqb_spec _ _) eq_refl).
Qed.
Lemma both_overflow_true h1 h2 : both_overflow FO h1 h2 = Ok true <-> des_id h1 (str "TRE_OVERFLOW") /\ des_id h2 (str "TRE_OVERFLOW").
Proof.
  unfold both_overflow, des_id. split.
  - intro E. apply bind_ok_elim in E as (v & E1 & E). apply bind_ok_elim in E as (a & E2 & E). destruct a; [|discriminate].
    apply bind_ok_elim in E as (w & E3 & E). apply py_eqb_str in E2, E. subst. auto.
  - intros (-> & ->). cbn [bind]. reflexivity.
Qed.
Lemma skip_pair_true k h1 h2 : skip_pair FO k h1 h2 = Ok true <-> overflow_pair k h1 h2.
Proof.
  unfold overflow_pair. destruct k; cbn [skip_pair]; try (split; [discriminate|intros (X & _); discriminate]).
  rewrite both_overflow_true. tauto.
Qed.

Lemma ush_same_true o1 o2 : ush_same FO CO C o1 o2 = Ok true -> ush_alike o1 o2.
Proof.
  destruct o1 as [u1|]; [|exact (fun _ => I)]. destruct o2 as [u2|]; [|discriminate]. cbn [ush_same ush_alike].
  destruct (String.eqb _ _) eqn:En; [|discriminate]. apply String.eqb_eq in En. cbn [negb]. destruct (fc_ush FO C _) as [c|] eqn:Ec; [|discriminate].
  intro E. exists u2, c. split; [reflexivity|]. split; [exact En|]. split; [reflexivity|]. intro R. rewrite <- R in E. now apply fields_same_true.
Qed.
Lemma ush_equal_same o1 o2 : ush_equal o1 o2 -> ush_same FO CO C o1 o2 = Ok true.
Proof.
  destruct o1 as [u1|]; [|destruct o2; reflexivity]. destruct o2 as [u2|]; [|contradiction]. cbn [ush_same ush_equal].
  intros (<- & c & Ec & H). rewrite String.eqb_refl, Ec. cbn [negb]. now apply fields_equal_same.
Qed.

Lemma seg_same_true k s1 s2 : seg_same FO CO fp C k s1 s2 = Ok true -> seg_alike k s1 s2.
Proof.
  unfold seg_same. intro E. apply bind_ok_elim in E as (o & Eo & E). destruct o; [left; now apply skip_pair_true|].
  right. apply bind_ok_elim in E as (x & _ & E). apply bind_ok_elim in E as (a & E1 & E). apply bind_ok_elim in E as (b & E2 & E).
  apply bind_ok_elim in E as (c & E3 & E). apply bind_ok_elim in E as (d & E4 & E). injection E as E.
  destruct a, b, c, d; try discriminate. unfold sub_same in E1. rewrite Eo in E1. cbn [bind] in E1.
  split; [now apply fields_same_true|]. split; [now apply ush_same_true|]. split; [|now apply data_same_true].
  exact (pairs_true _ _ tre_same_true _ _ E3).
Qed.

(** The fields named in messages are scalars. *)
Definition scalar_name (k : kind) (nm : string) : bool :=
  match lookup (mk_fs (sub_rows k)) nm with Some f => match f_loops f with [] => true | _ => false end | None => false end.
Lemma short_scalar k : forallb (scalar_name k) (short_fields k) = true.
Proof. destruct k; vm_compute; reflexivity. Qed.
Lemma short_ok k (h : hdr) l : forallb (scalar_name k) l = true ->
  (forall nm f, lookup (mk_fs (sub_rows k)) nm = Some f -> readable FO (mk_fs (sub_rows k)) (h_st h) f) ->
  exists r, map_res (hget FO (sub_rows k) h) l = Ok r.
Proof.
  intros HS R. induction l as [|nm l IH]; [exists []; reflexivity|]. cbn [forallb] in HS. apply andb_true_iff in HS as (H1 & H2).
  destruct (IH H2) as (r & Hr). cbn [map_res]. unfold scalar_name in H1. destruct (lookup _ nm) as [f|] eqn:L; [|discriminate].
  destruct (f_loops f) eqn:Sh; [|discriminate]. destruct (R nm f L) as (ks & K & V). rewrite (keys_scalar FO _ _ _ Sh) in K. injection K as <-.
  destruct (V [] (or_introl eq_refl)) as (v & Hv).
  assert (Hg : hget FO (sub_rows k) h nm = Ok v).
  { unfold hget, get. rewrite L. unfold key_shape_ok, depth. rewrite Sh. cbn [List.length Nat.eqb]. exact Hv. }
  rewrite Hg. cbn [bind]. rewrite Hr. cbn [bind]. eauto.
Qed.
(** Two overflow DESs always compare as the same, whatever their subheaders say. *)
Lemma overflow_same k h1 h2 : overflow_pair k h1 h2 -> sub_same FO CO C k h1 h2 = Ok true.
Proof. intro H. unfold sub_same. now rewrite (proj2 (skip_pair_true k h1 h2) H). Qed.
(** The desid can be read, so that the test for overflow does not fail. *)
Lemma desid_readable (h : hdr) : (forall nm f, lookup (mk_fs (sub_rows KDes)) nm = Some f -> readable FO (mk_fs (sub_rows KDes)) (h_st h) f) ->
  exists v, hget FO (sub_rows KDes) h "desid" = Ok v.
Proof.
  intro R. destruct (short_ok KDes h (short_fields KDes) (short_scalar KDes) R) as (r & E). cbn [short_fields map_res] in E.
  apply bind_ok_elim in E as (v & E & _). eauto.
Qed.
Lemma desid_scalar : exists f, lookup (mk_fs (sub_rows KDes)) "desid" = Some f /\ f_loops f = [] /\ nonfloat f.
Proof. eexists. split; [vm_compute; reflexivity|]. split; [reflexivity|split; discriminate]. Qed.
Lemma desid_plain (h : hdr) v : hget FO (sub_rows KDes) h "desid" = Ok v -> exists b, py_eqb FO v (VStr (str "TRE_OVERFLOW")) = Ok b.
Proof.
  destruct desid_scalar as (f & L & Sh & N). unfold hget, get. rewrite L. unfold key_shape_ok, depth. rewrite Sh. cbn [List.length Nat.eqb].
  intro E. pose proof (fget_plain FO _ _ _ _ _ N E) as P. destruct v; cbn in P |- *; try contradiction; eauto.
Qed.
Lemma skip_pair_ok k (h1 h2 : hdr) :
  (forall nm f, lookup (mk_fs (sub_rows k)) nm = Some f -> readable FO (mk_fs (sub_rows k)) (h_st h1) f) ->
  (forall nm f, lookup (mk_fs (sub_rows k)) nm = Some f -> readable FO (mk_fs (sub_rows k)) (h_st h2) f) ->
  exists o, skip_pair FO k h1 h2 = Ok o.
Proof.
  destruct k; try (intros; exists false; reflexivity). intros R1 R2. cbn [skip_pair]. unfold both_overflow.
  destruct (desid_readable h1 R1) as (v & V). destruct (desid_plain h1 v V) as (a & A). rewrite V. cbn [bind].
  change overflow_id with (str "TRE_OVERFLOW"). rewrite A. cbn [bind].
  destruct a; [|eauto]. destruct (desid_readable h2 R2) as (w & W). destruct (desid_plain h2 w W) as (b & B). rewrite W. cbn [bind]. eauto.
Qed.

Lemma seg_equal_same k s1 s2 : seg_equal k s1 s2 -> seg_same FO CO fp C k s1 s2 = Ok true.
Proof.
  unfold seg_same. intros [H|(H1 & H2 & H3 & H4)]; [apply skip_pair_true in H; now rewrite H|].
  pose proof (fun nm f L => proj1 (proj1 H1 nm f L)) as R1. pose proof (fun nm f L => proj2 (proj1 H1 nm f L)) as R2.
  destruct (skip_pair_ok k _ _ R1 R2) as (o & Eo). unfold sub_same. rewrite Eo. cbn [bind]. destruct o; [reflexivity|].
  destruct (short_ok k _ _ (short_scalar k) R1) as (r & ->). cbn [bind]. rewrite (fields_equal_same _ _ _ _ H1). cbn [bind].
  rewrite (ush_equal_same _ _ H2). cbn [bind]. change (kept_tres FO C) with left_tres.
  rewrite (pairs_equal _ _ tre_equal_same _ _ H3). cbn [bind]. now rewrite (data_equal_same _ _ _ _ _ H4).
Qed.

(** ** C47 *)

Lemma kinds_true f1 f2 : forall l, kinds_same FO CO fp C l f1 f2 = Ok true ->
  forall k, In k l -> Forall2 (seg_alike k) (left_segs k (nf_segs FO f1 k)) (left_segs k (nf_segs FO f2 k)).
Proof.
  induction l as [|k l IH]; intros E x Hx; [destruct Hx|]. cbn [kinds_same] in E. apply bind_ok_elim in E as (a & E1 & E).
  apply bind_ok_elim in E as (b & E2 & E). injection E as E. destruct a, b; try discriminate.
  destruct Hx as [<-|Hx]; [|exact (IH E2 x Hx)]. exact (pairs_true _ _ (seg_same_true k) _ _ E1).
Qed.

(** Files found to be the same: the same numbers of TREs and segments (after skipping), and
    these, taken in order, are alike. *)
Theorem C47_same_means_partial f1 f2 : file_same FO CO fp C f1 f2 = Ok true -> file_alike f1 f2.
Proof.
  unfold file_same. intro E. apply bind_ok_elim in E as (a & E1 & E). apply bind_ok_elim in E as (b & E2 & E).
  apply bind_ok_elim in E as (c & E3 & E). injection E as E. destruct a, b, c; try discriminate E.
  split; [now apply fields_same_true|]. split; [exact (pairs_true _ _ tre_same_true _ _ E2)|].
  intro k. apply (kinds_true f1 f2 kinds E3). destruct k; cbn; tauto.
Qed.

(** Files that do not differ in what is looked at are found to be the same. *)
Theorem C47_no_false_alarm f1 f2 : file_equal f1 f2 -> file_same FO CO fp C f1 f2 = Ok true.
Proof.
  intros (H1 & H2 & H3). unfold file_same. rewrite (fields_equal_same _ _ _ _ H1). cbn [bind].
  change (kept_tres FO C) with left_tres. rewrite (pairs_equal _ _ tre_equal_same _ _ H2). cbn [bind].
  assert (K : forall l, kinds_same FO CO fp C l f1 f2 = Ok true).
  { induction l as [|k l IH]; [reflexivity|]. cbn [kinds_same]. change (kept_segs FO C) with left_segs.
    rewrite (pairs_equal _ _ (seg_equal_same k) _ _ (H3 k)). cbn [bind]. now rewrite IH. }
  now rewrite K.
Qed.
End C.
End P.
