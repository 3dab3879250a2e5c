(** Which fields a field reads, and what follows for changes of the store. *)
From Verif Require Import Base BaseLemmas Engine Wf EngineLemmas Codec RoundTrip Rewrite Literal Positions Keys.
From Coq Require Import ZifyBool ZifyNat ZifyN.
Open Scope list_scope.

(** Field [f]'s presence, size, value or loop count reads field [f']. *)
Definition field_refs (f : field) : list (string * nat) := own_refs f ++ shape_refs f.
Definition reads_directly (fs : fstruct) (f f' : field) : Prop :=
  exists r, In r (field_refs f) /\ lookup fs (fst r) = Some f'.
Inductive reaches (fs : fstruct) (f f' : field) : Prop :=
| reach_one : reads_directly fs f f' -> reaches fs f f'
| reach_more y : reads_directly fs f y -> reaches fs y f' -> reaches fs f f'.

(** ** Extensionality in the getter *)

Section Ext.
Variable FO : FloatOps.
Variables g1 g2 : field -> list Z -> res (pyval FO).
Variable fs : fstruct.

Definition refs_eq (rs : list (string * nat)) : Prop :=
  forall r f, In r rs -> lookup fs (fst r) = Some f -> forall k, g1 f k = g2 f k.

Lemma refs_eq_app a b : refs_eq (a ++ b) <-> refs_eq a /\ refs_eq b.
Proof.
  unfold refs_eq. split.
  - intro H. split; intros r f Hr; apply H; apply in_or_app; auto.
  - intros [H1 H2] r f Hr. apply in_app_or in Hr as [Hr|Hr]; [now apply H1|now apply H2].
Qed.

Lemma eval_ext key e : refs_eq (expr_refs e) -> eval FO g1 fs key e = eval FO g2 fs key e.
Proof.
  induction e using expr_ind'; cbn [expr_refs eval]; intro HR; auto;
    try (apply refs_eq_app in HR as [HR1 HR2]; now rewrite IHe1, IHe2 by assumption).
  - unfold eval_ref. destruct (lookup fs nm) as [f|] eqn:L; auto.
    assert (E : forall k, g1 f k = g2 f k) by (intro k; apply (HR (nm, m)); auto; now left).
    destruct m, (depth f); auto. now rewrite E.
  - apply refs_eq_app in HR as [HR1 HR2]. rewrite IHe by assumption.
    destruct (eval FO g2 fs key e) as [x|]; auto. cbn [bind].
    induction l as [|b l IHl]; auto. cbn [flat_map] in HR2. apply refs_eq_app in HR2 as [HR2 HR3].
    inversion H as [|? ? Hb Hl]; subst. rewrite Hb by assumption.
    destruct (eval FO g2 fs key b) as [y|]; auto. cbn [bind]. destruct (py_eqb FO x y) as [[|]|]; auto.
  - rewrite !refs_eq_app in HR. destruct HR as (H1 & H2 & H3). rewrite IHe1 by assumption.
    destruct (eval FO g2 fs key e1) as [x|]; auto. cbn [bind]. now rewrite IHe2, IHe3 by assumption.
  - now rewrite IHe by assumption.
  - now rewrite IHe by assumption.
Qed.

Lemma eval_shape_ext key e : refs_eq (expr_refs e) ->
  eval_shape FO g1 fs key e = eval_shape FO g2 fs key e.
Proof. intro H. unfold eval_shape. now rewrite eval_ext. Qed.

Lemma fsize_ext f k : refs_eq (size_refs (fd_size (f_d f))) -> fsize_of FO g1 fs f k = fsize_of FO g2 fs f k.
Proof. intro H. unfold fsize_of. destruct (fd_size (f_d f)); auto. now rewrite eval_ext. Qed.

Lemma check_condition_ext f k : refs_eq (opt_refs (fd_cond (f_d f))) ->
  check_condition FO g1 fs f k = check_condition FO g2 fs f k.
Proof. intro H. unfold check_condition. destruct (fd_cond (f_d f)); auto. now rewrite eval_ext. Qed.

Lemma check_index_ext f k : refs_eq (shape_refs f) ->
  check_index FO g1 fs f k = check_index FO g2 fs f k.
Proof.
  intro H. unfold check_index, shape_refs in *. destruct (f_loops f); auto.
  destruct (negb _); auto. destruct (_ <? 0)%Z; auto. now rewrite eval_shape_ext.
Qed.

Lemma field_refs_split f : refs_eq (field_refs f) ->
  refs_eq (opt_refs (fd_cond (f_d f))) /\ refs_eq (size_refs (fd_size (f_d f)))
  /\ refs_eq (opt_refs (fd_value (f_d f))) /\ refs_eq (shape_refs f).
Proof. unfold field_refs, own_refs. rewrite !refs_eq_app. tauto. Qed.

Lemma get_base_ext (s1 s2 : state FO) f k : refs_eq (field_refs f) ->
  stored FO s1 f k = stored FO s2 f k ->
  get_base FO g1 fs s1 f k = get_base FO g2 fs s2 f k.
Proof.
  intros HR HS. apply field_refs_split in HR as (R1 & R2 & R3 & R4).
  unfold get_base. destruct (fd_name (f_d f)); auto.
  rewrite check_index_ext, check_condition_ext, HS by assumption.
  destruct (check_index FO g2 fs f k); auto. cbn [bind]. destruct (check_condition FO g2 fs f k) as [c|]; auto.
  cbn [bind]. destruct c; auto. cbn [negb]. destruct (fd_value (f_d f)); auto.
  now rewrite eval_ext.
Qed.

Lemma get_pub_ext (s1 s2 : state FO) f k : refs_eq (field_refs f) ->
  stored FO s1 f k = stored FO s2 f k ->
  get_pub FO g1 fs s1 f k = get_pub FO g2 fs s2 f k.
Proof.
  intros HR HS. unfold get_pub. rewrite (get_base_ext s1 s2) by assumption.
  apply field_refs_split in HR as (R1 & R2 & R3 & R4).
  destruct (get_base FO g2 fs s2 f k) as [v|]; auto. cbn [bind].
  destruct (fd_ty (f_d f)) as [| | | |dk] eqn:T; auto. destruct v; auto. unfold unpack. rewrite T.
  destruct dk; auto. now rewrite fsize_ext.
Qed.

Lemma field_bytes_ext (s1 s2 : state FO) f k : refs_eq (field_refs f) ->
  stored FO s1 f k = stored FO s2 f k ->
  field_bytes FO g1 fs s1 f k = field_bytes FO g2 fs s2 f k.
Proof.
  intros HR HS. unfold field_bytes. rewrite (get_base_ext s1 s2) by assumption.
  apply field_refs_split in HR as (R1 & R2 & R3 & R4). now rewrite fsize_ext, HS by assumption.
Qed.

End Ext.

(** ** Frame *)

Section Frame.
Variable FO : FloatOps.
Variable fs : fstruct.

(** [A]: the fields possibly affected; the others read only unaffected fields. *)
Lemma getf_frame (A : field -> Prop) (s t : state FO) :
  (forall y y', ~ A y -> reads_directly fs y y' -> ~ A y') ->
  (forall y p, ~ A y -> stored FO s y p = stored FO t y p) ->
  forall n y p, ~ A y -> getf FO n fs s y p = getf FO n fs t y p.
Proof.
  intros HA HS n. induction n as [|n IH]; intros y p Hy; auto.
  change (get_pub FO (getf FO n fs s) fs s y p = get_pub FO (getf FO n fs t) fs t y p).
  apply get_pub_ext; auto. intros r f Hr HL k. apply IH. eapply HA; eauto. exists r. auto.
Qed.

Lemma frame_refs (A : field -> Prop) (s t : state FO) f :
  (forall y y', ~ A y -> reads_directly fs y y' -> ~ A y') ->
  (forall y p, ~ A y -> stored FO s y p = stored FO t y p) ->
  (forall y, reads_directly fs f y -> ~ A y) ->
  refs_eq FO (G FO fs s) (G FO fs t) fs (field_refs f).
Proof.
  intros HA HS HF r y Hr HL k. apply (getf_frame A); auto. apply HF. exists r. auto.
Qed.

Lemma get_frame (A : field -> Prop) (s t : state FO) nm f k :
  (forall y y', ~ A y -> reads_directly fs y y' -> ~ A y') ->
  (forall y p, ~ A y -> stored FO s y p = stored FO t y p) ->
  lookup fs nm = Some f -> (forall y, reads_directly fs f y -> ~ A y) ->
  stored FO s f k = stored FO t f k ->
  get FO fs s nm k = get FO fs t nm k.
Proof.
  intros HA HS HL HF HE. unfold get. rewrite HL. destruct (key_shape_ok f k); auto.
  unfold fget. apply get_pub_ext; auto. eapply frame_refs; eauto.
Qed.

(** The affected set of a change of [f0]. *)
Definition affected (f0 y : field) : Prop := y = f0 \/ reaches fs y f0.

Lemma affected_closed f0 y y' : ~ affected f0 y -> reads_directly fs y y' -> ~ affected f0 y'.
Proof.
  intros Hn HR [->|H]; apply Hn; right; [now apply reach_one|eapply reach_more; eauto].
Qed.

End Frame.

(** ** Well-formed tables are acyclic *)

Section Acyclic.
Variable rows : list row.
Let fs := mk_fs rows.

Definition env_lt (env : list field) (lo : nat) : Prop := Forall (fun y => (f_id y < lo)%nat) env.

Lemma ref_ok_lt env d r lo : env_lt env lo -> ref_ok fs env d r = true ->
  exists f, lookup fs (fst r) = Some f /\ (f_id f < lo)%nat.
Proof.
  unfold ref_ok. intros He H. destruct (lookup fs (fst r)) as [f|]; [|discriminate].
  apply andb_true_iff in H as [H _]. apply andb_true_iff in H as [H _].
  apply andb_true_iff in H as [H _]. apply existsb_exists in H as (y & Hy & E).
  apply Nat.eqb_eq in E. exists f. split; auto. rewrite <- E.
  unfold env_lt in He. rewrite Forall_forall in He. now apply He.
Qed.

Definition refs_lt (f : field) : Prop :=
  forall r, In r (field_refs f) -> exists f', lookup fs (fst r) = Some f' /\ (f_id f' < f_id f)%nat.

Definition item_lt (it : item) : Prop := forall env d lo n,
  env_lt env lo -> map f_id (item_fields it) = seq lo n -> item_ok fs env d it = true ->
  Forall refs_lt (item_fields it).

Lemma items_lt its : Forall item_lt its -> forall env d lo n,
  env_lt env lo -> map f_id (flat_map item_fields its) = seq lo n -> items_ok fs env d its = true ->
  Forall refs_lt (flat_map item_fields its).
Proof.
  induction 1 as [|it its Hit _ IH]; intros env d lo n He Hm Hok; [constructor|].
  cbn [flat_map items_ok] in *. apply andb_true_iff in Hok as [Hok1 Hok2].
  rewrite map_app in Hm.
  set (a := List.length (map f_id (item_fields it))).
  assert (Ha : (a <= n)%nat).
  { apply (f_equal (@List.length nat)) in Hm. rewrite app_length, seq_length in Hm. unfold a. lia. }
  assert (Hs : seq lo n = seq lo a ++ seq (lo + a) (n - a)).
  { rewrite <- seq_app. f_equal. lia. }
  rewrite Hs in Hm.
  assert (E1 : map f_id (item_fields it) = seq lo a).
  { apply (f_equal (firstn a)) in Hm. unfold a in Hm at 1. rewrite firstn_app, Nat.sub_diag, firstn_all in Hm.
    cbn in Hm. rewrite app_nil_r in Hm. rewrite Hm, firstn_app.
    rewrite seq_length, Nat.sub_diag. cbn. rewrite app_nil_r.
    rewrite <- (seq_length a lo) at 1. apply firstn_all. }
  rewrite E1 in Hm. apply app_inv_head in Hm.
  apply Forall_app. split; [eapply Hit; eauto|].
  eapply IH; [|exact Hm|exact Hok2]. unfold env_lt in *.
  destruct it as [f|]; cbn [env_after].
  - apply Forall_app. split.
    + eapply Forall_impl; [|exact He]. cbn beta. intros; lia.
    + constructor; auto. cbn in E1. unfold a in E1 |- *. cbn in E1 |- *. injection E1 as ->. lia.
  - eapply Forall_impl; [|exact He]. cbn beta. intros; lia.
Qed.

Lemma all_item_lt it : item_lt it.
Proof.
  induction it as [f|sh its IH] using item_ind'; intros env d lo n He Hm Hok.
  - cbn in *. constructor; auto. unfold field_ok in Hok.
    assert (E : f_id f = lo) by (destruct n; [discriminate|]; now injection Hm).
    repeat (apply andb_true_iff in Hok as [Hok ?]).
    intros r Hr. unfold field_refs in Hr. rewrite E. apply in_app_or in Hr as [Hr|Hr].
    + rewrite forallb_forall in *. eapply ref_ok_lt; eauto.
    + rewrite forallb_forall in *. eapply ref_ok_lt; eauto.
  - rewrite item_ok_loop in Hok. apply andb_true_iff in Hok as [_ Hok].
    cbn [item_fields] in *. eapply items_lt; eauto.
Qed.

Theorem wf_refs_lt f : wf_rows rows = true -> In f (fs_fields fs) -> refs_lt f.
Proof.
  intros Hwf Hf.
  assert (H : Forall refs_lt (flat_map item_fields (fs_items fs))).
  { eapply items_lt with (env := []) (lo := O); [| |exact (mk_fs_ids rows)|exact Hwf].
    - apply Forall_forall. intros it _. apply all_item_lt.
    - constructor. }
  rewrite Forall_forall in H. now apply H.
Qed.

Lemma wf_reads_lt f f' : wf_rows rows = true -> In f (fs_fields fs) -> reads_directly fs f f' ->
  (f_id f' < f_id f)%nat /\ In f' (fs_fields fs).
Proof.
  intros Hwf Hf (r & Hr & HL). destruct (wf_refs_lt f Hwf Hf r Hr) as (y & Hy & Hlt).
  rewrite HL in Hy. injection Hy as <-. split; auto. eapply lookup_in; eauto.
Qed.

Lemma wf_reaches_lt f f' : wf_rows rows = true -> In f (fs_fields fs) -> reaches fs f f' ->
  (f_id f' < f_id f)%nat.
Proof.
  intros Hwf Hf H. induction H as [f f' H|f f' y H _ IH].
  - now apply wf_reads_lt.
  - destruct (wf_reads_lt f y Hwf Hf H) as (A & B). specialize (IH B). lia.
Qed.

(** The recursion depth is enough: any larger one gives the same answers. *)
Theorem getf_fuel FO (s : state FO) : wf_rows rows = true -> forall n m f k,
  In f (fs_fields fs) -> (f_id f < n)%nat -> (f_id f < m)%nat ->
  getf FO n fs s f k = getf FO m fs s f k.
Proof.
  intros Hwf n. induction n as [|n IH]; intros m f k Hf Hn Hm; [lia|]. destruct m as [|m]; [lia|].
  change (get_pub FO (getf FO n fs s) fs s f k = get_pub FO (getf FO m fs s) fs s f k).
  apply get_pub_ext; auto. intros r y Hr HL p.
  destruct (wf_reads_lt f y Hwf Hf) as (A & B); [exists r; auto|]. apply IH; auto; lia.
Qed.

Lemma id_lt_fuel f : In f (fs_fields fs) -> (f_id f < fuel fs)%nat.
Proof.
  intro Hf. assert (H : In (f_id f) (map f_id (fs_fields fs))) by now apply in_map.
  unfold fs in H. rewrite mk_fs_ids in H. apply in_seq in H. unfold fuel, fs. lia.
Qed.

End Acyclic.

(** ** No field is referred to: every expression of the structure *)

Fixpoint item_refs (it : item) : list (string * nat) :=
  match it with
  | IField f => field_refs f
  | ILoop sh its => expr_refs sh ++ flat_map item_refs its
  end.

(** Nothing in the table refers to [f]. *)
Definition unreferenced (fs : fstruct) (f : field) : Prop :=
  forall r, In r (flat_map item_refs (fs_items fs)) -> lookup fs (fst r) <> Some f.

Definition unreferencedb (fs : fstruct) (f : field) : bool :=
  forallb (fun r => match lookup fs (fst r) with Some y => negb (Nat.eqb (f_id y) (f_id f)) | None => true end)
    (flat_map item_refs (fs_items fs)).

Lemma unreferencedb_ok fs f : unreferencedb fs f = true -> unreferenced fs f.
Proof.
  unfold unreferencedb, unreferenced. intros H r Hr E. rewrite forallb_forall in H.
  specialize (H r Hr). rewrite E, Nat.eqb_refl in H. discriminate.
Qed.

Lemma item_refs_field it f : In f (item_fields it) -> incl (field_refs f) (item_refs it).
Proof.
  induction it as [f0|sh its IH] using item_ind'; intro H.
  - destruct H as [<-|[]]. apply incl_refl.
  - cbn [item_fields item_refs] in *. apply in_flat_map in H as (it & Hit & H).
    rewrite Forall_forall in IH. intros r Hr. apply in_or_app. right. apply in_flat_map.
    exists it. split; auto. now apply (IH it Hit H).
Qed.

Section Unref.
Variable FO : FloatOps.
Variable rows : list row.
Let fs := mk_fs rows.
Variables (s t : state FO) (f0 : field).
Hypothesis Hun : unreferenced fs f0.
Hypothesis Hsame : forall y p, In y (fs_fields fs) -> y <> f0 -> stored FO s y p = stored FO t y p.

Lemma unref_reads y : In y (fs_fields fs) -> ~ reads_directly fs y f0.
Proof.
  intros Hy (r & Hr & HL). apply (Hun r); auto.
  unfold fs, mk_fs in Hy. cbn [fs_fields] in Hy. apply in_flat_map in Hy as (it & Hit & Hy).
  apply in_flat_map. exists it. split; auto. now apply (item_refs_field it y Hy).
Qed.

Lemma unref_getf n : forall y p, In y (fs_fields fs) -> y <> f0 ->
  getf FO n fs s y p = getf FO n fs t y p.
Proof.
  induction n as [|n IH]; intros y p Hy Hne; auto.
  change (get_pub FO (getf FO n fs s) fs s y p = get_pub FO (getf FO n fs t) fs t y p).
  apply get_pub_ext; [|now apply Hsame]. intros r f Hr HL k.
  apply IH; [eapply lookup_in; eauto|]. intros ->. apply (unref_reads y Hy). exists r. auto.
Qed.

Lemma unref_refs_eq rs : (forall r, In r rs -> lookup fs (fst r) <> Some f0) ->
  refs_eq FO (G FO fs s) (G FO fs t) fs rs.
Proof.
  intros H r f Hr HL k. apply unref_getf; [eapply lookup_in; eauto|].
  intros ->. now apply (H r Hr).
Qed.

Lemma unref_field_refs y : In y (fs_fields fs) -> refs_eq FO (G FO fs s) (G FO fs t) fs (field_refs y).
Proof.
  intro Hy. apply unref_refs_eq. intros r Hr E. apply (unref_reads y Hy). exists r. auto.
Qed.

Lemma unref_positions_item it : (forall r, In r (item_refs it) -> lookup fs (fst r) <> Some f0) ->
  forall lead, positions_item FO fs s lead it = positions_item FO fs t lead it.
Proof.
  induction it as [f|sh its IH] using item_ind'; intros H lead; auto.
  rewrite !positions_item_loop. cbn [item_refs] in H.
  rewrite (eval_shape_ext FO (G FO fs s) (G FO fs t)).
  - destruct (eval_shape FO (G FO fs t) fs lead sh) as [n|]; auto. cbn [bind].
    apply concat_map_res_ext. intros i _. unfold positions_items. apply concat_map_res_ext.
    intros it Hit. rewrite Forall_forall in IH. apply IH; auto. intros r Hr. apply H.
    apply in_or_app. right. apply in_flat_map. eauto.
  - apply unref_refs_eq. intros r Hr. apply H. apply in_or_app. now left.
Qed.

Lemma unref_positions : positions FO fs s = positions FO fs t.
Proof.
  unfold positions, positions_items. apply concat_map_res_ext. intros it Hit.
  apply unref_positions_item. intros r Hr. apply Hun. apply in_flat_map. eauto.
Qed.

Lemma unref_write_field y p : In y (fs_fields fs) -> stored FO s y p = stored FO t y p ->
  write_field FO fs s y p = write_field FO fs t y p.
Proof.
  intros Hy HS. assert (HR := unref_field_refs y Hy). unfold write_field.
  rewrite (check_condition_ext FO (G FO fs s) (G FO fs t)); [|now apply field_refs_split].
  now rewrite (field_bytes_ext FO (G FO fs s) (G FO fs t) fs s t).
Qed.

End Unref.
