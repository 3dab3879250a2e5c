(** Reading, assigning and writing depend only on the values held. *)
From Verif Require Import Base BaseLemmas Engine Wf EngineLemmas Codec RoundTrip Rewrite Literal
  Positions Keys Deps Assign Update.
From Coq Require Import ZifyBool ZifyNat ZifyN.
Open Scope list_scope.

Section Ext.
Variable FO : FloatOps.
Variable rows : list row.
Let fs := mk_fs rows.
Notation st := (state FO).

(** Two stores holding the same values. *)
Definition eqst (s t : st) : Prop :=
  st_impl FO s = st_impl FO t /\ forall y p, In y (fs_fields fs) -> stored FO s y p = stored FO t y p.

Lemma eqst_refl s : eqst s s.
Proof. split; auto. Qed.
Lemma eqst_sym s t : eqst s t -> eqst t s.
Proof. intros [H1 H2]. split; [congruence|]. intros y p Hy. now rewrite H2. Qed.
Lemma eqst_trans s t u : eqst s t -> eqst t u -> eqst s u.
Proof. intros [H1 H2] [H3 H4]. split; [congruence|]. intros y p Hy. now rewrite H2, H4. Qed.

Section Two.
Variables s t : st.
Hypothesis H : eqst s t.

Lemma eq_getf : forall n f k, In f (fs_fields fs) -> getf FO n fs s f k = getf FO n fs t f k.
Proof.
  intros n. induction n as [|n IH]; intros f k Hf; auto.
  change (get_pub FO (getf FO n fs s) fs s f k = get_pub FO (getf FO n fs t) fs t f k).
  apply get_pub_ext; [|now apply H]. intros r y _ Hy p. apply IH. eapply lookup_in; eauto.
Qed.
Lemma eq_refs rs : refs_eq FO (G FO fs s) (G FO fs t) fs rs.
Proof. intros r f _ Hf k. apply eq_getf. eapply lookup_in; eauto. Qed.
Lemma eq_fget f k : In f (fs_fields fs) -> fget FO fs s f k = fget FO fs t f k.
Proof. intro Hf. apply get_pub_ext; [apply eq_refs|now apply H]. Qed.
Lemma eq_get nm k : get FO fs s nm k = get FO fs t nm k.
Proof.
  unfold get. destruct (lookup fs nm) as [f|] eqn:L; auto. destruct (key_shape_ok f k); auto.
  apply eq_fget. eapply lookup_in; eauto.
Qed.

Lemma eq_field_bytes f k : In f (fs_fields fs) -> field_bytes FO (G FO fs s) fs s f k = field_bytes FO (G FO fs t) fs t f k.
Proof. intro Hf. apply field_bytes_ext; [apply eq_refs|now apply H]. Qed.
Lemma eq_write_field f k : In f (fs_fields fs) -> write_field FO fs s f k = write_field FO fs t f k.
Proof.
  intro Hf. unfold write_field. rewrite (check_condition_ext FO _ (G FO fs t)) by apply eq_refs. now rewrite eq_field_bytes.
Qed.
Lemma eq_write_item it : incl (item_fields it) (fs_fields fs) -> forall lead, write_item FO fs s lead it = write_item FO fs t lead it.
Proof.
  induction it as [f|sh its IH] using item_ind'; intros HI lead.
  - apply eq_write_field. apply HI. now left.
  - rewrite !write_item_loop. rewrite (eval_shape_ext FO _ (G FO fs t)) by apply eq_refs.
    destruct (eval_shape FO (G FO fs t) fs lead sh) as [n|]; auto. cbn [bind].
    apply concat_map_res_ext. intros i _. unfold write_items. apply concat_map_res_ext.
    intros it Hit. rewrite Forall_forall in IH. apply IH; auto.
    intros f Hf. apply HI. cbn [item_fields]. apply in_flat_map. eauto.
Qed.
Lemma eq_write_chunks : write_chunks FO fs s = write_chunks FO fs t.
Proof.
  unfold write_chunks, write_items. apply concat_map_res_ext. intros it Hit. apply eq_write_item.
  intros f Hf. unfold fs_fields. apply in_flat_map. eauto.
Qed.
Lemma eq_write : write FO fs s = write FO fs t.
Proof. unfold write. now rewrite eq_write_chunks. Qed.
End Two.

Lemma eq_assigned s t f k v : In f (fs_fields fs) -> eqst s t -> eqst (assigned FO s f k v) (assigned FO t f k v).
Proof.
  intros Hf [H1 H2]. split; [exact H1|]. intros y p Hy. unfold stored, assigned. cbn [st_val set_raw set_val].
  destruct (Nat.eq_dec (f_id f) (f_id y)) as [E|E]; [destruct (list_eq_dec Z.eq_dec k p) as [E2|E2]|].
  - subst p. rewrite E, !upd_eq. reflexivity.
  - rewrite !upd_neq by auto. exact (H2 y p Hy).
  - rewrite !upd_neq by auto. exact (H2 y p Hy).
Qed.
(** Assigning the value held. *)
Lemma eq_reassigned s f k v : In f (fs_fields fs) -> stored FO s f k = v -> eqst (assigned FO s f k v) s.
Proof.
  intros Hf HS. split; [reflexivity|]. intros y p Hy.
  destruct (assigned_stored FO rows s f k v y p Hf Hy) as [E|[-> ->]]; [exact E|]. now rewrite assigned_self.
Qed.
(** Assigning twice. *)
Lemma eq_overwritten s f k v w : In f (fs_fields fs) -> eqst (assigned FO (assigned FO s f k v) f k w) (assigned FO s f k w).
Proof.
  intros Hf. split; [reflexivity|]. intros y p Hy. unfold stored, assigned. cbn [st_val set_raw set_val].
  destruct (Nat.eq_dec (f_id f) (f_id y)) as [E|E]; [destruct (list_eq_dec Z.eq_dec k p) as [E2|E2]|].
  - subst p. rewrite E, !upd_eq. reflexivity.
  - rewrite !upd_neq by auto. reflexivity.
  - rewrite !upd_neq by auto. reflexivity.
Qed.

Lemma eq_setf : forall n s t f k v, In f (fs_fields fs) -> eqst s t ->
  eqst (fst (setf FO n fs s f k v)) (fst (setf FO n fs t f k v)) /\ snd (setf FO n fs s f k v) = snd (setf FO n fs t f k v).
Proof.
  intros n. induction n as [|n IH]; intros s t f k v Hf H; [split; [exact H|reflexivity]|]. cbn [setf].
  assert (B : forall v, eqst (fst (set_base FO (setf FO n fs) fs s f k v)) (fst (set_base FO (setf FO n fs) fs t f k v))
     /\ snd (set_base FO (setf FO n fs) fs s f k v) = snd (set_base FO (setf FO n fs) fs t f k v)).
  { clear v. intro v. unfold set_base. destruct (fd_name (f_d f)); [|split; [exact H|reflexivity]].
    rewrite (check_index_ext FO _ (G FO fs t)) by now apply eq_refs.
    destruct (check_index FO (G FO fs t) fs f k) as [|e]; [|split; [exact H|reflexivity]].
    rewrite (check_condition_ext FO _ (G FO fs t)) by now apply eq_refs.
    destruct (check_condition FO (G FO fs t) fs f k) as [[|]|e]; try (split; [exact H|reflexivity]).
    destruct (fd_hard (f_d f) || _); [split; [exact H|reflexivity]|].
    replace (st_impl FO s) with (st_impl FO t) by (symmetry; apply H).
    destruct (st_impl FO t); [split; [exact H|reflexivity]|].
    destruct (match v with SVal VNone => negb (fd_optional (f_d f)) | _ => false end); [split; [exact H|reflexivity]|].
    fold (assigned FO s f k v). fold (assigned FO t f k v). cbn zeta.
    assert (HA := eq_assigned s t f k v Hf H).
    destruct (fd_ty (f_d f)); try (split; [exact HA|reflexivity]).
    destruct v as [[| | | |b|]|]; try (split; [exact HA|reflexivity]).
    destruct (fd_size_not_updated (f_d f)).
    - rewrite (fsize_ext FO _ (G FO fs (assigned FO t f k (SVal (VBytes b))))) by now apply eq_refs.
      destruct (fsize_of FO _ fs f k) as [sz|e]; [|split; [exact HA|reflexivity]].
      destruct (_ =? sz)%Z; (split; [exact HA|reflexivity]).
    - destruct (fd_size (f_d f)) as [|[]]; try (split; [exact HA|reflexivity]).
      destruct (lookup fs nm) as [g|] eqn:L; [|split; [exact HA|reflexivity]].
      destruct m as [|m], (depth g); try (split; [exact HA|reflexivity]).
      + apply IH; [eapply lookup_in; eauto|exact HA].
      + destruct (List.length k <? S m)%nat; [split; [exact HA|reflexivity]|]. apply IH; [eapply lookup_in; eauto|exact HA]. }
  destruct (fd_ty (f_d f)) as [| | | |dk] eqn:T; try apply B.
  destruct v as [v|]; [|split; [exact H|reflexivity]].
  replace (pack FO (G FO fs s) fs f k v) with (pack FO (G FO fs t) fs f k v).
  - destruct (pack FO (G FO fs t) fs f k v); [apply B|split; [exact H|reflexivity]].
  - symmetry. unfold pack. rewrite T. destruct dk; auto. now rewrite (fsize_ext FO _ (G FO fs t)) by now apply eq_refs.
Qed.

Lemma eq_set s t nm k v : eqst s t -> eqst (fst (set FO fs s nm k v)) (fst (set FO fs t nm k v)) /\ snd (set FO fs s nm k v) = snd (set FO fs t nm k v).
Proof.
  intro H. unfold set. destruct (lookup fs nm) as [f|] eqn:L; [|split; [exact H|reflexivity]].
  destruct (key_shape_ok f k); [|split; [exact H|reflexivity]]. apply eq_setf; [eapply lookup_in; eauto|exact H].
Qed.

Lemma in_file_eq s t pre file tail : eqst s t -> st_loc FO s = st_loc FO t -> in_file FO fs s pre file tail -> in_file FO fs t pre file tail.
Proof.
  intros H HL (cs & H1 & H2 & H3). exists cs. split; [now rewrite <- (eq_write_chunks s t H)|]. split; [exact H2|].
  eapply locs_ok_ext; [|exact H3]. intros. now rewrite HL.
Qed.

(** Patching a field with the value it has. *)
Lemma patch_same s file tail nm f ks k v :
  lookup fs nm = Some f -> is_data_ty (fd_ty (f_d f)) = false ->
  field_keys FO fs s f = Ok ks -> In k ks -> may_assign FO fs s f k v -> stored FO s f k = v ->
  in_file FO fs s [] file tail ->
  update_field FO fs s file nm k v = (assigned FO s f k v, Ok file)
  /\ in_file FO fs (assigned FO s f k v) [] file tail.
Proof.
  intros HL HT Hks Hk HM HS HI. assert (Hf := lookup_in _ _ _ HL).
  assert (HE := eq_reassigned s f k v Hf HS). split; [|exact (in_file_eq _ _ _ _ _ (eqst_sym _ _ HE) eq_refl HI)].
  destruct HI as (cs & Hcs & Hfile & Hloc).
  unfold update_field. rewrite HL.
  assert (Hset : fset FO fs s f k v = (assigned FO s f k v, Ok tt)).
  { unfold fset, fuel. cbn [setf].
    destruct (fd_ty (f_d f)) eqn:T; try discriminate;
    (match goal with |- context [set_base FO ?sub fs s f k v] => destruct (set_base FO sub fs s f k v) as [t r] eqn:E end;
     apply set_base_cases in E as [(_ & _ & A)|(_ & [(-> & -> & _)|[(A & _)|(A & _)]])];
     [contradiction|reflexivity|rewrite T in A; discriminate ..]). }
  rewrite Hset. rewrite (check_condition_ext FO _ (G FO fs s)) by now apply eq_refs.
  destruct HM as (Hn & _ & HC & _). rewrite HC.
  rewrite (eq_field_bytes _ _ HE) by exact Hf.
  apply write_chunks_positions in Hcs as (ps & Hps & Hcs).
  assert (Hin := in_positions _ _ _ _ _ _ _ Hps Hf Hks Hk).
  apply in_split in Hin as (ps1 & ps2 & ->).
  apply concat_map_res_split in Hcs as (c1 & x & c2 & H1 & Hx & H2 & ->).
  cbn [fst snd] in Hx. unfold write_field in Hx. rewrite HC in Hx. cbn [bind negb] in Hx.
  apply bind_ok_elim in Hx as (b & Hb & Hx). injection Hx as <-. rewrite Hb.
  apply locs_ok_app in Hloc as [L1 L2]. cbn [app locs_ok ch_field ch_key ch_bytes] in L2. destruct L2 as [L2 L3].
  change (st_loc FO (assigned FO s f k v)) with (st_loc FO s). rewrite L2 by exact Hn. f_equal. f_equal.
  rewrite Hfile. unfold chunks_bytes. rewrite !flat_map_app. cbn [flat_map ch_bytes app List.length]. rewrite !app_nil_r.
  rewrite <- !app_assoc. apply overwrite_at; auto. unfold chunks_bytes. lia.
Qed.
End Ext.
