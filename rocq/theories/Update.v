(** Updating a field of a structure already written to a file. *)
From Verif Require Import Base BaseLemmas Engine Wf EngineLemmas Codec RoundTrip Rewrite Literal
  Positions Keys Deps Assign.
From Coq Require Import ZifyBool ZifyNat ZifyN.
Open Scope list_scope.

(** Where the named fields of a written structure are, the first at [pos]. *)
Fixpoint locs_ok FO (s : state FO) (pos : Z) (cs : list chunk) : Prop :=
  match cs with
  | [] => True
  | c :: cs' => (fd_name (f_d (ch_field c)) <> None ->
                 st_loc FO s (f_id (ch_field c)) (ch_key c) = Some pos)
                /\ locs_ok FO s (pos + Z.of_nat (List.length (ch_bytes c)))%Z cs'
  end.

(** The file holds [pre], then what writing [s] gives, then [tail], and [s] knows where its
    fields are. *)
Definition in_file FO fs (s : state FO) (pre file tail : list N) : Prop :=
  exists cs, write_chunks FO fs s = Ok cs /\ file = pre ++ chunks_bytes cs ++ tail
    /\ locs_ok FO s (Z.of_nat (List.length pre)) cs.

Section Same.
Variable FO : FloatOps.
Variable fs : fstruct.

Lemma val_getf (s t : state FO) : st_val FO s = st_val FO t ->
  forall n f k, getf FO n fs s f k = getf FO n fs t f k.
Proof.
  intros H n. induction n as [|n IH]; intros f k; auto.
  change (get_pub FO (getf FO n fs s) fs s f k = get_pub FO (getf FO n fs t) fs t f k).
  apply get_pub_ext; [|unfold stored; now rewrite H]. intros r y _ _ p. apply IH.
Qed.

Lemma val_refs (s t : state FO) rs : st_val FO s = st_val FO t ->
  refs_eq FO (G FO fs s) (G FO fs t) fs rs.
Proof. intros H r f _ _ k. now apply val_getf. Qed.

Lemma val_write_field (s t : state FO) f k : st_val FO s = st_val FO t ->
  write_field FO fs s f k = write_field FO fs t f k.
Proof.
  intro H. unfold write_field.
  rewrite (check_condition_ext FO _ (G FO fs t)) by now apply val_refs.
  rewrite (field_bytes_ext FO _ (G FO fs t) fs s t); auto; [now apply val_refs|].
  unfold stored. now rewrite H.
Qed.

Lemma val_write_item (s t : state FO) it : st_val FO s = st_val FO t ->
  forall lead, write_item FO fs s lead it = write_item FO fs t lead it.
Proof.
  intro H. induction it as [f|sh its IH] using item_ind'; intro lead.
  - now apply val_write_field.
  - rewrite !write_item_loop. rewrite (eval_shape_ext FO _ (G FO fs t)) by now apply val_refs.
    destruct (eval_shape FO (G FO fs t) fs lead sh) as [n|]; auto. cbn [bind].
    apply concat_map_res_ext. intros i _. unfold write_items. apply concat_map_res_ext.
    intros it Hit. rewrite Forall_forall in IH. now apply IH.
Qed.

Lemma val_write_chunks (s t : state FO) : st_val FO s = st_val FO t ->
  write_chunks FO fs s = write_chunks FO fs t.
Proof.
  intro H. unfold write_chunks, write_items. apply concat_map_res_ext. intros it _. now apply val_write_item.
Qed.

Lemma record_locs_val cs : forall (s : state FO) p,
  st_val FO (record_locs FO s p cs) = st_val FO s
  /\ st_raw FO (record_locs FO s p cs) = st_raw FO s
  /\ st_impl FO (record_locs FO s p cs) = st_impl FO s.
Proof.
  induction cs as [|c cs IH]; intros s p; cbn [record_locs]; auto.
  destruct (IH (match fd_name (f_d (ch_field c)) with
      | None => s | Some _ => set_loc FO s (f_id (ch_field c)) (ch_key c) p end)
      (p + Z.of_nat (List.length (ch_bytes c)))%Z) as (-> & -> & ->).
  destruct (fd_name (f_d (ch_field c))); auto.
Qed.

Definition chunk_at (c : chunk) : nat * list Z := (f_id (ch_field c), ch_key c).

Lemma record_locs_other cs : forall (s : state FO) p i k, ~ In (i, k) (map chunk_at cs) ->
  st_loc FO (record_locs FO s p cs) i k = st_loc FO s i k.
Proof.
  induction cs as [|c cs IH]; intros s p i k H; cbn [record_locs]; auto.
  cbn [map] in H. rewrite IH by (intro; apply H; now right).
  destruct (fd_name (f_d (ch_field c))); auto. cbn [st_loc set_loc]. apply upd_neq.
  destruct (Nat.eq_dec (f_id (ch_field c)) i); auto. right. intro. apply H. left. unfold chunk_at. congruence.
Qed.

Lemma record_locs_ok cs : forall (s : state FO) p, NoDup (map chunk_at cs) ->
  locs_ok FO (record_locs FO s p cs) p cs.
Proof.
  induction cs as [|c cs IH]; intros s p H; cbn [locs_ok]; auto. cbn [map] in H. inversion H as [|? ? H1 H2]; subst.
  split; [|now apply IH]. intro Hn. cbn [record_locs].
  rewrite record_locs_other by assumption.
  destruct (fd_name (f_d (ch_field c))); [|congruence]. cbn [st_loc set_loc]. apply upd_eq.
Qed.

Lemma locs_ok_app (s : state FO) a b p : locs_ok FO s p (a ++ b) <->
  locs_ok FO s p a /\ locs_ok FO s (p + Z.of_nat (List.length (chunks_bytes a)))%Z b.
Proof.
  revert p. induction a as [|c a IH]; intro p; cbn [app locs_ok].
  - change (List.length (chunks_bytes [])) with O. rewrite Z.add_0_r. tauto.
  - rewrite IH. unfold chunks_bytes. cbn [flat_map]. rewrite app_length, Nat2Z.inj_add, Z.add_assoc. tauto.
Qed.

Lemma locs_ok_ext (s t : state FO) cs : st_loc FO s = st_loc FO t -> forall p,
  locs_ok FO s p cs -> locs_ok FO t p cs.
Proof. intro H. induction cs as [|c cs IH]; intros p; cbn [locs_ok]; auto. rewrite H. intros []. auto. Qed.

End Same.

Lemma write_fields_at FO fs (s : state FO) ps cs :
  concat_map_res (fun p => write_field FO fs s (fst p) (snd p)) ps = Ok cs ->
  NoDup ps -> NoDup (map (fun c => (ch_field c, ch_key c)) cs)
  /\ incl (map (fun c => (ch_field c, ch_key c)) cs) ps.
Proof.
  revert cs. induction ps as [|[f k] ps IH]; intros cs H Hnd.
  - injection H as <-. split; [constructor|intros x []].
  - inversion Hnd as [|? ? H1 H2]; subst. apply concat_map_res_ok_cons in H as (x & y & Hx & Hy & ->).
    destruct (IH y Hy H2) as [I1 I2]. cbn [fst snd] in Hx. unfold write_field in Hx.
    apply bind_ok_elim in Hx as (c & _ & Hx). destruct c; cbn [negb] in Hx.
    + apply bind_ok_elim in Hx as (b & _ & Hx). injection Hx as <-. cbn [app map ch_field ch_key]. split.
      * constructor; auto.
      * intros z [<-|Hz]; [now left|right; auto].
    + injection Hx as <-. cbn [app]. split; auto. intros z Hz. right. auto.
Qed.

Section Update.
Variable FO : FloatOps.
Variable rows : list row.
Let fs := mk_fs rows.

Lemma chunks_nodup (s : state FO) cs : write_chunks FO fs s = Ok cs -> NoDup (map chunk_at cs).
Proof.
  intro H. apply write_chunks_positions in H as (ps & Hps & H).
  destruct (write_fields_at FO fs s ps cs H (positions_nodup _ _ _ _ Hps)) as [H1 H2].
  assert (Hin : forall c, In c cs -> In (ch_field c) (fs_fields fs)).
  { intros c Hc. eapply positions_in_fields; [exact Hps|]. apply H2.
    apply (in_map (fun c => (ch_field c, ch_key c))). exact Hc. }
  clear H H2 Hps. induction cs as [|c cs IH]; [constructor|]. cbn [map] in *. inversion H1 as [|? ? N1 N2]; subst.
  constructor.
  - intro H. apply in_map_iff in H as (c' & E & Hc'). unfold chunk_at in E. injection E as E1 E2.
    apply (mk_fs_id_inj rows) in E1; [|apply Hin; now right|apply Hin; now left].
    apply N1. apply in_map_iff. exists c'. split; auto. congruence.
  - apply IH; auto. intros; apply Hin; now right.
Qed.

(** Writing a structure at the end of a file establishes [in_file]; appending to the file
    keeps it. *)
Theorem write_file_in_file (s s1 : state FO) pre file tail :
  write_file FO fs s pre = Ok (s1, file) -> in_file FO fs s1 pre (file ++ tail) tail.
Proof.
  unfold write_file. intro H. apply bind_ok_elim in H as (cs & Hcs & H). injection H as <- <-.
  exists cs. split; [|split].
  - rewrite <- Hcs. apply val_write_chunks. apply record_locs_val.
  - now rewrite app_assoc.
  - apply record_locs_ok. eapply chunks_nodup; eauto.
Qed.

Lemma in_file_written (s : state FO) pre file tail : in_file FO fs s pre file tail ->
  exists b, write FO fs s = Ok b /\ file = pre ++ b ++ tail.
Proof. intros (cs & H & E & _). exists (chunks_bytes cs). unfold write. rewrite H. auto. Qed.

Lemma concat_map_res_split {A B} (h : A -> res (list B)) l1 a l2 r :
  concat_map_res h (l1 ++ a :: l2) = Ok r ->
  exists r1 x r2, concat_map_res h l1 = Ok r1 /\ h a = Ok x /\ concat_map_res h l2 = Ok r2 /\ r = r1 ++ x ++ r2.
Proof.
  intro H. apply concat_map_res_app in H as (r1 & r2 & H1 & H2 & ->).
  apply concat_map_res_ok_cons in H2 as (x & y & Hx & Hy & ->). eauto 8.
Qed.

Lemma overwrite_at (a b b' d : list N) p : p = List.length a -> List.length b' = List.length b ->
  overwrite (a ++ b ++ d) p b' = a ++ b' ++ d.
Proof.
  intros -> H. unfold overwrite. rewrite firstn_app, Nat.sub_diag, firstn_all, firstn_O, app_nil_r.
  f_equal. f_equal. rewrite skipn_app, skipn_all2 by lia. cbn [app].
  rewrite H. replace (_ - _)%nat with (List.length b) by lia.
  rewrite skipn_app, skipn_all, Nat.sub_diag. reflexivity.
Qed.

(** One update: the file is what writing the new state gives; nothing around moves. *)
Theorem update_in_file (s s' : state FO) pre file tail nm f ks k v file' :
  wf_rows rows = true -> lookup fs nm = Some f -> unreferenced fs f ->
  is_data_ty (fd_ty (f_d f)) = false ->
  field_keys FO fs s f = Ok ks -> In k ks ->
  in_file FO fs s pre file tail ->
  update_field FO fs s file nm k v = (s', Ok file') ->
  in_file FO fs s' pre file' tail /\ s' = assigned FO s f k v
  /\ List.length file' = List.length file
  /\ (forall y, In y (fs_fields fs) -> field_keys FO fs s' y = field_keys FO fs s y).
Proof.
  intros Hwf HL Hun HT Hks Hk (cs & Hcs & Hfile & Hloc) HU.
  assert (Hf := lookup_in _ _ _ HL).
  unfold update_field in HU. rewrite HL in HU.
  assert (Hset : fset FO fs s f k v = (assigned FO s f k v, Ok tt) \/ exists e, fset FO fs s f k v = (s, Err e)).
  { unfold fset, fuel. cbn [setf].
    destruct (fd_ty (f_d f)) eqn:T; try discriminate;
    (match goal with |- context [set_base FO ?sub fs s f k v] => destruct (set_base FO sub fs s f k v) as [t r] eqn:E end;
     apply set_base_cases in E as [(-> & (e & ->) & _)|(_ & [(-> & -> & _)|[(A & _)|(A & _)]])];
     [right; eauto|left; auto|rewrite T in A; discriminate ..]). }
  destruct Hset as [Hset|(e & Hset)]; rewrite Hset in HU; [|discriminate].
  set (t := assigned FO s f k v) in *.
  destruct (check_condition FO (G FO fs t) fs f k) as [[|]|] eqn:HC; try discriminate.
  destruct (st_loc FO t (f_id f) k) as [p|] eqn:HP; [|discriminate].
  destruct (field_bytes FO (G FO fs t) fs t f k) as [b'|] eqn:HB; [|discriminate].
  injection HU as <- <-.
  assert (Hsame : forall y q, In y (fs_fields fs) -> y <> f -> stored FO s y q = stored FO t y q).
  { intros y q Hy Hne. symmetry. now apply (assigned_same FO rows). }
  apply write_chunks_positions in Hcs as (ps & Hps & Hcs).
  assert (Hps' : positions FO fs t = Ok ps).
  { rewrite <- Hps. symmetry. now apply (unref_positions FO rows s t f). }
  assert (Hnd := positions_nodup _ _ _ _ Hps).
  assert (Hin := in_positions _ _ _ _ _ _ _ Hps Hf Hks Hk).
  apply in_split in Hin as (ps1 & ps2 & ->).
  apply concat_map_res_split in Hcs as (c1 & x & c2 & H1 & Hx & H2 & ->).
  cbn [fst snd] in Hx.
  assert (HR := unref_field_refs FO rows s t f Hun Hsame f Hf). fold fs in HR.
  apply field_refs_split in HR as (R1 & R2 & R3 & R4).
  unfold write_field in Hx. rewrite (check_condition_ext FO _ (G FO fs t)), HC in Hx by assumption.
  cbn [bind negb] in Hx. apply bind_ok_elim in Hx as (b & Hb & Hx). injection Hx as <-.
  assert (Hlen : List.length b' = List.length b).
  { assert (exists sz, fsize_of FO (G FO fs t) fs f k = Ok sz) as (sz & Hsz)
      by (unfold field_bytes in HB; apply bind_ok_elim in HB as (sz & ? & _); eauto).
    pose proof (field_bytes_len _ _ _ _ _ _ _ _ Hsz HB) as L1.
    assert (Hsz' : fsize_of FO (G FO fs s) fs f k = Ok sz)
      by (rewrite (fsize_ext FO _ (G FO fs t)); assumption).
    pose proof (field_bytes_len _ _ _ _ _ _ _ _ Hsz' Hb) as L2. lia. }
  assert (Hothers : forall y q, In (y, q) (ps1 ++ ps2) -> write_field FO fs t y q = write_field FO fs s y q).
  { intros y q Hy. apply NoDup_remove_2 in Hnd.
    assert (Hyf : In y (fs_fields fs)).
    { apply (positions_in_fields FO rows s _ y q Hps). apply in_app_or in Hy as [Hy|Hy];
        apply in_or_app; [now left|right; now right]. }
    symmetry. apply (unref_write_field FO rows s t f Hun Hsame y q Hyf).
    symmetry. destruct (assigned_stored FO rows s f k v y q Hf Hyf) as [|[-> ->]]; auto. contradiction. }
  assert (Hcs' : write_chunks FO fs t = Ok (c1 ++ [{| ch_field := f; ch_key := k; ch_bytes := b' |}] ++ c2)).
  { apply write_chunks_positions. exists (ps1 ++ (f, k) :: ps2). split; [exact Hps'|].
    apply concat_map_res_app. eexists c1, _. split; [|split; [|reflexivity]].
    - rewrite <- H1. apply concat_map_res_ext. intros [y q] Hy. apply Hothers. apply in_or_app. now left.
    - apply concat_map_res_cons_iff. eexists _, c2. split; [|split; [|reflexivity]].
      + cbn [fst snd]. unfold write_field. rewrite HC. cbn [bind negb]. rewrite HB. reflexivity.
      + rewrite <- H2. apply concat_map_res_ext. intros [y q] Hy. apply Hothers. apply in_or_app. now right. }
  assert (Hn : fd_name (f_d f) <> None) by (rewrite (lookup_name _ _ _ HL); discriminate).
  apply locs_ok_app in Hloc as [L1 L2]. cbn [app locs_ok ch_field ch_key ch_bytes] in L2. destruct L2 as [L2 L3].
  assert (HtL : st_loc FO t = st_loc FO s) by reflexivity.
  assert (HO : overwrite file (Z.to_nat p) b'
    = pre ++ chunks_bytes (c1 ++ [{| ch_field := f; ch_key := k; ch_bytes := b' |}] ++ c2) ++ tail).
  { rewrite Hfile. rewrite HtL, L2 in HP by assumption. injection HP as <-.
    unfold chunks_bytes. rewrite !flat_map_app. cbn [flat_map ch_bytes]. rewrite !app_nil_r.
    rewrite <- !app_assoc. rewrite (app_assoc pre), (app_assoc pre).
    apply overwrite_at; auto. rewrite app_length. unfold chunks_bytes. lia. }
  split; [|split; [reflexivity|split]].
  - eexists. split; [exact Hcs'|]. split.
    + exact HO.
    + apply locs_ok_app. split; [eapply locs_ok_ext; [|exact L1]; auto|].
      cbn [app locs_ok ch_field ch_key ch_bytes]. split; [rewrite HtL; exact L2|].
      rewrite Hlen. eapply locs_ok_ext; [|exact L3]; auto.
  - rewrite HO, Hfile. unfold chunks_bytes. rewrite !flat_map_app, !app_length. cbn [flat_map ch_bytes]. rewrite !app_length. lia.
  - intros y Hy. pose proof (positions_keys _ _ _ _ _ Hps Hy) as K1. pose proof (positions_keys _ _ _ _ _ Hps' Hy) as K2.
    fold fs in K1, K2. congruence.
Qed.

(** A sequence of updates, all succeeding. *)
Fixpoint update_all (s : state FO) (file : list N) (ops : list (string * list Z * sval FO))
  : state FO * res (list N) :=
  match ops with
  | [] => (s, Ok file)
  | (nm, k, v) :: ops' =>
      match update_field FO fs s file nm k v with
      | (s', Ok file') => update_all s' file' ops'
      | (s', Err e) => (s', Err e)
      end
  end.

Theorem updates_in_file ops : forall (s s' : state FO) pre file tail file',
  wf_rows rows = true ->
  (forall nm k v, In (nm, k, v) ops -> exists f ks, lookup fs nm = Some f /\ unreferenced fs f
     /\ is_data_ty (fd_ty (f_d f)) = false /\ field_keys FO fs s f = Ok ks /\ In k ks) ->
  in_file FO fs s pre file tail ->
  update_all s file ops = (s', Ok file') ->
  in_file FO fs s' pre file' tail.
Proof.
  induction ops as [|[[nm k] v] ops IH]; intros s s' pre file tail file' Hwf Hops HF HU.
  - injection HU as <- <-. auto.
  - cbn [update_all] in HU. destruct (update_field FO fs s file nm k v) as [s1 [file1|]] eqn:E; [|discriminate].
    destruct (Hops nm k v (or_introl eq_refl)) as (f & ks & HL & Hun & HT & Hks & Hk).
    destruct (update_in_file s s1 pre file tail nm f ks k v file1 Hwf HL Hun HT Hks Hk HF E) as (HF1 & _ & _ & Hkeys).
    apply (IH s1 s' pre file1 tail file'); auto.
    intros nm' k' v' Hin. destruct (Hops nm' k' v' (or_intror Hin)) as (f' & ks' & HL' & Hun' & HT' & Hks' & Hk').
    exists f', ks'. split; [auto|]. split; [auto|]. split; [auto|]. split; auto.
    rewrite Hkeys; auto. eapply lookup_in; eauto.
Qed.

End Update.
