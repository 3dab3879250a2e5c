(** * Structures in an open file

    C12 in terms of the file position, and C69: what writing and updating leave behind, whether
    they succeed or not. *)
From Verif Require Import Base BaseLemmas Engine Wf EngineLemmas Codec RoundTrip Rewrite Literal
  Positions Keys Deps Assign Update Spec P_Expr P_Fits Ex Decimal OpenFile.
From Coq Require Import ZifyBool ZifyNat ZifyN.
Open Scope list_scope.

(** ** The file *)
Lemma fh_write_at h b : (fh_pos h <= List.length (fh_bytes h))%nat ->
  fh_bytes (fh_write h b) = overwrite (fh_bytes h) (fh_pos h) b
  /\ fh_pos (fh_write h b) = (fh_pos h + List.length b)%nat.
Proof.
  intro H. unfold fh_write. destruct b as [|x b].
  - unfold overwrite. cbn [List.length app]. rewrite Nat.add_0_r, firstn_skipn. auto.
  - cbn [fh_bytes fh_pos]. replace (fh_pos h - _)%nat with O by lia. cbn [repeat]. now rewrite app_nil_r.
Qed.

Lemma overwrite_length file p b : (p <= List.length file)%nat -> (p + List.length b <= List.length (overwrite file p b))%nat.
Proof. intro H. unfold overwrite. rewrite !app_length, firstn_length. lia. Qed.

Lemma overwrite_app file p a b : (p <= List.length file)%nat ->
  overwrite (overwrite file p a) (p + List.length a) b = overwrite file p (a ++ b).
Proof.
  intro H. assert (L : List.length (firstn p file ++ a) = (p + List.length a)%nat) by (rewrite app_length, firstn_length; lia).
  unfold overwrite at 2. rewrite app_assoc. unfold overwrite.
  assert (F : forall d : list N, firstn (p + List.length a) ((firstn p file ++ a) ++ d) = firstn p file ++ a)
    by (intro d; rewrite firstn_app, L, Nat.sub_diag, firstn_O, app_nil_r, firstn_all2 by lia; reflexivity).
  rewrite F. rewrite skipn_app, L, skipn_all2 by lia. cbn [app].
  replace (p + List.length a + List.length b - (p + List.length a))%nat with (List.length b) by lia.
  assert (SK : forall m n (l : list N), skipn m (skipn n l) = skipn (n + m) l).
  { intros m n. induction n as [|n IHn]; intros l; [reflexivity|]. destruct l; [now rewrite !skipn_nil|apply IHn]. }
  rewrite SK. now rewrite <- !app_assoc, app_length, Nat.add_assoc.
Qed.

Lemma fh_write_app h a b : (fh_pos h <= List.length (fh_bytes h))%nat ->
  fh_write (fh_write h a) b = fh_write h (a ++ b).
Proof.
  intro H. destruct (fh_write_at h a H) as [A1 A2]. destruct (fh_write_at h (a ++ b) H) as [B1 B2].
  assert (H1 : (fh_pos (fh_write h a) <= List.length (fh_bytes (fh_write h a)))%nat)
    by (rewrite A1, A2; now apply overwrite_length).
  destruct (fh_write_at (fh_write h a) b H1) as [C1 C2].
  destruct (fh_write (fh_write h a) b) as [x p], (fh_write h (a ++ b)) as [y q]. cbn [fh_bytes fh_pos] in *.
  rewrite A1, A2, overwrite_app in C1 by assumption. rewrite app_length in B2. f_equal; [congruence|lia].
Qed.

Lemma fh_write_inside h b : (fh_pos h <= List.length (fh_bytes h))%nat ->
  (fh_pos (fh_write h b) <= List.length (fh_bytes (fh_write h b)))%nat.
Proof. intro H. destruct (fh_write_at h b H) as [-> ->]. now apply overwrite_length. Qed.

Section OpenFileWrite.
Variable FO : FloatOps.
Variable fs : fstruct.
Notation state := (state FO).

(** Nothing but locations differs. *)
Definition same_values (s t : state) : Prop :=
  st_val FO s = st_val FO t /\ st_raw FO s = st_raw FO t /\ st_impl FO s = st_impl FO t.

Lemma same_values_refl s : same_values s s. Proof. repeat split. Qed.
Lemma same_values_trans s t u : same_values s t -> same_values t u -> same_values s u.
Proof. intros (A & B & C) (D & E & F). repeat split; congruence. Qed.

Lemma record_locs_app cs1 cs2 : forall (s : state) p, record_locs FO s p (cs1 ++ cs2)
  = record_locs FO (record_locs FO s p cs1) (p + Z.of_nat (List.length (chunks_bytes cs1)))%Z cs2.
Proof.
  induction cs1 as [|c cs1 IH]; intros s p; cbn [app record_locs].
  - change (List.length (chunks_bytes [])) with O. now rewrite Z.add_0_r.
  - rewrite IH. f_equal. unfold chunks_bytes. cbn [flat_map]. rewrite app_length, Nat2Z.inj_add. lia.
Qed.

Lemma chunks_bytes_app a b : chunks_bytes (a ++ b) = chunks_bytes a ++ chunks_bytes b.
Proof. unfold chunks_bytes. now rewrite flat_map_app. Qed.

Lemma fh_write_field_spec f k s h :
  match write_field FO fs s f k with
  | Ok cs => fh_write_field FO fs f k (s, h) = ((record_locs FO s (Z.of_nat (fh_pos h)) cs, fh_write h (chunks_bytes cs)), Ok tt)
  | Err e => exists s', fh_write_field FO fs f k (s, h) = ((s', h), Err e)
               /\ (cond_is FO fs s f k true -> fd_name (f_d f) <> None -> s' = set_loc FO s (f_id f) k (Z.of_nat (fh_pos h)))
               /\ (fd_name (f_d f) = None \/ ~ cond_is FO fs s f k true -> s' = s)
  end.
Proof.
  unfold write_field, fh_write_field. pose proof (cond_is_check FO fs s f k true) as HC.
  destruct (check_condition FO (G FO fs s) fs f k) as [[|]|e]; cbn [bind negb].
  - destruct (fd_name (f_d f)) as [nm|] eqn:HN.
    + set (s1 := set_loc FO s (f_id f) k (Z.of_nat (fh_pos h))).
      rewrite (field_bytes_ext FO (G FO fs s1) (G FO fs s) fs s1 s) by (first [now apply val_refs|reflexivity]).
      destruct (field_bytes FO (G FO fs s) fs s f k) as [b|e]; cbn [bind].
      * cbn [record_locs ch_field ch_key ch_bytes chunks_bytes flat_map]. rewrite HN, app_nil_r. reflexivity.
      * exists s1. split; [reflexivity|]. split; [auto|]. intros [A|A]; [discriminate A|]. destruct A. now apply HC.
    + destruct (field_bytes FO (G FO fs s) fs s f k) as [b|e]; cbn [bind].
      * cbn [record_locs ch_field ch_key ch_bytes chunks_bytes flat_map]. rewrite HN, app_nil_r. reflexivity.
      * exists s. split; [reflexivity|]. split; [intros _ A; now destruct A|auto].
  - reflexivity.
  - exists s. split; [reflexivity|]. split; [|auto]. intro A. apply HC in A. discriminate A.
Qed.

(** Position by position. *)
Definition fh_positions := each (fun q : field * list Z => fh_write_field FO fs (fst q) (snd q)).

Lemma each_app {A W} (step : A -> W -> W * res unit) l1 l2 w : each step (l1 ++ l2) w =
  match each step l1 w with (w', Ok _) => each step l2 w' | (w', Err e) => (w', Err e) end.
Proof.
  revert w. induction l1 as [|a l1 IH]; intro w; cbn [app each]; auto.
  destruct (step a w) as [w' [u|e]]; auto.
Qed.

Lemma fh_write_item_loop lead sh its p : fh_write_item FO fs lead (ILoop sh its) p =
  match eval_shape FO (G FO fs (fst p)) fs lead sh with
  | Err e => (p, Err e)
  | Ok n => each (fun i => each (fh_write_item FO fs (lead ++ [i])) its) (zrange n) p
  end.
Proof.
  cbn [fh_write_item]. destruct (eval_shape FO (G FO fs (fst p)) fs lead sh) as [n|e]; auto.
  revert p. induction (zrange n) as [|i l IH]; intro p; cbn [each]; auto.
  match goal with |- match ?a with _ => _ end = match ?b with _ => _ end => assert (E : a = b) end.
  { clear. revert p. induction its as [|it its IH]; intro p; cbn [each]; auto.
    destruct (fh_write_item FO fs (lead ++ [i]) it p) as [p' [u|e]]; auto. }
  rewrite E. match goal with |- match ?a with _ => _ end = _ => destruct a as [p' [u|e]]; auto end.
Qed.

(** Steps preserving the values. *)
Lemma fh_write_field_values f k p : same_values (fst p) (fst (fst (fh_write_field FO fs f k p))).
Proof.
  destruct p as [s h]. unfold fh_write_field.
  destruct (check_condition FO (G FO fs s) fs f k) as [[|]|e]; try apply same_values_refl.
  destruct (fd_name (f_d f)); match goal with |- context [field_bytes FO ?a ?b ?c ?d ?e] => destruct (field_bytes FO a b c d e) end;
    cbn [fst]; repeat split.
Qed.

Lemma each_values {A} (step : A -> state * fhandle -> (state * fhandle) * res unit) l :
  (forall a p, In a l -> same_values (fst p) (fst (fst (step a p)))) ->
  forall p, same_values (fst p) (fst (fst (each step l p))).
Proof.
  induction l as [|a l IH]; intros H p; cbn [each]; [apply same_values_refl|].
  pose proof (H a p (or_introl eq_refl)) as H1. destruct (step a p) as [p' [u|e]]; cbn [fst] in *; auto.
  eapply same_values_trans; [exact H1|]. apply IH. intros; apply H; now right.
Qed.

Lemma fh_write_item_values it : forall lead p, same_values (fst p) (fst (fst (fh_write_item FO fs lead it p))).
Proof.
  induction it as [f|sh its IH] using item_ind'; intros lead p.
  - apply fh_write_field_values.
  - rewrite fh_write_item_loop. destruct (eval_shape FO (G FO fs (fst p)) fs lead sh); [|apply same_values_refl].
    apply each_values. intros i q _. apply each_values. intros it q' Hit. rewrite Forall_forall in IH. now apply IH.
Qed.

(** With the loop counts known, writing goes through the positions. *)
Lemma each_positions {A} (step : A -> state * fhandle -> (state * fhandle) * res unit) (pos : A -> res (list (field * list Z))) s l :
  (forall a p ps, In a l -> same_values s (fst p) -> pos a = Ok ps -> step a p = fh_positions ps p) ->
  (forall a p, In a l -> same_values (fst p) (fst (fst (step a p)))) ->
  forall ps p, same_values s (fst p) -> concat_map_res pos l = Ok ps -> each step l p = fh_positions ps p.
Proof.
  induction l as [|a l IH]; intros H HV ps p HS HP.
  - injection HP as <-. reflexivity.
  - apply concat_map_res_ok_cons in HP as (x & y & Hx & Hy & ->). cbn [each]. unfold fh_positions. rewrite each_app.
    change (each _ x p) with (fh_positions x p). rewrite <- (H a p x (or_introl eq_refl) HS Hx).
    pose proof (HV a p (or_introl eq_refl)) as H1. destruct (step a p) as [p' [u|e]]; auto. cbn [fst] in H1.
    apply IH; auto; [intros; apply H; auto; now right|intros; apply HV; now right|eapply same_values_trans; eauto].
Qed.

Lemma fh_write_item_positions s it : forall lead p ps, same_values s (fst p) ->
  positions_item FO fs s lead it = Ok ps -> fh_write_item FO fs lead it p = fh_positions ps p.
Proof.
  induction it as [f|sh its IH] using item_ind'; intros lead p ps HS HP.
  - injection HP as <-. cbn [fh_write_item]. unfold fh_positions. cbn [each fst snd].
    destruct (fh_write_field FO fs f lead p) as [p' [[]|e]]; reflexivity.
  - rewrite fh_write_item_loop. rewrite positions_item_loop in HP. apply bind_ok_elim in HP as (n & Hn & HP).
    rewrite (eval_shape_ext FO _ (G FO fs s)) by (apply val_refs; symmetry; apply HS). rewrite Hn.
    eapply each_positions; [| |exact HS|exact HP].
    + intros i q qs _ HSq Hqs. eapply each_positions; [| |exact HSq|exact Hqs].
      * intros it q' qs' Hit HSq' Hq'. rewrite Forall_forall in IH. now apply IH.
      * intros it q' _. apply fh_write_item_values.
    + intros i q _. apply each_values. intros it q' _. apply fh_write_item_values.
Qed.

Lemma fh_write_struct_positions s h ps : positions FO fs s = Ok ps -> fh_write_struct FO fs (s, h) = fh_positions ps (s, h).
Proof.
  intro HP. unfold fh_write_struct. eapply (each_positions _ _ s); [| |apply same_values_refl|exact HP].
  - intros it p qs _ HS Hqs. now apply (fh_write_item_positions s).
  - intros it p _. apply fh_write_item_values.
Qed.

(** All positions that can be written are. *)
Lemma fh_positions_ok ps : forall s h cs, (fh_pos h <= List.length (fh_bytes h))%nat ->
  concat_map_res (fun q => write_field FO fs s (fst q) (snd q)) ps = Ok cs ->
  fh_positions ps (s, h) = ((record_locs FO s (Z.of_nat (fh_pos h)) cs, fh_write h (chunks_bytes cs)), Ok tt).
Proof.
  induction ps as [|[f k] ps IH]; intros s h cs Hh H.
  - injection H as <-. reflexivity.
  - apply concat_map_res_ok_cons in H as (x & y & Hx & Hy & ->). cbn [fst snd] in Hx.
    unfold fh_positions. cbn [each fst snd]. pose proof (fh_write_field_spec f k s h) as HF. rewrite Hx in HF. rewrite HF.
    change (fh_positions ps (record_locs FO s (Z.of_nat (fh_pos h)) x, fh_write h (chunks_bytes x)) =
      (record_locs FO s (Z.of_nat (fh_pos h)) (x ++ y), fh_write h (chunks_bytes (x ++ y)), Ok tt)).
    rewrite (IH _ _ y).
    + rewrite record_locs_app, chunks_bytes_app, fh_write_app by assumption.
      destruct (fh_write_at h (chunks_bytes x) Hh) as [_ ->]. now rewrite Nat2Z.inj_add.
    + now apply fh_write_inside.
    + rewrite <- Hy. apply concat_map_res_ext. intros q _. apply val_write_field. apply record_locs_val.
Qed.

Lemma fh_positions_err ps : forall s h e, (fh_pos h <= List.length (fh_bytes h))%nat ->
  concat_map_res (fun q => write_field FO fs s (fst q) (snd q)) ps = Err e ->
  exists ps1 f k ps2 cs, ps = ps1 ++ (f, k) :: ps2
    /\ concat_map_res (fun q => write_field FO fs s (fst q) (snd q)) ps1 = Ok cs
    /\ write_field FO fs s f k = Err e
    /\ exists s', fh_positions ps (s, h) = ((s', fh_write h (chunks_bytes cs)), Err e)
       /\ let s1 := record_locs FO s (Z.of_nat (fh_pos h)) cs in
          (cond_is FO fs s f k true -> fd_name (f_d f) <> None ->
             s' = set_loc FO s1 (f_id f) k (Z.of_nat (fh_pos h + List.length (chunks_bytes cs))))
          /\ (fd_name (f_d f) = None \/ ~ cond_is FO fs s f k true -> s' = s1).
Proof.
  induction ps as [|[f k] ps IH]; intros s h e Hh H; [discriminate H|].
  cbn [concat_map_res fst snd] in H. pose proof (fh_write_field_spec f k s h) as HF.
  destruct (write_field FO fs s f k) as [x|e'] eqn:Hx; cbn [bind] in H.
  - destruct (concat_map_res (fun q => write_field FO fs s (fst q) (snd q)) ps) as [y|e'] eqn:Hy; cbn [bind] in H; [discriminate H|].
    injection H as ->.
    assert (HV : st_val FO (record_locs FO s (Z.of_nat (fh_pos h)) x) = st_val FO s) by apply record_locs_val.
    assert (HX : forall l, concat_map_res (fun q => write_field FO fs (record_locs FO s (Z.of_nat (fh_pos h)) x) (fst q) (snd q)) l
                 = concat_map_res (fun q => write_field FO fs s (fst q) (snd q)) l)
      by (intro l; apply concat_map_res_ext; intros q _; now apply val_write_field).
    destruct (IH (record_locs FO s (Z.of_nat (fh_pos h)) x) (fh_write h (chunks_bytes x)) e) as (ps1 & g & j & ps2 & cs & -> & H1 & H2 & s' & H3 & H4 & H5).
    + now apply fh_write_inside.
    + now rewrite HX.
    + rewrite HX in H1. rewrite (val_write_field FO fs _ s) in H2 by assumption.
      assert (HCond : forall b, cond_is FO fs (record_locs FO s (Z.of_nat (fh_pos h)) x) g j b <-> cond_is FO fs s g j b).
      { intro b. rewrite !cond_is_check. rewrite (check_condition_ext FO _ (G FO fs s)) by now apply val_refs. reflexivity. }
      exists ((f, k) :: ps1), g, j, ps2, (x ++ cs). split; [reflexivity|]. split; [cbn [concat_map_res fst snd]; rewrite Hx, H1; reflexivity|].
      split; [exact H2|]. exists s'. split.
      * unfold fh_positions. cbn [each fst snd]. rewrite HF, chunks_bytes_app, <- fh_write_app by assumption. exact H3.
      * destruct (fh_write_at h (chunks_bytes x) Hh) as [_ HL]. rewrite HL in H4, H5. rewrite record_locs_app, chunks_bytes_app, app_length, <- Nat2Z.inj_add, Nat.add_assoc.
        cbn zeta in *. split; [intros A B; apply H4; auto; now apply HCond|].
        intros A. apply H5. destruct A as [A|A]; [now left|right]. intro B. apply A. now apply HCond.
  - injection H as ->. destruct HF as (s' & HF & H1 & H2). exists [], f, k, ps, []. split; [reflexivity|]. split; [reflexivity|].
    split; [exact Hx|]. exists s'. split; [unfold fh_positions; cbn [each fst snd]; rewrite HF; reflexivity|].
    cbn [chunks_bytes flat_map List.length record_locs]. rewrite Nat.add_0_r. auto.
Qed.

(** Writing succeeds only if every loop count is known. *)
Lemma each_positions_ok {A} (step : A -> state * fhandle -> (state * fhandle) * res unit) (pos : A -> res (list (field * list Z))) s l :
  (forall a p p' u, In a l -> same_values s (fst p) -> step a p = (p', Ok u) -> exists ps, pos a = Ok ps) ->
  (forall a p, In a l -> same_values (fst p) (fst (fst (step a p)))) ->
  forall p p' u, same_values s (fst p) -> each step l p = (p', Ok u) -> exists ps, concat_map_res pos l = Ok ps.
Proof.
  induction l as [|a l IH]; intros H HV p p' u HS HE; cbn [each concat_map_res] in *; [eauto|].
  pose proof (HV a p (or_introl eq_refl)) as H1. destruct (step a p) as [q [w|e]] eqn:E; [|discriminate HE]. cbn [fst] in H1.
  destruct (H a p q w (or_introl eq_refl) HS E) as (x & ->). cbn [bind].
  destruct (IH (fun a p p' u Ha => H a p p' u (or_intror Ha)) (fun a p Ha => HV a p (or_intror Ha)) q p' u) as (y & ->); [eapply same_values_trans; eauto|exact HE|].
  cbn [bind]. eauto.
Qed.

Lemma fh_write_item_ok s it : forall lead p p' u, same_values s (fst p) -> fh_write_item FO fs lead it p = (p', Ok u) ->
  exists ps, positions_item FO fs s lead it = Ok ps.
Proof.
  induction it as [f|sh its IH] using item_ind'; intros lead p p' u HS HE; [cbn; eauto|].
  rewrite fh_write_item_loop in HE. rewrite positions_item_loop.
  rewrite (eval_shape_ext FO _ (G FO fs s)) in HE by (apply val_refs; symmetry; apply HS).
  destruct (eval_shape FO (G FO fs s) fs lead sh) as [n|e]; [|discriminate HE]. cbn [bind].
  eapply each_positions_ok; [| |exact HS|exact HE].
  - intros i q q' w _ HSq Hq. eapply each_positions_ok; [| |exact HSq|exact Hq].
    + intros it r r' x Hit HSr Hr. rewrite Forall_forall in IH. eapply IH; eauto.
    + intros it r _. apply fh_write_item_values.
  - intros i q _. apply each_values. intros it r _. apply fh_write_item_values.
Qed.

Lemma fh_write_struct_values p : same_values (fst p) (fst (fst (fh_write_struct FO fs p))).
Proof. unfold fh_write_struct. apply each_values. intros it q _. apply fh_write_item_values. Qed.

Lemma fh_write_struct_ok s h p' u : (fh_pos h <= List.length (fh_bytes h))%nat ->
  fh_write_struct FO fs (s, h) = (p', Ok u) ->
  exists cs, write_chunks FO fs s = Ok cs /\ p' = (record_locs FO s (Z.of_nat (fh_pos h)) cs, fh_write h (chunks_bytes cs)).
Proof.
  intros Hh HE. assert (exists ps, positions FO fs s = Ok ps) as (ps & HP).
  { unfold positions, positions_items. eapply (each_positions_ok (fh_write_item FO fs []) _ s (fs_items fs)) with (p := (s, h)); [| |apply same_values_refl|exact HE].
    - intros it q q' w _ HSq Hq. eapply fh_write_item_ok; eauto.
    - intros it q _. apply fh_write_item_values. }
  rewrite (fh_write_struct_positions s h ps HP) in HE.
  destruct (concat_map_res (fun q => write_field FO fs s (fst q) (snd q)) ps) as [cs|e] eqn:HC.
  - exists cs. split; [apply write_chunks_positions; eauto|]. rewrite (fh_positions_ok ps s h cs Hh HC) in HE. congruence.
  - destruct (fh_positions_err ps s h e Hh HC) as (? & ? & ? & ? & ? & _ & _ & _ & s' & HE' & _). rewrite HE' in HE. discriminate HE.
Qed.

(** Whatever happens, bytes are put at the position and nowhere else. *)
Lemma each_puts {A} (step : A -> state * fhandle -> (state * fhandle) * res unit) l :
  (forall a s h, In a l -> (fh_pos h <= List.length (fh_bytes h))%nat -> exists b, snd (fst (step a (s, h))) = fh_write h b) ->
  forall s h, (fh_pos h <= List.length (fh_bytes h))%nat -> exists b, snd (fst (each step l (s, h))) = fh_write h b.
Proof.
  induction l as [|a l IH]; intros H s h Hh; cbn [each]; [exists []; reflexivity|].
  destruct (H a s h (or_introl eq_refl) Hh) as (b & Hb). destruct (step a (s, h)) as [[s1 h1] [u|e]]; cbn [fst snd] in *; [|eauto].
  subst h1. destruct (IH (fun a s h Ha => H a s h (or_intror Ha)) s1 (fh_write h b)) as (c & Hc); [now apply fh_write_inside|].
  exists (b ++ c). now rewrite Hc, fh_write_app.
Qed.

Lemma fh_write_item_puts it : forall lead s h, (fh_pos h <= List.length (fh_bytes h))%nat ->
  exists b, snd (fst (fh_write_item FO fs lead it (s, h))) = fh_write h b.
Proof.
  induction it as [f|sh its IH] using item_ind'; intros lead s h Hh.
  - cbn [fh_write_item]. pose proof (fh_write_field_spec f lead s h) as H. destruct (write_field FO fs s f lead) as [cs|e].
    + rewrite H. cbn [fst snd]. eauto.
    + destruct H as (s' & -> & _). exists []. reflexivity.
  - rewrite fh_write_item_loop. destruct (eval_shape FO (G FO fs (fst (s, h))) fs lead sh) as [n|e]; [|exists []; reflexivity].
    apply each_puts; [|exact Hh]. intros i s1 h1 _ Hh1. apply each_puts; [|exact Hh1]. intros it s2 h2 Hit Hh2.
    rewrite Forall_forall in IH. now apply IH.
Qed.

(** What the specification of C55 says about one field. *)
Lemma write_field_block f k s : match write_field FO fs s f k with
  | Ok cs => block FO fs s (f, k) (chunks_bytes cs)
  | Err _ => forall b, ~ block FO fs s (f, k) b
  end.
Proof.
  unfold write_field, block. cbn [fst snd]. destruct (check_condition FO (G FO fs s) fs f k) as [[|]|e]; cbn [bind negb].
  - destruct (field_bytes FO (G FO fs s) fs s f k) as [b|e] eqn:E; cbn [bind].
    + cbn [chunks_bytes flat_map ch_bytes]. rewrite app_nil_r. right. split; [reflexivity|]. split; [|reflexivity].
      assert (exists sz, fsize_of FO (G FO fs s) fs f k = Ok sz) as (sz & Hsz)
        by (unfold field_bytes in E; apply bind_ok_elim in E as (sz & ? & _); eauto).
      pose proof (field_bytes_len _ _ _ _ _ _ _ _ Hsz E) as L. rewrite Hsz. f_equal. lia.
    + intros b [(A & _)|(_ & _ & A)]; [discriminate A|discriminate A].
  - left. split; reflexivity.
  - intros b [(A & _)|(A & _)]; discriminate A.
Qed.
Lemma write_fields_blocks s ps : forall cs, concat_map_res (fun q => write_field FO fs s (fst q) (snd q)) ps = Ok cs ->
  exists bs, Forall2 (block FO fs s) ps bs /\ chunks_bytes cs = List.concat bs.
Proof.
  induction ps as [|[f k] ps IH]; intros cs H.
  - exists []. split; [constructor|]. assert (cs = []) by (cbn in H; congruence). now subst.
  - apply concat_map_res_ok_cons in H as (x & y & Hx & Hy & ->). destruct (IH y Hy) as (bs & HB & E). cbn [fst snd] in Hx.
    pose proof (write_field_block f k s) as H. rewrite Hx in H. exists (chunks_bytes x :: bs). split; [now constructor|].
    now rewrite chunks_bytes_app, E.
Qed.
Lemma block_unique s p b b' : block FO fs s p b -> block FO fs s p b' -> b = b'.
Proof. unfold block. intros [[A B]|(A & B & C)] [[A' B']|(A' & B' & C')]; congruence. Qed.
Lemma blocks_unique s ps bs bs' : Forall2 (block FO fs s) ps bs -> Forall2 (block FO fs s) ps bs' -> bs = bs'.
Proof.
  intro H. revert bs'. induction H as [|p b ps bs Hb H IH]; intros bs' H'; inversion H'; subst; [reflexivity|].
  f_equal; [eapply block_unique; eauto|now apply IH].
Qed.

End OpenFileWrite.

(** ** C69 Writing at the position of a file *)
Lemma positions_written FO rows (s : state FO) ps l bs : wf_rows rows = true -> positions FO (mk_fs rows) s = Ok ps -> incl l ps ->
  (Forall2 (written FO (mk_fs rows) s) l bs <-> Forall2 (block FO (mk_fs rows) s) l bs).
Proof.
  intros Hwf HP. revert bs. induction l as [|p l IH]; intros bs HI.
  - split; intro H; inversion H; constructor.
  - assert (Hp : check_index FO (G FO (mk_fs rows) s) (mk_fs rows) (fst p) (snd p) = Ok tt).
    { destruct p as [f k]. apply (position_index FO rows s ps f k HP). apply HI. now left. }
    assert (HI' : incl l ps) by (intros x Hx; apply HI; now right).
    split; intro H; inversion H; subst; (constructor; [now apply (block_written FO rows s Hwf p)|now apply IH]).
Qed.

(** The file after putting [b] at the position. *)
Definition put_at (h : fhandle) (b : list N) : fhandle :=
  {| fh_bytes := firstn (fh_pos h) (fh_bytes h) ++ b ++ skipn (fh_pos h + List.length b) (fh_bytes h);
     fh_pos := fh_pos h + List.length b |}.
Lemma fh_write_put h b : (fh_pos h <= List.length (fh_bytes h))%nat -> fh_write h b = put_at h b.
Proof.
  intro H. destruct (fh_write_at h b H) as [A B]. destruct (fh_write h b) as [x y]. cbn [fh_bytes fh_pos] in A, B. now subst.
Qed.

(** The fields at the positions [ps], in this order from position [p] of the file on, know where
    they are. *)
Definition located FO fs (s s' : state FO) (p : nat) (ps : list (field * list Z)) : Prop :=
  forall before f k after bs, ps = before ++ (f, k) :: after -> Forall2 (written FO fs s) before bs ->
    fd_name (f_d f) <> None -> condition FO fs s f k true ->
    st_loc FO s' (f_id f) k = Some (Z.of_nat (p + List.length (List.concat bs))).

Lemma locs_located FO rows (s s' : state FO) p ps cs all : wf_rows rows = true -> positions FO (mk_fs rows) s = Ok all -> incl ps all ->
  concat_map_res (fun q => write_field FO (mk_fs rows) s (fst q) (snd q)) ps = Ok cs ->
  locs_ok FO s' (Z.of_nat p) cs -> located FO (mk_fs rows) s s' p ps.
Proof.
  intros Hwf HP HI HC HL before f k after bs -> HB HN HT.
  apply concat_map_res_split in HC as (c1 & x & c2 & H1 & Hx & H2 & ->). cbn [fst snd] in Hx.
  assert (HI1 : incl before all) by (intros z Hz; apply HI; apply in_or_app; now left).
  apply (positions_written FO rows s all before bs Hwf HP HI1) in HB.
  destruct (write_fields_blocks FO (mk_fs rows) s before c1 H1) as (bs' & HB' & E).
  assert (bs' = bs) by (eapply blocks_unique; eauto). subst bs'.
  assert (HT' : check_condition FO (G FO (mk_fs rows) s) (mk_fs rows) f k = Ok true).
  { apply cond_is_check. now apply (proj1 (C51_uses FO rows s Hwf f k)). }
  unfold write_field in Hx. rewrite HT' in Hx. cbn [bind negb] in Hx. apply bind_ok_elim in Hx as (v & _ & Hx).
  assert (x = [{| ch_field := f; ch_key := k; ch_bytes := v |}]) by congruence. subst x.
  apply locs_ok_app in HL as [_ HL]. cbn [app locs_ok ch_field ch_key] in HL. destruct HL as [HL _].
  rewrite Nat2Z.inj_add, <- E. now apply HL.
Qed.

Lemma write_chunks_left FO rows (s : state FO) h b : wf_rows rows = true -> (fh_pos h <= List.length (fh_bytes h))%nat ->
  write FO (mk_fs rows) s = Ok b ->
  exists s', fh_write_struct FO (mk_fs rows) (s, h) = ((s', put_at h b), Ok tt) /\ same_values FO s s'
    /\ forall ps, unrolled_all FO (mk_fs rows) s (fs_items (mk_fs rows)) [] ps -> located FO (mk_fs rows) s s' (fh_pos h) ps.
Proof.
  intros Hwf Hh HW. unfold write in HW. apply bind_ok_elim in HW as (cs & Hcs & HW).
  assert (b = chunks_bytes cs) by congruence. subst b. clear HW.
  assert (HN := chunks_nodup FO rows s cs Hcs). apply write_chunks_positions in Hcs as (ps & HP & Hcs).
  exists (record_locs FO s (Z.of_nat (fh_pos h)) cs).
  split; [rewrite (fh_write_struct_positions FO _ s h ps HP), (fh_positions_ok FO _ ps s h cs Hh Hcs); now rewrite fh_write_put|].
  split. { destruct (record_locs_val FO cs s (Z.of_nat (fh_pos h))) as (A & B & C). repeat split; congruence. }
  intros ps' HU. apply unrolled_all_positions in HU. assert (ps' = ps) by congruence. subst ps'.
  eapply (locs_located FO rows s _ (fh_pos h) ps cs ps); eauto; [apply incl_refl|]. now apply record_locs_ok.
Qed.

(** A structure that can be written replaces what is at the position, which moves behind it;
    only the locations of the fields change, and each field knows where it is. *)
Theorem C69_write FO rows (s : state FO) h b : wf_rows rows = true -> (fh_pos h <= List.length (fh_bytes h))%nat ->
  write FO (mk_fs rows) s = Ok b ->
  exists s', fh_write_struct FO (mk_fs rows) (s, h) = ((s', put_at h b), Ok tt) /\ same_values FO s s'
    /\ forall ps, unrolled_all FO (mk_fs rows) s (fs_items (mk_fs rows)) [] ps -> located FO (mk_fs rows) s s' (fh_pos h) ps.
Proof. apply write_chunks_left. Qed.

(** One that cannot be written leaves the fields before the first that cannot in the file, the
    position behind them, and their locations and that of the failing field; the later fields
    keep the locations they had. *)
Theorem C69_failed FO rows (s s' : state FO) h h' e ps : wf_rows rows = true -> (fh_pos h <= List.length (fh_bytes h))%nat ->
  unrolled_all FO (mk_fs rows) s (fs_items (mk_fs rows)) [] ps ->
  fh_write_struct FO (mk_fs rows) (s, h) = ((s', h'), Err e) ->
  exists before f k after bs, ps = before ++ (f, k) :: after
    /\ Forall2 (written FO (mk_fs rows) s) before bs /\ (forall b, ~ written FO (mk_fs rows) s (f, k) b)
    /\ h' = put_at h (List.concat bs) /\ same_values FO s s'
    /\ located FO (mk_fs rows) s s' (fh_pos h) (before ++ [(f, k)])
    /\ forall g j, In (g, j) after -> st_loc FO s' (f_id g) j = st_loc FO s (f_id g) j.
Proof.
  intros Hwf Hh HU HE. apply unrolled_all_positions in HU as HP.
  pose proof (fh_write_struct_values FO (mk_fs rows) (s, h)) as HV. rewrite HE in HV. cbn [fst] in HV.
  rewrite (fh_write_struct_positions FO _ s h ps HP) in HE.
  destruct (concat_map_res (fun q => write_field FO (mk_fs rows) s (fst q) (snd q)) ps) as [cs|e'] eqn:HC.
  { rewrite (fh_positions_ok FO _ ps s h cs Hh HC) in HE. discriminate HE. }
  destruct (fh_positions_err FO _ ps s h e' Hh HC) as (before & f & k & after & cs & -> & H1 & H2 & s1 & HE' & H3 & H4).
  rewrite HE in HE'. assert (e' = e) by congruence. assert (s1 = s') by congruence. assert (h' = fh_write h (chunks_bytes cs)) by congruence.
  subst e' s1 h'. clear HE' HE.
  destruct (write_fields_blocks FO (mk_fs rows) s before cs H1) as (bs & HB & Ebs).
  assert (HI : incl before (before ++ (f, k) :: after)) by (intros z Hz; apply in_or_app; now left).
  assert (HB' := HB). apply (positions_written FO rows s _ before bs Hwf HP HI) in HB'.
  exists before, f, k, after, bs. split; [reflexivity|]. split; [exact HB'|].
  assert (Hchk : check_index FO (G FO (mk_fs rows) s) (mk_fs rows) f k = Ok tt)
    by (apply (position_index FO rows s _ f k HP); apply in_or_app; right; now left).
  split. { intros b Hb. apply (block_written FO rows s Hwf (f, k) b Hchk) in Hb. pose proof (write_field_block FO (mk_fs rows) f k s) as W. rewrite H2 in W. exact (W b Hb). }
  split; [rewrite <- Ebs; now apply fh_write_put|]. split; [exact HV|].
  set (s2 := record_locs FO s (Z.of_nat (fh_pos h)) cs) in *.
  assert (HND := positions_nodup FO rows s _ HP).
  assert (HNB : NoDup before) by (clear - HND; induction before as [|x l IH]; [constructor|]; inversion HND; subst; constructor; auto; intro A; match goal with X : ~ In _ _ |- _ => apply X end; apply in_or_app; now left).
  assert (Hids : forall g j, In (g, j) (before ++ (f, k) :: after) -> In g (fs_fields (mk_fs rows)))
    by (intros g j Hg; exact (positions_in_fields FO rows s _ g j HP Hg)).
  destruct (write_fields_at FO (mk_fs rows) s before cs H1 HNB) as [N1 N2].
  (* chunks have distinct identities *)
  assert (HNC : NoDup (map chunk_at cs)).
  { clear - N1 N2 Hids. induction cs as [|c cs IH]; [constructor|]. cbn [map] in *. inversion N1 as [|? ? A B]; subst.
    assert (Hc : forall c', In c' (c :: cs) -> In (ch_field c') (fs_fields (mk_fs rows))).
    { intros c' Hc'. apply (Hids _ (ch_key c')). apply in_or_app. left. apply N2. apply (in_map (fun c => (ch_field c, ch_key c)) (c :: cs)). exact Hc'. }
    constructor.
    - intro H. apply in_map_iff in H as (c' & E & Hc'). unfold chunk_at in E. assert (E1 : f_id (ch_field c') = f_id (ch_field c)) by congruence. assert (E2 : ch_key c' = ch_key c) by congruence.
      apply (mk_fs_id_inj rows) in E1; [|apply Hc; now right|apply Hc; now left].
      apply A. apply in_map_iff. exists c'. split; auto. congruence.
    - apply IH; auto. intros x Hx. apply N2. now right. }
  (* a later position is not among them *)
  assert (Hother : forall g j, In (g, j) ((f, k) :: after) -> ~ In (f_id g, j) (map chunk_at cs)).
  { intros g j Hg Hin. apply in_map_iff in Hin as (c & E & Hc). unfold chunk_at in E. assert (E1 : f_id (ch_field c) = f_id g) by congruence. assert (E2 : ch_key c = j) by congruence.
    assert (Hcb : In (ch_field c, ch_key c) before) by (apply N2; apply (in_map (fun c => (ch_field c, ch_key c)) cs); exact Hc).
    apply (mk_fs_id_inj rows) in E1; [|apply (Hids _ (ch_key c)); apply in_or_app; now left|apply (Hids _ j); apply in_or_app; now right].
    rewrite E1, E2 in Hcb. clear - HND Hcb Hg. induction before as [|x before IH]; [destruct Hcb|].
    inversion HND as [|? ? A B]; subst. destruct Hcb as [->|Hcb]; [apply A; apply in_or_app; now right|now apply IH]. }
  assert (HLs : forall i j, (i, j) <> (f_id f, k) -> st_loc FO s' i j = st_loc FO s2 i j).
  { intros i j Hne. destruct (check_condition FO (G FO (mk_fs rows) s) (mk_fs rows) f k) as [[|]|x] eqn:HCk.
    - destruct (fd_name (f_d f)) as [nm|] eqn:HNm; [|rewrite H4 by (now left); reflexivity].
      rewrite H3 by (first [now apply cond_is_check|congruence]). cbn [set_loc st_loc]. apply upd_neq.
      destruct (Nat.eq_dec (f_id f) i); [right; congruence|now left].
    - rewrite H4; [reflexivity|]. right. intro A. apply cond_is_check in A. congruence.
    - rewrite H4; [reflexivity|]. right. intro A. apply cond_is_check in A. congruence. }
  split.
  - intros before' g j after' bs' E HB1 HN HT.
    destruct after' as [|z after'] using rev_ind.
    + apply app_inj_tail in E as [-> E]. assert (g = f) by congruence. assert (j = k) by congruence. subst g j.
      assert (bs' = bs). { eapply blocks_unique; [|exact HB]. now apply (positions_written FO rows s _ before' bs' Hwf HP HI). } subst bs'.
      rewrite H3; auto.
      * cbn [set_loc st_loc]. rewrite upd_eq, <- Ebs. reflexivity.
      * now apply (proj1 (C51_uses FO rows s Hwf f k)).
    + clear IHafter'. rewrite app_comm_cons, app_assoc in E. apply app_inj_tail in E as [E _].
      rewrite HLs. 2:{ intro A. assert (A1 : f_id g = f_id f) by congruence. assert (A2 : j = k) by congruence. subst j.
        assert (Hg : In (g, k) before) by (rewrite E; apply in_or_app; right; now left).
        apply (mk_fs_id_inj rows) in A1; [|apply (Hids _ k); apply in_or_app; now left|apply (Hids _ k); apply in_or_app; right; now left].
        subst g. apply NoDup_remove_2 in HND. apply HND. apply in_or_app. now left. }
      apply (locs_located FO rows s s2 (fh_pos h) before cs _ Hwf HP HI H1) with (after := after') (before := before'); auto.
      now apply record_locs_ok.
  - intros g j Hg. rewrite HLs.
    + unfold s2. apply record_locs_other. apply Hother. now right.
    + intro A. assert (A1 : f_id g = f_id f) by congruence. assert (A2 : j = k) by congruence. subst j.
      apply (mk_fs_id_inj rows) in A1; [|apply (Hids _ k); apply in_or_app; right; now right|apply (Hids _ k); apply in_or_app; right; now left].
      subst g. apply NoDup_remove_2 in HND. apply HND. apply in_or_app. now right.
Qed.

(** And whatever happens, with loop counts known or not, the values stay, and bytes are put at the
    position and nowhere else. *)
Theorem C69_anyway FO rows (s s' : state FO) h h' r : (fh_pos h <= List.length (fh_bytes h))%nat ->
  fh_write_struct FO (mk_fs rows) (s, h) = ((s', h'), r) ->
  same_values FO s s' /\ (exists b, h' = put_at h b) /\ (r = Ok tt <-> exists b, write FO (mk_fs rows) s = Ok b).
Proof.
  intros Hh HE. pose proof (fh_write_struct_values FO (mk_fs rows) (s, h)) as HV. rewrite HE in HV. cbn [fst] in HV.
  split; [exact HV|]. split.
  - destruct (each_puts FO (fh_write_item FO (mk_fs rows) []) (fs_items (mk_fs rows)) (fun it s h _ => fh_write_item_puts FO (mk_fs rows) it [] s h) s h Hh) as (b & Hb).
    unfold fh_write_struct in HE. rewrite HE in Hb. cbn [fst snd] in Hb. exists b. now rewrite Hb, fh_write_put.
  - split.
    + intros ->. destruct (fh_write_struct_ok FO (mk_fs rows) s h _ tt Hh HE) as (cs & Hcs & _). exists (chunks_bytes cs). unfold write. now rewrite Hcs.
    + intros (b & HW). unfold write in HW. apply bind_ok_elim in HW as (cs & Hcs & _). apply write_chunks_positions in Hcs as (ps & HP & Hcs).
      rewrite (fh_write_struct_positions FO _ s h ps HP), (fh_positions_ok FO _ ps s h cs Hh Hcs) in HE. congruence.
Qed.

(** ** Updating *)

(** An update that succeeds leaves the position; one that fails leaves the file, but the position
    only if it fails before the file is moved to the field. *)
Lemma fh_update_cases FO fs nm k v (s s' : state FO) h h' r : fh_update FO fs nm k v (s, h) = ((s', h'), r) ->
  match r with
  | Ok _ => fh_pos h' = fh_pos h /\ exists f q b, lookup fs nm = Some f /\ st_loc FO s' (f_id f) k = Some q
      /\ field_bytes FO (G FO fs s') fs s' f k = Ok b /\ fh_bytes h' = fh_bytes (fh_write (fh_seek h (Z.to_nat q)) b)
      /\ update_field FO fs s (fh_bytes h) nm k v = (s', Ok (overwrite (fh_bytes h) (Z.to_nat q) b))
  | Err e => fh_bytes h' = fh_bytes h /\ update_field FO fs s (fh_bytes h) nm k v = (s', Err e)
      /\ (fh_pos h' = fh_pos h \/ exists f q, lookup fs nm = Some f /\ st_loc FO s' (f_id f) k = Some q /\ fh_pos h' = Z.to_nat q
            /\ check_condition FO (G FO fs s') fs f k = Ok true /\ field_bytes FO (G FO fs s') fs s' f k = Err e)
  end.
Proof.
  unfold fh_update, update_field. intro H. destruct (lookup fs nm) as [f|] eqn:HL.
  2:{ assert (s' = s) by congruence. assert (h' = h) by congruence. assert (r = Err EKey) by congruence. subst. auto. }
  destruct (fset FO fs s f k v) as [s1 [u|e]] eqn:HS.
  2:{ assert (s' = s1) by congruence. assert (h' = h) by congruence. assert (r = Err e) by congruence. subst. auto. }
  destruct (check_condition FO (G FO fs s1) fs f k) as [[|]|e] eqn:HC.
  - destruct (st_loc FO s1 (f_id f) k) as [q|] eqn:HQ.
    + destruct (field_bytes FO (G FO fs s1) fs s1 f k) as [b|e] eqn:HB; cbn zeta in H.
      * assert (s' = s1) by congruence. assert (h' = fh_seek (fh_write (fh_seek h (Z.to_nat q)) b) (fh_pos h)) by congruence.
        assert (r = Ok tt) by congruence. subst. split; [reflexivity|]. exists f, q, b. repeat split; auto.
      * assert (s' = s1) by congruence. assert (h' = fh_seek h (Z.to_nat q)) by congruence. assert (r = Err e) by congruence. subst.
        split; [reflexivity|]. split; [reflexivity|]. right. exists f, q. repeat split; auto.
    + assert (s' = s1) by congruence. assert (h' = h) by congruence. assert (r = Err EKey) by congruence. subst. auto.
  - assert (s' = s1) by congruence. assert (h' = h) by congruence. assert (r = Err ERuntime) by congruence. subst. auto.
  - assert (s' = s1) by congruence. assert (h' = h) by congruence. assert (r = Err e) by congruence. subst. auto.
Qed.

(** A failing update changes no byte of the file; the position is as before or at the field, and
    the latter only if the value stored cannot be written. *)
Theorem C69_update_failed FO rows nm k v (s s' : state FO) h h' e :
  fh_update FO (mk_fs rows) nm k v (s, h) = ((s', h'), Err e) ->
  fh_bytes h' = fh_bytes h
  /\ (fh_pos h' = fh_pos h \/
      exists f q, lookup (mk_fs rows) nm = Some f /\ st_loc FO s' (f_id f) k = Some q /\ fh_pos h' = Z.to_nat q
        /\ (valid_index FO (mk_fs rows) s' f k -> forall b, write FO (mk_fs rows) s' <> Ok b)).
Proof.
  intro H. apply fh_update_cases in H as (HB & _ & [HP|(f & q & HL & HQ & HP & HC & HF)]); (split; [exact HB|]); [now left|right].
  exists f, q. repeat (split; [assumption|]). intros HV b HW.
  destruct (write_block_at FO rows s' b f k HW (lookup_in _ _ _ HL) HV) as (x & _ & [(A & _)|(_ & _ & A)]); cbn [fst snd] in A; congruence.
Qed.

(** ** C12 with the position: several structures in one file *)

(** What a program of writes and updates puts into the file, in order. *)
Inductive piece := PBytes (b : list N) | PStruct (i : nat).
Definition pieces {FO} (ops : list (fop FO)) : list piece :=
  flat_map (fun o => match o with FWrite _ i => [PStruct i] | FPut _ b => [PBytes b] | FUpdate _ _ _ _ _ => [] end) ops.
(** The bytes of a piece: those put, or those the structure has now. *)
Definition piece_is FO (tabs : nat -> list row) (w : world FO) (p : piece) (b : list N) : Prop :=
  match p with PBytes x => b = x | PStruct i => write FO (mk_fs (tabs i)) (w_st FO w i) = Ok b end.

Section Interleaved.
Variable FO : FloatOps.
Variable tabs : nat -> list row.
Notation fs i := (mk_fs (tabs i)).
Hypothesis Hwf : forall i, wf_rows (tabs i) = true.

Fixpoint laid (st : nat -> state FO) (pos : Z) (pcs : list piece) (bs : list (list N)) : Prop :=
  match pcs, bs with
  | [], [] => True
  | p :: pcs', b :: bs' =>
      match p with
      | PBytes x => b = x
      | PStruct i => exists cs, write_chunks FO (fs i) (st i) = Ok cs /\ b = chunks_bytes cs /\ locs_ok FO (st i) pos cs
      end /\ laid st (pos + Z.of_nat (List.length b))%Z pcs' bs'
  | _, _ => False
  end.

Lemma laid_app st l1 : forall pos l2 bs, laid st pos (l1 ++ l2) bs <->
  exists b1 b2, bs = b1 ++ b2 /\ laid st pos l1 b1 /\ laid st (pos + Z.of_nat (List.length (List.concat b1)))%Z l2 b2.
Proof.
  induction l1 as [|p l1 IH]; intros pos l2 bs.
  - cbn [app]. split.
    + intro H. exists [], bs. cbn. rewrite Z.add_0_r. auto.
    + intros (b1 & b2 & -> & H1 & H2). destruct b1; [|destruct H1]. cbn in H2. now rewrite Z.add_0_r in H2.
  - cbn [app]. destruct bs as [|b bs].
    + split; [intros []|]. intros (b1 & b2 & E & H1 & _). destruct b1; [destruct H1|discriminate E].
    + split.
      * intros [Hb H]. apply IH in H as (b1 & b2 & -> & H1 & H2). exists (b :: b1), b2. split; [reflexivity|]. split; [split; assumption|].
        cbn [List.concat]. rewrite app_length, Nat2Z.inj_add, Z.add_assoc. exact H2.
      * intros (b1 & b2 & E & H1 & H2). destruct b1 as [|b' b1]; [destruct H1|]. cbn [app] in E. assert (b' = b) by congruence. assert (bs = b1 ++ b2) by congruence. subst b' bs.
        destruct H1 as [Hb H1]. split; [exact Hb|]. apply IH. exists b1, b2. split; [reflexivity|]. split; [exact H1|].
        cbn [List.concat] in H2. rewrite app_length, Nat2Z.inj_add, Z.add_assoc in H2. exact H2.
Qed.

Lemma laid_ext st st' pcs : (forall i, In (PStruct i) pcs -> st' i = st i) -> forall pos bs, laid st pos pcs bs -> laid st' pos pcs bs.
Proof.
  induction pcs as [|p pcs IH]; intros H pos bs; destruct bs as [|b bs]; cbn [laid]; auto.
  intros [H1 H2]. split; [|apply IH; auto; intros; apply H; now right].
  destruct p as [x|i]; auto. rewrite H by now left. exact H1.
Qed.

Lemma laid_pieces st pcs h : forall pos bs, laid st pos pcs bs -> Forall2 (piece_is FO tabs {| w_st := st; w_h := h |}) pcs bs.
Proof.
  induction pcs as [|p pcs IH]; intros pos bs H; destruct bs as [|b bs]; try (now destruct H); constructor.
  - destruct H as [H _]. destruct p as [x|i]; [exact H|]. cbn. destruct H as (cs & H & -> & _). unfold write. now rewrite H.
  - destruct H as [_ H]. eapply IH; eauto.
Qed.

Definition ids (pcs : list piece) : list nat := flat_map (fun p => match p with PStruct i => [i] | _ => [] end) pcs.
Lemma in_ids i pcs : In i (ids pcs) <-> In (PStruct i) pcs.
Proof.
  unfold ids. rewrite in_flat_map. split.
  - intros (p & Hp & Hi). destruct p as [x|j]; [destruct Hi|]. destruct Hi as [->|[]]. exact Hp.
  - intro H. exists (PStruct i). split; [exact H|now left].
Qed.

Definition inv (pre : list N) (st0 : nat -> state FO) (pcs : list piece) (w : world FO) : Prop :=
  NoDup (ids pcs) /\
  (exists bs, laid (w_st FO w) (Z.of_nat (List.length pre)) pcs bs
    /\ fh_bytes (w_h FO w) = pre ++ List.concat bs /\ fh_pos (w_h FO w) = List.length (fh_bytes (w_h FO w)))
  /\ (forall i f, In f (fs_fields (fs i)) -> field_keys FO (fs i) (w_st FO w i) f = field_keys FO (fs i) (st0 i) f).

Lemma concat_snoc (bs : list (list N)) b : List.concat (bs ++ [b]) = List.concat bs ++ b.
Proof. rewrite concat_app. cbn. now rewrite app_nil_r. Qed.

Lemma put_end h b : fh_pos h = List.length (fh_bytes h) ->
  fh_bytes (fh_write h b) = fh_bytes h ++ b /\ fh_pos (fh_write h b) = List.length (fh_bytes (fh_write h b)).
Proof.
  intro H. destruct (fh_write_at h b) as [A B]; [lia|]. assert (E : fh_bytes (fh_write h b) = fh_bytes h ++ b).
  { rewrite A. unfold overwrite. rewrite H, firstn_all, skipn_all2 by lia. now rewrite app_nil_r. }
  split; [exact E|]. rewrite B, E, app_length. lia.
Qed.

Lemma w_put_eq (w : world FO) i p : w_st FO (w_put FO w i p) i = fst p.
Proof. unfold w_put. cbn [w_st]. now rewrite Nat.eqb_refl. Qed.
Lemma w_put_neq (w : world FO) i j p : j <> i -> w_st FO (w_put FO w i p) j = w_st FO w j.
Proof. intro H. unfold w_put. cbn [w_st]. now rewrite (proj2 (Nat.eqb_neq j i) H). Qed.

Lemma keys_val (s t : state FO) i f : st_val FO s = st_val FO t -> field_keys FO (fs i) s f = field_keys FO (fs i) t f.
Proof.
  intro H. unfold field_keys. assert (E : forall es lead, keys_from FO (fs i) s lead es = keys_from FO (fs i) t lead es).
  { intros es. induction es as [|e es IH]; intros lead; cbn [keys_from]; auto. rewrite (eval_shape_ext FO _ (G FO (fs i) t)) by now apply val_refs.
    destruct (eval_shape FO (G FO (fs i) t) (fs i) lead e); auto. cbn [bind]. apply concat_map_res_ext. intros z _. apply IH. }
  apply E.
Qed.

(** What each statement needs. *)
Definition may (st0 : nat -> state FO) (pcs : list piece) (o : fop FO) : Prop :=
  match o with
  | FPut _ _ => True
  | FWrite _ i => ~ In (PStruct i) pcs
  | FUpdate _ i nm k v => In (PStruct i) pcs /\ exists f, lookup (fs i) nm = Some f
      /\ unreferenced (fs i) f /\ is_data_ty (fd_ty (f_d f)) = false /\ valid_index FO (fs i) (st0 i) f k
  end.

Lemma step_inv pre st0 pcs w w' o u : inv pre st0 pcs w -> may st0 pcs o -> fh_step FO tabs o w = (w', Ok u) ->
  inv pre st0 (pcs ++ pieces [o]) w'.
Proof.
  intros (HN & (bs & HL & HB & HP) & HK) HM HS. destruct o as [i|b|i nm k v]; cbn [fh_step may pieces flat_map app] in *.
  - destruct (fh_write_struct FO (fs i) (w_st FO w i, w_h FO w)) as [p r] eqn:E. assert (r = Ok u) by congruence. assert (w' = w_put FO w i p) by congruence. subst r w'. clear HS.
    apply fh_write_struct_ok in E as (cs & Hcs & ->); [|lia].
    assert (Hnd := chunks_nodup FO (tabs i) _ cs Hcs).
    destruct (put_end (w_h FO w) (chunks_bytes cs) HP) as [P1 P2].
    destruct (record_locs_val FO cs (w_st FO w i) (Z.of_nat (fh_pos (w_h FO w)))) as (V1 & V2 & V3).
    split; [|split].
    + unfold ids. rewrite flat_map_app. cbn [flat_map app]. apply NoDup_Add with (a := i) (l := ids pcs).
      * pose proof (Add_app i (ids pcs) []) as A. rewrite app_nil_r in A. exact A.
      * split; [exact HN|]. now rewrite in_ids.
    + exists (bs ++ [chunks_bytes cs]). split; [|split].
      * apply laid_app. exists bs, [chunks_bytes cs]. split; [reflexivity|]. split.
        -- eapply laid_ext; [|exact HL]. intros j Hj. apply w_put_neq. congruence.
        -- cbn [laid]. split; [|exact I]. rewrite w_put_eq. cbn [fst]. exists cs. split; [rewrite <- Hcs; now apply val_write_chunks|]. split; [reflexivity|].
           rewrite HP, HB, app_length, Nat2Z.inj_add. now apply record_locs_ok.
      * cbn [w_put w_h snd]. rewrite P1, HB, concat_snoc, app_assoc. reflexivity.
      * cbn [w_put w_h snd]. exact P2.
    + intros j f Hf. destruct (Nat.eq_dec j i) as [->|Hj]; [rewrite w_put_eq; cbn [fst]|rewrite w_put_neq by assumption; now apply HK].
      rewrite <- HK by assumption. now apply keys_val.
  - assert (w' = {| w_st := w_st FO w; w_h := fh_write (w_h FO w) b |}) by congruence. subst w'. clear HS. cbn [w_st w_h].
    destruct (put_end (w_h FO w) b HP) as [P1 P2]. split; [|split].
    + unfold ids. rewrite flat_map_app. cbn [flat_map app]. now rewrite app_nil_r.
    + exists (bs ++ [b]). split; [|split].
      * apply laid_app. exists bs, [b]. split; [reflexivity|]. split; [exact HL|]. cbn. auto.
      * cbn [w_h]. rewrite P1, HB, concat_snoc, app_assoc. reflexivity.
      * exact P2.
    + exact HK.
  - rewrite app_nil_r. destruct HM as (Hi & f & HF & Hun & HT & HV).
    destruct (fh_update FO (fs i) nm k v (w_st FO w i, w_h FO w)) as [[s' h'] r] eqn:E. assert (r = Ok u) by congruence. assert (w' = w_put FO w i (s', h')) by congruence. subst r w'. clear HS.
    apply fh_update_cases in E as (P1 & f' & q & b & HF' & HQ & Hfb & HB' & HU). assert (f' = f) by congruence. subst f'.
    apply in_split in Hi as (l1 & l2 & ->). apply laid_app in HL as (b1 & b2 & -> & L1 & L2).
    destruct b2 as [|b0 b2]; [destruct L2|]. cbn [laid] in L2. destruct L2 as [(cs & Hcs & E0 & Hloc) L3].
    assert (HIF : in_file FO (fs i) (w_st FO w i) (pre ++ List.concat b1) (fh_bytes (w_h FO w)) (List.concat b2)).
    { exists cs. split; [exact Hcs|]. split.
      - rewrite HB, concat_app. cbn [List.concat]. rewrite E0, app_assoc. reflexivity.
      - rewrite app_length, Nat2Z.inj_add. exact Hloc. }
    assert (Hfin := lookup_in _ _ _ HF).
    assert (Hcs' := Hcs). apply write_chunks_positions in Hcs' as (ps & Hps & _).
    assert (HKf := positions_keys FO (tabs i) (w_st FO w i) ps f Hps Hfin).
    assert (HKi : In k (of_field f ps)).
    { rewrite HK in HKf by assumption. now apply (valid_key FO (fs i) (st0 i) f _ k HKf). }
    destruct (update_in_file FO (tabs i) (w_st FO w i) s' _ _ _ nm f _ k v _ (Hwf i) HF Hun HT HKf HKi HIF HU) as ((cs' & Hcs' & HE & Hloc') & Hs' & HLen & HK').
    assert (HBy : fh_bytes h' = overwrite (fh_bytes (w_h FO w)) (Z.to_nat q) b).
    { rewrite HB'. destruct b as [|z b].
      - unfold overwrite. cbn [fh_write fh_seek fh_bytes List.length app]. now rewrite Nat.add_0_r, firstn_skipn.
      - destruct (fh_write_at (fh_seek (w_h FO w) (Z.to_nat q)) (z :: b)) as [A _]; [|exact A].
        cbn [fh_seek fh_bytes fh_pos]. unfold overwrite in HLen. rewrite !app_length, firstn_length, skipn_length in HLen. cbn [List.length] in HLen. lia. }
    rewrite <- HBy in HE, HLen.
    split; [exact HN|]. split.
    + exists (b1 ++ chunks_bytes cs' :: b2). split; [|split].
      * assert (HNi : ~ In (PStruct i) l1 /\ ~ In (PStruct i) l2).
        { unfold ids in HN. rewrite flat_map_app in HN. cbn [flat_map app] in HN. apply NoDup_remove_2 in HN. split; intro A; apply HN; apply in_or_app; [left|right]; now apply in_ids. }
        apply laid_app. exists b1, (chunks_bytes cs' :: b2). split; [reflexivity|]. split.
        -- eapply laid_ext; [|exact L1]. intros j Hj. apply w_put_neq. intros ->. now destruct HNi.
        -- cbn [laid]. rewrite w_put_eq. cbn [fst]. split.
           ++ exists cs'. split; [exact Hcs'|]. split; [reflexivity|]. rewrite app_length, Nat2Z.inj_add in Hloc'. exact Hloc'.
           ++ assert (List.length (chunks_bytes cs') = List.length b0) as ->.
              { rewrite HE, HB, concat_app in HLen. cbn [List.concat] in HLen. rewrite !app_length in HLen. lia. }
              eapply laid_ext; [|exact L3]. intros j Hj. apply w_put_neq. intros ->. now destruct HNi.
      * cbn [w_put w_h snd]. rewrite HE, concat_app. cbn [List.concat]. now rewrite <- !app_assoc.
      * cbn [w_put w_h snd]. rewrite P1, HP. congruence.
    + intros j g Hg. destruct (Nat.eq_dec j i) as [->|Hj]; [rewrite w_put_eq; cbn [fst]; rewrite HK' by assumption|rewrite w_put_neq by assumption]; now apply HK.
Qed.

Lemma run_inv pre st0 ops : forall pcs w w' u, inv pre st0 pcs w ->
  (forall o1 o o2, ops = o1 ++ o :: o2 -> may st0 (pcs ++ pieces o1) o) ->
  fh_run FO tabs ops w = (w', Ok u) -> inv pre st0 (pcs ++ pieces ops) w'.
Proof.
  induction ops as [|o ops IH]; intros pcs w w' u HI HM HR; unfold fh_run in HR; cbn [each] in HR.
  - assert (w' = w) by congruence. subst. now rewrite app_nil_r.
  - destruct (fh_step FO tabs o w) as [w1 [x|e]] eqn:E; [|discriminate HR].
    assert (H0 := HM [] o ops eq_refl). cbn [pieces flat_map] in H0. rewrite app_nil_r in H0.
    assert (H1 := step_inv pre st0 pcs w w1 o x HI H0 E).
    change (pieces (o :: ops)) with (pieces ([o] ++ ops)). unfold pieces at 1. rewrite flat_map_app. fold (pieces [o]) (pieces ops). rewrite app_assoc.
    apply (IH _ w1 w' u H1); [|exact HR]. intros o1 o' o2 ->. specialize (HM (o :: o1) o' o2 eq_refl).
    change (pieces (o :: o1)) with (pieces ([o] ++ o1)) in HM. unfold pieces at 1 in HM. rewrite flat_map_app in HM. now rewrite app_assoc in HM.
Qed.
End Interleaved.

(** A file that holds [pre], open at its end; structures are written, each once, other bytes are
    put, and fields nothing else depends on are updated at any time after their structure was
    written.  If all of it succeeds, the file is [pre] and, in the order in which they were put,
    the bytes put and what writing the structures with their present values gives; and the
    file is at its end, so that what follows does too. *)
Theorem C12_interleaved FO tabs ops (w w' : world FO) pre :
  (forall i, wf_rows (tabs i) = true) ->
  w_h FO w = {| fh_bytes := pre; fh_pos := List.length pre |} ->
  (forall o1 i o2, ops = o1 ++ FWrite FO i :: o2 -> ~ In (FWrite FO i) o1) ->
  (forall o1 i nm k v o2, ops = o1 ++ FUpdate FO i nm k v :: o2 -> In (FWrite FO i) o1
     /\ exists f, lookup (mk_fs (tabs i)) nm = Some f /\ unreferenced (mk_fs (tabs i)) f
        /\ is_data_ty (fd_ty (f_d f)) = false /\ valid_index FO (mk_fs (tabs i)) (w_st FO w i) f k) ->
  fh_run FO tabs ops w = (w', Ok tt) ->
  exists bs, Forall2 (piece_is FO tabs w') (pieces ops) bs
    /\ fh_bytes (w_h FO w') = pre ++ List.concat bs
    /\ fh_pos (w_h FO w') = List.length (fh_bytes (w_h FO w')).
Proof.
  intros Hwf Hh HW HU HR.
  assert (HIn : forall i o1, In (PStruct i) (pieces o1) <-> In (FWrite FO i) o1).
  { intros i o1. unfold pieces. rewrite in_flat_map. split.
    - intros (o & Ho & Hi). destruct o as [j|b|j nm k v]; cbn in Hi; [|destruct Hi as [Hi|[]]; discriminate Hi|destruct Hi]. destruct Hi as [Hi|[]].
      assert (j = i) by congruence. now subst.
    - intro Ho. exists (FWrite FO i). split; [exact Ho|now left]. }
  assert (HI : inv FO tabs pre (w_st FO w) [] w).
  { split; [constructor|]. split; [|reflexivity]. exists []. rewrite Hh. cbn. rewrite app_nil_r. auto. }
  destruct (run_inv FO tabs Hwf pre (w_st FO w) ops [] w w' tt HI) as (_ & (bs & HL & HB & HP) & _).
  - intros o1 o o2 E. cbn [app]. destruct o as [i|b|i nm k v]; cbn [may].
    + rewrite HIn. now apply (HW o1 i o2).
    + exact I.
    + destruct (HU o1 i nm k v o2 E) as [A B]. split; [now apply HIn|exact B].
  - exact HR.
  - exists bs. split; [|auto]. cbn [app] in HL. destruct w' as [st' h']. eapply laid_pieces. exact HL.
Qed.

(** ** Cases *)
Local Open Scope string_scope.
Definition of_rows : list row := [RField (ex_field "id" 6 TStr); RField (ex_field "n" 2 TInt); RField (ex_field "t" 3 TStr)].
Definition of_new (n : Z) : state DecF :=
  assign_all DecF of_rows (init_state DecF) [("id", [], @SVal DecF (VStr (str "abc"))); ("n", [], @SVal DecF (VInt n)); ("t", [], @SVal DecF (VStr (str "end")))].
Definition of_at (b : list N) : fhandle := {| fh_bytes := b; fh_pos := List.length b |}.
(** What is seen of a result: the file, the position, the locations of the three fields. *)
Definition of_see (p : (state DecF * fhandle) * res unit) : list N * nat * list (option Z) * res unit :=
  let '((s, h), r) := p in (fh_bytes h, fh_pos h, map (fun i => st_loc DecF s i []) [0; 1; 2]%nat, r).

(** Written into the middle of a file; and one that fails in its second field. *)
Example C69_case : wf_rows of_rows = true
  /\ of_see (fh_write_struct DecF (mk_fs of_rows) (of_new 7, {| fh_bytes := str "0123456789ABCDEF"; fh_pos := 2%nat |}))
     = (str "01abc   07endDEF", 13%nat, [Some 2; Some 8; Some 10]%Z, Ok tt)
  /\ of_see (fh_write_struct DecF (mk_fs of_rows) (of_new 700, {| fh_bytes := str "0123456789ABCDEF"; fh_pos := 2%nat |}))
     = (str "01abc   89ABCDEF", 8%nat, [Some 2; Some 8; None]%Z, Err ERuntime).
Proof. split; [|split]; vm_compute; reflexivity. Qed.

(** The update of a field with a value that has no room leaves the file at that field. *)
Definition of_written : (state DecF * fhandle) * res unit := fh_write_struct DecF (mk_fs of_rows) (of_new 7, of_at (str "pre")).
Definition of_failed : (state DecF * fhandle) * res unit := fh_update DecF (mk_fs of_rows) "n" [] (SVal (VInt 700)) (fst of_written).
Example C69_update_failed_case :
  of_see of_written = (str "preabc   07end", 14%nat, [Some 3; Some 9; Some 11]%Z, Ok tt)
  /\ of_see of_failed = (str "preabc   07end", 9%nat, [Some 3; Some 9; Some 11]%Z, Err ERuntime).
Proof. split; vm_compute; reflexivity. Qed.

(** So a program that goes on after the exception writes over the structure. *)
Theorem C69_position_refuted : exists rows nm k v (s : state DecF) h,
  wf_rows rows = true /\ fh_pos h = List.length (fh_bytes h)
  /\ (exists e, snd (fh_update DecF (mk_fs rows) nm k v (s, h)) = Err e)
  /\ let h' := snd (fst (fh_update DecF (mk_fs rows) nm k v (s, h))) in
     fh_pos h' <> fh_pos h /\ fh_bytes (fh_write h' (str "xyz")) <> (fh_bytes h ++ str "xyz")%list.
Proof.
  exists of_rows, "n", [], (SVal (VInt 700)), (fst (fst of_written)), (snd (fst of_written)).
  split; [vm_compute; reflexivity|]. split; [vm_compute; reflexivity|].
  split; [exists ERuntime; vm_compute; reflexivity|].
  assert (P : fh_pos (snd (fst of_failed)) = 9%nat) by (vm_compute; reflexivity).
  assert (Q : fh_pos (snd (fst of_written)) = 14%nat) by (vm_compute; reflexivity).
  assert (E : list_eqb (fh_bytes (fh_write (snd (fst of_failed)) (str "xyz"))) (fh_bytes (snd (fst of_written)) ++ str "xyz")%list = false) by (vm_compute; reflexivity).
  change (fh_pos (snd (fst of_failed)) <> fh_pos (snd (fst of_written))
    /\ fh_bytes (fh_write (snd (fst of_failed)) (str "xyz")) <> (fh_bytes (snd (fst of_written)) ++ str "xyz")%list).
  split; [rewrite P, Q; discriminate|]. intro A. rewrite A in E.
  assert (R : list_eqb (fh_bytes (snd (fst of_written)) ++ str "xyz")%list (fh_bytes (snd (fst of_written)) ++ str "xyz")%list = true) by (vm_compute; reflexivity).
  congruence.
Qed.

(** Two structures, bytes between and after them, updates of both in any order. *)
Definition of_tabs (i : nat) : list row := match i with O => ex_rows | _ => of_rows end.
Definition of_world : world DecF := {| w_st := fun i => match i with O => ex_st | _ => of_new 7 end; w_h := of_at (str "pre") |}.
Definition of_ops : list (fop DecF) := [
  FWrite DecF 0; FPut DecF (str "mid"); FUpdate DecF 0 "id" [] (SVal (VStr (str "first"))); FWrite DecF 1;
  FUpdate DecF 0 "b" [1; 1]%Z (SVal (VInt 4)); FUpdate DecF 1 "n" [] (SVal (VInt 42)); FPut DecF (str "post");
  FUpdate DecF 0 "id" [] (SVal (VStr (str "last")))].
Example C12_interleaved_case :
  (let '(w, r) := fh_run DecF of_tabs of_ops of_world in (fh_bytes (w_h DecF w), fh_pos (w_h DecF w), r))
  = ((str "pre" ++ str "last  02012" ++ str "1-3.1416--" ++ str "-0120.00000--4.00000xy" ++ str "1yes ---   00006"
      ++ [1; 2; 255; 255; 255; 255; 254]%N ++ str "mid" ++ str "abc   42end" ++ str "post")%list, 87%nat, Ok tt)
  /\ (forall i, wf_rows (of_tabs i) = true)
  /\ forallb (fun o => match o with
       | FUpdate _ i nm k v => match lookup (mk_fs (of_tabs i)) nm with
           | Some f => unreferencedb (mk_fs (of_tabs i)) f && negb (is_data_ty (fd_ty (f_d f)))
               && (match field_keys DecF (mk_fs (of_tabs i)) (w_st DecF of_world i) f with Ok ks => existsb (fun k' => if list_eq_dec Z.eq_dec k k' then true else false) ks | Err _ => false end)
           | None => false end
       | _ => true end) of_ops = true.
Proof. split; [vm_compute; reflexivity|]. split; [intros [|i]; vm_compute; reflexivity|vm_compute; reflexivity]. Qed.

Print Assumptions C69_write.
Print Assumptions C69_failed.
Print Assumptions C69_anyway.
Print Assumptions C69_update_failed.
Print Assumptions C69_position_refuted.
Print Assumptions C12_interleaved.
