(** C58: TREs whose content is an object of another library (nitf_tre.py:28-110). *)
From Verif Require Import Base BaseLemmas Engine Wf EngineLemmas Codec RoundTrip Rewrite Literal
  Positions Keys Deps Assign Update Spec Decimal Delayed Utf8 Tre TreLemmas TreImpl Ex P_ReadAny.
From Coq Require Import ZifyBool ZifyNat ZifyN.
Open Scope list_scope.

Section Impl.
Variable FO : FloatOps.
Variable O : Type.
Variable c : icls O.

(** The bytes an object stands for: what [tre_string] gives, text as UTF-8. *)
Definition gives (o : O) (b : list N) : Prop :=
  ic_string c o = TsBytes b \/ exists t, ic_string c o = TsText t /\ utf8_enc t = Some b.

(** The object an operation brings: put there, or made from the bytes of a record.  In a file
    the record has its tag in 6 bytes, its length in 5, then as many bytes as announced or as
    there are. *)
Definition made_from (b : list N) (o : O) : Prop := exists t, utf8_dec b = Some t /\ ic_read c t = Ok o.
Definition takes (op : iop FO O) (o : O) : Prop :=
  match op with
  | IPut _ _ o' => o = o'
  | IReadBytes _ _ b => made_from b o
  | IRead _ _ inp => exists n b,
      utf8_dec (rstrip_by ws_byte (firstn 6 inp)) = Some (ic_tag c)
      /\ parse_int ws_byte (firstn 5 (skipn 6 inp)) = Some n
      /\ b = (if (n <? 0)%Z then skipn 11 inp else firstn (Z.to_nat n) (skipn 11 inp))
      /\ made_from b o
  | _ => False
  end.

(** [o] is the object the last of the operations [os] that brought one brought. *)
Definition latest (os : list (iop FO O)) (o : O) : Prop :=
  exists l1 op l2, os = l1 ++ op :: l2 /\ takes op o /\ forall op' o', In op' l2 -> ~ takes op' o'.

Lemma gives_bytes (x : istate FO O) o b : i_obj FO O x = Some o -> (i_bytes FO O c x = Ok b <-> gives o b).
Proof.
  intro H. unfold i_bytes, gives. rewrite H. destruct (ic_string c o) as [b'|t].
  - split; [intro E; injection E as <-; auto|]. intros [E|(t & E & _)]; [now injection E as <-|discriminate E].
  - destruct (utf8_enc t) as [b'|] eqn:E; (split; [intro E'|intros [E'|(t' & E' & D)]]).
    + injection E' as <-. right. exists t. auto.
    + discriminate E'.
    + injection E' as <-. congruence.
    + discriminate E'.
    + discriminate E'.
    + injection E' as <-. congruence.
Qed.

Lemma obj_update x : i_obj FO O (fst (i_update FO O c x)) = i_obj FO O x.
Proof. unfold i_update. destruct (i_bytes FO O c x); reflexivity. Qed.

Lemma obj_read_bytes x bt : forall o, made_from bt o -> i_obj FO O (fst (i_read_bytes FO O c x bt)) = Some o.
Proof. intros o (t & D & R). unfold i_read_bytes. rewrite D, R, obj_update. reflexivity. Qed.

Lemma obj_read_bytes_no x bt : (forall o, ~ made_from bt o) ->
  i_obj FO O (fst (i_read_bytes FO O c x bt)) = i_obj FO O x.
Proof.
  intro H. unfold i_read_bytes. destruct (utf8_dec bt) as [t|] eqn:D; [|reflexivity].
  destruct (ic_read c t) as [o|] eqn:R; [|reflexivity]. exfalso. apply (H o). exists t. auto.
Qed.

Lemma read_body x inp : (exists n, utf8_dec (rstrip_by ws_byte (firstn 6 inp)) = Some (ic_tag c)
      /\ parse_int ws_byte (firstn 5 (skipn 6 inp)) = Some n
      /\ let b := if (n <? 0)%Z then skipn 11 inp else firstn (Z.to_nat n) (skipn 11 inp) in
         fst (i_read FO O c x inp) = fst (i_read_bytes FO O c x b)
         /\ ((exists r, snd (i_read FO O c x inp) = Ok r) -> snd (i_read_bytes FO O c x b) = Ok tt))
  \/ (fst (i_read FO O c x inp) = x /\ (exists e, snd (i_read FO O c x inp) = Err e)
      /\ forall o, ~ takes (IRead FO O inp) o).
Proof.
  unfold i_read, read_tag. destruct (utf8_dec (rstrip_by ws_byte (firstn 6 inp))) as [tag|] eqn:D.
  2: { right. split; [reflexivity|]. split; [eexists; reflexivity|]. intros o (n & b & A & _). congruence. }
  destruct (list_eqb tag (ic_tag c)) eqn:ET; cbn [negb].
  2: { right. split; [reflexivity|]. split; [eexists; reflexivity|]. intros o (n & b & A & _).
       rewrite D in A. injection A as ->. rewrite (proj2 (list_eqb_spec _ _) eq_refl) in ET. discriminate ET. }
  apply list_eqb_spec in ET as ->. unfold read_cel.
  destruct (parse_int ws_byte (firstn 5 (skipn 6 inp))) as [n|] eqn:P.
  2: { right. split; [reflexivity|]. split; [eexists; reflexivity|]. intros o (n & b & _ & A & _). congruence. }
  left. exists n. split; [reflexivity|]. split; [reflexivity|]. cbn zeta.
  assert (E11 : skipn 5 (skipn 6 inp) = skipn 11 inp).
  { clear. do 11 (destruct inp as [|? inp]; [reflexivity|]). reflexivity. }
  unfold fread. rewrite E11. destruct (n <? 0)%Z;
    (destruct (i_read_bytes FO O c x _) as [x' [[]|e]]; cbn [fst snd]; split; auto; intros (r & E); discriminate E).
Qed.

(** The dichotomy for one operation. *)
Lemma obj_step x op : (forall o, takes op o -> i_obj FO O (fst (istep FO O c x op)) = Some o)
  /\ ((forall o, ~ takes op o) -> i_obj FO O (fst (istep FO O c x op)) = i_obj FO O x).
Proof.
  destruct op as [nm k|nm k v|nm k| |o'| |bt|inp]; cbn [istep takes].
  1-3: split; [intros o []|intros _]; match goal with |- context [dstep FO ?a ?b ?d ?e] => destruct (dstep FO a b d e) end; reflexivity.
  - split; [intros o []|reflexivity].
  - split; [intros o ->; reflexivity|]. intro H. exfalso. now apply (H o').
  - assert (E := obj_update x). destruct (i_update FO O c x). split; [intros o []|intros _; exact E].
  - assert (E := obj_read_bytes x bt). assert (E' := obj_read_bytes_no x bt).
    destruct (i_read_bytes FO O c x bt). split; auto.
  - destruct (read_body x inp) as [(n & A & B & C & _)|(A & _ & B)].
    + set (b := if (n <? 0)%Z then skipn 11 inp else firstn (Z.to_nat n) (skipn 11 inp)) in *. cbn zeta in C.
      assert (E1 := obj_read_bytes x b). assert (E2 := obj_read_bytes_no x b).
      rewrite <- C in E1, E2. destruct (i_read FO O c x inp) as [x' r]. cbn [fst] in *. split.
      * intros o (n' & b' & _ & B' & Eb & M). rewrite B in B'. injection B' as <-. fold b in Eb. subst b'. auto.
      * intro H. apply E2. intros o M. apply (H o). exists n, b. auto.
    + cbn [takes] in B. destruct (i_read FO O c x inp) as [x' r]. cbn [fst] in *. subst x'. split; [|reflexivity].
      intros o T. exfalso. exact (B o T).
Qed.

Lemma isteps_app x l1 l2 : isteps FO O c x (l1 ++ l2) = isteps FO O c (isteps FO O c x l1) l2.
Proof. revert x. induction l1 as [|op l1 IH]; intro x; cbn [app isteps]; auto. Qed.

Lemma takes_dec op : (exists o, takes op o) \/ (forall o, ~ takes op o).
Proof.
  destruct op as [nm k|nm k v|nm k| |o'| |bt|inp]; cbn [takes].
  1-4, 6: right; intros o [].
  - left. eauto.
  - unfold made_from. destruct (utf8_dec bt) as [t|]; [|right; intros o (t & E & _); discriminate E].
    destruct (ic_read c t) as [o|] eqn:R; [left; eauto|].
    right. intros o (t' & E & R'). injection E as <-. congruence.
  - destruct (read_body (i_new FO O) inp) as [(n & A & B & _)|(_ & _ & B)]; [|right; exact B].
    rewrite A, B. set (b := if (n <? 0)%Z then skipn 11 inp else firstn (Z.to_nat n) (skipn 11 inp)).
    unfold made_from. destruct (utf8_dec b) as [t|] eqn:D.
    + destruct (ic_read c t) as [o|] eqn:R; [left; exists o, n, b; eauto 10|].
      right. intros o (n' & b' & _ & B' & Eb & t' & D' & R'). injection B' as <-. fold b in Eb. subst b'. congruence.
    + right. intros o (n' & b' & _ & B' & Eb & t' & D' & R'). injection B' as <-. fold b in Eb. subst b'. congruence.
Qed.

Lemma takes_fun op o o' : takes op o -> takes op o' -> o = o'.
Proof.
  intros A B. destruct (obj_step (i_new FO O) op) as [E _]. assert (E1 := E _ A). assert (E2 := E _ B). congruence.
Qed.

Lemma obj_latest os o : i_obj FO O (isteps FO O c (i_new FO O) os) = Some o <-> latest os o.
Proof.
  induction os as [|op os IH] using rev_ind.
  - split; [intro H; discriminate H|]. intros (l1 & op & l2 & E & _). destruct l1; discriminate E.
  - rewrite isteps_app. cbn [isteps]. set (x := isteps FO O c (i_new FO O) os) in *.
    destruct (obj_step x op) as [S1 S2]. destruct (takes_dec op) as [(o1 & T)|N].
    + rewrite (S1 _ T). split.
      * intro E. injection E as <-. exists os, op, []. split; [reflexivity|]. split; [exact T|]. intros op' o' [].
      * intros (l1 & op' & l2 & E & T' & H). destruct l2 as [|z l2 _] using rev_ind.
        -- apply app_inj_tail in E as [_ ->]. f_equal. eapply takes_fun; eauto.
        -- rewrite app_comm_cons, app_assoc in E. apply app_inj_tail in E as [_ ->].
           exfalso. eapply H; [|exact T]. apply in_or_app. right. now left.
    + rewrite (S2 N), IH. split.
      * intros (l1 & op' & l2 & -> & T' & H). exists l1, op', (l2 ++ [op]).
        split; [now rewrite <- app_assoc|]. split; [exact T'|]. intros z o' Hz.
        apply in_app_or in Hz as [Hz|[<-|[]]]; auto.
      * intros (l1 & op' & l2 & E & T' & H). destruct l2 as [|z l2 _] using rev_ind.
        -- apply app_inj_tail in E as [_ ->]. exfalso. eapply N; eauto.
        -- rewrite app_comm_cons, app_assoc in E. apply app_inj_tail in E as [-> ->].
           exists l1, op', l2. split; [reflexivity|]. split; [exact T'|]. intros z' o' Hz. apply H.
           apply in_or_app. now left.
Qed.

(** Whatever was done with the TRE, the record written holds exactly the bytes of the object it
    was given last; it is written unless there is none, it cannot be encoded or is too long.  The
    fields have no part in it. *)
Theorem C58_written os r : plain_tag (ic_tag c) ->
  i_write FO O c (isteps FO O c (i_new FO O) os) = Ok r <->
  exists o b, latest os o /\ gives o b /\ is_record r (ic_tag c) b.
Proof.
  intro HT. set (x := isteps FO O c (i_new FO O) os). unfold i_write. rewrite plain_field by exact HT. split.
  - intro H. apply bind_ok_elim in H as (b & Hb & H).
    destruct (99999 <? Z.of_nat (List.length b))%Z eqn:E; [discriminate H|]. injection H as <-.
    destruct (i_obj FO O x) as [o|] eqn:Eo; [|unfold i_bytes in Hb; rewrite Eo in Hb; discriminate Hb].
    exists o, b. split; [now apply obj_latest|]. split; [now apply (gives_bytes x o b Eo)|].
    apply is_record_eq; auto. split; [lia|reflexivity].
  - intros (o & b & HL & HG & HR). apply obj_latest in HL. fold x in HL.
    apply (gives_bytes x o b HL) in HG. rewrite HG. cbn [bind].
    apply is_record_eq in HR as [HR ->]; auto.
    now replace (99999 <? Z.of_nat (List.length b))%Z with false by lia.
Qed.

(** ** The fields *)

Let fs := ic_fs O c.

Lemma set_impl (s : state FO) nm k v : st_impl FO s = true -> exists e, set FO fs s nm k v = (s, Err e).
Proof.
  intro H. unfold set. destruct (lookup fs nm) as [f|]; [|eauto].
  destruct (key_shape_ok f k); [|eauto]. unfold fset.
  assert (B : forall sub w, exists e, set_base FO sub fs s f k w = (s, Err e)).
  { intros sub w. unfold set_base. destruct (fd_name (f_d f)); [|eauto].
    destruct (check_index FO (G FO fs s) fs f k); [|eauto].
    destruct (check_condition FO (G FO fs s) fs f k) as [[|]|]; eauto.
    destruct (fd_hard (f_d f) || _); [eauto|]. rewrite H. eauto. }
  destruct (fuel fs) as [|n]; cbn [setf]; [eauto|].
  destruct (fd_ty (f_d f)); auto. destruct v as [v|b]; [|eauto].
  destruct (pack FO (G FO fs s) fs f k v); eauto.
Qed.

Lemma impl_read lit (s : state FO) inp s' r : read FO fs lit s inp = Ok (s', r) -> st_impl FO s' = st_impl FO s.
Proof.
  intro HR. unfold read in HR.
  refine (read_items_pres FO fs lit (fun t => st_impl FO t = st_impl FO s) _ _ _ _ _ _ _ (incl_refl _) HR eq_refl).
  intros t f k bb v _ _ _ H. exact H.
Qed.

Definition flagged (x : istate FO O) : Prop := st_impl FO (ds_st FO (i_d FO O x)) = true.

Lemma force_impl d : st_impl FO (ds_st FO (fst (force FO fs d))) = st_impl FO (ds_st FO d).
Proof.
  unfold force. destruct (ds_pending FO d) as [[lit b]|]; auto.
  destruct (read FO fs lit (ds_st FO d) b) as [[s' r]|e] eqn:E; auto. cbn [fst ds_st]. eapply impl_read; eauto.
Qed.

(** An operation on the fields leaves the structure as it is, but for a pending read done. *)
Definition may_force (d d' : dstate FO) : Prop := d' = d \/ d' = fst (force FO fs d).

Lemma on_forced_may d (p : dstate FO * res unit) (kk : state FO -> state FO * obs FO) bad :
  may_force d (fst p) -> fst (kk (ds_st FO (fst p))) = ds_st FO (fst p) ->
  may_force d (fst (on_forced FO p kk bad)).
Proof.
  intros H Hk. destruct p as [d1 [[]|e]]; cbn [fst on_forced] in *; auto.
  destruct (kk (ds_st FO d1)) as [s' o]. cbn [fst] in Hk |- *. subst s'. now destruct d1.
Qed.

Lemma touch_may refs d : may_force d (fst (touch FO fs refs d)).
Proof. destruct refs; [now left|now right]. Qed.

Lemma dset_may d nm k v : st_impl FO (ds_st FO d) = true ->
  may_force d (fst (dset FO fs true d nm k v)) /\ exists e, snd (dset FO fs true d nm k v) = SeeSet FO (Err e).
Proof.
  intro H.
  assert (Hgo : let go := on_forced FO (force FO fs d) (fun s => step FO fs s (OSet FO nm k v)) (fun e => SeeSet FO (Err e)) in
    may_force d (fst go) /\ exists e, snd go = SeeSet FO (Err e)).
  { cbn zeta. assert (HF := force_impl d). rewrite H in HF.
    assert (HM : may_force d (fst (force FO fs d))) by now right.
    destruct (force FO fs d) as [d1 r]. cbn [fst] in HF, HM.
    destruct (set_impl (ds_st FO d1) nm k v HF) as (e & Es).
    split.
    - apply on_forced_may; [exact HM|]. cbn [fst step]. rewrite Es. reflexivity.
    - destruct r as [[]|e']; cbn [on_forced snd]; [|eexists; reflexivity].
      cbn [step]. rewrite Es. eexists. reflexivity. }
  unfold dset. destruct (lookup fs nm) as [f|]; [|split; [now left|cbn [snd]; eauto]].
  destruct (depth f); [|exact Hgo]. destruct k; [|exact Hgo]. destruct (ds_pending FO d) as [p|] eqn:Ep; [|exact Hgo].
  destruct (early_refs f); [|exact Hgo].
  destruct (early FO fs (ds_st FO d) f v) as [u|e]; [|split; [now left|cbn [snd]; eauto]].
  destruct (set_impl (ds_st FO d) nm [] v H) as (e & Es). cbn [step]. rewrite Es. cbn [fst snd].
  split; [left; rewrite <- Ep; now destruct d|eauto].
Qed.

Lemma force_again d : force FO fs (fst (force FO fs d)) = (fst (force FO fs d), Ok tt).
Proof. unfold force. destruct (ds_pending FO d) as [[lit inp]|] eqn:E; [destruct (read FO fs lit (ds_st FO d) inp) as [[s r]|e]; reflexivity|]. cbn [fst]. now rewrite E. Qed.

Lemma touch_more d d' refs : may_force d d' -> may_force d (fst (touch FO fs refs d')).
Proof. intros [->| ->]; [apply touch_may|]. destruct refs; [now right|]. cbn [touch]. rewrite force_again. now right. Qed.

Lemma dbytes_may f k d : may_force d (fst (dbytes FO fs f k d)).
Proof.
  unfold dbytes. assert (H1 := touch_may (size_refs (fd_size (f_d f))) d). destruct (touch FO fs _ d) as [d1 [u|e]]; [|exact H1]. cbn [fst] in H1.
  destruct (fsize_of _ _ _ _ _); [|exact H1]. destruct (stored _ _ _ _); [|exact H1]. destruct (fd_name _); [|exact H1].
  assert (H2 : may_force d (fst (if Nat.eqb (List.length k) (depth f) && (0 <=? last k 0)%Z then touch FO fs (shape_refs f) d1 else (d1, Ok tt))))
    by (destruct (_ && _); [now apply touch_more|exact H1]).
  destruct (if _ && _ then _ else _) as [d2 [u2|e]]; [|exact H2]. cbn [fst] in H2. destruct (check_index _ _ _ _ _); [|exact H2].
  assert (H3 := touch_more d d2 (opt_refs (fd_cond (f_d f))) H2). destruct (touch FO fs _ d2) as [d3 [u3|e]]; [|exact H3]. cbn [fst] in H3.
  destruct (check_condition _ _ _ _ _) as [[|]|]; try exact H3.
  assert (H4 := touch_more d d3 (opt_refs (fd_value (f_d f))) H3). now destruct (touch FO fs _ d3) as [d4 [u4|e]].
Qed.

Lemma dstep_may d op : st_impl FO (ds_st FO d) = true -> (forall nm k v, op = OSet FO nm k v -> True) ->
  op <> OWrite FO -> may_force d (fst (dstep FO fs true d op)).
Proof.
  intros H _ Hw. destruct op as [nm k|nm k v|nm k|]; cbn [dstep]; [| | |contradiction].
  - apply on_forced_may; [now right|reflexivity].
  - now apply dset_may.
  - unfold draw. destruct (lookup fs nm) as [f|]; [|now left].
    destruct (st_raw FO (ds_st FO d) (f_id f) k); [now left|].
    assert (HM := dbytes_may f k d). destruct (dbytes FO fs f k d). exact HM.
Qed.

Lemma flagged_step x op : flagged x -> flagged (fst (istep FO O c x op)).
Proof.
  unfold flagged. intro H.
  assert (HU : forall y, st_impl FO (ds_st FO (i_d FO O y)) = true ->
                         st_impl FO (ds_st FO (i_d FO O (fst (i_update FO O c y)))) = true).
  { intros y Hy. unfold i_update. destruct (i_bytes FO O c y); exact Hy. }
  assert (HB : forall bt, st_impl FO (ds_st FO (i_d FO O (fst (i_read_bytes FO O c x bt)))) = true).
  { intro bt. unfold i_read_bytes. destruct (utf8_dec bt); [|exact H]. destruct (ic_read c l); [|exact H]. now apply HU. }
  assert (HD : forall p, p <> OWrite FO -> st_impl FO (ds_st FO (fst (dstep FO fs true (i_d FO O x) p))) = true).
  { intros p Hp. destruct (dstep_may (i_d FO O x) p H ltac:(auto) Hp) as [->| ->]; [exact H|]. now rewrite force_impl. }
  destruct op as [nm k|nm k v|nm k| |o'| |bt|inp]; cbn [istep]; try exact H.
  - specialize (HD (OGet FO nm k) ltac:(discriminate)). unfold fs in HD. destruct (dstep FO (ic_fs O c) true (i_d FO O x) (OGet FO nm k)). exact HD.
  - specialize (HD (OSet FO nm k v) ltac:(discriminate)). unfold fs in HD. destruct (dstep FO (ic_fs O c) true (i_d FO O x) (OSet FO nm k v)). exact HD.
  - specialize (HD (ORaw FO nm k) ltac:(discriminate)). unfold fs in HD. destruct (dstep FO (ic_fs O c) true (i_d FO O x) (ORaw FO nm k)). exact HD.
  - specialize (HU x H). destruct (i_update FO O c x). exact HU.
  - specialize (HB bt). destruct (i_read_bytes FO O c x bt). exact HB.
  - destruct (read_body x inp) as [(n & _ & _ & C & _)|(A & _)].
    + match type of C with fst _ = fst (i_read_bytes FO O c x ?b) => specialize (HB b) end. rewrite <- C in HB.
      destruct (i_read FO O c x inp). exact HB.
    + destruct (i_read FO O c x inp). cbn [fst] in *. now subst.
Qed.

Lemma flagged_all os : forall x, flagged x -> flagged (isteps FO O c x os).
Proof. induction os as [|op os IH]; intros x H; cbn [isteps]; auto. apply IH. now apply flagged_step. Qed.

(** No field can be assigned, whatever was done before; the object stays. *)
Theorem C58_refused os nm k v :
  let x := isteps FO O c (i_new FO O) os in
  (exists e, snd (istep FO O c x (ISet FO O nm k v)) = ISee FO (SeeSet FO (Err e)))
  /\ i_obj FO O (fst (istep FO O c x (ISet FO O nm k v))) = i_obj FO O x
  /\ i_write FO O c (fst (istep FO O c x (ISet FO O nm k v))) = i_write FO O c x.
Proof.
  cbn zeta. assert (HF := flagged_all os (i_new FO O) eq_refl). set (x := isteps FO O c (i_new FO O) os) in *.
  destruct (dset_may (i_d FO O x) nm k v HF) as [_ (e & E)]. cbn [istep dstep]. unfold fs in E.
  destruct (dset FO (ic_fs O c) true (i_d FO O x) nm k v) as [d s]. cbn [fst snd] in *. subst s.
  split; [eauto|]. split; [reflexivity|]. reflexivity.
Qed.

(** An operation that takes the fields from the object, having gone through. *)
Definition refreshed (op : iop FO O) (seen : iobs FO) : Prop :=
  match op, seen with
  | IUpdate _ _, IDone _ r => r = Ok tt
  | IReadBytes _ _ _, IDone _ r => r = Ok tt
  | IRead _ _ _, IBytes _ r => exists rest, r = Ok rest
  | _, _ => False
  end.
Definition refreshes (op : iop FO O) : Prop :=
  match op with IUpdate _ _ | IReadBytes _ _ _ | IRead _ _ _ => True | _ => False end.

(** The structure has read, or will read, [b]. *)
Definition holds_record (b : list N) (d : dstate FO) : Prop :=
  ds_pending FO d = Some (false, b)
  \/ (ds_pending FO d = None /\ exists s0 r, read FO fs false s0 b = Ok (ds_st FO d, r)).

Lemma update_holds y x' : i_update FO O c y = (x', Ok tt) ->
  exists b, i_bytes FO O c x' = Ok b /\ ds_pending FO (i_d FO O x') = Some (false, b).
Proof.
  unfold i_update. destruct (i_bytes FO O c y) as [b|] eqn:E; intro H; [|discriminate H]. injection H as <-.
  exists b. split; [exact E|reflexivity].
Qed.

Lemma read_bytes_holds y bt x' : i_read_bytes FO O c y bt = (x', Ok tt) ->
  exists b, i_bytes FO O c x' = Ok b /\ ds_pending FO (i_d FO O x') = Some (false, b).
Proof.
  unfold i_read_bytes. destruct (utf8_dec bt); [|intro H; discriminate H].
  destruct (ic_read c l); [|intro H; discriminate H]. apply update_holds.
Qed.

Lemma refreshed_holds x op x1 seen : istep FO O c x op = (x1, seen) -> refreshed op seen ->
  exists b, i_bytes FO O c x1 = Ok b /\ ds_pending FO (i_d FO O x1) = Some (false, b).
Proof.
  destruct op as [nm k|nm k v|nm k| |o'| |bt|inp]; cbn [istep refreshed]; intros H R; try contradiction.
  - destruct (i_update FO O c x) as [x' r] eqn:E. injection H as <- <-. cbn in R. subst r. eapply update_holds; eauto.
  - destruct (i_read_bytes FO O c x bt) as [x' r] eqn:E. injection H as <- <-. cbn in R. subst r. eapply read_bytes_holds; eauto.
  - destruct (read_body x inp) as [(n & _ & _ & C & D)|(_ & (e & A) & _)].
    + cbn zeta in C, D. set (b := if (n <? 0)%Z then skipn 11 inp else firstn (Z.to_nat n) (skipn 11 inp)) in *.
      destruct (i_read FO O c x inp) as [x' r] eqn:E. injection H as <- <-. destruct R as (rest & R). subst r.
      cbn [fst snd] in C, D. specialize (D (ex_intro _ rest eq_refl)).
      destruct (i_read_bytes FO O c x b) as [x2 r2] eqn:E2. cbn [fst snd] in C, D. subst x2 r2. eapply read_bytes_holds; eauto.
    + destruct (i_read FO O c x inp) as [x' r] eqn:E. injection H as <- <-. destruct R as (rest & R). cbn [snd] in A. congruence.
Qed.

Section Shown.
Variable b : list N.
Variable n : state FO.
Variable rest : list N.
Hypothesis Hwf : wf_rows (ic_rows c) = true.
Hypothesis HN : read FO fs false (init_state FO) b = Ok (n, rest).

Lemma force_holds d : holds_record b d -> snd (force FO fs d) = Ok tt
  /\ ds_pending FO (fst (force FO fs d)) = None
  /\ exists s0 r, read FO fs false s0 b = Ok (ds_st FO (fst (force FO fs d)), r).
Proof.
  unfold force. intros [H|(H & s0 & r & HR)]; rewrite H.
  - destruct (C57_shows FO (ic_rows c) false (init_state FO) (ds_st FO d) n b rest Hwf HN) as (t' & Ht & _).
    unfold fs, ic_fs in *. rewrite Ht. cbn [fst snd ds_pending ds_st]. eauto.
  - cbn [fst snd]. eauto.
Qed.

Lemma may_holds d d' : holds_record b d -> may_force d d' -> holds_record b d'.
Proof.
  intros H [->| ->]; auto. right. destruct (force_holds d H) as (_ & A & B). auto.
Qed.

Lemma holds_step x op : flagged x -> ~ refreshes op -> holds_record b (i_d FO O x) ->
  holds_record b (i_d FO O (fst (istep FO O c x op))).
Proof.
  intros HF HR H.
  assert (HD : forall p, p <> OWrite FO -> holds_record b (fst (dstep FO fs true (i_d FO O x) p))).
  { intros p Hp. eapply may_holds; [exact H|]. now apply dstep_may. }
  destruct op as [nm k|nm k v|nm k| |o'| |bt|inp]; cbn [istep refreshes] in *; try exact H; try (exfalso; apply HR; exact I).
  - specialize (HD (OGet FO nm k) ltac:(discriminate)). unfold fs in HD. destruct (dstep FO (ic_fs O c) true (i_d FO O x) (OGet FO nm k)). exact HD.
  - specialize (HD (OSet FO nm k v) ltac:(discriminate)). unfold fs in HD. destruct (dstep FO (ic_fs O c) true (i_d FO O x) (OSet FO nm k v)). exact HD.
  - specialize (HD (ORaw FO nm k) ltac:(discriminate)). unfold fs in HD. destruct (dstep FO (ic_fs O c) true (i_d FO O x) (ORaw FO nm k)). exact HD.
Qed.

Lemma holds_all os : forall x, flagged x -> (forall op, In op os -> ~ refreshes op) ->
  holds_record b (i_d FO O x) -> holds_record b (i_d FO O (isteps FO O c x os)).
Proof.
  induction os as [|op os IH]; intros x HF HO H; cbn [isteps]; auto. apply IH.
  - now apply flagged_step.
  - intros op' Hin. apply HO. now right.
  - apply holds_step; auto. apply HO. now left.
Qed.

Lemma holds_shows x nm f k v : holds_record b (i_d FO O x) -> lookup fs nm = Some f -> valid_index FO fs n f k ->
  (snd (istep FO O c x (IGet FO O nm k)) = ISee FO (SeeVal FO (Ok v)) <-> get FO fs n nm k = Ok v).
Proof.
  intros H HL Hv. cbn [istep dstep]. destruct (force_holds _ H) as (A & B & s0 & r & HR).
  change (ic_fs O c) with fs. destruct (force FO fs (i_d FO O x)) as [d r'] eqn:E. cbn [fst snd] in *. subst r'.
  cbn [on_forced step]. cbn [snd].
  destruct (C57_shows FO (ic_rows c) false (init_state FO) s0 n b rest Hwf HN) as (t' & Ht & _ & Hg & _).
  assert (Et : t' = ds_st FO d) by (unfold fs, ic_fs in HR; rewrite HR in Ht; congruence). subst t'.
  specialize (Hg nm f k v HL Hv). change (mk_fs (ic_rows c)) with fs in Hg. rewrite Hg.
  split; [intro X; injection X as X; exact X|intros ->; reflexivity].
Qed.

End Shown.

(** After the fields were taken from the object (a record read, or [update_raw_field]), each shows
    what it is in the bytes the object gave at that moment, as a new structure reading these
    bytes shows it: whatever the TRE held before, and whatever is done afterwards, until the
    fields are taken again.  In particular a new object put in does not change the fields. *)
Theorem C58_shows os x1 op seen o b n rest later nm f k v :
  wf_rows (ic_rows c) = true ->
  istep FO O c (isteps FO O c (i_new FO O) os) op = (x1, seen) -> refreshed op seen ->
  i_obj FO O x1 = Some o -> gives o b ->
  read FO (mk_fs (ic_rows c)) false (init_state FO) b = Ok (n, rest) ->
  (forall op', In op' later -> ~ refreshes op') ->
  lookup (mk_fs (ic_rows c)) nm = Some f -> valid_index FO (mk_fs (ic_rows c)) n f k ->
  (snd (istep FO O c (isteps FO O c x1 later) (IGet FO O nm k)) = ISee FO (SeeVal FO (Ok v))
   <-> get FO (mk_fs (ic_rows c)) n nm k = Ok v).
Proof.
  intros Hwf HS HR Ho Hg HN HL Hl Hv.
  assert (HF : flagged x1).
  { assert (E : x1 = fst (istep FO O c (isteps FO O c (i_new FO O) os) op)) by now rewrite HS. rewrite E.
    apply flagged_step, flagged_all. reflexivity. }
  destruct (refreshed_holds _ _ _ _ HS HR) as (b' & Hb & Hp).
  apply (gives_bytes x1 o b' Ho) in Hb. apply (gives_bytes x1 o b Ho) in Hg. apply (gives_bytes x1 o b' Ho) in Hb.
  rewrite Hg in Hb. injection Hb as <-.
  apply (holds_shows b n rest Hwf HN _ nm f k v); auto.
  apply (holds_all b n rest Hwf HN); auto. left. exact Hp.
Qed.

(** A record written is read back: a class that makes of the text of an object an object giving
    the same bytes gets them, consumes exactly the record, and writes it again. *)
Theorem C58_round x o b r rest t o' (y : istate FO O) : plain_tag (ic_tag c) ->
  i_obj FO O x = Some o -> gives o b -> i_write FO O c x = Ok r ->
  utf8_dec b = Some t -> ic_read c t = Ok o' -> gives o' b ->
  exists y', i_read FO O c y (r ++ rest) = (y', Ok rest) /\ i_obj FO O y' = Some o' /\ i_write FO O c y' = Ok r.
Proof.
  intros HT Ho Hg HW Hd Hr Hg'.
  assert (Hr' : (Z.of_nat (List.length b) <= 99999)%Z /\ r = ljust 6 (ic_tag c) ++ len5 (List.length b) ++ b).
  { unfold i_write in HW. rewrite plain_field in HW by exact HT. apply (gives_bytes x o b Ho) in Hg. rewrite Hg in HW.
    cbn [bind] in HW. destruct (99999 <? Z.of_nat (List.length b))%Z eqn:E; [discriminate HW|]. injection HW as <-.
    split; [lia|reflexivity]. }
  destruct Hr' as [H5 ->]. unfold i_read. rewrite <- !app_assoc, read_tag_plain by exact HT. rewrite (proj2 (list_eqb_spec _ _) eq_refl).
  cbn [negb]. rewrite (read_cel_5 _ _ _ (len5_decimal _ H5)).
  unfold fread. replace (Z.of_nat (List.length b) <? 0)%Z with false by lia. rewrite Nat2Z.id, firstn_exact, skipn_exact by reflexivity.
  unfold i_read_bytes. rewrite Hd, Hr. unfold i_update.
  assert (E : i_bytes FO O c (i_put FO O y o') = Ok b) by now apply (gives_bytes (i_put FO O y o') o' b eq_refl).
  rewrite E. eexists. split; [reflexivity|]. split; [reflexivity|].
  unfold i_write. rewrite plain_field by exact HT.
  match goal with |- context [i_bytes FO O c ?z] => change (i_bytes FO O c z) with (i_bytes FO O c (i_put FO O y o')) end.
  rewrite E. cbn [bind]. now replace (99999 <? Z.of_nat (List.length b))%Z with false by lia.
Qed.

End Impl.

(** ** Cases *)

(** A class whose object is its text. *)
Definition text_cls : icls (list N) :=
  {| ic_tag := str "EXAMPI"; ic_rows := flag_rows; ic_string := TsText; ic_read := fun t => Ok t |}.
Definition ti_step := istep DecF (list N) text_cls.
Definition ti_run := isteps DecF (list N) text_cls (i_new DecF (list N)).
(** What is seen of a field, of kept bytes, of a write, of a read (what is left of the file). *)
Definition ti_get os nm k : seen :=
  match snd (ti_step (ti_run os) (IGet DecF (list N) nm k)) with ISee _ (SeeVal _ r) => see r | _ => SeeNone end.
Definition ti_raw os nm k : res (list N) :=
  match snd (ti_step (ti_run os) (IRaw DecF (list N) nm k)) with ISee _ (SeeBytes _ r) => r | _ => Err ENotImpl end.
Definition ti_write os : res (list N) := i_write DecF (list N) text_cls (ti_run os).
Definition ti_read inp : res (list N) :=
  match snd (ti_step (ti_run []) (IRead DecF (list N) inp)) with IBytes _ r => r | _ => Err ENotImpl end.
Notation put t := (IPut DecF (list N) (str t)).
Notation upd := (IUpdate DecF (list N)).
Notation look nm := (IGet DecF (list N) nm []).

(** A record read, an object put in (the fields stay as they were, the record written is new),
    then the fields taken from it; no assignment goes through. *)
Example ex_c58 :
  let h := [IRead DecF (list N) (str "EXAMPI000052ab57rest")] in
  ti_get h "n" [] = SeeInt 2 /\ ti_get h "y" [1; 0]%Z = SeeInt 7 /\ ti_write h = Ok (str "EXAMPI000052ab57")
  /\ ti_get (h ++ [put "1cd8"]) "n" [] = SeeInt 2 /\ ti_write (h ++ [put "1cd8"]) = Ok (str "EXAMPI000041cd8")
  /\ ti_get (h ++ [put "1cd8"; upd]) "n" [] = SeeInt 1 /\ ti_get (h ++ [put "1cd8"; upd]) "x" [] = SeeStr (str "cd")
  /\ ti_get (h ++ [put "1cd8"; ISet DecF (list N) "n" [] (SVal (VInt 0))]) "n" [] = SeeInt 2
  /\ ti_write [] = Err EAttr.
Proof. vm_compute. repeat split. Qed.

(** Kept bytes are not renewed with the fields: until a field is looked at, [get_raw_bytes] gives
    those of the record before (nitf_field.py:245-246, nitf_tre.py:106-109). *)
Theorem C58_raw_refuted : exists os nm b b',
  ti_raw os nm [] = Ok b /\ ti_raw (os ++ [look nm]) nm [] = Ok b' /\ b <> b'
  /\ (exists os', os = os' ++ [upd]) /\ ti_get os nm [] = SeeStr b'.
Proof.
  exists [put "2ab57"; upd; look "n"; put "1cd8"; upd], "x"%string, (str "ab"), (str "cd").
  split; [vm_compute; reflexivity|]. split; [vm_compute; reflexivity|]. split; [discriminate|].
  split; [eexists [_; _; _; _]; reflexivity|]. vm_compute; reflexivity.
Qed.

(** Bytes the fields cannot be read from are noticed once: the first look at a field raises, the
    next shows the record before (nitf_field.py:836-840). *)
Theorem C58_failed_refuted : exists os nm e z,
  ti_get os nm [] = SeeErr e /\ ti_get (os ++ [look nm]) nm [] = SeeInt z
  /\ ti_write os = Ok (str "EXAMPI00003bad").
Proof.
  exists [put "2ab57"; upd; look "n"; put "bad"; upd], "n"%string, ERuntime, 2%Z.
  split; [vm_compute; reflexivity|]. split; vm_compute; reflexivity.
Qed.

(** Neither a record shorter than its length field says nor one longer than its fields is refused
    (nitf_tre.py:63-64), unlike records read into the fields (C19). *)
Theorem C58_length_refuted : exists inp1 inp2 cel body,
  inp1 = str "EXAMPI" ++ cel ++ body /\ parse_int ws_byte cel <> Some (Z.of_nat (List.length body))
  /\ ti_read inp1 = Ok []
  /\ ti_read inp2 = Ok []
  /\ ti_get [IRead DecF (list N) inp2] "n" [] = SeeInt 1
  /\ match read DecF (mk_fs flag_rows) false (init_state DecF) (skipn 11 inp2) with Ok (_, r) => r | Err _ => [] end <> [].
Proof.
  exists (str "EXAMPI999992ab57"), (str "EXAMPI000071cd8xyz"), (str "99999"), (str "2ab57").
  split; [reflexivity|]. split; [vm_compute; discriminate|]. split; [vm_compute; reflexivity|].
  split; [vm_compute; reflexivity|]. split; [vm_compute; reflexivity|]. vm_compute. discriminate.
Qed.

(** The hypotheses of [C58_round] hold of this class. *)
Example ex_c58_round : exists y,
  i_read DecF (list N) text_cls (i_new DecF (list N)) (str "EXAMPI000052ab57" ++ str "rest") = (y, Ok (str "rest"))
  /\ i_obj DecF (list N) y = Some (str "2ab57").
Proof.
  assert (HW : ti_write [put "2ab57"] = Ok (str "EXAMPI000052ab57")) by (vm_compute; reflexivity).
  assert (HG : gives (list N) text_cls (str "2ab57") (str "2ab57")).
  { right. exists (str "2ab57"). split; [reflexivity|vm_compute; reflexivity]. }
  assert (HT : plain_tag (str "EXAMPI")).
  { split; [repeat constructor|]. split; [cbn; lia|]. intros l a E.
    assert (Ea : a = last (str "EXAMPI") 0%N) by (rewrite E, last_last; reflexivity). subst a. reflexivity. }
  destruct (C58_round DecF (list N) text_cls (ti_run [put "2ab57"]) (str "2ab57") (str "2ab57") (str "EXAMPI000052ab57")
    (str "rest") (str "2ab57") (str "2ab57") (i_new DecF (list N)) HT eq_refl HG HW) as (y & A & B & _);
    [vm_compute; reflexivity|reflexivity|exact HG|]. eauto.
Qed.

Print Assumptions C58_written.
Print Assumptions C58_refused.
Print Assumptions C58_shows.
Print Assumptions C58_round.
Print Assumptions C58_raw_refuted.
Print Assumptions C58_failed_refuted.
Print Assumptions C58_length_refuted.
