(** C64: the headers a segment and its data share. *)
From Coq Require Import List Arith Lia Bool.
From Verif Require Import Shared.
Import ListNotations.

Section C64.
Variables S U : Type.
Notation world := (world S U).
Notation op := (op S U).
Arguments run {S U} _ _. Arguments step {S U} _ _.
Arguments seg_sub {S U} _ _. Arguments seg_ush {S U} _ _.
Arguments data_sub {S U} _ _. Arguments data_ush {S U} _ _.
Arguments seg_data {S U} _ _.

(** programs that leave it to the package which data a segment has *)
Definition leaves_data (o : op) : bool :=
  match o with SetData _ (Some _) | Merge _ _ => false | _ => true end.

(** programs that assign new subheaders and user subheaders, not those of other
    segments, and merge nothing *)
Definition gives_own (o : op) : bool :=
  match o with
  | SegSub _ (OfSeg _) | DataSub _ (OfSeg _)
  | SegUsh _ (Some (OfSeg _)) | DataUsh _ (Some (OfSeg _)) | Merge _ _ => false
  | _ => true
  end.

(** the data objects from which segments are made *)
Definition used (o : op) : list nat :=
  match o with MkSegm _ (Some d) => [d] | _ => [] end.

(** the data object was made by the program, not by reading a segment *)
Definition made (w : world) (d : nat) : Prop :=
  exists h, nth_error (w_data w) d = Some (mkData h None).

(* ---- lists *)

Lemma nth_upd {A} : forall (l : list A) i j f,
  nth_error (upd l i f) j =
  if Nat.eqb i j then option_map f (nth_error l j) else nth_error l j.
Proof.
  induction l as [|a l IH]; intros [|i] [|j] f; try reflexivity; cbn.
  - destruct (Nat.eqb i j); reflexivity.
  - apply IH.
Qed.

Lemma nth_snoc {A} (l : list A) a i :
  nth_error (l ++ [a]) i =
  if Nat.eqb i (length l) then Some a else nth_error l i.
Proof.
  destruct (Nat.eqb_spec i (length l)) as [->|N].
  - rewrite nth_error_app2, Nat.sub_diag by lia. reflexivity.
  - destruct (Nat.lt_ge_cases i (length l)).
    + now rewrite nth_error_app1.
    + rewrite nth_error_app2 by lia.
      destruct (i - length l) as [|[|k]] eqn:E; try lia; cbn;
        symmetry; apply nth_error_None; lia.
Qed.

Lemma nth_lt {A} (l : list A) i a : nth_error l i = Some a -> i < length l.
Proof. intros H. apply nth_error_Some. now rewrite H. Qed.

Lemma len_upd {A} : forall (l : list A) i f, length (upd l i f) = length l.
Proof. induction l as [|a l IH]; intros [|i] f; cbn; auto. Qed.

Lemma nth_old {A} (l m : list A) i a : nth_error l i = Some a -> nth_error (l ++ m) i = Some a.
Proof. intros H. rewrite nth_error_app1; [exact H | eapply nth_lt; eauto]. Qed.

Lemma nth_repeat {A} (a b : A) : forall n i, nth_error (repeat a n) i = Some b -> b = a.
Proof. induction n; intros [|i] H; cbn in H; try discriminate H; [congruence|eauto]. Qed.

(* ---- references refer to objects *)

Record sound (w : world) : Prop := {
  so_sub : forall h x, nth_error (w_hdr w) h = Some x -> h_sub x < length (w_sub w);
  so_ush : forall h x u, nth_error (w_hdr w) h = Some x -> h_ush x = Some u ->
           u < length (w_ush w);
  so_data : forall d y, nth_error (w_data w) d = Some y -> d_hdr y < length (w_hdr w);
  so_seg : forall s z, nth_error (w_seg w) s = Some z -> s_hdr z < length (w_hdr w) }.

(** a segment and its data have one shared header *)
Definition coherent (w : world) : Prop :=
  forall s z d, nth_error (w_seg w) s = Some z -> s_data z = Some d ->
  exists y, nth_error (w_data w) d = Some y /\ d_hdr y = s_hdr z.

(** a data object made by reading a segment has the header of the segment *)
Definition reads (w : world) : Prop :=
  forall d y s, nth_error (w_data w) d = Some y -> d_seg y = Some s ->
  exists z, nth_error (w_seg w) s = Some z /\ s_hdr z = d_hdr y.

(** nothing is shared by two segments, given the data objects used so far *)
Record apart (us : list nat) (w : world) : Prop := {
  ap_sub : forall h k x y, nth_error (w_hdr w) h = Some x -> nth_error (w_hdr w) k = Some y ->
           h_sub x = h_sub y -> h = k;
  ap_ush : forall h k x y u, nth_error (w_hdr w) h = Some x -> nth_error (w_hdr w) k = Some y ->
           h_ush x = Some u -> h_ush y = Some u -> h = k;
  ap_seg : forall s t x y, nth_error (w_seg w) s = Some x -> nth_error (w_seg w) t = Some y ->
           s_hdr x = s_hdr y -> s = t;
  ap_data : forall d e x y, nth_error (w_data w) d = Some x -> nth_error (w_data w) e = Some y ->
            d_seg x = None -> d_seg y = None -> d_hdr x = d_hdr y -> d = e;
  ap_free : forall d x s z, nth_error (w_data w) d = Some x -> d_seg x = None ->
            ~ In d us -> nth_error (w_seg w) s = Some z -> s_hdr z <> d_hdr x }.

Ltac inv H := inversion H; clear H; subst.
Ltac cases :=
  repeat match goal with
  | H : match ?x with _ => _ end = Some _ |- _ => destruct x eqn:?; try discriminate H
  | H : None = Some _ |- _ => discriminate H
  | H : Some _ = Some _ |- _ => inv H
  | H : (_, _) = (_, _) |- _ => inv H
  end.

Definition same_refs (w w' : world) : Prop :=
  w_data w' = w_data w /\ w_seg w' = w_seg w.

Lemma change_sub_refs w h f w' : change_sub S U w h f = Some w' ->
  w_hdr w' = w_hdr w /\ w_data w' = w_data w /\ w_seg w' = w_seg w /\ w_ush w' = w_ush w /\
  exists x, nth_error (w_hdr w) h = Some x /\ w_sub w' = upd (w_sub w) (h_sub x) f.
Proof. unfold change_sub. intros H; cases. cbn. repeat split; eauto. Qed.

Lemma change_ush_refs w h f w' : change_ush S U w h f = Some w' ->
  w_hdr w' = w_hdr w /\ w_data w' = w_data w /\ w_seg w' = w_seg w /\ w_sub w' = w_sub w /\
  exists x u, nth_error (w_hdr w) h = Some x /\ h_ush x = Some u /\ w_ush w' = upd (w_ush w) u f.
Proof. unfold change_ush. intros H; cases. cbn. repeat split; eauto. Qed.

(** what an operation does to data and segments, for all operations that only
    change headers *)
Lemma read_hdr_refs w h s u w' : read_hdr S U w h s u = Some w' ->
  w_data w' = w_data w /\ w_seg w' = w_seg w /\ length (w_hdr w') = length (w_hdr w).
Proof.
  unfold read_hdr. intros H. destruct (change_sub _ _ w h _) as [w1|] eqn:E; [|discriminate H].
  apply change_sub_refs in E as (A & B & C & _).
  destruct u as [x|]; cbn in H; inv H; cbn; rewrite ?len_upd; intuition congruence.
Qed.

Lemma take_sub_refs w v w' i : take_sub S U w v = Some (w', i) ->
  w_data w' = w_data w /\ w_seg w' = w_seg w /\ w_hdr w' = w_hdr w /\ w_ush w' = w_ush w.
Proof. unfold take_sub, new_sub. intros H; cases; cbn; auto. Qed.

Lemma take_ush_refs w v w' i : take_ush S U w v = Some (w', i) ->
  w_data w' = w_data w /\ w_seg w' = w_seg w /\ w_hdr w' = w_hdr w /\ w_sub w' = w_sub w.
Proof. unfold take_ush, new_ush. intros H; cases; cbn; auto. Qed.

(* ---- soundness *)

Lemma sound_empty : sound empty.
Proof. split; intros [|?] ?; try discriminate 1; intros ? [=]. Qed.

Lemma sound_sub w l : length (w_sub w) <= length l -> sound w ->
  sound (mkWorld _ _ l (w_ush w) (w_hdr w) (w_data w) (w_seg w)).
Proof. intros L [A B C D]. split; cbn; eauto. intros h x E. specialize (A h x E). lia. Qed.

Lemma sound_ush w l : length (w_ush w) <= length l -> sound w ->
  sound (mkWorld _ _ (w_sub w) l (w_hdr w) (w_data w) (w_seg w)).
Proof. intros L [A B C D]. split; cbn; eauto. intros h x u E F. specialize (B h x u E F). lia. Qed.

Lemma sound_set_sub w h i : i < length (w_sub w) -> sound w -> sound (set_sub S U w h i).
Proof.
  intros L [A B C D]. split; cbn; try setoid_rewrite len_upd; auto;
    intros k x *; rewrite nth_upd; destruct (Nat.eqb h k).
  - destruct (nth_error (w_hdr w) k); cbn; intros [= <-]; exact L.
  - intros E. eauto.
  - destruct (nth_error (w_hdr w) k) eqn:F; cbn; intros [= <-]; cbn; eauto.
  - eauto.
Qed.

Lemma sound_set_ush w h i : (forall u, i = Some u -> u < length (w_ush w)) ->
  sound w -> sound (set_ush S U w h i).
Proof.
  intros L [A B C D]. split; cbn; try setoid_rewrite len_upd; auto;
    intros k x *; rewrite nth_upd; destruct (Nat.eqb h k).
  - destruct (nth_error (w_hdr w) k) eqn:F; cbn; intros [= <-]; cbn; eauto.
  - eauto.
  - destruct (nth_error (w_hdr w) k) eqn:F; cbn; intros [= <-]; cbn; eauto.
  - eauto.
Qed.

Lemma sound_new_hdr w s u w' h : new_hdr S U w s u = (w', h) -> sound w ->
  sound w' /\ h = length (w_hdr w) /\ length (w_hdr w') = Datatypes.S h /\
  w_data w' = w_data w /\ w_seg w' = w_seg w.
Proof.
  unfold new_hdr. intros [= <- <-] [A B C D]. repeat split; cbn;
    rewrite ?app_length; cbn; try lia.
  - intros k x. rewrite ?app_length, nth_snoc. cbn.
    destruct (Nat.eqb k (length (w_hdr w))).
    + intros [= <-]. cbn. lia.
    + intros E. specialize (A k x E). lia.
  - intros k x v. rewrite nth_snoc. destruct (Nat.eqb k (length (w_hdr w))).
    + intros [= <-]. cbn. destruct u; [|intros [=]]. intros [= <-]. rewrite ?app_length. cbn. lia.
    + intros E F. specialize (B k x v E F). destruct u; rewrite ?app_length; cbn; lia.
  - intros d y E. rewrite ?app_length. specialize (C d y E). cbn. lia.
  - intros d y E. rewrite ?app_length. specialize (D d y E). cbn. lia.
Qed.

Lemma sound_add_data w m : (forall i y, nth_error m i = Some y -> d_hdr y < length (w_hdr w)) ->
  sound w -> sound (mkWorld _ _ (w_sub w) (w_ush w) (w_hdr w) (w_data w ++ m) (w_seg w)).
Proof.
  intros L [A B C D]. split; cbn; auto. intros d y E.
  destruct (Nat.lt_ge_cases d (length (w_data w))).
  - rewrite nth_error_app1 in E by assumption. eauto.
  - rewrite nth_error_app2 in E by assumption. eauto.
Qed.

Lemma sound_add_seg w z : s_hdr z < length (w_hdr w) ->
  sound w -> sound (mkWorld _ _ (w_sub w) (w_ush w) (w_hdr w) (w_data w) (w_seg w ++ [z])).
Proof.
  intros L [A B C D]. split; cbn; auto. intros s y. rewrite nth_snoc.
  destruct (Nat.eqb s (length (w_seg w))); [intros [= <-]; exact L | eauto].
Qed.

Lemma sound_set_data w s d : sound w -> sound (set_data S U w s d).
Proof.
  intros [A B C D]. split; cbn; auto. intros t z. rewrite nth_upd.
  destruct (Nat.eqb s t); [|eauto].
  destruct (nth_error (w_seg w) t) eqn:F; cbn; intros [= <-]. cbn. eauto.
Qed.

Lemma sound_change_sub w h f w' : change_sub S U w h f = Some w' -> sound w -> sound w'.
Proof.
  unfold change_sub. intros H W; cases. apply sound_sub; [rewrite len_upd; lia|assumption].
Qed.

Lemma sound_change_ush w h f w' : change_ush S U w h f = Some w' -> sound w -> sound w'.
Proof.
  unfold change_ush. intros H W; cases. apply sound_ush; [rewrite len_upd; lia|assumption].
Qed.

Lemma sound_take_sub w v w' i : take_sub S U w v = Some (w', i) -> sound w ->
  sound w' /\ i < length (w_sub w').
Proof.
  unfold take_sub, new_sub. intros H W; cases.
  - split; [apply sound_sub; [rewrite app_length; lia|assumption]|].
    cbn. rewrite app_length. cbn. lia.
  - split; [assumption|]. eapply so_sub; eauto.
Qed.

Lemma sound_take_ush w v w' i : take_ush S U w v = Some (w', i) -> sound w ->
  sound w' /\ forall u, i = Some u -> u < length (w_ush w').
Proof.
  unfold take_ush, new_ush. intros H W; cases.
  - split; [apply sound_ush; [rewrite app_length; lia|assumption]|].
    intros v [= <-]. cbn. rewrite app_length. cbn. lia.
  - split; [assumption|]. intros. eapply so_ush; eauto.
  - split; [assumption|]. intros ? [=].
Qed.

Lemma sound_read_hdr w h s u w' : read_hdr S U w h s u = Some w' -> sound w -> sound w'.
Proof.
  unfold read_hdr. intros H W. destruct (change_sub _ _ w h _) as [w1|] eqn:E; [|discriminate H].
  apply sound_change_sub in E; [|assumption].
  destruct u as [x|]; cbn in H; inv H; [|assumption].
  apply sound_set_ush.
  - intros v [= <-]. cbn. rewrite app_length. cbn. lia.
  - apply sound_ush; [rewrite app_length; lia|assumption].
Qed.

Lemma sound_step w o w' : step w o = Some w' -> sound w -> sound w'.
Proof.
  intros H W. destruct o; cbn [step] in H.
  - destruct (new_hdr S U w s u) as [w1 h] eqn:E. inv H.
    destruct (sound_new_hdr _ _ _ _ _ E W) as (W1 & A & B & C & D).
    apply sound_add_data; [|assumption].
    intros [|[|i]] y; cbn; intros [= <-]. cbn. lia.
  - destruct d as [d|].
    + destruct (nth_error (w_data w) d) as [x|] eqn:E; inv H.
      apply sound_add_seg; [|assumption]. cbn. eapply so_data; eauto.
    + destruct (new_hdr S U w s None) as [w1 h] eqn:E. inv H.
      destruct (sound_new_hdr _ _ _ _ _ E W) as (W1 & A & B & C & D).
      apply sound_add_seg; [|assumption]. cbn. lia.
  - destruct (nth_error (w_seg w) sg) as [x|] eqn:E; [|discriminate H].
    destruct (read_hdr S U w (s_hdr x) s u) as [w1|] eqn:F; [|discriminate H]. inv H.
    apply sound_set_data. unfold tries. apply sound_add_data.
    + intros i y G. apply nth_repeat in G as ->. cbn.
      destruct (read_hdr_refs _ _ _ _ _ F) as (_ & _ & ->). eapply so_seg; eauto.
    + eapply sound_read_hdr; eauto.
  - destruct (nth_error (w_seg w) sg) as [x|] eqn:E; [|discriminate H].
    destruct (read_hdr S U w (s_hdr x) s u) as [w1|] eqn:F; [|discriminate H]. inv H.
    unfold tries. apply sound_add_data.
    + intros i y G. apply nth_repeat in G as ->. cbn.
      destruct (read_hdr_refs _ _ _ _ _ F) as (_ & _ & ->). eapply so_seg; eauto.
    + eapply sound_read_hdr; eauto.
  - cases. match goal with T : take_sub _ _ _ _ = _ |- _ =>
      destruct (sound_take_sub _ _ _ _ T W) end. now apply sound_set_sub.
  - cases. match goal with T : take_sub _ _ _ _ = _ |- _ =>
      destruct (sound_take_sub _ _ _ _ T W) end. now apply sound_set_sub.
  - cases. match goal with T : take_ush _ _ _ _ = _ |- _ =>
      destruct (sound_take_ush _ _ _ _ T W) end. now apply sound_set_ush.
  - cases. match goal with T : take_ush _ _ _ _ = _ |- _ =>
      destruct (sound_take_ush _ _ _ _ T W) end. now apply sound_set_ush.
  - cases. eapply sound_change_sub; eauto.
  - cases. eapply sound_change_sub; eauto.
  - cases. eapply sound_change_ush; eauto.
  - cases. eapply sound_change_ush; eauto.
  - cases. now apply sound_set_data.
  - cases. pose proof (sound_set_data w sg (Some n) W) as W1.
    destruct W1 as [A B C D]. split; auto. cbn. intros d y. rewrite nth_upd.
    destruct (Nat.eqb n d); [|now apply C].
    destruct (nth_error (w_data w) d); cbn; intros [= <-]. cbn. eapply so_seg; eauto.
Qed.

Lemma sound_run : forall os w w', run w os = Some w' -> sound w -> sound w'.
Proof.
  induction os as [|o os IH]; intros w w' H W; cbn in H; [now inv H|].
  destruct (step w o) as [w1|] eqn:E; [|discriminate H].
  eapply IH; [exact H|]. eapply sound_step; eauto.
Qed.

(* ---- coherence *)

Lemma coherent_same w w' : w_seg w' = w_seg w -> w_data w' = w_data w ->
  coherent w -> coherent w'.
Proof. unfold coherent. intros -> ->. auto. Qed.

Lemma coherent_step w o w' : step w o = Some w' -> leaves_data o = true ->
  coherent w -> coherent w'.
Proof.
  intros H L W. destruct o; cbn [step] in H.
  - destruct (new_hdr S U w s u) as [w1 h] eqn:E. injection E as <- <-. inv H.
    intros t z d F G. destruct (W t z d F G) as (y & P & Q). exists y. split; [|exact Q].
    cbn. now apply nth_old.
  - destruct d as [d|].
    + destruct (nth_error (w_data w) d) as [x|] eqn:E; inv H.
      intros t z e. cbn. rewrite nth_snoc. destruct (Nat.eqb t (length (w_seg w))).
      * intros [= <-]. cbn. intros [= <-]. eauto.
      * apply W.
    + injection H as <-. intros t z e. cbn. rewrite nth_snoc.
      destruct (Nat.eqb t (length (w_seg w))).
      * intros [= <-]. cbn. intros [=].
      * apply W.
  - destruct (nth_error (w_seg w) sg) as [x|] eqn:E; [|discriminate H].
    destruct (read_hdr S U w (s_hdr x) s u) as [w1|] eqn:F; [|discriminate H]. inv H.
    destruct (read_hdr_refs _ _ _ _ _ F) as (A & B & _).
    intros t z d. cbn. rewrite nth_upd, A, B. destruct (Nat.eqb_spec sg t) as [<-|N].
    + rewrite E. cbn. intros [= <-]. cbn. intros [= <-].
      exists (mkData (s_hdr x) (Some sg)). split; [|reflexivity].
      rewrite nth_error_app2 by lia.
      replace (length (w_data w) + n - length (w_data w)) with n by lia.
      clear. rewrite Nat.add_1_r. induction n; cbn; auto.
    + intros P Q. destruct (W t z d P Q) as (y & G & K). exists y. split; [|exact K].
      now apply nth_old.
  - destruct (nth_error (w_seg w) sg) as [x|] eqn:E; [|discriminate H].
    destruct (read_hdr S U w (s_hdr x) s u) as [w1|] eqn:F; [|discriminate H]. inv H.
    destruct (read_hdr_refs _ _ _ _ _ F) as (A & B & _).
    intros t z d. cbn. rewrite A, B.
    intros P Q. destruct (W t z d P Q) as (y & G & K). exists y. split; [|exact K].
    now apply nth_old.
  - cases. match goal with T : take_sub _ _ _ _ = _ |- _ =>
      destruct (take_sub_refs _ _ _ _ T) as (? & ? & _) end.
    eapply coherent_same; [..|exact W]; cbn; assumption.
  - cases. match goal with T : take_sub _ _ _ _ = _ |- _ =>
      destruct (take_sub_refs _ _ _ _ T) as (? & ? & _) end.
    eapply coherent_same; [..|exact W]; cbn; assumption.
  - cases. match goal with T : take_ush _ _ _ _ = _ |- _ =>
      destruct (take_ush_refs _ _ _ _ T) as (? & ? & _) end.
    eapply coherent_same; [..|exact W]; cbn; assumption.
  - cases. match goal with T : take_ush _ _ _ _ = _ |- _ =>
      destruct (take_ush_refs _ _ _ _ T) as (? & ? & _) end.
    eapply coherent_same; [..|exact W]; cbn; assumption.
  - cases. apply change_sub_refs in H as (_ & ? & ? & _).
    eapply coherent_same; [..|exact W]; assumption.
  - cases. apply change_sub_refs in H as (_ & ? & ? & _).
    eapply coherent_same; [..|exact W]; assumption.
  - cases. apply change_ush_refs in H as (_ & ? & ? & _).
    eapply coherent_same; [..|exact W]; assumption.
  - cases. apply change_ush_refs in H as (_ & ? & ? & _).
    eapply coherent_same; [..|exact W]; assumption.
  - destruct d as [d|]; [discriminate L|]. cases.
    intros t z d. cbn. rewrite nth_upd. destruct (Nat.eqb sg t); [|apply W].
    destruct (nth_error (w_seg w) t); cbn; intros [= <-]. cbn. intros [=].
  - discriminate L.
Qed.

Lemma coherent_run : forall os w w', run w os = Some w' -> forallb leaves_data os = true ->
  coherent w -> coherent w'.
Proof.
  induction os as [|o os IH]; intros w w' H L W; cbn in H; [now inv H|].
  cbn in L. apply andb_prop in L as [L1 L2].
  destruct (step w o) as [w1|] eqn:E; [|discriminate H].
  eapply IH; [exact H|exact L2|]. eapply coherent_step; eauto.
Qed.

(** Whatever a program does, in whatever order, as long as it leaves it to the
    package which data a segment has: the segment and its data show the same
    subheader and the same user subheader. *)
Theorem C64_shared os w sg d :
  run empty os = Some w -> forallb leaves_data os = true -> seg_data w sg = Some d ->
  seg_sub w sg = data_sub w d /\ seg_ush w sg = data_ush w d /\
  seg_sub w sg <> None /\ seg_ush w sg <> None.
Proof.
  intros H L D.
  assert (W : sound w) by (eapply sound_run; [exact H | apply sound_empty]).
  assert (C : coherent w).
  { eapply coherent_run; [exact H|exact L|]. intros [|s]; cbn; intros; discriminate. }
  unfold seg_data in D. destruct (nth_error (w_seg w) sg) as [z|] eqn:E; [|discriminate D].
  destruct (C sg z d E D) as (y & P & Q).
  unfold seg_sub, seg_ush, data_sub, data_ush. rewrite E, P, Q.
  repeat split.
  - unfold hdr_sub. pose proof (so_seg _ W _ _ E) as R.
    destruct (nth_error (w_hdr w) (s_hdr z)) as [x|] eqn:F.
    + apply nth_error_Some. eapply so_sub; eauto.
    + apply nth_error_None in F. lia.
  - unfold hdr_ush. pose proof (so_seg _ W _ _ E) as R.
    destruct (nth_error (w_hdr w) (s_hdr z)) as [x|] eqn:F.
    + destruct (h_ush x) as [u|] eqn:G; [|discriminate].
      pose proof (so_ush _ W _ _ _ F G) as K.
      destruct (nth_error (w_ush w) u) eqn:I; [discriminate|]. apply nth_error_None in I. lia.
    + apply nth_error_None in F. lia.
Qed.

(** what an operation leaves in the subheader it acts on, if it acts on one, and
    through which object *)
Inductive place := Seg (sg : nat) | Data (d : nat).
Definition acts (o : op) : option place :=
  match o with
  | Read sg _ _ _ | ReadFails sg _ _ _ | SegSub sg _ | SegUsh sg _
  | SegChange sg _ | SegUshChange sg _ => Some (Seg sg)
  | DataSub d _ | DataUsh d _ | DataChange d _ | DataUshChange d _ => Some (Data d)
  | _ => None
  end.

Definition sub_at (w : world) (p : place) : option S :=
  match p with Seg s => seg_sub w s | Data d => data_sub w d end.
Definition ush_at (w : world) (p : place) : option (option U) :=
  match p with Seg s => seg_ush w s | Data d => data_ush w d end.

(** the header a place uses *)
Definition hdr_at (w : world) (p : place) : option nat :=
  match p with
  | Seg s => option_map s_hdr (nth_error (w_seg w) s)
  | Data d => option_map d_hdr (nth_error (w_data w) d)
  end.

Lemma sub_hdr w p : sub_at w p = match hdr_at w p with Some h => hdr_sub S U w h | None => None end.
Proof.
  destruct p as [s|d]; cbn; unfold seg_sub, data_sub.
  - destruct (nth_error (w_seg w) s); reflexivity.
  - destruct (nth_error (w_data w) d); reflexivity.
Qed.
Lemma ush_hdr w p : ush_at w p = match hdr_at w p with Some h => hdr_ush S U w h | None => None end.
Proof.
  destruct p as [s|d]; cbn; unfold seg_ush, data_ush.
  - destruct (nth_error (w_seg w) s); reflexivity.
  - destruct (nth_error (w_data w) d); reflexivity.
Qed.

(** [o] leaves [v] as subheader where the subheader was [old] *)
Definition leaves_sub (o : op) (old v : option S) : Prop :=
  match o with
  | Read _ s _ _ | ReadFails _ s _ _ | SegSub _ (New s) | DataSub _ (New s) => v = Some s
  | SegChange _ f | DataChange _ f => v = option_map f old
  | SegSub _ (OfSeg _) | DataSub _ (OfSeg _) => True
  | _ => v = old
  end.
(** [o] leaves [v] as user subheader where the user subheader was [old] *)
Definition leaves_ush (o : op) (old v : option (option U)) : Prop :=
  match o with
  | Read _ _ (Some u) _ | ReadFails _ _ (Some u) _ => v = Some (Some u)
  | SegUsh _ (Some (New u)) | DataUsh _ (Some (New u)) => v = Some (Some u)
  | SegUsh _ None | DataUsh _ None => v = Some None
  | SegUshChange _ f | DataUshChange _ f => v = option_map (option_map f) old
  | SegUsh _ (Some (OfSeg _)) | DataUsh _ (Some (OfSeg _)) => True
  | _ => v = old
  end.

(* ---- an operation acts on one header *)

Lemma hdr_upd w h o k :
  hdr_sub S U (set_sub S U w h o) k =
  if Nat.eqb h k then match nth_error (w_hdr w) k with Some _ => nth_error (w_sub w) o | None => None end
  else hdr_sub S U w k.
Proof.
  unfold hdr_sub, set_sub. cbn. rewrite nth_upd.
  destruct (Nat.eqb h k); [|reflexivity]. destruct (nth_error (w_hdr w) k); reflexivity.
Qed.

Lemma hdr_upd_ush w h o k :
  hdr_ush S U (set_sub S U w h o) k = hdr_ush S U w k.
Proof.
  unfold hdr_ush, set_sub. cbn. rewrite nth_upd.
  destruct (Nat.eqb h k); [|reflexivity]. destruct (nth_error (w_hdr w) k); reflexivity.
Qed.

Lemma ush_upd w h o k :
  hdr_ush S U (set_ush S U w h o) k =
  if Nat.eqb h k
  then match nth_error (w_hdr w) k with
       | Some _ => match o with Some u => option_map Some (nth_error (w_ush w) u) | None => Some None end
       | None => None end
  else hdr_ush S U w k.
Proof.
  unfold hdr_ush, set_ush. cbn. rewrite nth_upd.
  destruct (Nat.eqb h k); [|reflexivity]. destruct (nth_error (w_hdr w) k); reflexivity.
Qed.

Lemma ush_upd_sub w h o k :
  hdr_sub S U (set_ush S U w h o) k = hdr_sub S U w k.
Proof.
  unfold hdr_sub, set_ush. cbn. rewrite nth_upd.
  destruct (Nat.eqb h k); [|reflexivity]. destruct (nth_error (w_hdr w) k); reflexivity.
Qed.

(** headers not sharing a subheader or user subheader with [h] *)
Definition alone (w : world) (h : nat) : Prop :=
  forall k x y, k <> h -> nth_error (w_hdr w) h = Some x -> nth_error (w_hdr w) k = Some y ->
  h_sub x <> h_sub y /\ (forall u, h_ush x = Some u -> h_ush y <> Some u).

Lemma change_sub_at w h f w' : change_sub S U w h f = Some w' ->
  hdr_sub S U w' h = option_map f (hdr_sub S U w h) /\
  (forall k, hdr_ush S U w' k = hdr_ush S U w k) /\
  (alone w h -> forall k, k <> h -> hdr_sub S U w' k = hdr_sub S U w k).
Proof.
  intros H. apply change_sub_refs in H as (A & B & C & D & x & E & F).
  unfold hdr_sub, hdr_ush. rewrite A, D, F, E. repeat split.
  - rewrite nth_upd, Nat.eqb_refl. reflexivity.
  - intros L k N. destruct (nth_error (w_hdr w) k) as [y|] eqn:G; [|reflexivity].
    destruct (L k x y N E G) as [P _]. rewrite nth_upd.
    destruct (Nat.eqb_spec (h_sub x) (h_sub y)); [contradiction|reflexivity].
Qed.

Lemma change_ush_at w h f w' : change_ush S U w h f = Some w' ->
  hdr_ush S U w' h = option_map (option_map f) (hdr_ush S U w h) /\
  (forall k, hdr_sub S U w' k = hdr_sub S U w k) /\
  (alone w h -> forall k, k <> h -> hdr_ush S U w' k = hdr_ush S U w k).
Proof.
  intros H. apply change_ush_refs in H as (A & B & C & D & x & u & E & G & F).
  unfold hdr_sub, hdr_ush. rewrite A, D, F, E. repeat split.
  - rewrite G, nth_upd, Nat.eqb_refl. destruct (nth_error (w_ush w) u); reflexivity.
  - intros L k N. destruct (nth_error (w_hdr w) k) as [y|] eqn:I; [|reflexivity].
    destruct (L k x y N E I) as [_ P]. specialize (P u G).
    destruct (h_ush y) as [v|]; [|reflexivity]. rewrite nth_upd.
    destruct (Nat.eqb_spec u v) as [->|]; [congruence|reflexivity].
Qed.

(** new subheader objects are not seen by the headers there are *)
Lemma take_sub_at w v w1 i : sound w -> take_sub S U w v = Some (w1, i) ->
  (forall k, hdr_sub S U w1 k = hdr_sub S U w k) /\ (forall k, hdr_ush S U w1 k = hdr_ush S U w k) /\
  (forall s, v = New s -> nth_error (w_sub w1) i = Some s).
Proof.
  intros W H. unfold take_sub, new_sub in H. cases.
  - split; [|split]; auto.
    + intros k. unfold hdr_sub. cbn. destruct (nth_error (w_hdr w) k) as [x|] eqn:E; [|reflexivity].
      apply nth_error_app1. eapply so_sub; eauto.
    + intros s0 [= <-]. cbn. rewrite nth_snoc, Nat.eqb_refl. reflexivity.
  - split; [|split]; auto. intros ? [=].
Qed.

Lemma take_ush_at w v w1 i : sound w -> take_ush S U w v = Some (w1, i) ->
  (forall k, hdr_sub S U w1 k = hdr_sub S U w k) /\ (forall k, hdr_ush S U w1 k = hdr_ush S U w k) /\
  (forall u, v = Some (New u) -> exists j, i = Some j /\ nth_error (w_ush w1) j = Some u) /\
  (v = None -> i = None).
Proof.
  intros W H. unfold take_ush, new_ush in H. cases.
  - split; [|split; [|split]]; auto.
    + intros k. unfold hdr_ush. cbn. destruct (nth_error (w_hdr w) k) as [x|] eqn:E; [|reflexivity].
      destruct (h_ush x) as [u|] eqn:F; [|reflexivity]. f_equal.
      apply nth_error_app1. eapply so_ush; eauto.
    + intros u0 [= <-]. eexists. split; [reflexivity|]. cbn. rewrite nth_snoc, Nat.eqb_refl. reflexivity.
    + intros [=].
  - split; [|split; [|split]]; auto; intros; discriminate.
  - split; [|split; [|split]]; auto; intros; discriminate.
Qed.

Lemma read_hdr_at w h s u w' : sound w -> read_hdr S U w h s u = Some w' ->
  hdr_sub S U w' h = Some s /\
  hdr_ush S U w' h = (match u with Some x => Some (Some x) | None => hdr_ush S U w h end) /\
  (alone w h -> forall k, k <> h ->
     hdr_sub S U w' k = hdr_sub S U w k /\ hdr_ush S U w' k = hdr_ush S U w k).
Proof.
  unfold read_hdr. intros W H.
  destruct (change_sub _ _ w h _) as [w1|] eqn:E; [|discriminate H].
  pose proof (change_sub_at _ _ _ _ E) as (A & B & C).
  pose proof (change_sub_refs _ _ _ _ E) as (P & _ & _ & _ & x & Q & R).
  assert (V : exists o, hdr_sub S U w h = Some o).
  { unfold hdr_sub. rewrite Q. pose proof (so_sub _ W _ _ Q) as L.
    apply nth_error_Some in L. destruct (nth_error (w_sub w) (h_sub x)); eauto; contradiction. }
  destruct V as [o V]. rewrite V in A. cbn in A.
  pose proof (sound_change_sub _ _ _ _ E W) as W1.
  destruct u as [y|].
  - assert (HW : w' = set_ush S U (fst (new_ush S U w1 y)) h (Some (snd (new_ush S U w1 y))))
      by (cbn in H |- *; congruence).
    clear H. rewrite HW. clear w' HW.
    assert (T : take_ush S U w1 (Some (New y)) =
                Some (fst (new_ush S U w1 y), Some (snd (new_ush S U w1 y)))) by reflexivity.
    destruct (take_ush_at _ _ _ _ W1 T) as (T1 & T2 & T3 & _).
    destruct (T3 y eq_refl) as (j & J0 & J).
    assert (J1 : j = snd (new_ush S U w1 y)) by congruence.
    rewrite J1 in J. clear J0 J1.
    rewrite ush_upd_sub, T1, ush_upd, Nat.eqb_refl.
    change (w_hdr (fst (new_ush S U w1 y))) with (w_hdr w1).
    rewrite J, P, Q. split; [assumption|split; [reflexivity|]]. intros AL k N. split.
    + rewrite ush_upd_sub, T1. auto.
    + rewrite ush_upd, T2. destruct (Nat.eqb_spec h k); [congruence|]. apply B.
  - injection H as <-. rewrite A, B. repeat split; auto.
Qed.

Lemma acts_at w o w' p : sound w -> acts o = Some p -> step w o = Some w' ->
  exists h, hdr_at w p = Some h /\
  leaves_sub o (hdr_sub S U w h) (hdr_sub S U w' h) /\
  leaves_ush o (hdr_ush S U w h) (hdr_ush S U w' h) /\
  (alone w h -> forall k, k <> h ->
     hdr_sub S U w' k = hdr_sub S U w k /\ hdr_ush S U w' k = hdr_ush S U w k).
Proof.
  intros W A H. destruct o; cbn in A; try discriminate A; injection A as <-; cbn [step hdr_at] in *.
  - destruct (nth_error (w_seg w) sg) as [x|] eqn:E; [|discriminate H].
    destruct (read_hdr S U w (s_hdr x) s u) as [w1|] eqn:F; [|discriminate H]. injection H as <-.
    destruct (read_hdr_at _ _ _ _ _ W F) as (P & Q & R).
    exists (s_hdr x). split; [reflexivity|]. split; [exact P|]. split; [|exact R].
    cbn. destruct u; exact Q.
  - destruct (nth_error (w_seg w) sg) as [x|] eqn:E; [|discriminate H].
    destruct (read_hdr S U w (s_hdr x) s u) as [w1|] eqn:F; [|discriminate H]. injection H as <-.
    destruct (read_hdr_at _ _ _ _ _ W F) as (P & Q & R).
    exists (s_hdr x). split; [reflexivity|]. split; [exact P|]. split; [|exact R].
    cbn. destruct u; exact Q.
  - destruct (nth_error (w_seg w) sg) as [x|] eqn:E; [|discriminate H].
    destruct (take_sub S U w v) as [[w1 i]|] eqn:F; [|discriminate H]. injection H as <-.
    destruct (take_sub_at _ _ _ _ W F) as (P & Q & R).
    destruct (take_sub_refs _ _ _ _ F) as (_ & _ & K & _).
    exists (s_hdr x). split; [reflexivity|].
    rewrite hdr_upd, Nat.eqb_refl, hdr_upd_ush, Q, K. split; [|split].
    + destruct v; cbn; [|exact I]. rewrite (R a eq_refl).
      pose proof (so_seg _ W _ _ E) as L. apply nth_error_Some in L.
      destruct (nth_error (w_hdr w) (s_hdr x)); [reflexivity|contradiction].
    + reflexivity.
    + intros _ k N. rewrite hdr_upd, hdr_upd_ush, P, Q.
      destruct (Nat.eqb_spec (s_hdr x) k); [congruence|auto].
  - destruct (nth_error (w_data w) d) as [x|] eqn:E; [|discriminate H].
    destruct (take_sub S U w v) as [[w1 i]|] eqn:F; [|discriminate H]. injection H as <-.
    destruct (take_sub_at _ _ _ _ W F) as (P & Q & R).
    destruct (take_sub_refs _ _ _ _ F) as (_ & _ & K & _).
    exists (d_hdr x). split; [reflexivity|].
    rewrite hdr_upd, Nat.eqb_refl, hdr_upd_ush, Q, K. split; [|split].
    + destruct v; cbn; [|exact I]. rewrite (R a eq_refl).
      pose proof (so_data _ W _ _ E) as L. apply nth_error_Some in L.
      destruct (nth_error (w_hdr w) (d_hdr x)); [reflexivity|contradiction].
    + reflexivity.
    + intros _ k N. rewrite hdr_upd, hdr_upd_ush, P, Q.
      destruct (Nat.eqb_spec (d_hdr x) k); [congruence|auto].
  - destruct (nth_error (w_seg w) sg) as [x|] eqn:E; [|discriminate H].
    destruct (take_ush S U w v) as [[w1 i]|] eqn:F; [|discriminate H]. injection H as <-.
    destruct (take_ush_at _ _ _ _ W F) as (P & Q & R & R').
    destruct (take_ush_refs _ _ _ _ F) as (_ & _ & K & _).
    exists (s_hdr x). split; [reflexivity|].
    rewrite ush_upd, Nat.eqb_refl, ush_upd_sub, P, K. split; [|split].
    + reflexivity.
    + pose proof (so_seg _ W _ _ E) as L. apply nth_error_Some in L.
      destruct (nth_error (w_hdr w) (s_hdr x)); [|contradiction].
      destruct v as [[u|t]|]; cbn; [|exact I|].
      * destruct (R u eq_refl) as (j & -> & ->). reflexivity.
      * rewrite (R' eq_refl). reflexivity.
    + intros _ k N. rewrite ush_upd, ush_upd_sub, P, Q.
      destruct (Nat.eqb_spec (s_hdr x) k); [congruence|auto].
  - destruct (nth_error (w_data w) d) as [x|] eqn:E; [|discriminate H].
    destruct (take_ush S U w v) as [[w1 i]|] eqn:F; [|discriminate H]. injection H as <-.
    destruct (take_ush_at _ _ _ _ W F) as (P & Q & R & R').
    destruct (take_ush_refs _ _ _ _ F) as (_ & _ & K & _).
    exists (d_hdr x). split; [reflexivity|].
    rewrite ush_upd, Nat.eqb_refl, ush_upd_sub, P, K. split; [|split].
    + reflexivity.
    + pose proof (so_data _ W _ _ E) as L. apply nth_error_Some in L.
      destruct (nth_error (w_hdr w) (d_hdr x)); [|contradiction].
      destruct v as [[u|t]|]; cbn; [|exact I|].
      * destruct (R u eq_refl) as (j & -> & ->). reflexivity.
      * rewrite (R' eq_refl). reflexivity.
    + intros _ k N. rewrite ush_upd, ush_upd_sub, P, Q.
      destruct (Nat.eqb_spec (d_hdr x) k); [congruence|auto].
  - destruct (nth_error (w_seg w) sg) as [x|] eqn:E; [|discriminate H].
    destruct (change_sub_at _ _ _ _ H) as (P & Q & R).
    exists (s_hdr x). repeat split; auto. apply Q.
  - destruct (nth_error (w_data w) d) as [x|] eqn:E; [|discriminate H].
    destruct (change_sub_at _ _ _ _ H) as (P & Q & R).
    exists (d_hdr x). repeat split; auto. apply Q.
  - destruct (nth_error (w_seg w) sg) as [x|] eqn:E; [|discriminate H].
    destruct (change_ush_at _ _ _ _ H) as (P & Q & R).
    exists (s_hdr x). repeat split; auto. apply Q.
  - destruct (nth_error (w_data w) d) as [x|] eqn:E; [|discriminate H].
    destruct (change_ush_at _ _ _ _ H) as (P & Q & R).
    exists (d_hdr x). repeat split; auto. apply Q.
Qed.

(** the places there are use the headers they used *)
Lemma acts_places w o w' p q h : acts o = Some p -> step w o = Some w' ->
  hdr_at w q = Some h -> hdr_at w' q = Some h.
Proof.
  intros A H Q.
  assert (E : (exists m, w_data w' = w_data w ++ m) /\
              forall s z, nth_error (w_seg w) s = Some z ->
              exists z', nth_error (w_seg w') s = Some z' /\ s_hdr z' = s_hdr z).
  { assert (T : w_data w' = w_data w -> w_seg w' = w_seg w ->
              (exists m, w_data w' = w_data w ++ m) /\
              forall s z, nth_error (w_seg w) s = Some z ->
              exists z', nth_error (w_seg w') s = Some z' /\ s_hdr z' = s_hdr z).
    { intros -> ->. split; [exists []; now rewrite app_nil_r|eauto]. }
    destruct o; cbn in A; try discriminate A; injection A as <-; cbn [step] in H.
    - destruct (nth_error (w_seg w) sg) as [x|] eqn:E; [|discriminate H].
      destruct (read_hdr S U w (s_hdr x) s u) as [w1|] eqn:F; [|discriminate H]. injection H as <-.
      destruct (read_hdr_refs _ _ _ _ _ F) as (B & C & _). cbn. rewrite B, C. split; [eauto|].
      intros t z G. rewrite nth_upd. destruct (Nat.eqb sg t); [|eauto]. rewrite G. cbn. eauto.
    - destruct (nth_error (w_seg w) sg) as [x|] eqn:E; [|discriminate H].
      destruct (read_hdr S U w (s_hdr x) s u) as [w1|] eqn:F; [|discriminate H]. injection H as <-.
      destruct (read_hdr_refs _ _ _ _ _ F) as (B & C & _). cbn. rewrite B, C. split; eauto.
    - cases. match goal with T : take_sub _ _ _ _ = _ |- _ =>
        destruct (take_sub_refs _ _ _ _ T) as (? & ? & _) end. now apply T.
    - cases. match goal with T : take_sub _ _ _ _ = _ |- _ =>
        destruct (take_sub_refs _ _ _ _ T) as (? & ? & _) end. now apply T.
    - cases. match goal with T : take_ush _ _ _ _ = _ |- _ =>
        destruct (take_ush_refs _ _ _ _ T) as (? & ? & _) end. now apply T.
    - cases. match goal with T : take_ush _ _ _ _ = _ |- _ =>
        destruct (take_ush_refs _ _ _ _ T) as (? & ? & _) end. now apply T.
    - cases. apply change_sub_refs in H as (_ & ? & ? & _). now apply T.
    - cases. apply change_sub_refs in H as (_ & ? & ? & _). now apply T.
    - cases. apply change_ush_refs in H as (_ & ? & ? & _). now apply T.
    - cases. apply change_ush_refs in H as (_ & ? & ? & _). now apply T. }
  destruct E as ((m & E) & G). destruct q as [s|d]; cbn in *.
  - destruct (nth_error (w_seg w) s) as [z|] eqn:F; [|discriminate Q].
    destruct (G s z F) as (z' & -> & K). cbn in *. congruence.
  - destruct (nth_error (w_data w) d) as [y|] eqn:F; [|discriminate Q].
    rewrite E. erewrite nth_old; [|exact F]. exact Q.
Qed.

(** What is done through a segment or through its data is seen through both: an
    assignment gives what was assigned, a change in place the changed contents,
    reading the contents of the file; what is not concerned stays. *)
Theorem C64_seen os w sg d o p w' q :
  run empty os = Some w -> forallb leaves_data os = true -> seg_data w sg = Some d ->
  step w o = Some w' -> acts o = Some p ->
  p = Seg sg \/ p = Data d -> q = Seg sg \/ q = Data d ->
  leaves_sub o (sub_at w q) (sub_at w' q) /\ leaves_ush o (ush_at w q) (ush_at w' q).
Proof.
  intros H L D St A P Q.
  assert (W : sound w) by (eapply sound_run; [exact H | apply sound_empty]).
  assert (C : coherent w).
  { eapply coherent_run; [exact H|exact L|]. intros [|s]; cbn; intros; discriminate. }
  unfold seg_data in D. destruct (nth_error (w_seg w) sg) as [z|] eqn:E; [|discriminate D].
  destruct (C sg z d E D) as (y & F & G).
  assert (K : forall r, r = Seg sg \/ r = Data d -> hdr_at w r = Some (s_hdr z)).
  { intros r [->| ->]; cbn; rewrite ?E, ?F; cbn; congruence. }
  destruct (acts_at _ _ _ _ W A St) as (h & I & M & N & _).
  rewrite (K p P) in I. injection I as <-.
  rewrite !sub_hdr, !ush_hdr, (K q Q), (acts_places _ _ _ _ _ _ A St (K q Q)). auto.
Qed.

(* ---- separate segments *)

Lemma data_keeps w o w' d y : step w o = Some w' -> gives_own o = true ->
  nth_error (w_data w) d = Some y -> nth_error (w_data w') d = Some y.
Proof.
  intros H G E. destruct o; cbn [step] in H; try discriminate G.
  - injection H as <-. cbn. now apply nth_old.
  - destruct d0 as [d0|]; [|injection H as <-; exact E].
    destruct (nth_error (w_data w) d0); [|discriminate H]. injection H as <-. exact E.
  - cases. destruct (read_hdr_refs _ _ _ _ _ Heqo0) as (B & _). cbn. rewrite B. now apply nth_old.
  - cases. destruct (read_hdr_refs _ _ _ _ _ Heqo0) as (B & _). cbn. rewrite B. now apply nth_old.
  - cases. match goal with T : take_sub _ _ _ _ = _ |- _ =>
        destruct (take_sub_refs _ _ _ _ T) as (B & _) end. cbn. now rewrite B.
  - cases. match goal with T : take_sub _ _ _ _ = _ |- _ =>
        destruct (take_sub_refs _ _ _ _ T) as (B & _) end. cbn. now rewrite B.
  - cases. match goal with T : take_ush _ _ _ _ = _ |- _ =>
        destruct (take_ush_refs _ _ _ _ T) as (B & _) end. cbn. now rewrite B.
  - cases. match goal with T : take_ush _ _ _ _ = _ |- _ =>
        destruct (take_ush_refs _ _ _ _ T) as (B & _) end. cbn. now rewrite B.
  - cases. apply change_sub_refs in H as (_ & -> & _). assumption.
  - cases. apply change_sub_refs in H as (_ & -> & _). assumption.
  - cases. apply change_ush_refs in H as (_ & -> & _). assumption.
  - cases. apply change_ush_refs in H as (_ & -> & _). assumption.
  - cases. cbn. assumption.
Qed.

Lemma run_keeps : forall os w w' d y, run w os = Some w' -> forallb gives_own os = true ->
  nth_error (w_data w) d = Some y -> nth_error (w_data w') d = Some y.
Proof.
  induction os as [|o os IH]; intros w w' d y H G E; cbn in H; [now inv H|].
  cbn in G. apply andb_prop in G as [G1 G2].
  destruct (step w o) as [w1|] eqn:F; [|discriminate H].
  eapply IH; eauto. eapply data_keeps; eauto.
Qed.

Lemma apart_same us w w' : w_hdr w' = w_hdr w -> w_data w' = w_data w -> w_seg w' = w_seg w ->
  apart us w -> apart us w'.
Proof. intros A B C [P Q R T V]. split; rewrite ?A, ?B, ?C; assumption. Qed.

(** a header refers to a new subheader *)
Lemma apart_set_sub us w h i : (forall k x, nth_error (w_hdr w) k = Some x -> h_sub x < i) ->
  apart us w -> apart us (set_sub S U w h i).
Proof.
  intros L [P Q R T V]. split; cbn; auto.
  - intros a b x y. rewrite !nth_upd.
    destruct (Nat.eqb_spec h a) as [<-|NA]; destruct (Nat.eqb_spec h b) as [<-|NB]; auto.
    + intros A B C. destruct (nth_error (w_hdr w) h); [|discriminate A]. injection A as <-. cbn in C.
      specialize (L b y B). lia.
    + intros A B C. destruct (nth_error (w_hdr w) h); [|discriminate B]. injection B as <-. cbn in C.
      specialize (L a x A). lia.
    + apply P.
  - intros a b x y u. rewrite !nth_upd.
    destruct (Nat.eqb_spec h a) as [<-|NA]; destruct (Nat.eqb_spec h b) as [<-|NB]; auto.
    + intros A B C D. destruct (nth_error (w_hdr w) h) as [x0|] eqn:E; [|discriminate A].
      injection A as <-. cbn in C. eapply Q; eauto.
    + intros A B C D. destruct (nth_error (w_hdr w) h) as [x0|] eqn:E; [|discriminate B].
      injection B as <-. cbn in D. eapply Q; eauto.
    + apply Q.
Qed.

(** a header refers to a new user subheader, or to none *)
Lemma apart_set_ush us w h i :
  (forall j k x u, i = Some j -> nth_error (w_hdr w) k = Some x -> h_ush x = Some u -> u < j) ->
  apart us w -> apart us (set_ush S U w h i).
Proof.
  intros L [P Q R T V]. split; cbn; auto.
  - intros a b x y. rewrite !nth_upd.
    destruct (Nat.eqb_spec h a) as [<-|NA]; destruct (Nat.eqb_spec h b) as [<-|NB]; auto.
    + intros A B C. destruct (nth_error (w_hdr w) h) as [x0|] eqn:E; [|discriminate A].
      injection A as <-. cbn in C. eapply P; eauto.
    + intros A B C. destruct (nth_error (w_hdr w) h) as [x0|] eqn:E; [|discriminate B].
      injection B as <-. cbn in C. eapply P; eauto.
    + apply P.
  - intros a b x y u. rewrite !nth_upd.
    destruct (Nat.eqb_spec h a) as [<-|NA]; destruct (Nat.eqb_spec h b) as [<-|NB]; auto.
    + intros A B C D. destruct (nth_error (w_hdr w) h) as [x0|] eqn:E; [|discriminate A].
      injection A as <-. cbn in C. specialize (L u b y u C B D). lia.
    + intros A B C D. destruct (nth_error (w_hdr w) h) as [x0|] eqn:E; [|discriminate B].
      injection B as <-. cbn in D. specialize (L u a x u D A C). lia.
    + apply Q.
Qed.

Lemma apart_new_hdr us w s u w' h : new_hdr S U w s u = (w', h) -> sound w -> apart us w ->
  apart us w' /\ h = length (w_hdr w) /\ w_data w' = w_data w /\ w_seg w' = w_seg w.
Proof.
  unfold new_hdr. intros [= <- <-] W [P Q R T V]. repeat split; cbn; auto.
  - intros a b x y. rewrite !nth_snoc.
    destruct (Nat.eqb_spec a (length (w_hdr w))) as [->|NA];
      destruct (Nat.eqb_spec b (length (w_hdr w))) as [->|NB]; auto.
    + intros [= <-] B C. pose proof (so_sub _ W _ _ B). cbn in C. lia.
    + intros A [= <-] C. pose proof (so_sub _ W _ _ A). cbn in C. lia.
    + apply P.
  - intros a b x y v. rewrite !nth_snoc.
    destruct (Nat.eqb_spec a (length (w_hdr w))) as [->|NA];
      destruct (Nat.eqb_spec b (length (w_hdr w))) as [->|NB]; auto.
    + intros [= <-] B C D. pose proof (so_ush _ W _ _ _ B D). cbn in C.
      destruct u; [injection C as <-; lia|discriminate C].
    + intros A [= <-] C D. pose proof (so_ush _ W _ _ _ A C). cbn in D.
      destruct u; [injection D as <-; lia|discriminate D].
    + apply Q.
Qed.

(** data objects made by reading *)
Lemma apart_tries us w sg h n : apart us w -> apart us (tries S U w sg h n).
Proof.
  intros [P Q R T V].
  assert (K : forall d x, nth_error (w_data w ++ repeat (mkData h (Some sg)) n) d = Some x ->
                          d_seg x = None -> nth_error (w_data w) d = Some x).
  { intros d x E N. destruct (Nat.lt_ge_cases d (length (w_data w))).
    - now rewrite nth_error_app1 in E.
    - rewrite nth_error_app2 in E by assumption. apply nth_repeat in E as ->. discriminate N. }
  split; cbn; auto.
  - intros d e x y A B C D. eapply T; eauto.
  - intros d x s z A B. eapply V; eauto.
Qed.

Lemma apart_set_data us w s d : apart us w -> apart us (set_data S U w s d).
Proof.
  intros [P Q R T V].
  assert (K : forall t z, nth_error (upd (w_seg w) s (fun x => mkSeg d (s_hdr x))) t = Some z ->
                          exists z', nth_error (w_seg w) t = Some z' /\ s_hdr z' = s_hdr z).
  { intros t z. rewrite nth_upd. destruct (Nat.eqb s t); [|eauto].
    destruct (nth_error (w_seg w) t) as [z'|]; cbn; intros [= <-]. eauto. }
  split; cbn; auto.
  - intros a b x y A B C. apply K in A as (x' & A & A'). apply K in B as (y' & B & B').
    eapply R; eauto. congruence.
  - intros e x t z A B C D. apply K in D as (z' & D & <-). eapply V; eauto.
Qed.

Lemma apart_read_hdr us w h s u w' : sound w -> read_hdr S U w h s u = Some w' ->
  apart us w -> apart us w'.
Proof.
  unfold read_hdr. intros W H AP.
  destruct (change_sub _ _ w h _) as [w1|] eqn:E; [|discriminate H].
  pose proof (sound_change_sub _ _ _ _ E W) as W1.
  pose proof (change_sub_refs _ _ _ _ E) as (A & B & C & D & _).
  assert (AP1 : apart us w1) by (eapply apart_same; [..|exact AP]; assumption).
  destruct u as [y|]; cbn in H; inv H; [|assumption].
  apply apart_set_ush.
  - cbn. intros j k x v [= <-] F G. exact (so_ush _ W1 _ _ _ F G).
  - eapply apart_same; [..|exact AP1]; reflexivity.
Qed.

Lemma apart_take_sub us w v w1 i h : sound w -> take_sub S U w v = Some (w1, i) ->
  (match v with New _ => true | OfSeg _ => false end = true) ->
  apart us w -> apart us (set_sub S U w1 h i).
Proof.
  intros W H V AP. destruct v as [s|]; [|discriminate V]. unfold take_sub, new_sub in H. inv H.
  apply apart_set_sub.
  - cbn. intros k x E. exact (so_sub _ W _ _ E).
  - eapply apart_same; [..|exact AP]; reflexivity.
Qed.

Lemma apart_take_ush us w v w1 i h : sound w -> take_ush S U w v = Some (w1, i) ->
  (match v with Some (OfSeg _) => false | _ => true end = true) ->
  apart us w -> apart us (set_ush S U w1 h i).
Proof.
  intros W H V AP. destruct v as [[u|]|]; [|discriminate V|]; unfold take_ush, new_ush in H; inv H.
  - apply apart_set_ush.
    + cbn. intros j k x v [= <-] E F. exact (so_ush _ W _ _ _ E F).
    + eapply apart_same; [..|exact AP]; reflexivity.
  - apply apart_set_ush; [|assumption]. intros; discriminate.
Qed.

Lemma apart_step us w o w' : sound w -> step w o = Some w' -> gives_own o = true ->
  (forall d, In d (used o) -> made w d /\ ~ In d us) ->
  apart us w -> apart (used o ++ us) w'.
Proof.
  intros W H G M AP. destruct o; cbn [step] in H; cbn [used app] in *.
  - destruct (new_hdr S U w s u) as [w1 h] eqn:E. inv H.
    destruct (apart_new_hdr _ _ _ _ _ _ E W AP) as ([P Q R T V] & -> & A & B).
    split; cbn; auto; rewrite ?A, ?B in *.
    + intros d e x y. rewrite !nth_snoc.
      destruct (Nat.eqb_spec d (length (w_data w))) as [->|ND];
        destruct (Nat.eqb_spec e (length (w_data w))) as [->|NE]; auto.
      * intros [= <-] F _ _ K. pose proof (so_data _ W _ _ F). cbn in K. lia.
      * intros F [= <-] _ _ K. pose proof (so_data _ W _ _ F). cbn in K. lia.
      * apply T.
    + intros d x t z. rewrite nth_snoc. destruct (Nat.eqb d (length (w_data w))).
      * intros [= <-] _ _ F. pose proof (so_seg _ W _ _ F). cbn. lia.
      * apply V.
  - destruct d as [d|].
    + destruct (nth_error (w_data w) d) as [x|] eqn:E; [|discriminate H]. inv H.
      destruct (M d (or_introl eq_refl)) as ((h & E') & NU).
      rewrite E in E'. injection E' as ->. cbn.
      destruct AP as [P Q R T V]. split; cbn; auto.
      * intros a b y z. rewrite !nth_snoc.
        destruct (Nat.eqb_spec a (length (w_seg w))) as [->|NA];
          destruct (Nat.eqb_spec b (length (w_seg w))) as [->|NB]; auto.
        -- intros [= <-] F K. cbn in K. exfalso. exact (V d _ b z E eq_refl NU F (eq_sym K)).
        -- intros F [= <-] K. cbn in K. exfalso. exact (V d _ a y E eq_refl NU F K).
        -- apply R.
      * intros e y t z A B NI. rewrite nth_snoc. destruct (Nat.eqb t (length (w_seg w))).
        -- intros [= <-]. cbn. intros K. apply NI. left.
           exact (T d e _ y E A eq_refl B K).
        -- intros F. apply (V e y t z A B); [tauto|exact F].
    + destruct (new_hdr S U w s None) as [w1 h] eqn:E. inv H.
      destruct (apart_new_hdr _ _ _ _ _ _ E W AP) as ([P Q R T V] & -> & A & B).
      split; cbn; auto; rewrite ?A, ?B in *.
      * intros a b y z. rewrite !nth_snoc.
        destruct (Nat.eqb_spec a (length (w_seg w))) as [->|NA];
          destruct (Nat.eqb_spec b (length (w_seg w))) as [->|NB]; auto.
        -- intros [= <-] F K. pose proof (so_seg _ W _ _ F). cbn in K. lia.
        -- intros F [= <-] K. pose proof (so_seg _ W _ _ F). cbn in K. lia.
        -- apply R.
      * intros e y t z C D NI. rewrite nth_snoc. destruct (Nat.eqb t (length (w_seg w))).
        -- intros [= <-]. cbn. pose proof (so_data _ W _ _ C). lia.
        -- intros F. exact (V e y t z C D NI F).
  - destruct (nth_error (w_seg w) sg) as [x|] eqn:E; [|discriminate H].
    destruct (read_hdr S U w (s_hdr x) s u) as [w1|] eqn:F; [|discriminate H]. inv H.
    apply apart_set_data, apart_tries. eapply apart_read_hdr; eauto.
  - destruct (nth_error (w_seg w) sg) as [x|] eqn:E; [|discriminate H].
    destruct (read_hdr S U w (s_hdr x) s u) as [w1|] eqn:F; [|discriminate H]. inv H.
    apply apart_tries. eapply apart_read_hdr; eauto.
  - cases. eapply apart_take_sub; eauto.
  - cases. eapply apart_take_sub; eauto.
  - cases. eapply apart_take_ush; eauto.
  - cases. eapply apart_take_ush; eauto.
  - cases. apply change_sub_refs in H as (? & ? & ? & _). eapply apart_same; eauto.
  - cases. apply change_sub_refs in H as (? & ? & ? & _). eapply apart_same; eauto.
  - cases. apply change_ush_refs in H as (? & ? & ? & _). eapply apart_same; eauto.
  - cases. apply change_ush_refs in H as (? & ? & ? & _). eapply apart_same; eauto.
  - cases. now apply apart_set_data.
  - discriminate G.
Qed.

Lemma made_back w os w' d : run w os = Some w' -> forallb gives_own os = true ->
  made w' d -> (exists y, nth_error (w_data w) d = Some y) -> made w d.
Proof.
  intros H G (h & E) (y & F). exists h. rewrite (run_keeps _ _ _ _ _ H G F) in E. congruence.
Qed.

Lemma apart_run : forall os us w w', sound w -> run w os = Some w' ->
  forallb gives_own os = true -> NoDup (flat_map used os) ->
  (forall d, In d (flat_map used os) -> made w' d /\ ~ In d us) ->
  apart us w -> exists us', (forall d, In d us' <-> In d us \/ In d (flat_map used os)) /\ apart us' w'.
Proof.
  induction os as [|o os IH]; intros us w w' W H G N M AP; cbn in H.
  - inv H. exists us. split; [|assumption]. cbn. tauto.
  - pose proof G as G0. cbn in G. apply andb_prop in G as [G1 G2]. cbn [flat_map] in *.
    destruct (step w o) as [w1|] eqn:E; [|discriminate H].
    assert (ND : NoDup (flat_map used os) /\
                 forall d, In d (used o) -> ~ In d (flat_map used os)).
    { destruct o; cbn in N |- *; try (split; [exact N|tauto]).
      destruct d; cbn in N |- *; [|split; [exact N|tauto]].
      inversion N; subst. split; [assumption|]. intros d [<-|[]]. assumption. }
    destruct ND as [N1 N2].
    destruct (IH (used o ++ us) w1 w') as (us' & A & B).
    + eapply sound_step; eauto.
    + exact H.
    + exact G2.
    + exact N1.
    + intros d I. destruct (M d) as [M1 M2]; [apply in_or_app; auto|]. split; [exact M1|].
      intros J. apply in_app_or in J as [J|J]; [exact (N2 d J I)|exact (M2 J)].
    + eapply apart_step; eauto. intros d I.
      destruct (M d) as [M1 M2]; [apply in_or_app; auto|]. split; [|exact M2].
      eapply made_back with (os := o :: os) (w' := w'); eauto.
      * cbn. rewrite E. exact H.
      * destruct o; cbn in I; try contradiction. destruct d0; cbn in I; [|contradiction].
        destruct I as [<-|[]]. cbn in E. destruct (nth_error (w_data w) n); [eauto|discriminate E].
    + exists us'. split; [|exact B]. intros d. rewrite A, !in_app_iff. tauto.
Qed.

(** Segments are separate: if no data object was used for two segments or taken
    from a segment that was read, and no subheader object was assigned to two
    headers, then what is done through a segment, or through its data, or through
    data not used for a segment yet, is not seen through any other segment. *)
Theorem C64_separate os w o w' p other :
  run empty os = Some w -> forallb gives_own os = true ->
  NoDup (flat_map used os) -> (forall d, In d (flat_map used os) -> made w d) ->
  step w o = Some w' -> acts o = Some p ->
  (match p with
   | Seg sg => sg <> other
   | Data d => (made w d /\ ~ In d (flat_map used os)) \/
               (forallb leaves_data os = true /\ exists sg, seg_data w sg = Some d /\ sg <> other)
   end) ->
  seg_sub w other <> None ->
  seg_sub w' other = seg_sub w other /\ seg_ush w' other = seg_ush w other.
Proof.
  intros H G N M St A P X.
  assert (W : sound w) by (eapply sound_run; [exact H | apply sound_empty]).
  assert (AP : exists us, (forall d, In d us <-> In d [] \/ In d (flat_map used os)) /\ apart us w).
  { apply (apart_run os [] empty w sound_empty H G N).
    - intros d I. split; [auto|intros []].
    - split; intros [|?] *; discriminate 1. }
  destruct AP as (us & US & [P1 P2 P3 P4 P5]).
  destruct (acts_at _ _ _ _ W A St) as (h & I & _ & _ & L).
  assert (AL : alone w h).
  { intros k x y NK E F. split.
    - intros K. apply NK. symmetry. eapply P1; eauto.
    - intros u E1 F1. apply NK. symmetry. eapply P2; eauto. }
  specialize (L AL).
  unfold seg_sub in X at 1. destruct (nth_error (w_seg w) other) as [z|] eqn:E; [|contradiction].
  assert (Q : hdr_at w (Seg other) = Some (s_hdr z)) by (cbn; now rewrite E).
  assert (NH : s_hdr z <> h).
  { destruct p as [sg|d]; cbn in I.
    - destruct (nth_error (w_seg w) sg) as [y|] eqn:F; [|discriminate I]. injection I as <-.
      intros K. apply P. eapply P3; eauto.
    - destruct (nth_error (w_data w) d) as [y|] eqn:F; [|discriminate I]. injection I as <-.
      destruct P as [((k & F') & NU)|(L1 & sg & D & NE)].
      + rewrite F in F'. injection F' as ->. apply (P5 d _ other z F eq_refl); [|exact E].
        intros J. apply US in J as [[]|J]. exact (NU J).
      + assert (C : coherent w).
        { eapply coherent_run; [exact H|exact L1|]. intros [|s]; cbn; intros; discriminate. }
        unfold seg_data in D. destruct (nth_error (w_seg w) sg) as [v|] eqn:V; [|discriminate D].
        destruct (C sg v d V D) as (y' & F' & K). rewrite F in F'. injection F' as <-.
        rewrite K. intros J. apply NE. eapply P3; eauto. }
  pose proof (acts_places _ _ _ _ _ _ A St Q) as Q'.
  pose proof (sub_hdr w (Seg other)) as S1. pose proof (sub_hdr w' (Seg other)) as S2.
  pose proof (ush_hdr w (Seg other)) as U1. pose proof (ush_hdr w' (Seg other)) as U2.
  rewrite Q in S1, U1. rewrite Q' in S2, U2. cbn in S1, S2, U1, U2.
  rewrite S1, S2, U1, U2. apply L. exact NH.
Qed.
End C64.

Print Assumptions C64_shared.
Print Assumptions C64_seen.
Print Assumptions C64_separate.

(* ---- cases; a subheader is a number here, a user subheader too *)

Notation prog := (list (op nat nat)).
Definition show (o : option (world nat nat)) (f : world nat nat -> option nat) : option nat :=
  match o with Some w => f w | None => None end.

(** an image and its segment, the image's header changed through both, then a
    segment read twice *)
Definition ex_prog : prog :=
  [MkData 10 None; MkSegm 0 (Some 0); DataChange 0 (fun n => n + 1); SegChange 0 (fun n => n * 2);
   MkSegm 0 None; Read 1 40 (Some 7) 2; Read 1 50 None 0].

Example ex_c64_shared :
  let w := run _ _ empty ex_prog in
  forallb (leaves_data _ _) ex_prog = true /\
  show w (fun w => seg_sub _ _ w 0) = Some 22 /\ show w (fun w => data_sub _ _ w 0) = Some 22 /\
  show w (fun w => seg_data _ _ w 1) = Some 4 /\
  show w (fun w => data_sub _ _ w 4) = Some 50 /\ show w (fun w => seg_sub _ _ w 1) = Some 50 /\
  match w with Some w => data_ush _ _ w 4 | None => None end = Some (Some 7).
Proof. repeat split. Qed.

Example ex_c64_separate :
  let p := ex_prog in
  forallb (gives_own _ _) p = true /\ flat_map (used _ _) p = [0] /\
  show (run _ _ empty (p ++ [SegSub 1 (New 99)])) (fun w => seg_sub _ _ w 0) = Some 22 /\
  show (run _ _ empty (p ++ [SegSub 1 (New 99)])) (fun w => seg_sub _ _ w 1) = Some 99.
Proof. repeat split. Qed.

(** A program that assigns the data of a segment leaves the segment with the
    header of the old data: segment and data show different subheaders, and the
    subheader written is not that of the data. *)
Theorem C64_assigned_refuted : exists (os : prog) w sg d,
  run _ _ empty os = Some w /\ seg_data _ _ w sg = Some d /\
  seg_sub _ _ w sg <> data_sub _ _ w d.
Proof.
  exists [MkData 10 None; MkData 20 None; MkSegm 0 (Some 0); SetData 0 (Some 1)].
  eexists _, 0, 1. repeat split; cbn; discriminate.
Qed.

(** Two segments made from one data object have one header: a change through one
    is seen through the other. *)
Theorem C64_same_data_refuted : exists (os : prog) w o w' sg other,
  run _ _ empty os = Some w /\ forallb (leaves_data _ _) os = true /\
  forallb (gives_own _ _) os = true /\
  acts _ _ o = Some (Seg sg) /\ step _ _ w o = Some w' /\ sg <> other /\
  seg_sub _ _ w' other <> seg_sub _ _ w other.
Proof.
  exists [MkData 10 None; MkSegm 0 (Some 0); MkSegm 0 (Some 0)].
  eexists _, (SegChange 0 (fun n => n + 1)), _, 0, 1. repeat split; cbn; discriminate.
Qed.

(** The data of a segment that was read, used for a new segment, takes the header
    of the old one with it. *)
Theorem C64_taken_refuted : exists (os : prog) w o w' sg other,
  run _ _ empty os = Some w /\ forallb (leaves_data _ _) os = true /\
  forallb (gives_own _ _) os = true /\ NoDup (flat_map (used _ _) os) /\
  acts _ _ o = Some (Seg sg) /\ step _ _ w o = Some w' /\ sg <> other /\
  seg_sub _ _ w' other <> seg_sub _ _ w other.
Proof.
  exists [MkSegm 0 None; Read 0 40 None 0; MkSegm 0 (Some 0)].
  eexists _, (SegChange 1 (fun n => n + 1)), _, 1, 0.
  repeat split; cbn; try discriminate. repeat constructor; intros [].
Qed.

(** After a merge the segment of the other file and its data show different
    subheaders. *)
Theorem C64_merged_refuted : exists (os : prog) w sg d,
  run _ _ empty os = Some w /\ seg_data _ _ w sg = Some d /\
  seg_sub _ _ w sg <> data_sub _ _ w d.
Proof.
  exists [MkSegm 0 None; Read 0 40 None 0; MkSegm 5 None; Merge 1 0].
  eexists _, 0, 0. repeat split; cbn; discriminate.
Qed.

Print Assumptions C64_assigned_refuted.
Print Assumptions C64_same_data_refuted.
Print Assumptions C64_taken_refuted.
Print Assumptions C64_merged_refuted.
