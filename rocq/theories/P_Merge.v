(** Merged files take each part from the first file that has it (C41). *)
From Verif Require Import Base Engine File Merge.
From Coq Require Import ZifyBool ZifyNat ZifyN.
Open Scope list_scope.

(** [r] is the part of the first file that has one, [none] if no file has. *)
Definition from_first {F A} (part : F -> A) (none : A) (fs : list F) (r : A) : Prop :=
  (exists pre f post, fs = pre ++ f :: post /\ (forall g, In g pre -> part g = none) /\ part f <> none /\ r = part f)
  \/ (forall g, In g fs -> part g = none) /\ r = none.

Section M.
Variables (H S T : Type).
Notation mfile := (mfile H S T).

Lemma first_step {A} (part : mfile -> A) none f fs r : part f = none -> from_first part none fs r -> from_first part none (f :: fs) r.
Proof.
  intros E [(pre & g & post & -> & P & Q & ->)|(P & ->)].
  - left. exists (f :: pre), g, post. split; [reflexivity|]. split; [|auto]. intros x [<-|X]; auto.
  - right. split; auto. intros x [<-|X]; auto.
Qed.
Lemma first_here {A} (part : mfile -> A) none f fs : part f <> none -> from_first part none (f :: fs) (part f).
Proof. intro E. left. exists [], f, fs. repeat split; auto. intros g []. Qed.

Theorem C41_first (fs : list mfile) :
  from_first mf_hdr None fs (mf_hdr (merged fs))
  /\ (forall k, from_first (fun f => mf_segs f k) [] fs (mf_segs (merged fs) k))
  /\ from_first mf_tres [] fs (mf_tres (merged fs)).
Proof.
  split; [|split; [intro k|]]; cbn [merged mf_hdr mf_segs mf_tres]; induction fs as [|f fs IH]; cbn [m_header m_segs m_tres];
    try (right; split; [intros g []|reflexivity]).
  - destruct (mf_hdr f) eqn:E; [rewrite <- E; apply first_here; congruence|now apply first_step].
  - destruct (mf_segs f k) eqn:E; [now apply (first_step (fun f => mf_segs f k))|rewrite <- E; apply (first_here (fun f => mf_segs f k)); congruence].
  - destruct (mf_tres f) eqn:E; [now apply first_step|rewrite <- E; apply first_here; congruence].
Qed.

(** [from_first] leaves no choice. *)
Theorem C41_unique {F A} (part : F -> A) none (fs : list F) r r' : from_first part none fs r -> from_first part none fs r' -> r = r'.
Proof.
  intros [(p & f & q & E & P & Q & ->)|(P & ->)] [(p' & f' & q' & E' & P' & Q' & ->)|(P' & ->)]; auto.
  - rewrite E in E'. clear E. revert p' P' E'. induction p as [|x p IH]; intros [|x' p'] P' E'; cbn in E'; injection E' as -> E'; auto.
    + exfalso. apply Q, P'. now left.
    + exfalso. apply Q', P. now left.
    + apply (IH (fun g I => P g (or_intror I)) p' (fun g I => P' g (or_intror I)) E').
  - exfalso. apply Q, P'. rewrite E. apply in_app_iff. right. now left.
  - exfalso. apply Q', P. rewrite E'. apply in_app_iff. right. now left.
Qed.

(** Merging a merged file gives the same as merging all files. *)
Theorem C41_nested (fs fs' : list mfile) :
  mf_hdr (merged (merged fs :: fs')) = mf_hdr (merged (fs ++ fs'))
  /\ (forall k, mf_segs (merged (merged fs :: fs')) k = mf_segs (merged (fs ++ fs')) k)
  /\ mf_tres (merged (merged fs :: fs')) = mf_tres (merged (fs ++ fs')).
Proof.
  split; [|split; [intro k|]]; cbn [merged mf_hdr mf_segs mf_tres m_header m_segs m_tres]; induction fs as [|f fs IH]; cbn [m_header m_segs m_tres app]; auto.
  - destruct (mf_hdr f); auto.
  - destruct (mf_segs f k) eqn:E; auto.
  - destruct (mf_tres f) eqn:E; auto.
Qed.

(** The segments of a merged file, one by one: every segment comes from the first file that
    has segments of its kind, with its index there, and all of these are there. *)
Theorem C41_segments (fs : list mfile) k i s : In (k, i, s) (m_segments (merged fs)) <->
  exists pre f post, fs = pre ++ f :: post /\ (forall g, In g pre -> mf_segs g k = []) /\ nth_error (mf_segs f k) i = Some s.
Proof.
  destruct (C41_first fs) as (_ & C & _). specialize (C k).
  assert (M : In (k, i, s) (m_segments (merged fs)) <-> nth_error (mf_segs (merged fs) k) i = Some s).
  { unfold m_segments. rewrite in_flat_map. split.
    - intros (k' & _ & I). apply in_map_iff in I as ([j x] & E & I). cbn in E. injection E as -> -> ->.
      unfold enumerate in I. revert I. generalize (mf_segs (merged fs) k) as l. intros l I.
      assert (X : forall l a, In (i, s) (combine (seq a (List.length l)) l) -> (a <= i)%nat /\ nth_error l (i - a) = Some s).
      { clear. induction l as [|y l IH]; intros a H0; [contradiction|]. cbn in H0. destruct H0 as [E|H0].
        - injection E as -> ->. rewrite Nat.sub_diag. auto.
        - apply IH in H0 as [H0 H1]. split; [lia|]. replace (i - a)%nat with (Datatypes.S (i - Datatypes.S a)) by lia. exact H1. }
      apply X in I as [_ I]. now rewrite Nat.sub_0_r in I.
    - intro E. exists k. split; [unfold kinds; destruct k; cbn; tauto|]. apply in_map_iff. exists (i, s). split; [reflexivity|].
      unfold enumerate. revert E. generalize (mf_segs (merged fs) k) as l. intros l E.
      assert (X : forall l a j, nth_error l j = Some s -> In ((a + j)%nat, s) (combine (seq a (List.length l)) l)).
      { clear. induction l as [|y l IH]; intros a j E; [destruct j; discriminate|]. destruct j as [|j]; cbn in *.
        - injection E as ->. rewrite Nat.add_0_r. now left.
        - right. replace (a + Datatypes.S j)%nat with (Datatypes.S a + j)%nat by lia. now apply IH. }
      exact (X l 0%nat i E). }
  rewrite M. split.
  - intro E. destruct C as [(pre & f & post & -> & P & _ & R)|(_ & R)]; rewrite R in E; [exists pre, f, post; auto|destruct i; discriminate].
  - intros (pre & f & post & Ef & P & E).
    assert (D : from_first (fun f => mf_segs f k) [] fs (mf_segs f k)).
    { left. exists pre, f, post. repeat split; auto. intro Z. rewrite Z in E. destruct i; discriminate. }
    now rewrite (C41_unique _ _ _ _ _ C D).
Qed.
End M.

Definition ex_f1 : mfile Z Z Z := {| mf_hdr := None; mf_segs := fun k => match k with KImage => [1; 2]%Z | _ => [] end; mf_tres := [] |}.
Definition ex_f2 : mfile Z Z Z := {| mf_hdr := Some 7%Z; mf_segs := fun k => match k with KImage => [3]%Z | KDes => [4]%Z | _ => [] end; mf_tres := [5]%Z |}.
Example C41_case : mf_hdr (merged [ex_f1; ex_f2]) = Some 7%Z /\ m_segments (merged [ex_f1; ex_f2]) = [(KImage, 0%nat, 1%Z); (KImage, 1%nat, 2%Z); (KDes, 0%nat, 4%Z)]
  /\ mf_tres (merged [ex_f1; ex_f2]) = [5]%Z /\ mf_segs (merged [ex_f1; ex_f2]) KText = [].
Proof. repeat split. Qed.

Print Assumptions C41_first.
Print Assumptions C41_unique.
Print Assumptions C41_nested.
Print Assumptions C41_segments.
