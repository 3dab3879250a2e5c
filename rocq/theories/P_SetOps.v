(** C65: the set operators of handler sets. *)
From Verif Require Import Base BaseLemmas Handles P_Handles SetOps.
From Coq Require Import Permutation.
Open Scope list_scope.

(** ** What is to be shown *)

(** The comparisons; [Ne] is the negation of [Eq]. *)
Inductive rel := Le | Lt | Ge | Gt | Eq | Ne | Disjoint.
(** The operations of C31, the operators that make a new set, comparisons. *)
Inductive sop (H : Type) :=
| Base (x : hop H) | And (a b : nat) | Or (a b : nat) | Sub (a b : nat) | Xor (a b : nat) | Cmp (r : rel) (a b : nat).
Arguments Base {H}. Arguments And {H}. Arguments Or {H}. Arguments Sub {H}. Arguments Xor {H}. Arguments Cmp {H}.

(** A new set with the pairs [P]. *)
Definition m_new {H} (m : msets H) (P : H -> Z -> Prop) : msets H :=
  {| ms_n := S (ms_n m); ms_in := fun o h p => (o = ms_n m /\ P h p) \/ (o <> ms_n m /\ ms_in m o h p) |}.

(** What the operators mean on sets of pairs; [a ^ b] makes the two differences on the way, which
    are sets with numbers too. *)
Definition ms_step {H} (m : msets H) (x : sop H) : msets H :=
  let of o := ms_in m o in
  match x with
  | Base x => m_step m x
  | And a b => m_new m (fun h p => of a h p /\ of b h p)
  | Or a b => m_new m (fun h p => of a h p \/ of b h p)
  | Sub a b => m_new m (fun h p => of a h p /\ ~ of b h p)
  | Xor a b => m_new (m_new (m_new m (fun h p => of a h p /\ ~ of b h p)) (fun h p => of b h p /\ ~ of a h p))
                     (fun h p => (of a h p /\ ~ of b h p) \/ (of b h p /\ ~ of a h p))
  | Cmp _ _ _ => m
  end.
Definition ms_run {H} (ops : list (sop H)) : msets H :=
  fold_left ms_step ops {| ms_n := 0; ms_in := fun _ _ _ => False |}.

(** What a comparison is to answer. *)
Definition means {H} (r : rel) (A B : H -> Z -> Prop) : Prop :=
  let sub X Y := forall h p, X h p -> Y h p : Prop in
  match r with
  | Le => sub A B | Ge => sub B A
  | Lt => sub A B /\ ~ sub B A | Gt => sub B A /\ ~ sub A B
  | Eq => sub A B /\ sub B A | Ne => ~ (sub A B /\ sub B A)
  | Disjoint => forall h p, ~ (A h p /\ B h p)
  end.

(** The operations name sets that exist. *)
Fixpoint sops_ok {H} (n : nat) (ops : list (sop H)) : Prop :=
  match ops with
  | [] => True
  | x :: ops' =>
      match x with
      | Base x => match target x with Some o => (o < n)%nat | None => True end
      | And a b | Or a b | Sub a b | Xor a b | Cmp _ a b => (a < n)%nat /\ (b < n)%nat
      end
      /\ sops_ok (match x with
                  | Base HNew | Base (HCopy _) | And _ _ | Or _ _ | Sub _ _ => S n
                  | Xor _ _ => 3 + n
                  | _ => n
                  end)%nat ops'
  end.

Section Ops.
Variable H : Type.
Variable heq : H -> H -> bool.
Hypothesis heq_ok : forall a b, heq a b = true <-> a = b.
Notation mst := (mem_st H).
Notation has := (has H).
Notation sane := (sane H).

(** The same on the code's objects, and the answer of a comparison. *)
Definition compare (m : mst) (r : rel) (a b : nat) : mst * bool :=
  match r with
  | Le => s_le H heq m a b | Lt => s_lt H heq m a b | Ge => s_ge H heq m a b | Gt => s_gt H heq m a b
  | Eq => s_eq H heq m a b | Ne => let '(m', x) := s_eq H heq m a b in (m', negb x)
  | Disjoint => s_disjoint H heq m a b
  end.
Definition s_step (m : mst) (x : sop H) : mst :=
  match x with
  | Base x => h_step H heq m x
  | And a b => fst (s_and H heq m a b) | Or a b => fst (s_or H heq m a b)
  | Sub a b => fst (s_sub H heq m a b) | Xor a b => fst (s_xor H heq m a b)
  | Cmp r a b => fst (compare m r a b)
  end.
Definition s_run (ops : list (sop H)) : mst := fold_left s_step ops {| sets := []; objs := [] |}.

(** ** The methods used *)

(** memories with the same pairs *)
Definition alike (m m' : mst) : Prop :=
  sane m' /\ List.length (objs m') = List.length (objs m) /\ forall o h p, has m' o h p <-> has m o h p.
Lemma alike_refl m : sane m -> alike m m.
Proof. intro W. split; [exact W|]. split; [reflexivity|tauto]. Qed.
Lemma alike_trans a b c : alike a b -> alike b c -> alike a c.
Proof. intros (A1 & A2 & A3) (B1 & B2 & B3). split; [exact B1|]. split; [lia|]. intros. now rewrite B3. Qed.

Lemma contains_ok m o h p : sane m -> (o < List.length (objs m))%nat ->
  alike m (fst (p_contains H heq m o h p)) /\ (snd (p_contains H heq m o h p) = true <-> has m o h p).
Proof.
  intros W Ho. unfold p_contains. destruct (get_set H m o p) as [m1 i] eqn:G. cbn [fst snd].
  destruct (get_set_ok H heq heq_ok m o p m1 i W Ho G) as (W1 & L1 & I1 & H1). split; [split; auto|].
  rewrite (mem_in H heq heq_ok), <- H1. split.
  - intro X. exists i. auto.
  - intros (j & A & B). assert (i = j); [|congruence].
    assert (K1 := proj2 (key_find_in _ p i (sane_keys H m1 W1 o)) I1).
    assert (K2 := proj2 (key_find_in _ p j (sane_keys H m1 W1 o)) A). congruence.
Qed.

Lemma all_in_ok : forall it m o, sane m -> (o < List.length (objs m))%nat ->
  alike m (fst (all_in H heq m o it)) /\ (snd (all_in H heq m o it) = true <-> forall h p, In (h, p) it -> has m o h p).
Proof.
  induction it as [|[h p] it IH]; intros m o W Ho; cbn [all_in].
  - split; [now apply alike_refl|]. cbn. split; [intros _ h p []|auto].
  - destruct (contains_ok m o h p W Ho) as (A & B). destruct (p_contains H heq m o h p) as [m1 b]. cbn [fst snd] in *.
    destruct b; cbn [fst snd].
    + destruct A as (A1 & A2 & A3). destruct (IH m1 o A1) as (C & D); [lia|].
      split; [eapply alike_trans; [split; [exact A1|split; [exact A2|exact A3]]|exact C]|]. rewrite D. split.
      * intros F h' p' [[= <- <-]|I]; [now apply B|]. apply A3. auto.
      * intros F h' p' I. apply A3. apply F. now right.
    + split; [exact A|]. split; [discriminate|]. intro F. apply B. apply F. now left.
Qed.

Lemma none_in_ok : forall it m o, sane m -> (o < List.length (objs m))%nat ->
  alike m (fst (none_in H heq m o it)) /\ (snd (none_in H heq m o it) = true <-> forall h p, In (h, p) it -> ~ has m o h p).
Proof.
  induction it as [|[h p] it IH]; intros m o W Ho; cbn [none_in].
  - split; [now apply alike_refl|]. cbn. split; [intros _ h p []|auto].
  - destruct (contains_ok m o h p W Ho) as (A & B). destruct (p_contains H heq m o h p) as [m1 b]. cbn [fst snd] in *.
    destruct b; cbn [fst snd].
    + split; [exact A|]. split; [discriminate|]. intro F. exfalso. apply (F h p); [now left|now apply B].
    + destruct A as (A1 & A2 & A3). destruct (IH m1 o A1) as (C & D); [lia|].
      split; [eapply alike_trans; [split; [exact A1|split; [exact A2|exact A3]]|exact C]|]. rewrite D. split.
      * intros F h' p' [[= <- <-]|I]; [intro X; apply B in X; discriminate X|]. rewrite <- A3. auto.
      * intros F h' p' I. rewrite A3. apply F. now right.
Qed.

Lemma keep_ok want : forall it m o, sane m -> (o < List.length (objs m))%nat ->
  alike m (fst (keep H heq want m o it))
  /\ forall h p, In (h, p) (snd (keep H heq want m o it)) <-> In (h, p) it /\ (if want then has m o h p else ~ has m o h p).
Proof.
  induction it as [|[h p] it IH]; intros m o W Ho; cbn [keep].
  - split; [now apply alike_refl|]. cbn. tauto.
  - destruct (contains_ok m o h p W Ho) as (A & B). destruct (p_contains H heq m o h p) as [m1 b]. cbn [fst snd] in *.
    assert (A' := A). destruct A' as (A1 & A2 & A3). destruct (IH m1 o A1) as (C & D); [lia|].
    destruct (keep H heq want m1 o it) as [m2 r]. cbn [fst snd] in *.
    split; [eapply alike_trans; eauto|]. intros h' p'.
    assert (D' : In (h', p') r <-> In (h', p') it /\ (if want then has m o h' p' else ~ has m o h' p')).
    { rewrite D. destruct want; rewrite A3; tauto. }
    destruct (Bool.eqb b want) eqn:Q.
    + apply Bool.eqb_prop in Q. subst b. cbn [In]. rewrite D'. split.
      * intros [[= <- <-]|X]; [|tauto]. split; [now left|]. destruct want; [now apply B|]. intro X. apply B in X. discriminate X.
      * intros ([[= <- <-]|I] & X); auto.
    + rewrite D'. cbn [In]. split; [tauto|]. intros ([[= <- <-]|I] & X); [|auto]. exfalso.
      destruct want, b; try discriminate Q; [apply B in X; discriminate X|]. apply X. now apply B.
Qed.

Lemma from_new it m : sane m ->
  let r := p_from H heq m it in
  sane (fst r) /\ List.length (objs (fst r)) = S (List.length (objs m)) /\ snd r = List.length (objs m)
  /\ forall o h p, has (fst r) o h p <-> (o = List.length (objs m) /\ In (h, p) it) \/ (o <> List.length (objs m) /\ has m o h p).
Proof.
  intro W. destruct (new_ok H heq heq_ok m W) as (W1 & L1 & N1 & H1 & F1). unfold p_from.
  destruct (p_new H m) as [m1 o1] eqn:E. cbn [fst snd] in *. subst o1.
  destruct (from_ok H heq heq_ok it m1 (List.length (objs m)) W1) as (W2 & L2 & E2); [lia|].
  split; auto. split; [lia|]. split; auto. intros o h p. rewrite E2, H1. split.
  - intros [X|[-> X]]; [|auto]. right. split; auto. intros ->. eapply F1; eauto.
  - intros [[-> X]|[_ X]]; auto.
Qed.

(** [r] is a new set with the pairs [P], next to the sets of [m] *)
Definition makes (m : mst) (r : mst * nat) (P : H -> Z -> Prop) : Prop :=
  sane (fst r) /\ List.length (objs (fst r)) = S (List.length (objs m)) /\ snd r = List.length (objs m)
  /\ forall o h p, has (fst r) o h p <-> (o = List.length (objs m) /\ P h p) \/ (o <> List.length (objs m) /\ has m o h p).

Lemma and_ok m a b : sane m -> (a < List.length (objs m))%nat -> makes m (s_and H heq m a b) (fun h p => has m a h p /\ has m b h p).
Proof.
  intros W A. unfold s_and. destruct (keep_ok true (p_iter H m b) m a W A) as ((W1 & L1 & E1) & K).
  destruct (keep H heq true m a (p_iter H m b)) as [m1 it]. cbn [fst snd] in *.
  destruct (from_new it m1 W1) as (W2 & L2 & N2 & E2). split; [exact W2|]. split; [lia|]. split; [lia|].
  intros o h p. rewrite E2, L1, K, E1. change (p_iter H m b) with (pairs H m b). rewrite iter_in. tauto.
Qed.
Lemma sub_ok m a b : sane m -> (b < List.length (objs m))%nat -> makes m (s_sub H heq m a b) (fun h p => has m a h p /\ ~ has m b h p).
Proof.
  intros W A. unfold s_sub. destruct (keep_ok false (p_iter H m a) m b W A) as ((W1 & L1 & E1) & K).
  destruct (keep H heq false m b (p_iter H m a)) as [m1 it]. cbn [fst snd] in *.
  destruct (from_new it m1 W1) as (W2 & L2 & N2 & E2). split; [exact W2|]. split; [lia|]. split; [lia|].
  intros o h p. rewrite E2, L1, K, E1. change (p_iter H m a) with (pairs H m a). rewrite iter_in. tauto.
Qed.
Lemma or_ok m a b : sane m -> makes m (s_or H heq m a b) (fun h p => has m a h p \/ has m b h p).
Proof.
  intros W. unfold s_or. destruct (from_new (p_iter H m a ++ p_iter H m b) m W) as (W2 & L2 & N2 & E2).
  split; [exact W2|]. split; [exact L2|]. split; [exact N2|]. intros o h p. rewrite E2, in_app_iff.
  change (p_iter H m a) with (pairs H m a). change (p_iter H m b) with (pairs H m b). now rewrite !iter_in.
Qed.

Lemma iter_nodup m o : sane m -> NoDup (p_iter H m o).
Proof.
  intro W. unfold p_iter. apply flat_nodup; auto.
  eapply Permutation_NoDup; [apply Permutation_map, Permutation_sym, sorted_desc_perm|]. apply W.
Qed.
Lemma len_iter m o : p_len H m o = List.length (p_iter H m o).
Proof.
  unfold p_len, p_iter.
  assert (FL : forall (l : list (Z * nat)) a, fold_left (fun a x => (a + List.length (set_at m (snd x)))%nat) l a
             = (a + list_sum (map (fun x => List.length (set_at m (snd x))) l))%nat).
  { induction l as [|x l IH]; intro a; cbn; [lia|]. rewrite IH. unfold list_sum. lia. }
  assert (FM : forall l : list (Z * nat), List.length (flat_map (fun x => map (fun h => (h, fst x)) (set_at m (snd x))) l)
             = list_sum (map (fun x => List.length (set_at m (snd x))) l)).
  { induction l as [|x l IH]; cbn; auto. now rewrite app_length, map_length, IH. }
  rewrite FL, FM. unfold list_sum. cbn. pose proof (sorted_desc_perm (dict m o)) as P. revert P.
  generalize (sorted_desc (dict m o)) as l1. generalize (dict m o) as l2. clear. induction 1; cbn; lia.
Qed.

Definition within (m : mst) (a b : nat) : Prop := forall h p, has m a h p -> has m b h p.
Lemma within_incl m a b : within m a b <-> incl (p_iter H m a) (p_iter H m b).
Proof.
  split.
  - intros W [h p] I. apply (iter_in H). apply W. now apply (iter_in H).
  - intros W h p I. apply (iter_in H). apply W. now apply (iter_in H).
Qed.
Lemma within_len m a b : sane m -> within m a b -> (p_len H m a <= p_len H m b)%nat.
Proof. intros W X. rewrite !len_iter. apply NoDup_incl_length; [now apply iter_nodup|]. now apply within_incl. Qed.
Lemma within_back m a b : sane m -> within m a b -> (p_len H m b <= p_len H m a)%nat -> within m b a.
Proof.
  intros W X L. apply within_incl. apply NoDup_length_incl; [now apply iter_nodup| |now apply within_incl].
  rewrite <- !len_iter. exact L.
Qed.

Lemma le_ok m a b : sane m -> (b < List.length (objs m))%nat ->
  alike m (fst (s_le H heq m a b)) /\ (snd (s_le H heq m a b) = true <-> within m a b).
Proof.
  intros W B. unfold s_le. destruct (Nat.ltb_spec (p_len H m b) (p_len H m a)) as [X|X].
  - split; [now apply alike_refl|]. split; [discriminate|]. intro Y. apply within_len in Y; [lia|exact W].
  - destruct (all_in_ok (p_iter H m a) m b W B) as (A & C). split; [exact A|]. rewrite C. split.
    + intros F h p I. apply F. now apply (iter_in H).
    + intros F h p I. apply F. now apply (iter_in H).
Qed.
Lemma ge_ok m a b : sane m -> (a < List.length (objs m))%nat ->
  alike m (fst (s_ge H heq m a b)) /\ (snd (s_ge H heq m a b) = true <-> within m b a).
Proof.
  intros W B. unfold s_ge. destruct (Nat.ltb_spec (p_len H m a) (p_len H m b)) as [X|X].
  - split; [now apply alike_refl|]. split; [discriminate|]. intro Y. apply within_len in Y; [lia|exact W].
  - destruct (all_in_ok (p_iter H m b) m a W B) as (A & C). split; [exact A|]. rewrite C. split.
    + intros F h p I. apply F. now apply (iter_in H).
    + intros F h p I. apply F. now apply (iter_in H).
Qed.
Lemma lt_ok m a b : sane m -> (b < List.length (objs m))%nat ->
  alike m (fst (s_lt H heq m a b)) /\ (snd (s_lt H heq m a b) = true <-> within m a b /\ ~ within m b a).
Proof.
  intros W B. unfold s_lt. destruct (Nat.ltb_spec (p_len H m a) (p_len H m b)) as [X|X].
  - destruct (le_ok m a b W B) as (A & C). split; [exact A|]. rewrite C. split; [|tauto].
    intro Y. split; [exact Y|]. intro Z. apply within_len in Z; [lia|exact W].
  - split; [now apply alike_refl|]. split; [discriminate|]. intros (Y & N). exfalso. apply N. now apply within_back.
Qed.
Lemma gt_ok m a b : sane m -> (a < List.length (objs m))%nat ->
  alike m (fst (s_gt H heq m a b)) /\ (snd (s_gt H heq m a b) = true <-> within m b a /\ ~ within m a b).
Proof.
  intros W B. unfold s_gt. destruct (Nat.ltb_spec (p_len H m b) (p_len H m a)) as [X|X].
  - destruct (ge_ok m a b W B) as (A & C). split; [exact A|]. rewrite C. split; [|tauto].
    intro Y. split; [exact Y|]. intro Z. apply within_len in Z; [lia|exact W].
  - split; [now apply alike_refl|]. split; [discriminate|]. intros (Y & N). exfalso. apply N. now apply within_back.
Qed.
Lemma eq_ok m a b : sane m -> (b < List.length (objs m))%nat ->
  alike m (fst (s_eq H heq m a b)) /\ (snd (s_eq H heq m a b) = true <-> within m a b /\ within m b a).
Proof.
  intros W B. unfold s_eq. destruct (Nat.eqb_spec (p_len H m a) (p_len H m b)) as [X|X].
  - destruct (le_ok m a b W B) as (A & C). split; [exact A|]. rewrite C. split; [|tauto].
    intro Y. split; [exact Y|]. apply within_back; [exact W|exact Y|lia].
  - split; [now apply alike_refl|]. split; [discriminate|]. intros (Y & Z). exfalso. apply within_len in Y, Z; auto. lia.
Qed.
Lemma disjoint_ok m a b : sane m -> (a < List.length (objs m))%nat ->
  alike m (fst (s_disjoint H heq m a b)) /\ (snd (s_disjoint H heq m a b) = true <-> forall h p, ~ (has m a h p /\ has m b h p)).
Proof.
  intros W A. unfold s_disjoint. destruct (none_in_ok (p_iter H m b) m a W A) as (B & C). split; [exact B|]. rewrite C. split.
  - intros F h p (X & Y). apply (F h p); [now apply (iter_in H)|exact X].
  - intros F h p I X. apply (F h p). split; [exact X|now apply (iter_in H)].
Qed.

Lemma compare_ok m r a b : sane m -> (a < List.length (objs m))%nat -> (b < List.length (objs m))%nat ->
  alike m (fst (compare m r a b)) /\ (snd (compare m r a b) = true <-> means r (has m a) (has m b)).
Proof.
  intros W A B. destruct r; cbn [compare means].
  - now apply le_ok.
  - now apply lt_ok.
  - now apply ge_ok.
  - now apply gt_ok.
  - now apply eq_ok.
  - destruct (eq_ok m a b W B) as (X & Y). destruct (s_eq H heq m a b) as [m' x]. cbn [fst snd] in *. split; [exact X|].
    unfold within in Y. rewrite <- Y. destruct x; cbn; split; intro N; try discriminate N; try reflexivity; [exfalso; now apply N|discriminate].
  - now apply disjoint_ok.
Qed.

(** ** Histories *)

Definition agrees (m : mst) (M : msets H) : Prop :=
  sane m /\ List.length (objs m) = ms_n M /\ forall o h p, has m o h p <-> ms_in M o h p.

Lemma makes_agrees m M r P Q : agrees m M -> makes m r P -> (forall h p, P h p <-> Q h p) -> agrees (fst r) (m_new M Q).
Proof.
  intros (W & L & E) (W1 & L1 & _ & E1) PQ. split; [exact W1|]. cbn. split; [lia|]. intros o h p. rewrite E1, PQ, E, L. tauto.
Qed.

Lemma step_agrees m M x : agrees m M -> sops_ok (ms_n M) [x] -> agrees (s_step m x) (ms_step M x).
Proof.
  intros A (O & _). assert (A' := A). destruct A' as (W & L & E). destruct x as [x|a b|a b|a b|a b|r a b]; cbn [s_step ms_step].
  - pose proof (run_ok H heq heq_ok [x] m M W L E) as R. cbn in R. apply R. split; [exact O|exact I].
  - destruct O as [O1 O2]. eapply makes_agrees; [exact A|apply and_ok; [exact W|lia]|]. intros h p. cbn. now rewrite !E.
  - eapply makes_agrees; [exact A|apply or_ok; exact W|]. intros h p. cbn. now rewrite !E.
  - destruct O as [O1 O2]. eapply makes_agrees; [exact A|apply sub_ok; [exact W|lia]|]. intros h p. cbn. now rewrite !E.
  - destruct O as [O1 O2]. unfold s_xor.
    assert (M1 := sub_ok m a b W ltac:(lia)).
    assert (A1 := makes_agrees _ _ _ _ (fun h p => ms_in M a h p /\ ~ ms_in M b h p) A M1 ltac:(intros h p; cbn; now rewrite !E)).
    destruct (s_sub H heq m a b) as [m1 x]. cbn [fst] in A1. destruct M1 as (W1 & L1 & N1 & E1). cbn [fst snd] in *.
    assert (M2 := sub_ok m1 b a W1 ltac:(lia)).
    assert (K : forall o, (o < ms_n M)%nat -> forall h p, has m1 o h p <-> ms_in M o h p).
    { intros o Ho h p. rewrite E1. split; [|intro; right; split; [lia|now apply E]]. intros [[-> _]|[_ X]]; [lia|now apply E]. }
    assert (A2 := makes_agrees _ _ _ _ (fun h p => ms_in M b h p /\ ~ ms_in M a h p) A1 M2 ltac:(intros h p; cbn; rewrite !K by lia; tauto)).
    destruct (s_sub H heq m1 b a) as [m2 y]. cbn [fst] in A2. destruct M2 as (W2 & L2 & N2 & E2). cbn [fst snd] in *.
    assert (M3 := or_ok m2 x y W2).
    apply (makes_agrees _ _ _ _ (fun h p => (ms_in M a h p /\ ~ ms_in M b h p) \/ (ms_in M b h p /\ ~ ms_in M a h p)) A2 M3).
    intros h p. destruct A2 as (_ & _ & E3). rewrite !E3. cbn. subst x y. rewrite L1, L. split.
    + intros [[[X _]|[_ [[_ X]|[X _]]]]|[[_ X]|[X _]]]; try lia; tauto.
    + intros [X|X]; [left; right; split; [lia|]; left; tauto|right; left; split; [lia|tauto]].
  - destruct O as [O1 O2]. destruct (compare_ok m r a b W) as ((W1 & L1 & E1) & _); try lia.
    split; [exact W1|]. split; [lia|]. intros o h p. now rewrite E1.
Qed.

Lemma run_agrees : forall ops m M, agrees m M -> sops_ok (ms_n M) ops -> agrees (fold_left s_step ops m) (fold_left ms_step ops M).
Proof.
  induction ops as [|x ops IH]; intros m M A O; [exact A|]. destruct O as (O1 & O2). cbn [fold_left]. apply IH.
  - apply step_agrees; [exact A|]. split; [exact O1|exact I].
  - replace (ms_n (ms_step M x)) with (match x with
        | Base HNew | Base (HCopy _) | And _ _ | Or _ _ | Sub _ _ => S (ms_n M)
        | Xor _ _ => 3 + ms_n M
        | _ => ms_n M
        end)%nat; [exact O2|]. destruct x as [x| | | | |]; try reflexivity. destruct x; reflexivity.
Qed.

Lemma start_agrees : agrees {| sets := []; objs := [] |} {| ms_n := 0; ms_in := fun _ _ _ => False |}.
Proof.
  split; [apply empty_sane|]. split; [reflexivity|]. intros o h p. cbn. split; [|tauto]. intros (i & X & _). destruct o; destruct X.
Qed.

(** C65.  After any history of operations and operators the pairs of every set, results included,
    are those of the mathematical set, and there are as many sets. *)
Theorem C65_operators ops o : sops_ok 0 ops ->
  List.length (objs (s_run ops)) = ms_n (ms_run ops)
  /\ (forall h p, In (h, p) (p_iter H (s_run ops) o) <-> ms_in (ms_run ops) o h p)
  /\ NoDup (p_iter H (s_run ops) o).
Proof.
  intro O. destruct (run_agrees ops _ _ start_agrees O) as (W & L & E). split; [exact L|]. split.
  - intros h p. unfold ms_run. rewrite <- E. apply (iter_in H).
  - now apply iter_nodup.
Qed.

(** Comparisons of two sets answer what they mean, after any history. *)
Theorem C65_compare ops r a b : sops_ok 0 ops -> (a < ms_n (ms_run ops))%nat -> (b < ms_n (ms_run ops))%nat ->
  snd (compare (s_run ops) r a b) = true <-> means r (ms_in (ms_run ops) a) (ms_in (ms_run ops) b).
Proof.
  intros O A B. destruct (run_agrees ops _ _ start_agrees O) as (W & L & E).
  fold (s_run ops) in W, L, E. fold (ms_run ops) in L, E.
  destruct (compare_ok (s_run ops) r a b W) as (_ & C); try lia. rewrite C. destruct r; cbn; setoid_rewrite E; tauto.
Qed.

Lemma ops_split a b : forall ops (M : msets H), sops_ok (ms_n M) (ops ++ [And a b]) ->
  sops_ok (ms_n M) ops /\ (a < ms_n (fold_left ms_step ops M))%nat /\ (b < ms_n (fold_left ms_step ops M))%nat.
Proof.
  induction ops as [|x l IH]; intros M.
  - cbn. tauto.
  - cbn [app sops_ok fold_left]. intros (X & Y).
    replace (match x with
      | Base HNew | Base (HCopy _) | And _ _ | Or _ _ | Sub _ _ => S (ms_n M)
      | Xor _ _ => 3 + ms_n M
      | _ => ms_n M
      end)%nat with (ms_n (ms_step M x)) in *; [|destruct x as [x| | | | |]; try reflexivity; destruct x; reflexivity].
    destruct (IH _ Y) as (P & Q & R). split; [split; [exact X|exact P]|split; [exact Q|exact R]].
Qed.

(** Which set a new one is: the operators give the last set made. *)
Theorem C65_result ops a b : sops_ok 0 (ops ++ [And a b]) ->
  snd (s_and H heq (s_run ops) a b) = ms_n (ms_run ops) /\ snd (s_or H heq (s_run ops) a b) = ms_n (ms_run ops)
  /\ snd (s_sub H heq (s_run ops) a b) = ms_n (ms_run ops) /\ snd (s_xor H heq (s_run ops) a b) = (2 + ms_n (ms_run ops))%nat.
Proof.
  intro O. assert (OK : sops_ok 0 ops /\ (a < ms_n (ms_run ops))%nat /\ (b < ms_n (ms_run ops))%nat).
  { exact (ops_split a b ops {| ms_n := 0; ms_in := fun _ _ _ => False |} O). }
  destruct OK as (O1 & A & B). destruct (run_agrees ops _ _ start_agrees O1) as (W & L & E).
  fold (s_run ops) in W, L, E. fold (ms_run ops) in L, E.
  destruct (and_ok (s_run ops) a b W ltac:(lia)) as (_ & _ & N1 & _).
  destruct (or_ok (s_run ops) a b W) as (_ & _ & N2 & _).
  destruct (sub_ok (s_run ops) a b W ltac:(lia)) as (W3 & L3 & N3 & _).
  split; [lia|]. split; [lia|]. split; [lia|]. unfold s_xor.
  destruct (s_sub H heq (s_run ops) a b) as [m1 x]. cbn [fst snd] in *.
  destruct (sub_ok m1 b a W3 ltac:(lia)) as (W4 & L4 & N4 & _).
  destruct (s_sub H heq m1 b a) as [m2 y]. cbn [fst snd] in *.
  destruct (or_ok m2 x y W4) as (_ & _ & N5 & _). lia.
Qed.
End Ops.

Print Assumptions C65_operators.
Print Assumptions C65_compare.
Print Assumptions C65_result.

(** Two sets that share the pair (1, 5); the same handler with two priorities is two pairs. *)
Definition ex_sops : list (sop nat) :=
  [Base HNew; Base (HAdd 0 1 5); Base (HAdd 0 2 5); Base HNew; Base (HAdd 1 1 5); Base (HAdd 1 2 7);
   And 0 1; Or 0 1; Sub 0 1; Cmp Le 2 0; Xor 0 1].
Example ex_c65 : sops_ok 0 ex_sops /\
  map (fun o => p_iter nat (s_run nat Nat.eqb ex_sops) o) [0; 1; 2; 3; 4; 7]%nat
  = [[(1, 5%Z); (2, 5%Z)]; [(2, 7%Z); (1, 5%Z)]; [(1, 5%Z)]; [(2, 7%Z); (1, 5%Z); (2, 5%Z)]; [(2, 5%Z)]; [(2, 7%Z); (2, 5%Z)]]%nat
  /\ map (fun r => snd (compare nat Nat.eqb (s_run nat Nat.eqb ex_sops) r 2 0)) [Le; Lt; Ge; Gt; Eq; Ne; Disjoint]
     = [true; true; false; false; false; true; false].
Proof. split; [repeat split; cbn; lia|]. split; vm_compute; reflexivity. Qed.
