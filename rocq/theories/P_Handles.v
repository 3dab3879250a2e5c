(** C30, C31: sets of handlers and dispatch. *)
From Verif Require Import Base BaseLemmas Handles.
From Coq Require Import ZifyBool ZifyNat ZifyN Permutation Sorted.
Open Scope list_scope.

(** ** What is to be shown about the sets *)

(** Operations on handler sets; the object made by the n-th [HNew] or [HCopy] has number n. *)
Inductive hop (H : Type) :=
| HNew | HCopy (o : nat) | HAdd (o : nat) (h : H) (p : Z) | HDiscard (o : nat) (h : H) | HClear (o : nat)
| HContains (o : nat) (h : H) (p : Z).
Arguments HNew {H}. Arguments HCopy {H}. Arguments HAdd {H}. Arguments HDiscard {H}. Arguments HClear {H}.
Arguments HContains {H}.

(** The mathematical sets: how many there are, and which pairs each has. *)
Record msets (H : Type) := { ms_n : nat; ms_in : nat -> H -> Z -> Prop }.
Arguments ms_n {H}. Arguments ms_in {H}.

(** The object an operation works on. *)
Definition target {H} (x : hop H) : option nat :=
  match x with
  | HNew => None
  | HCopy o | HAdd o _ _ | HDiscard o _ | HClear o | HContains o _ _ => Some o
  end.

(** What the operations mean on sets of pairs. *)
Definition m_step {H} (m : msets H) (x : hop H) : msets H :=
  match x with
  | HNew => {| ms_n := S (ms_n m); ms_in := fun o h p => o <> ms_n m /\ ms_in m o h p |}
  | HCopy c => {| ms_n := S (ms_n m);
                  ms_in := fun o h p => (o = ms_n m /\ ms_in m c h p) \/ (o <> ms_n m /\ ms_in m o h p) |}
  | HAdd a h p => {| ms_n := ms_n m; ms_in := fun o h' p' => (o = a /\ h' = h /\ p' = p) \/ ms_in m o h' p' |}
  | HDiscard a h => {| ms_n := ms_n m; ms_in := fun o h' p' => ms_in m o h' p' /\ ~ (o = a /\ h' = h) |}
  | HClear a => {| ms_n := ms_n m; ms_in := fun o h' p' => ms_in m o h' p' /\ o <> a |}
  | HContains _ _ _ => m
  end.
Definition m_run {H} (ops : list (hop H)) : msets H :=
  fold_left m_step ops {| ms_n := 0; ms_in := fun _ _ _ => False |}.

(** The operations name objects that exist. *)
Fixpoint ops_ok {H} (n : nat) (ops : list (hop H)) : Prop :=
  match ops with
  | [] => True
  | x :: ops' =>
      match target x with Some o => (o < n)%nat | None => True end
      /\ ops_ok (match x with HNew | HCopy _ => S n | _ => n end) ops'
  end.

Section Sets.
Variable H : Type.
Variable heq : H -> H -> bool.
Hypothesis heq_ok : forall a b, heq a b = true <-> a = b.
Notation mst := (mem_st H).

(** The same on the code's objects. *)
Definition h_step (m : mst) (x : hop H) : mst :=
  match x with
  | HNew => fst (p_new H m)
  | HCopy o => fst (p_copy H heq m o)
  | HAdd o h p => p_add H heq m o h p
  | HDiscard o h => p_discard H heq m o h
  | HClear o => p_clear H m o
  | HContains o h p => fst (p_contains H heq m o h p)
  end.
Definition h_run (ops : list (hop H)) : mst := fold_left h_step ops {| sets := []; objs := [] |}.

(** The pairs of an object as iteration gives them. *)
Definition pairs (m : mst) (o : nat) : list (H * Z) := p_iter H m o.

(** ** Lists *)

Lemma replace_length {A} n (x : A) l : List.length (replace n x l) = List.length l.
Proof. revert n. induction l as [|y l IH]; intros [|n]; cbn; auto. Qed.

Lemma nth_replace {A} n (x : A) l i d : nth i (replace n x l) d =
  if (Nat.eqb i n && Nat.ltb n (List.length l))%bool then x else nth i l d.
Proof.
  revert n i. induction l as [|y l IH]; intros [|n] [|i]; cbn; auto.
  - now rewrite andb_false_r.
  - rewrite IH. reflexivity.
Qed.

Lemma mem_in h s : mem H heq h s = true <-> In h s.
Proof.
  unfold mem. rewrite existsb_exists. split.
  - intros (x & Hx & E). apply heq_ok in E. congruence.
  - intro Hh. exists h. split; auto. now apply heq_ok.
Qed.

Lemma set_add_in h s x : In x (set_add H heq h s) <-> x = h \/ In x s.
Proof.
  unfold set_add. destruct (mem H heq h s) eqn:E.
  - apply mem_in in E. split; [auto|]. intros [->|]; auto.
  - rewrite in_app_iff. cbn. split; [intros [|[|[]]]; auto|intros [|]; auto].
Qed.

Lemma set_add_nodup h s : NoDup s -> NoDup (set_add H heq h s).
Proof.
  intro N. unfold set_add. destruct (mem H heq h s) eqn:E; auto.
  assert (~ In h s) by (intro X; apply mem_in in X; congruence).
  apply NoDup_rev in N. rewrite <- (rev_involutive s). change [h] with (rev [h]). rewrite <- rev_app_distr.
  apply NoDup_rev. cbn. constructor; auto. now rewrite <- in_rev.
Qed.

Lemma set_discard_in h s x : In x (set_discard H heq h s) <-> In x s /\ x <> h.
Proof.
  unfold set_discard. rewrite filter_In. split; intros [A B]; split; auto.
  - intros ->. assert (heq h h = true) by now apply heq_ok. rewrite H0 in B. discriminate.
  - apply negb_true_iff. destruct (heq h x) eqn:E; auto. apply heq_ok in E. congruence.
Qed.

Lemma set_discard_nodup h s : NoDup s -> NoDup (set_discard H heq h s).
Proof. apply NoDup_filter. Qed.

(** ** Memories that can arise *)

Record sane (m : mst) : Prop := {
  sane_keys : forall o, NoDup (map fst (dict m o));
  sane_alloc : forall o p i, In (p, i) (dict m o) -> (i < List.length (sets m))%nat;
  sane_apart : forall o1 o2 p1 p2 i, In (p1, i) (dict m o1) -> In (p2, i) (dict m o2) -> o1 = o2 /\ p1 = p2;
  sane_nodup : forall i, NoDup (set_at m i) }.

Definition has (m : mst) (o : nat) (h : H) (p : Z) : Prop :=
  exists i, In (p, i) (dict m o) /\ In h (set_at m i).

Lemma key_find_in d p i : NoDup (map fst d) -> (key_find d p = Some i <-> In (p, i) d).
Proof.
  unfold key_find. induction d as [|[q j] d IH]; cbn; intro N.
  - split; [discriminate|tauto].
  - inversion_clear N as [|? ? N1 N2]. destruct (q =? p)%Z eqn:E.
    + assert (q = p) by lia. subst. split.
      * intros [= ->]. auto.
      * intros [[= ->]|X]; auto. exfalso. apply N1. change p with (fst (p, i)). now apply in_map.
    + rewrite IH by auto. split; [auto|]. intros [[= -> ->]|X]; auto. lia.
Qed.

Lemma key_find_none d p : key_find d p = None -> forall i, ~ In (p, i) d.
Proof.
  unfold key_find. destruct (find _ d) as [x|] eqn:E; [discriminate|]. intros _ i Hi.
  pose proof (find_none _ _ E _ Hi) as X. cbn in X. lia.
Qed.

Lemma dict_replace (m : mst) o d ss o' : dict (H := H) {| sets := ss; objs := replace o d (objs m) |} o' =
  if (Nat.eqb o' o && Nat.ltb o (List.length (objs m)))%bool then d else dict m o'.
Proof. unfold dict. cbn [objs]. apply nth_replace. Qed.

Lemma nth_snoc_nil {A} (l : list (list A)) i : nth i (l ++ [[]]) [] = nth i l [].
Proof.
  destruct (Nat.lt_ge_cases i (List.length l)); [now apply app_nth1|].
  rewrite app_nth2, (nth_overflow l) by lia. destruct (i - List.length l)%nat as [|[|]]; reflexivity.
Qed.

Lemma get_set_ok m o p m' i : sane m -> (o < List.length (objs m))%nat -> get_set H m o p = (m', i) ->
  sane m' /\ List.length (objs m') = List.length (objs m) /\ In (p, i) (dict m' o)
  /\ (forall o' h q, has m' o' h q <-> has m o' h q).
Proof.
  intros W Ho. unfold get_set. destruct (key_find (dict m o) p) as [j|] eqn:E.
  - intros [= <- <-]. split; [auto|]. split; auto. split; [|tauto].
    apply key_find_in; auto. apply W.
  - intros [= <- <-]. pose proof (key_find_none _ _ E) as NN. set (n := List.length (sets m)).
    set (m1 := {| sets := sets m ++ [[]]; objs := replace o (dict m o ++ [(p, n)]) (objs m) |}).
    assert (D : forall o', dict m1 o' = if Nat.eqb o' o then dict m o ++ [(p, n)] else dict m o').
    { intro o'. unfold m1. rewrite dict_replace. destruct (Nat.eqb_spec o' o); cbn [andb]; auto.
      replace (Nat.ltb o (List.length (objs m))) with true by (symmetry; apply Nat.ltb_lt; lia). reflexivity. }
    assert (SA : forall j, set_at m1 j = set_at m j) by (intro j; apply nth_snoc_nil).
    assert (IN : forall o' q j, In (q, j) (dict m1 o') <-> In (q, j) (dict m o') \/ (o' = o /\ q = p /\ j = n)).
    { intros o' q j. rewrite D. destruct (Nat.eqb_spec o' o) as [->|N].
      - rewrite in_app_iff. cbn. split; [intros [|[[= <- <-]|[]]]; auto|intros [|(_ & -> & ->)]; auto].
      - split; [auto|]. intros [|(? & _)]; [auto|congruence]. }
    split; [constructor|].
    + intro o'. rewrite D. destruct (Nat.eqb o' o); [|apply W]. rewrite map_app. cbn.
      apply (Permutation_NoDup (l := p :: map fst (dict m o))); [apply Permutation_cons_append|].
      constructor; [|apply W]. intro X. apply in_map_iff in X as ([q j] & <- & X). eapply NN; eauto.
    + intros o' q j X. cbn [sets m1]. rewrite app_length. cbn. apply IN in X as [X|(_ & _ & ->)]; [|unfold n; lia].
      apply W in X. lia.
    + intros o1 o2 p1 p2 j X1 X2. apply IN in X1, X2. destruct X1 as [X1|(-> & -> & ->)], X2 as [X2|(-> & -> & X2)]; auto.
      * eapply W; eauto.
      * subst. apply W in X1. unfold n in X1. lia.
      * apply W in X2. unfold n in X2. lia.
    + intro j. rewrite SA. apply W.
    + split; [unfold m1; cbn; apply replace_length|]. split; [apply IN; auto|].
      intros o' h q. unfold has. split; intros (j & A & B).
      * rewrite SA in B. apply IN in A as [A|(_ & _ & ->)]; [eauto|].
        unfold set_at, n in B. rewrite nth_overflow in B by lia. destruct B.
      * exists j. rewrite SA, IN. auto.
Qed.

Lemma add_ok m o h p : sane m -> (o < List.length (objs m))%nat ->
  sane (p_add H heq m o h p) /\ List.length (objs (p_add H heq m o h p)) = List.length (objs m)
  /\ forall o' h' p', has (p_add H heq m o h p) o' h' p' <-> (o' = o /\ h' = h /\ p' = p) \/ has m o' h' p'.
Proof.
  intros W Ho. unfold p_add. destruct (get_set H m o p) as [m1 i] eqn:E.
  destruct (get_set_ok m o p m1 i W Ho E) as (W1 & L1 & I1 & H1). set (m2 := {| sets := _; objs := _ |}).
  assert (Hi := sane_alloc m1 W1 o p i I1).
  assert (SA : forall j, set_at m2 j = if Nat.eqb j i then set_add H heq h (set_at m1 i) else set_at m1 j).
  { intro j. unfold set_at, m2. cbn [sets]. rewrite nth_replace.
    replace (Nat.ltb i _) with true by (symmetry; apply Nat.ltb_lt; lia). rewrite andb_true_r. reflexivity. }
  assert (D : forall o', dict m2 o' = dict m1 o') by reflexivity.
  split; [constructor|].
  - intro o'. rewrite D. apply W1.
  - intros o' q j X. cbn [sets m2]. rewrite replace_length. eapply W1; eauto.
  - intros o1 o2 p1 p2 j. rewrite !D. apply W1.
  - intro j. rewrite SA. destruct (Nat.eqb j i); [apply set_add_nodup|]; apply W1.
  - split; [exact L1|]. intros o' h' p'. rewrite <- H1. unfold has. split.
    + intros (j & A & B). rewrite D in A. rewrite SA in B. destruct (Nat.eqb_spec j i) as [->|N]; [|eauto].
      apply set_add_in in B as [->|B]; [|eauto]. left. destruct (sane_apart m1 W1 _ _ _ _ _ A I1). auto.
    + intros [(-> & -> & ->)|(j & A & B)].
      * exists i. rewrite D, SA, Nat.eqb_refl, set_add_in. auto.
      * exists j. rewrite D, SA. split; auto. destruct (Nat.eqb_spec j i) as [->|N]; auto. apply set_add_in. auto.
Qed.

Lemma discard_in_spec h d : forall ss, NoDup (map snd d) ->
  (forall p i, In (p, i) d -> (i < List.length ss)%nat) ->
  List.length (discard_in H heq h d ss) = List.length ss
  /\ forall j, nth j (discard_in H heq h d ss) [] =
       if existsb (fun x => Nat.eqb (snd x) j) d then set_discard H heq h (nth j ss []) else nth j ss [].
Proof.
  induction d as [|[p i] d IH]; intros ss N A; cbn [discard_in].
  - split; auto.
  - cbn in N. inversion_clear N as [|? ? N1 N2]. set (ss' := replace _ _ _).
    destruct (IH ss' N2) as (L & E).
    { intros q j X. unfold ss'. rewrite replace_length. eapply A. right; eauto. }
    split; [rewrite L; apply replace_length|]. intro j. rewrite E. cbn [existsb snd].
    assert (R : nth j ss' [] = if Nat.eqb j i then set_discard H heq h (nth i ss []) else nth j ss []).
    { unfold ss'. rewrite nth_replace. replace (Nat.ltb i _) with true
        by (symmetry; apply Nat.ltb_lt; eapply A; left; eauto). now rewrite andb_true_r. }
    rewrite R. destruct (Nat.eqb_spec i j) as [->|Ne]; cbn [orb].
    + rewrite Nat.eqb_refl. destruct (existsb _ d) eqn:X; auto. exfalso. apply N1.
      apply existsb_exists in X as ([q k] & X & Y). apply Nat.eqb_eq in Y. cbn in Y. subst k.
      change j with (snd (q, j)). now apply in_map.
    + destruct (Nat.eqb_spec j i); [congruence|]. reflexivity.
Qed.

Lemma snd_nodup m o : sane m -> NoDup (map snd (dict m o)).
Proof.
  intro W. assert (A := fun p1 p2 i => sane_apart m W o o p1 p2 i). assert (K := sane_keys m W o).
  revert A K. induction (dict m o) as [|[p i] d IH]; cbn; intros A K; constructor.
  - intro X. apply in_map_iff in X as ([q j] & E & X). cbn in E. subst j.
    destruct (A p q i) as [_ ->]; auto. inversion_clear K as [|? ? K1 K2]. apply K1.
    change q with (fst (q, i)). now apply in_map.
  - apply IH; [intros; eapply A; eauto|]. now inversion_clear K.
Qed.

Lemma discard_ok m o h : sane m ->
  sane (p_discard H heq m o h) /\ List.length (objs (p_discard H heq m o h)) = List.length (objs m)
  /\ forall o' h' p', has (p_discard H heq m o h) o' h' p' <-> has m o' h' p' /\ ~ (o' = o /\ h' = h).
Proof.
  intro W. destruct (discard_in_spec h (dict m o) (sets m) (snd_nodup m o W)) as (L & E); [apply W|].
  set (m2 := p_discard H heq m o h).
  assert (SA : forall j, set_at m2 j = if existsb (fun x => Nat.eqb (snd x) j) (dict m o)
                                       then set_discard H heq h (set_at m j) else set_at m j) by (intro j; apply E).
  assert (D : forall o', dict m2 o' = dict m o') by reflexivity.
  split; [constructor|].
  - intro o'. rewrite D. apply W.
  - intros o' q j. rewrite D. cbn [sets m2 p_discard]. unfold m2, p_discard. cbn [sets]. rewrite L. apply W.
  - intros o1 o2 p1 p2 j. rewrite !D. apply W.
  - intro j. rewrite SA. destruct (existsb _ _); [apply set_discard_nodup|]; apply W.
  - split; [reflexivity|]. intros o' h' p'. unfold has. split.
    + intros (j & A & B). rewrite D in A. rewrite SA in B.
      destruct (existsb _ (dict m o)) eqn:X.
      * apply set_discard_in in B as [B N]. split; [eauto|]. tauto.
      * split; [eauto|]. intros [-> ->]. assert (existsb (fun x => Nat.eqb (snd x) j) (dict m o) = true); [|congruence].
        apply existsb_exists. exists (p', j). split; auto. apply Nat.eqb_refl.
    + intros ((j & A & B) & N). exists j. rewrite D, SA. split; auto.
      destruct (existsb _ (dict m o)) eqn:X; auto. apply set_discard_in. split; auto. intros ->. apply N. split; auto.
      apply existsb_exists in X as ([q k] & X & Y). apply Nat.eqb_eq in Y. cbn in Y. subst k.
      destruct (sane_apart m W _ _ _ _ _ A X). auto.
Qed.

Lemma clear_ok m o : sane m ->
  sane (p_clear H m o) /\ List.length (objs (p_clear H m o)) = List.length (objs m)
  /\ forall o' h' p', has (p_clear H m o) o' h' p' <-> has m o' h' p' /\ o' <> o.
Proof.
  intro W. unfold p_clear. set (m2 := {| sets := _; objs := _ |}).
  assert (IN : forall o' x, In x (dict m2 o') <-> In x (dict m o') /\ o' <> o).
  { intros o' x. unfold m2. rewrite dict_replace. destruct (Nat.eqb_spec o' o) as [->|N]; cbn [andb]; [|tauto].
    destruct (Nat.ltb_spec o (List.length (objs m))); [split; [intros []|tauto]|].
    unfold dict. rewrite nth_overflow by lia. split; [intros []|tauto]. }
  split; [constructor|].
  - intro o'. unfold m2. rewrite dict_replace. destruct (_ && _)%bool; [constructor|apply W].
  - intros o' q j X. apply IN in X as [X _]. now apply W in X.
  - intros o1 o2 p1 p2 j X1 X2. apply IN in X1 as [X1 _], X2 as [X2 _]. eapply W; eauto.
  - apply W.
  - split; [apply replace_length|]. intros o' h' p'. unfold has. split.
    + intros (j & A & B). apply IN in A as [A N]. eauto.
    + intros ((j & A & B) & N). exists j. rewrite IN. auto.
Qed.

Lemma new_ok m : sane m -> sane (fst (p_new H m)) /\ List.length (objs (fst (p_new H m))) = S (List.length (objs m))
  /\ snd (p_new H m) = List.length (objs m)
  /\ (forall o' h' p', has (fst (p_new H m)) o' h' p' <-> has m o' h' p')
  /\ (forall h p, ~ has m (List.length (objs m)) h p).
Proof.
  intro W. assert (D : forall o, dict (fst (p_new H m)) o = dict m o) by (intro; apply nth_snoc_nil).
  split; [constructor|].
  - intro o. rewrite D. apply W.
  - intros o p i. rewrite D. apply W.
  - intros o1 o2 p1 p2 j. rewrite !D. apply W.
  - apply W.
  - split; [cbn; rewrite app_length; cbn; lia|]. split; [reflexivity|]. split.
    + intros o' h' p'. unfold has. setoid_rewrite D. reflexivity.
    + intros h p (i & A & _). unfold dict in A. rewrite nth_overflow in A by lia. destruct A.
Qed.

Lemma insert_desc_perm x l : Permutation (insert_desc x l) (x :: l).
Proof.
  induction l as [|y l IH]; cbn; auto. destruct (fst x <? fst y)%Z; auto.
  etransitivity; [apply perm_skip, IH|apply perm_swap].
Qed.
Lemma sorted_desc_perm l : Permutation (sorted_desc l) l.
Proof. induction l as [|x l IH]; cbn; auto. etransitivity; [apply insert_desc_perm|auto]. Qed.

Definition desc (x y : Z * nat) : Prop := (fst y <= fst x)%Z.
Lemma insert_desc_sorted x l : StronglySorted desc l -> StronglySorted desc (insert_desc x l).
Proof.
  intro S. induction S as [|y l S IH F]; cbn.
  - repeat constructor.
  - destruct (fst x <? fst y)%Z eqn:E.
    + constructor; auto. eapply Permutation_Forall; [symmetry; apply insert_desc_perm|].
      constructor; auto. unfold desc. lia.
    + constructor; [constructor; auto|]. constructor; [unfold desc; lia|].
      eapply Forall_impl; [|exact F]. unfold desc. intros; lia.
Qed.
Lemma sorted_desc_sorted l : StronglySorted desc (sorted_desc l).
Proof. induction l; cbn; [constructor|now apply insert_desc_sorted]. Qed.

Lemma iter_in m o h p : In (h, p) (pairs m o) <-> has m o h p.
Proof.
  unfold pairs, p_iter, has. rewrite in_flat_map. split.
  - intros ([q i] & A & B). apply in_map_iff in B as (h' & [= -> <-] & B). exists i. split; auto.
    eapply Permutation_in; [apply sorted_desc_perm|]. exact A.
  - intros (i & A & B). exists (p, i). split.
    + eapply Permutation_in; [symmetry; apply sorted_desc_perm|]. exact A.
    + apply in_map_iff. eauto.
Qed.

Lemma from_ok it : forall m o, sane m -> (o < List.length (objs m))%nat ->
  let m' := fold_left (fun m' x => p_add H heq m' o (fst x) (snd x)) it m in
  sane m' /\ List.length (objs m') = List.length (objs m)
  /\ forall o' h p, has m' o' h p <-> has m o' h p \/ (o' = o /\ In (h, p) it).
Proof.
  induction it as [|[h0 p0] it IH]; intros m o W Ho; cbn [fold_left fst snd].
  - split; auto. split; auto. cbn. tauto.
  - destruct (add_ok m o h0 p0 W Ho) as (W1 & L1 & E1). destruct (IH _ o W1) as (W2 & L2 & E2); [lia|].
    split; auto. split; [lia|]. intros o' h p. rewrite E2, E1. cbn. split.
    + intros [[(-> & -> & ->)|]|(-> & ?)]; auto.
    + intros [|(-> & [[= -> ->]|])]; auto.
Qed.

Lemma copy_ok m o : sane m -> 
  sane (fst (p_copy H heq m o)) /\ List.length (objs (fst (p_copy H heq m o))) = S (List.length (objs m))
  /\ snd (p_copy H heq m o) = List.length (objs m)
  /\ forall o' h p, has (fst (p_copy H heq m o)) o' h p <->
       (o' = List.length (objs m) /\ has m o h p) \/ (o' <> List.length (objs m) /\ has m o' h p).
Proof.
  intro W. destruct (new_ok m W) as (W1 & L1 & N1 & H1 & F1). unfold p_copy, p_from.
  destruct (p_new H m) as [m1 o1] eqn:E. cbn [fst snd] in *. subst o1.
  destruct (from_ok (p_iter H m o) m1 (List.length (objs m)) W1) as (W2 & L2 & E2); [lia|].
  split; auto. split; [lia|]. split; auto. intros o' h p. rewrite E2, H1.
  change (p_iter H m o) with (pairs m o). rewrite iter_in. split.
  - intros [X|[-> X]]; [|auto]. right. split; auto. intros ->. eapply F1; eauto.
  - intros [[-> X]|[_ X]]; auto.
Qed.

Lemma run_ok ops : forall (m : mst) (M : msets H), sane m -> List.length (objs m) = ms_n M ->
  (forall o h p, has m o h p <-> ms_in M o h p) -> ops_ok (ms_n M) ops ->
  let m' := fold_left h_step ops m in let M' := fold_left m_step ops M in
  sane m' /\ List.length (objs m') = ms_n M' /\ forall o h p, has m' o h p <-> ms_in M' o h p.
Proof.
  induction ops as [|x ops IH]; intros m M W L E O; cbn [fold_left]; auto. destruct O as [O1 O2].
  assert (X : sane (h_step m x) /\ List.length (objs (h_step m x)) = ms_n (m_step M x)
              /\ forall o h p, has (h_step m x) o h p <-> ms_in (m_step M x) o h p).
  { destruct x as [|o|o h p|o h|o|o h p]; cbn [target] in O1; cbn [h_step m_step ms_n ms_in].
    - destruct (new_ok m W) as (W1 & L1 & _ & H1 & F1). split; auto. split; [lia|]. intros o h p. rewrite H1, <- E, <- L.
      split; [|tauto]. intro X. split; auto. intros ->. eapply F1; eauto.
    - destruct (copy_ok m o W) as (W1 & L1 & _ & H1). split; auto. split; [lia|]. intros o' h p. rewrite H1, <- !E, <- L. tauto.
    - destruct (add_ok m o h p W) as (W1 & L1 & H1); [lia|]. split; auto. split; [lia|]. intros o' h' p'. now rewrite H1, <- E.
    - destruct (discard_ok m o h W) as (W1 & L1 & H1). split; auto. split; [lia|]. intros o' h' p'. now rewrite H1, <- E.
    - destruct (clear_ok m o W) as (W1 & L1 & H1). split; auto. split; [lia|]. intros o' h' p'. now rewrite H1, <- E.
    - unfold p_contains. destruct (get_set H m o p) as [m1 i] eqn:G.
      destruct (get_set_ok m o p m1 i W) as (W1 & L1 & _ & H1); auto; [lia|]. cbn [fst].
      split; auto. split; [lia|]. intros o' h' p'. now rewrite H1, <- E. }
  destruct X as (W' & L' & E'). apply IH; auto.
  destruct x; cbn [m_step ms_n] in *; auto.
Qed.

Lemma empty_sane : sane {| sets := []; objs := [] |}.
Proof.
  assert (D : forall o, dict (H := H) {| sets := []; objs := [] |} o = []) by (intro o; now destruct o).
  constructor; intros *; rewrite ?D.
  - constructor.
  - intros [].
  - intros [].
  - unfold set_at. cbn. destruct i; constructor.
Qed.

Lemma run_from_empty ops : ops_ok 0 ops ->
  sane (h_run ops) /\ forall o h p, has (h_run ops) o h p <-> ms_in (m_run ops) o h p.
Proof.
  intro O. destruct (run_ok ops {| sets := []; objs := [] |} {| ms_n := 0; ms_in := fun _ _ _ => False |} empty_sane) as (A & _ & B); auto.
  intros o h p. cbn. split; [|tauto]. intros (i & X & _). destruct o; destruct X.
Qed.

Lemma flat_nodup (m : mst) (d : list (Z * nat)) : sane m -> NoDup (map fst d) ->
  NoDup (flat_map (fun x => map (fun h => (h, fst x)) (set_at m (snd x))) d).
Proof.
  intros W. induction d as [|[p i] d IH]; cbn; intro N; [constructor|]. inversion_clear N as [|? ? N1 N2].
  assert (NoDup_app : forall (a b : list (H * Z)), NoDup a -> NoDup b -> (forall x, In x a -> ~ In x b) -> NoDup (a ++ b)).
  { clear. induction a as [|x a IHa]; cbn; auto. intros b A B C. inversion_clear A as [|? ? A1 A2]. constructor.
    - rewrite in_app_iff. intros [|X]; auto. eapply C; eauto.
    - apply IHa; auto. }
  apply NoDup_app; auto.
  - assert (S := sane_nodup m W i). clear - S. induction S; cbn; constructor; auto.
    intro X. apply in_map_iff in X as (y & [= ->] & X). contradiction.
  - intros [h q] X Y. apply in_map_iff in X as (h' & [= -> <-] & X). apply in_flat_map in Y as ([q j] & Y & Z).
    apply in_map_iff in Z as (h' & [= -> <-] & Z). apply N1. change q with (fst (q, j)). now apply in_map.
Qed.

(** C31.  After any sequence of operations on any number of handler sets, copies included, the
    pairs of each are those of the mathematical set; iteration gives each pair once, highest
    priority first; [len] counts them and [in] decides them. *)
Theorem C31_sets ops o : ops_ok 0 ops ->
  (forall h p, In (h, p) (p_iter H (h_run ops) o) <-> ms_in (m_run ops) o h p)
  /\ NoDup (p_iter H (h_run ops) o)
  /\ StronglySorted (fun x y => (snd y <= snd x)%Z) (p_iter H (h_run ops) o)
  /\ p_len H (h_run ops) o = List.length (p_iter H (h_run ops) o)
  /\ (forall h p, (o < ms_n (m_run ops))%nat ->
        snd (p_contains H heq (h_run ops) o h p) = true <-> ms_in (m_run ops) o h p).
Proof.
  intro O. destruct (run_from_empty ops O) as (W & E).
  assert (LN : List.length (objs (h_run ops)) = ms_n (m_run ops)).
  { destruct (run_ok ops {| sets := []; objs := [] |} {| ms_n := 0; ms_in := fun _ _ _ => False |} empty_sane) as (_ & B & _); auto.
    intros o' h p. cbn. split; [|tauto]. intros (i & X & _). destruct o'; destruct X. }
  set (m := h_run ops) in *. split; [|split; [|split; [|split]]].
  - intros h p. rewrite <- E. apply iter_in.
  - unfold p_iter. apply flat_nodup; auto.
    eapply Permutation_NoDup; [apply Permutation_map, Permutation_sym, sorted_desc_perm|]. apply W.
  - unfold p_iter. pose proof (sorted_desc_sorted (dict m o)) as S. induction S as [|[p i] l S IH F]; cbn; [constructor|].
    assert (Happ : forall a b : list (H * Z), StronglySorted (fun x y => (snd y <= snd x)%Z) a ->
       StronglySorted (fun x y => (snd y <= snd x)%Z) b -> (forall x y, In x a -> In y b -> (snd y <= snd x)%Z) ->
       StronglySorted (fun x y => (snd y <= snd x)%Z) (a ++ b)).
    { clear. induction 1 as [|x a A IHa FA]; cbn; auto. intros B C. constructor; auto.
      apply Forall_app. split; auto. apply Forall_forall. intros y Y. apply C; auto. }
    apply Happ; auto.
    + clear. induction (set_at m i); cbn; constructor; auto. apply Forall_forall. intros y Y.
      apply in_map_iff in Y as (z & <- & _). cbn. lia.
    + intros x y X Y. apply in_map_iff in X as (h & <- & _). apply in_flat_map in Y as ([q j] & Y & Z).
      apply in_map_iff in Z as (h' & <- & _). cbn. rewrite Forall_forall in F. apply F in Y. unfold desc in Y. cbn in Y. lia.
  - unfold p_len, p_iter.
    assert (FL : forall (l : list (Z * nat)) a, fold_left (fun a x => (a + List.length (set_at m (snd x)))%nat) l a
               = (a + list_sum (map (fun x => List.length (set_at m (snd x))) l))%nat).
    { induction l as [|x l IH]; intro a; cbn; [lia|]. rewrite IH. unfold list_sum. lia. }
    assert (FM : forall l : list (Z * nat), List.length (flat_map (fun x => map (fun h => (h, fst x)) (set_at m (snd x))) l)
               = list_sum (map (fun x => List.length (set_at m (snd x))) l)).
    { induction l as [|x l IH]; cbn; auto. now rewrite app_length, map_length, IH. }
    rewrite FL, FM. unfold list_sum. cbn. pose proof (sorted_desc_perm (dict m o)) as P. revert P.
    generalize (sorted_desc (dict m o)) as l1. generalize (dict m o) as l2. clear. induction 1; cbn; lia.
  - intros h p Ho. unfold p_contains. destruct (get_set H m o p) as [m1 i] eqn:G. cbn [snd].
    destruct (get_set_ok m o p m1 i W) as (W1 & _ & I1 & H1); auto; [lia|]. rewrite mem_in, <- E, <- H1. split.
    + intro X. exists i. auto.
    + intros (j & A & B). assert (i = j); [|congruence].
      assert (K1 := proj2 (key_find_in _ p i (sane_keys m1 W1 o)) I1).
      assert (K2 := proj2 (key_find_in _ p j (sane_keys m1 W1 o)) A). congruence.
Qed.

(** A copy holds what the original held, and whatever is done to the one leaves the other as it
    was: [later] does not touch [o'] and [o'] keeps its pairs. *)
Theorem C31_copy ops o later o' : ops_ok 0 (ops ++ HCopy o :: later) ->
  (forall x, In x later -> target x <> Some o') -> (o' <= ms_n (m_run ops))%nat ->
  forall h p, In (h, p) (p_iter H (h_run (ops ++ HCopy o :: later)) o') <->
    In (h, p) (p_iter H (h_run ops) (if Nat.eqb o' (ms_n (m_run ops)) then o else o')).
Proof.
  intros O N Ho h p.
  assert (O1 : ops_ok 0 ops).
  { revert O. generalize 0%nat. clear. induction ops as [|x ops IH]; cbn; auto. intros n []; eauto. }
  destruct (C31_sets _ o' O) as (A & _). rewrite A.
  destruct (C31_sets _ (if Nat.eqb o' (ms_n (m_run ops)) then o else o') O1) as (B & _). rewrite B. clear A B.
  unfold m_run. rewrite fold_left_app. cbn [fold_left]. fold (m_run ops). set (M := m_run ops) in *.
  set (M1 := m_step M (HCopy o)).
  assert (K : forall l (M0 : msets H), (o' < ms_n M0)%nat -> (forall x, In x l -> target x <> Some o') ->
            (ms_in (fold_left m_step l M0) o' h p <-> ms_in M0 o' h p)).
  { clear. induction l as [|x l IH]; intros M0 L N; cbn [fold_left]; [tauto|].
    assert (NX := N x (or_introl eq_refl)).
    rewrite IH; [|destruct x; cbn; lia|intros; apply N; now right].
    destruct x as [|a|a h0 p0|a h0|a|a h0 p0]; cbn [m_step ms_in target] in *.
    - split; [tauto|]. intro; split; [lia|auto].
    - split; [intros [[-> ?]|[]]; [lia|auto]|]. intro; right; split; [lia|auto].
    - split; [intros [(-> & _)|]; [congruence|auto]|auto].
    - split; [tauto|]. intro; split; auto. intros [-> _]. congruence.
    - split; [tauto|]. intro; split; [auto|congruence].
    - tauto. }
  rewrite K; auto; [|unfold M1; cbn; lia]. unfold M1. cbn [m_step ms_in]. destruct (Nat.eqb_spec o' (ms_n M)) as [->|Ne]; tauto.
Qed.

(** ** C30: dispatch *)

(** The same memory with the sets iterated in some other order. *)
Definition reordered (m m' : mst) : Prop := objs m' = objs m /\ forall i, Permutation (set_at m i) (set_at m' i).

Section Dispatch.
Variables S R : Type.
(** Handlers claim or not; a claiming handler acts, one that does not leaves everything alone. *)
Variable claims : H -> bool.
Variable act : H -> S -> res (R * S).
Definition hh (h : H) (s : S) : res (option R * S) :=
  if claims h then do (r, s') <- act h s; Ok (Some r, s') else Ok (None, s).

Lemma level_none l f s : (forall h, In h l -> claims h = false) -> try_level H S R hh l f s = Ok (f, s).
Proof.
  induction l as [|h l IH]; intro N; cbn; auto. unfold hh at 1. rewrite N by now left. cbn. destruct f; apply IH; intros; apply N; now right.
Qed.

Lemma level_one l h s : NoDup l -> In h l -> claims h = true -> (forall h', In h' l -> claims h' = true -> h' = h) ->
  try_level H S R hh l None s = do (r, s') <- act h s; Ok (Some r, s').
Proof.
  induction l as [|x l IH]; intros N I C U; [destruct I|]. inversion_clear N as [|? ? N1 N2]. cbn [try_level].
  destruct (claims x) eqn:E.
  - assert (x = h) by (apply U; [now left|auto]). subst x. unfold hh at 1. rewrite C.
    destruct (act h s) as [[r s']|e]; cbn; auto. apply level_none. intros h' I'.
    destruct (claims h') eqn:E'; auto. exfalso. apply N1. rewrite <- (U h'); auto. now right.
  - unfold hh at 1. rewrite E. cbn. apply IH; auto; [destruct I; [congruence|auto]|]. intros; apply U; auto. now right.
Qed.

Lemma level_two l h1 h2 s : In h1 l -> In h2 l -> h1 <> h2 -> claims h1 = true -> claims h2 = true ->
  exists e, try_level H S R hh l None s = Err e.
Proof.
  assert (K : forall l r s, (exists h, In h l /\ claims h = true) -> exists e, try_level H S R hh l (Some r) s = Err e).
  { clear. induction l as [|x l IH]; intros r s (h & I & C); [destruct I|]. cbn [try_level]. unfold hh at 1.
    destruct (claims x) eqn:E.
    - destruct (act x s) as [[r' s']|e]; cbn; eauto.
    - cbn. apply IH. exists h. split; auto. destruct I; [congruence|auto]. }
  revert s. induction l as [|x l IH]; intros s I1 I2 N C1 C2; [destruct I1|]. cbn [try_level]. unfold hh at 1.
  destruct (claims x) eqn:E.
  - destruct (act x s) as [[r s']|e]; cbn; eauto. apply K. destruct I1 as [<-|I1]; [|eauto].
    destruct I2 as [<-|I2]; [congruence|eauto].
  - cbn. apply IH; auto; [destruct I1; [congruence|auto]|destruct I2; [congruence|auto]].
Qed.

Lemma levels_split (m : mst) (o : nat) p i : sane m -> In (p, i) (dict m o) ->
  exists a b, sorted_desc (dict m o) = a ++ (p, i) :: b /\ (forall q j, In (q, j) a -> (p < q)%Z)
    /\ (forall q j, In (q, j) b -> (q < p)%Z).
Proof.
  intros W I. assert (P := sorted_desc_perm (dict m o)).
  assert (I' : In (p, i) (sorted_desc (dict m o))) by (eapply Permutation_in; [symmetry; exact P|exact I]).
  apply in_split in I' as (a & b & E). exists a, b. split; auto.
  pose proof (sorted_desc_sorted (dict m o)) as ST.
  assert (ND : NoDup (map fst (sorted_desc (dict m o)))).
  { eapply Permutation_NoDup; [apply Permutation_map, Permutation_sym, P|apply W]. }
  rewrite E in ST, ND. clear E P I. split.
  - intros q j X. rewrite map_app in ND. cbn in ND. apply NoDup_remove_2 in ND.
    assert (q <> p). { intros ->. apply ND, in_or_app. left. change p with (fst (p, j)). now apply in_map. }
    assert (desc (q, j) (p, i)); [|unfold desc in *; cbn in *; lia].
    clear - ST X. induction a as [|y a IH]; [destruct X|]. cbn in ST. inversion_clear ST as [|? ? S1 F].
    destruct X as [->|X]; auto. rewrite Forall_forall in F. apply F, in_or_app. right. now left.
  - intros q j X. rewrite map_app in ND. cbn in ND. apply NoDup_remove_2 in ND.
    assert (q <> p). { intros ->. apply ND, in_or_app. right. change p with (fst (p, j)). now apply in_map. }
    assert (desc (p, i) (q, j)); [|unfold desc in *; cbn in *; lia].
    clear - ST X. induction a as [|y a IH]; cbn in ST; inversion_clear ST as [|? ? S1 F]; auto.
    rewrite Forall_forall in F. auto.
Qed.

Lemma handle_skip (m : mst) (a : list (Z * nat)) ls s :
  (forall q j h, In (q, j) a -> In h (set_at m j) -> claims h = false) ->
  handle_levels H S R hh (map (fun x => set_at m (snd x)) a ++ ls) s = handle_levels H S R hh ls s.
Proof.
  induction a as [|[q j] a IH]; cbn [map app handle_levels snd]; intro N; auto.
  rewrite level_none; [|intros h X; eapply N; [now left|exact X]]. cbn. apply IH. intros; eapply N; [right|]; eauto.
Qed.

(** The handler used is the one registered claimant of the highest priority.  Nothing else about
    the history matters, in particular not the order of registration nor that of iteration. *)
Theorem C30_handle ops o m s : ops_ok 0 ops -> reordered (h_run ops) m ->
  (forall h p, ms_in (m_run ops) o h p -> claims h = true ->
     (forall h' p', ms_in (m_run ops) o h' p' -> claims h' = true -> (p' < p)%Z \/ (p' = p /\ h' = h)) ->
     p_handle H S R hh m o s = act h s)
  /\ (forall h1 h2 p, ms_in (m_run ops) o h1 p -> ms_in (m_run ops) o h2 p -> h1 <> h2 ->
        claims h1 = true -> claims h2 = true ->
        (forall h' p', ms_in (m_run ops) o h' p' -> claims h' = true -> (p' <= p)%Z) ->
        exists e, p_handle H S R hh m o s = Err e)
  /\ ((forall h p, ms_in (m_run ops) o h p -> claims h = false) -> p_handle H S R hh m o s = Err ERuntime).
Proof.
  intros O [RO RP]. destruct (run_from_empty ops O) as (W & E). set (m0 := h_run ops) in *.
  assert (D : dict m o = dict m0 o) by (unfold dict; now rewrite RO).
  assert (SI : forall i h, In h (set_at m i) <-> In h (set_at m0 i)).
  { intros i h. split; intro X; (eapply Permutation_in; [|exact X]); [apply Permutation_sym|]; apply RP. }
  unfold p_handle. rewrite D. split; [|split].
  - intros h p HI HC U. apply E in HI as (i & A & B). destruct (levels_split m0 o p i W A) as (a & b & EQ & HA & HB).
    rewrite EQ, map_app. rewrite handle_skip.
    + cbn [map handle_levels snd]. rewrite (level_one _ h); auto.
      * destruct (act h s) as [[r s']|e]; reflexivity.
      * eapply Permutation_NoDup; [apply RP|apply W].
      * now apply SI.
      * intros h' X C. apply SI in X. destruct (U h' p) as [Q|[_ ->]]; auto; [|lia]. apply E. exists i. auto.
    + intros q j h' X Y. destruct (claims h') eqn:C; auto. exfalso. assert (Q := HA _ _ X).
      apply SI in Y. destruct (U h' q) as [Q'|[Q' _]]; auto; try lia. apply E. exists j. split; auto.
      eapply Permutation_in; [apply sorted_desc_perm|]. rewrite EQ. apply in_or_app. now left.
  - intros h1 h2 p I1 I2 N C1 C2 U. apply E in I1 as (i & A & B). apply E in I2 as (i2 & A2 & B2).
    assert (i2 = i).
    { assert (K1 := proj2 (key_find_in _ p i (sane_keys m0 W o)) A).
      assert (K2 := proj2 (key_find_in _ p i2 (sane_keys m0 W o)) A2). congruence. } subst i2.
    destruct (levels_split m0 o p i W A) as (a & b & EQ & HA & HB). rewrite EQ, map_app. rewrite handle_skip.
    + cbn [map handle_levels snd]. destruct (level_two (set_at m i) h1 h2 s) as (e & ->); auto; [now apply SI ..|]. exists e. reflexivity.
    + intros q j h' X Y. destruct (claims h') eqn:C; auto. exfalso. assert (Q := HA _ _ X). apply SI in Y.
      assert (q <= p)%Z; [|lia]. apply (U h'); auto. apply E. exists j. split; auto.
      eapply Permutation_in; [apply sorted_desc_perm|]. rewrite EQ. apply in_or_app. now left.
  - intro N. rewrite <- (app_nil_r (map _ _)), handle_skip; [reflexivity|]. intros q j h X Y. apply SI in Y.
    apply (N h q). apply E. exists j. split; auto. eapply Permutation_in; [apply sorted_desc_perm|]. exact X.
Qed.

End Dispatch.

(** Handlers of lower priority are not consulted once one claims: whatever they would do, the
    outcome is the same. *)
Theorem C30_lower_not_consulted ops o (S R : Type) (f g : H -> S -> res (option R * S)) s p : ops_ok 0 ops ->
  (forall h q, ms_in (m_run ops) o h q -> (p <= q)%Z -> forall s', f h s' = g h s') ->
  (exists h, ms_in (m_run ops) o h p /\ forall s', match f h s' with Ok (None, _) => False | _ => True end) ->
  p_handle H S R f (h_run ops) o s = p_handle H S R g (h_run ops) o s.
Proof.
  intros O EQ (h & HI & HC). destruct (run_from_empty ops O) as (W & E). set (m := h_run ops) in *.
  apply E in HI as (i & A & B). destruct (levels_split m o p i W A) as (a & b & SD & HA & HB).
  assert (X : forall j q, In (q, j) (a ++ [(p, i)]) -> forall h', In h' (set_at m j) -> forall s', f h' s' = g h' s').
  { intros j q Y h' Z s'. apply (EQ h' q).
    - apply E. exists j. split; auto. eapply Permutation_in; [apply sorted_desc_perm|]. rewrite SD.
      apply in_app_or in Y as [Y|[Y|[]]]; apply in_or_app; [now left|right; now left].
    - apply in_app_or in Y as [Y|[[= <- <-]|[]]]; [|lia]. apply HA in Y. lia. }
  assert (TL : forall l fd s', (forall h', In h' l -> forall s', f h' s' = g h' s') ->
            try_level H S R f l fd s' = try_level H S R g l fd s').
  { induction l as [|x l IH]; intros fd s' Q; cbn [try_level]; auto. rewrite Q by now left.
    destruct (g x s') as [[[r|] s1]|]; cbn; auto; destruct fd; auto; apply IH; intros; apply Q; now right. }
  assert (TS : forall l fd s' r s1, In h l -> try_level H S R f l fd s' = Ok (r, s1) -> r <> None).
  { assert (TF : forall l x s' r s1, try_level H S R f l (Some x) s' = Ok (r, s1) -> r <> None).
    { clear. induction l as [|y l IH]; cbn; intros x s' r s1 Q; [congruence|].
      destruct (f y s') as [[[r'|] s2]|]; cbn in Q; try discriminate. eauto. }
    induction l as [|y l IH]; intros fd s' r s1 Q; [destruct Q|]. cbn [try_level]. destruct Q as [->|Q].
    - specialize (HC s'). destruct (f h s') as [[[r'|] s2]|]; cbn; try discriminate; [|tauto].
      destruct fd; [discriminate|]. apply TF.
    - destruct (f y s') as [[[r'|] s2]|]; cbn; try discriminate; destruct fd; try discriminate; eauto. }
  unfold p_handle. rewrite SD, map_app. cbn [map snd]. clear SD HA EQ A. revert s X. induction a as [|[q j] a IH]; intros s X.
  - cbn [map app handle_levels]. rewrite TL by (intros; eapply X; [left; reflexivity|auto]).
    destruct (try_level H S R g (set_at m i) None s) as [[[r|] s']|e] eqn:T; cbn; auto.
    exfalso. rewrite <- TL in T by (intros; eapply X; [left; reflexivity|auto]).
    apply TS in T; auto.
  - cbn [map app handle_levels snd]. rewrite TL by (intros; eapply X; [left; reflexivity|auto]).
    destruct (try_level H S R g (set_at m j) None s) as [[[r|] s']|e] eqn:T; cbn; auto.
    apply IH. intros; eapply X; [right; eauto|auto].
Qed.

End Sets.

(** ** Examples *)

(** Handlers 1 to 4; the copy (object 1) is made, then the original loses handler 2 and the
    copy gets handler 4. *)
Definition ex_hops : list (hop nat) :=
  [HNew; HAdd 0 1 0; HAdd 0 2 5; HAdd 0 3 0; HAdd 0 2 5; HCopy 0; HDiscard 0 2; HAdd 1 4 5]%nat%Z.
Example ex_hops_ok : ops_ok 0 ex_hops.
Proof. cbn. lia. Qed.
Example C31_ex : p_iter nat (h_run nat Nat.eqb ex_hops) 0 = [(1%nat, 0%Z); (3%nat, 0%Z)]
  /\ p_iter nat (h_run nat Nat.eqb ex_hops) 1 = [(2%nat, 5%Z); (4%nat, 5%Z); (1%nat, 0%Z); (3%nat, 0%Z)]
  /\ p_len nat (h_run nat Nat.eqb ex_hops) 1 = 4%nat.
Proof. vm_compute. auto. Qed.
Definition ex_act (h : nat) (s : nat) : res (nat * nat) := Ok (h, (s + 1)%nat).
(** Everything above 1 claims: object 1 has two claimants of priority 5, object 0 one. *)
Example C30_ex : p_handle nat nat nat (hh nat nat nat (fun h => Nat.ltb 1 h) ex_act) (h_run nat Nat.eqb ex_hops) 0 7 = Ok (3, 8)%nat
  /\ p_handle nat nat nat (hh nat nat nat (fun h => Nat.ltb 1 h) ex_act) (h_run nat Nat.eqb ex_hops) 1 7 = Err ERuntime
  /\ p_handle nat nat nat (hh nat nat nat (fun h => Nat.eqb 4 h) ex_act) (h_run nat Nat.eqb ex_hops) 1 7 = Ok (4, 8)%nat
  /\ p_handle nat nat nat (hh nat nat nat (fun h => Nat.eqb 4 h) ex_act) (h_run nat Nat.eqb ex_hops) 0 7 = Err ERuntime.
Proof. vm_compute. auto. Qed.

Print Assumptions C30_handle.
Print Assumptions C30_lower_not_consulted.
Print Assumptions C31_sets.
Print Assumptions C31_copy.
