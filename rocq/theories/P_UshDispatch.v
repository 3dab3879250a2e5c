(** C67: which class reads the user subheader of a segment. *)
From Verif Require Import Base BaseLemmas Engine Handles File P_Handles UshDispatch.
From Coq Require Import ZifyBool ZifyNat ZifyN Permutation.
Open Scope list_scope.

(** ** What is to be shown *)

(** What programs do: make handler objects (the n-th made has number n), register classes with them,
    and work on handler sets (object 0 being the default set, say). *)
Inductive uop (C : Type) :=
| UTable (k : kind)
| UUser (sc : option kind) (f : kind * list N -> res (option (option C)))
| URegister (h : nat) (id : list N) (c : C)
| USet (x : hop nat).
Arguments UTable {C}. Arguments UUser {C}. Arguments URegister {C}. Arguments USet {C}.

(** The operations on sets among them, and the makings of objects. *)
Definition set_ops {C} (ops : list (uop C)) : list (hop nat) :=
  flat_map (fun x => match x with USet y => [y] | _ => [] end) ops.
Definition makings {C} (ops : list (uop C)) : list (uop C) :=
  filter (fun x => match x with UTable _ | UUser _ _ => true | _ => false end) ops.

(** The class last registered with table [h] under [id]. *)
Definition registered {C} (ops : list (uop C)) (h : nat) (id : list N) (c : C) : Prop :=
  exists a b, ops = a ++ URegister h id c :: b /\ forall c', ~ In (URegister h id c') b.

(** Classes are registered with tables that have been made. *)
Fixpoint regs_ok {C} (n : nat) (ops : list (uop C)) : Prop :=
  match ops with
  | [] => True
  | (UTable _ | UUser _ _) :: ops' => regs_ok (S n) ops'
  | URegister h _ _ :: ops' => (h < n)%nat /\ regs_ok n ops'
  | USet _ :: ops' => regs_ok n ops'
  end.

(** What handler [h] says about segments of class [k] with [id]: [Ok None] if it declines. *)
Definition says {C} (ops : list (uop C)) (h : nat) (k : kind) (id : list N) (a : res (option (option C))) : Prop :=
  match nth_error (makings ops) h with
  | Some (UTable k') =>
      (k' <> k -> a = Ok None)
      /\ (k' = k -> (exists c, registered ops h id c /\ a = Ok (Some (Some c)))
                    \/ ((forall c, ~ In (URegister h id c) ops) /\ a = Ok (Some None)))
  | Some (UUser (Some k') f) => (k' <> k -> a = Ok None) /\ (k' = k -> a = f (k, id))
  | Some (UUser None f) => a = f (k, id)
  | _ => a = Ok None
  end.

Section Run.
Variable C : Type.
Notation uop := (uop C).

Definition u_step (u : umem C) (x : uop) : umem C :=
  match x with
  | UTable k => u_new C u (HTable k [])
  | UUser sc f => u_new C u (HUser sc f)
  | URegister h id c => u_register C u h id c
  | USet y => {| u_objs := u_objs u; u_sets := h_step nat Nat.eqb (u_sets u) y |}
  end.
Definition u_run (ops : list uop) : umem C :=
  fold_left u_step ops {| u_objs := []; u_sets := {| sets := []; objs := [] |} |}.

(** ** Proofs *)

Lemma heq_ok a b : Nat.eqb a b = true <-> a = b.
Proof. apply Nat.eqb_eq. Qed.
Lemma kind_ok a b : kind_eqb a b = true <-> a = b.
Proof. destruct a, b; split; intro E; reflexivity || discriminate E. Qed.
Lemma kind_no a b : a <> b -> kind_eqb a b = false.
Proof. destruct (kind_eqb a b) eqn:E; auto. apply kind_ok in E. congruence. Qed.

Lemma run_snoc ops x : u_run (ops ++ [x]) = u_step (u_run ops) x.
Proof. unfold u_run. now rewrite fold_left_app. Qed.
Lemma set_ops_app (a b : list uop) : set_ops (a ++ b) = set_ops a ++ set_ops b.
Proof. apply flat_map_app. Qed.
Lemma makings_app (a b : list uop) : makings (a ++ b) = makings a ++ makings b.
Proof. apply filter_app. Qed.

Lemma run_sets ops : u_sets (u_run ops) = h_run nat Nat.eqb (set_ops ops).
Proof.
  induction ops as [|x ops IH] using rev_ind; [reflexivity|]. rewrite run_snoc, set_ops_app.
  destruct x; cbn [u_step set_ops flat_map app]; rewrite ?app_nil_r; try exact IH.
  - unfold u_register. destruct (nth_error _ h) as [[]|]; exact IH.
  - cbn [u_sets]. rewrite IH. unfold h_run. now rewrite fold_left_app.
Qed.

Lemma tab_get_put d id c id' : tab_get C (tab_put C d id c) id' = if list_eqb id id' then Some c else tab_get C d id'.
Proof.
  induction d as [|[i x] d IH]; cbn [tab_put tab_get]; [destruct (list_eqb id id'); reflexivity|].
  destruct (list_eqb i id) eqn:E; cbn [tab_get].
  - apply list_eqb_spec in E. subst i. destruct (list_eqb id id'); reflexivity.
  - rewrite IH. destruct (list_eqb i id') eqn:E1; [|reflexivity]. apply list_eqb_spec in E1. subst i.
    destruct (list_eqb id id') eqn:E2; [|reflexivity]. apply list_eqb_spec in E2. subst id'.
    rewrite (proj2 (list_eqb_spec _ _) eq_refl) in E. discriminate E.
Qed.

Lemma replace_nth_error {A} h (x : A) l i : nth_error (replace h x l) i =
  if (Nat.eqb i h && Nat.ltb h (List.length l))%bool then Some x else nth_error l i.
Proof.
  revert h i. induction l as [|y l IH]; intros [|h] [|i]; cbn; auto.
  - now rewrite andb_false_r.
  - rewrite IH. reflexivity.
Qed.

(** How an object relates to what was done. *)
Definition reflects (ops : list uop) (h : nat) (m : uop) (x : hobj C) : Prop :=
  match m, x with
  | UTable k, HTable k' d => k' = k /\ forall id,
      match tab_get C d id with
      | Some c => registered ops h id c
      | None => forall c, ~ In (URegister h id c) ops
      end
  | UUser sc f, HUser sc' f' => sc' = sc /\ f' = f
  | _, _ => False
  end.

Definition linked (ops : list uop) (u : umem C) : Prop :=
  List.length (u_objs u) = List.length (makings ops)
  /\ forall h m, nth_error (makings ops) h = Some m -> exists x, nth_error (u_objs u) h = Some x /\ reflects ops h m x.

Lemma regs_bound (ops : list uop) : forall n, regs_ok n ops -> forall h id c, In (URegister h id c) ops -> (h < n + List.length (makings ops))%nat.
Proof.
  induction ops as [|x ops IH]; cbn; intros n R h id c I; [destruct I|].
  destruct x; cbn in *; (destruct I as [I|I]; [try discriminate I|]).
  - specialize (IH _ R h id c I). unfold makings in IH. lia.
  - specialize (IH _ R h id c I). unfold makings in IH. lia.
  - injection I as -> -> ->. destruct R. lia.
  - destruct R as [_ R]. exact (IH _ R h id c I).
  - exact (IH _ R h id c I).
Qed.

Lemma regs_ok_app (a b : list uop) n : regs_ok n (a ++ b) -> regs_ok n a /\ regs_ok (n + List.length (makings a)) b.
Proof.
  revert n. induction a as [|x a IH]; cbn; intros n R; [rewrite Nat.add_0_r; auto|].
  destruct x; cbn in *.
  - apply IH in R as [R1 R2]. split; auto. unfold makings in *. now rewrite Nat.add_succ_r.
  - apply IH in R as [R1 R2]. split; auto. unfold makings in *. now rewrite Nat.add_succ_r.
  - destruct R as [R0 R]. apply IH in R as [R1 R2]. auto.
  - apply IH in R as [R1 R2]. auto.
Qed.

Lemma registered_other (ops : list uop) h id c x : (forall c', x <> URegister h id c') -> registered ops h id c -> registered (ops ++ [x]) h id c.
Proof.
  intros N (a & b & -> & L). exists a, (b ++ [x]). split; [now rewrite <- app_assoc|].
  intros c' I. apply in_app_or in I as [I|[I|[]]]; [now apply (L c')|now apply (N c')].
Qed.
Lemma registered_now (ops : list uop) h id c : registered (ops ++ [URegister h id c]) h id c.
Proof. exists ops, []. split; auto. Qed.

Lemma reflects_other ops h m x y : (forall id c, y <> URegister h id c) -> reflects ops h m x -> reflects (ops ++ [y]) h m x.
Proof.
  intros N. destruct m, x; cbn; auto. intros [E T]. split; auto. intro id. specialize (T id).
  destruct (tab_get C d id); [apply registered_other; auto|].
  intros c I. apply in_app_or in I as [I|[I|[]]]; [now apply (T c)|now apply (N id c)].
Qed.

Lemma run_linked ops : regs_ok 0 ops -> linked ops (u_run ops).
Proof.
  induction ops as [|x ops IH] using rev_ind; intro R.
  { split; [reflexivity|]. intros [|h] m E; discriminate E. }
  apply regs_ok_app in R as [R1 R2]. specialize (IH R1). destruct IH as [L K]. rewrite run_snoc. cbn [Nat.add] in R2.
  assert (NEW : forall y, (x = y) -> makings [y] = [y] -> (forall h id c, y <> URegister h id c) ->
    forall z, u_objs (u_step (u_run ops) x) = u_objs (u_run ops) ++ [z] -> reflects (ops ++ [x]) (List.length (makings ops)) y z ->
    linked (ops ++ [x]) (u_step (u_run ops) x)).
  { intros y -> M N z E RZ. split.
    - rewrite E, makings_app, M, !app_length, L. reflexivity.
    - intros h m. rewrite makings_app, M. intro H. rewrite E.
      destruct (Nat.ltb h (List.length (makings ops))) eqn:EL.
      + apply Nat.ltb_lt in EL. rewrite nth_error_app1 in H by exact EL. destruct (K h m H) as (w & W & RW).
        exists w. split; [rewrite nth_error_app1 by lia; exact W|]. apply reflects_other; auto.
      + apply Nat.ltb_ge in EL. rewrite nth_error_app2 in H by exact EL.
        destruct (h - List.length (makings ops))%nat as [|i] eqn:ED; [|destruct i; discriminate H].
        assert (h = List.length (makings ops)) by lia. subst h. cbn in H. injection H as <-.
        exists z. split; [|exact RZ]. rewrite nth_error_app2 by lia. now rewrite L, ED. }
  destruct x as [k|sc f|h id c|y].
  - apply (NEW (UTable k)) with (z := HTable k []); try reflexivity; [discriminate|]. cbn. split; auto.
    intros id c I. apply in_app_or in I as [I|[I|[]]]; [|discriminate I].
    pose proof (regs_bound ops 0 R1 _ _ _ I). lia.
  - apply (NEW (UUser sc f)) with (z := HUser sc f); try reflexivity; [discriminate|]. cbn. auto.
  - destruct R2 as [R2 _]. split.
    + rewrite makings_app. cbn. rewrite app_nil_r, <- L. unfold u_register. destruct (nth_error _ h) as [[]|]; cbn [u_objs]; auto.
      apply replace_length.
    + intros h' m H. rewrite makings_app in H. cbn in H. rewrite app_nil_r in H. destruct (K h' m H) as (w & W & RW).
      cbn [u_step]. unfold u_register. destruct (nth_error (u_objs (u_run ops)) h) as [[k d|sc f]|] eqn:EH.
      * cbn [u_objs]. rewrite replace_nth_error. destruct (Nat.eqb h' h) eqn:E; cbn [andb].
        -- apply Nat.eqb_eq in E. subst h'. rewrite (proj2 (Nat.ltb_lt _ _)) by lia. eexists. split; [reflexivity|].
           rewrite EH in W. injection W as <-. destruct m as [k'| | |]; cbn in RW |- *; auto. destruct RW as [-> T]. split; auto.
           intro id'. rewrite tab_get_put. destruct (list_eqb id id') eqn:EI.
           ++ apply list_eqb_spec in EI. subst id'. apply registered_now.
           ++ assert (NE : forall c', URegister h id c <> URegister h id' c').
              { intros c' X. injection X as X _. subst id'. rewrite (proj2 (list_eqb_spec _ _) eq_refl) in EI. discriminate EI. }
              specialize (T id'). destruct (tab_get C d id'); [apply registered_other; auto|].
              intros c' I. apply in_app_or in I as [I|[I|[]]]; [now apply (T c')|now apply (NE c')].
        -- exists w. split; auto. apply reflects_other; auto. intros id' c' X. injection X as X _ _. subst. rewrite Nat.eqb_refl in E. discriminate E.
      * exists w. split; auto. destruct (Nat.eq_dec h' h) as [->|N].
        -- rewrite EH in W. injection W as <-. destruct m; cbn in *; auto.
        -- apply reflects_other; auto. intros id' c' X. injection X as X _ _. congruence.
      * exists w. split; auto. destruct (Nat.eq_dec h' h) as [->|N]; [congruence|].
        apply reflects_other; auto. intros id' c' X. injection X as X _ _. congruence.
  - split.
    + rewrite makings_app. cbn. rewrite app_nil_r. exact L.
    + intros h m H. rewrite makings_app in H. cbn in H. rewrite app_nil_r in H. destruct (K h m H) as (w & W & RW).
      exists w. split; auto. apply reflects_other; auto. discriminate.
Qed.

Definition answer (u : umem C) (sv : kind * list N) (h : nat) : res (option (option C)) :=
  do (r, _) <- u_handle_h C u sv h tt; Ok r.

Lemma registered_unique (ops : list uop) h id c c' : registered ops h id c -> registered ops h id c' -> c = c'.
Proof.
  intros (a & b & E & L) (a' & b' & E' & L'). rewrite E in E'. clear E ops.
  revert a' E'. induction a as [|x a IH]; intros [|x' a'] E; cbn in E.
  - now injection E.
  - injection E as _ E. exfalso. apply (L c'). rewrite E. apply in_or_app. right. now left.
  - injection E as _ E. exfalso. apply (L' c). rewrite <- E. apply in_or_app. right. now left.
  - injection E as _ E. eauto.
Qed.

Lemma registered_in (ops : list uop) h id c : registered ops h id c -> In (URegister h id c) ops.
Proof. intros (a & b & -> & _). apply in_or_app. right. now left. Qed.

Lemma answer_says ops h k id a : regs_ok 0 ops -> says ops h k id a <-> answer (u_run ops) (k, id) h = a.
Proof.
  intro R. destruct (run_linked ops R) as [L K]. unfold says, answer, u_handle_h.
  destruct (nth_error (makings ops) h) as [m|] eqn:EM.
  - destruct (K h m EM) as (x & EX & RX). rewrite EX. destruct m as [k0|sc f| |], x as [k1 d|sc1 f1]; cbn in RX; try tauto.
    + destruct RX as [-> T]. cbn [fst snd bind]. destruct (kind_eqb k0 k) eqn:E.
      * apply kind_ok in E. subst k0. specialize (T id). split.
        -- intros [_ S0]. destruct (S0 eq_refl) as [(c & G & ->)|(G & ->)]; destruct (tab_get C d id) as [c0|] eqn:ET; auto.
           ++ now rewrite (registered_unique _ _ _ _ _ G T).
           ++ exfalso. apply (T c). now apply registered_in.
           ++ exfalso. apply (G c0). now apply registered_in.
        -- intros <-. split; [congruence|]. intros _. destruct (tab_get C d id) as [c0|]; eauto.
      * assert (k0 <> k) by (intros ->; rewrite (proj2 (kind_ok k k) eq_refl) in E; discriminate E).
        split; [intros [S0 _]; rewrite S0; auto|]. intros <-. split; auto. congruence.
    + destruct RX as [-> ->]. cbn [fst]. destruct sc as [k0|].
      * destruct (kind_eqb k0 k) eqn:E.
        -- apply kind_ok in E. subst k0. replace (do (r, _) <- (do r <- f (k, id); Ok (r, tt)); Ok r) with (f (k, id)) by (now destruct (f (k, id))).
           split; [intros [_ S0]; now rewrite S0|]. intros <-. split; [congruence|auto].
        -- assert (k0 <> k) by (intros ->; rewrite (proj2 (kind_ok k k) eq_refl) in E; discriminate E).
           split; [intros [S0 _]; rewrite S0; auto|]. intros <-. split; auto. congruence.
      * replace (do (r, _) <- (do r <- f (k, id); Ok (r, tt)); Ok r) with (f (k, id)) by (now destruct (f (k, id))). split; auto.
  - apply nth_error_None in EM. rewrite (proj2 (nth_error_None _ _)) by lia. cbn. split; auto.
Qed.

(** *** Dispatch *)

Section Disp.
Variable R : Type.
Variable a : nat -> res (option R).
Variable g : nat -> unit -> res (option R * unit).
Hypothesis ga : forall h s, g h s = do x <- a h; Ok (x, tt).

Lemma try_found l r s : try_level nat unit R g l (Some r) s = Ok (Some r, tt) \/ try_level nat unit R g l (Some r) s = Ok (Some r, s) \/ exists e, try_level nat unit R g l (Some r) s = Err e.
Proof.
  destruct s. revert r. induction l as [|h l IH]; intro r; cbn; auto. rewrite ga.
  destruct (a h) as [[x|]|e]; cbn; eauto.
Qed.
Lemma try_found_none l r r' : try_level nat unit R g l (Some r) tt = Ok (r', tt) -> r' = Some r /\ forall h, In h l -> a h = Ok None.
Proof.
  induction l as [|h l IH]; cbn; intro E; [injection E as <-; split; [auto|intros ? []]|]. rewrite ga in E.
  destruct (a h) as [[x|]|e] eqn:EA; cbn in E; try discriminate E. apply IH in E as [-> N]. split; auto. intros h' [<-|I]; auto.
Qed.
Lemma try_ok l r' : try_level nat unit R g l None tt = Ok (r', tt) ->
  match r' with
  | None => forall h, In h l -> a h = Ok None
  | Some r => exists h, In h l /\ a h = Ok (Some r) /\ forall h', In h' l -> h' <> h -> a h' = Ok None
  end.
Proof.
  induction l as [|h l IH]; cbn; intro E; [injection E as <-; intros ? []|]. rewrite ga in E.
  destruct (a h) as [[x|]|e] eqn:EA; cbn in E; try discriminate E.
  - apply try_found_none in E as [-> N]. exists h. split; [now left|]. split; auto. intros h' [<-|I] D; [congruence|auto].
  - specialize (IH E). destruct r' as [r|].
    + destruct IH as (h' & I & A & N). exists h'. split; [now right|]. split; auto. intros h2 [<-|I2] D; auto.
    + intros h' [<-|I]; auto.
Qed.

Lemma try_one l h r : NoDup l -> In h l -> a h = Ok (Some r) -> (forall h', In h' l -> h' <> h -> a h' = Ok None) ->
  try_level nat unit R g l None tt = Ok (Some r, tt).
Proof.
  intros ND I A N. assert (LN : forall l r, (forall h', In h' l -> a h' = Ok None) -> try_level nat unit R g l r tt = Ok (r, tt)).
  { clear - ga. induction l as [|x l IH]; intros r N; cbn; auto. rewrite ga, N by now left. cbn. destruct r; apply IH; intros; apply N; now right. }
  induction l as [|x l IH]; [destruct I|]. inversion_clear ND as [|? ? N1 N2]. cbn. rewrite ga. destruct (Nat.eq_dec x h) as [->|D].
  - rewrite A. cbn. apply LN. intros h' I'. apply N; [now right|]. intros ->. contradiction.
  - rewrite (N x); [|now left|auto]. cbn. apply IH; auto; [destruct I; [congruence|auto]|]. intros; apply N; auto. now right.
Qed.

Lemma try_none l : (forall h, In h l -> a h = Ok None) -> try_level nat unit R g l None tt = Ok (None, tt).
Proof.
  induction l as [|x l IH]; intros N; cbn; auto. rewrite ga, N by now left. cbn. apply IH. intros; apply N; now right.
Qed.

Lemma handle_iff ops o m r : ops_ok 0 ops -> reordered nat (h_run nat Nat.eqb ops) m ->
  p_handle nat unit R g m o tt = Ok (r, tt) <->
  exists h p, ms_in (m_run ops) o h p /\ a h = Ok (Some r)
    /\ forall h' p', ms_in (m_run ops) o h' p' -> a h' = Ok None \/ (p' < p)%Z \/ (h' = h /\ p' = p).
Proof.
  intros O [RO RP]. destruct (run_from_empty nat Nat.eqb heq_ok ops O) as (W & E). set (m0 := h_run nat Nat.eqb ops) in *.
  assert (D : dict m o = dict m0 o) by (unfold dict; now rewrite RO).
  assert (SI : forall i h, In h (set_at m i) <-> In h (set_at m0 i)).
  { intros i h. split; apply Permutation_in; [symmetry|]; apply RP. }
  assert (ND : forall i, NoDup (set_at m i)).
  { intro i. eapply Permutation_NoDup; [apply RP|]. apply W. }
  unfold p_handle. rewrite D. split.
  - intro H.
    assert (Q : forall ls : list (Z * nat), handle_levels nat unit R g (map (fun x => set_at m (snd x)) ls) tt = Ok (r, tt) ->
      exists l1 p i l2 h, ls = l1 ++ (p, i) :: l2 /\ In h (set_at m i) /\ a h = Ok (Some r)
        /\ (forall h', In h' (set_at m i) -> h' <> h -> a h' = Ok None)
        /\ (forall q j h', In (q, j) l1 -> In h' (set_at m j) -> a h' = Ok None)).
    { clear H. induction ls as [|[p i] ls IH]; cbn [map handle_levels snd]; intro H; [discriminate H|].
      apply bind_ok_elim in H as ([f []] & T & H). apply try_ok in T. destruct f as [r'|].
      - assert (r' = r) by congruence. subst r'. destruct T as (h & I & A & N). exists [], p, i, ls, h. split; [reflexivity|]. repeat (split; auto).
        intros ? ? ? [].
      - destruct (IH H) as (l1 & p1 & i1 & l2 & h & -> & I & A & N1 & N2). exists ((p, i) :: l1), p1, i1, l2, h.
        split; [reflexivity|]. repeat (split; auto). intros q j h' [X|X] I'; [injection X as -> ->; auto|eauto]. }
    apply Q in H as (l1 & p & i & l2 & h & S0 & I & A & N1 & N2).
    assert (IN : In (p, i) (dict m0 o)).
    { eapply Permutation_in; [apply sorted_desc_perm|]. rewrite S0. apply in_or_app. right. now left. }
    destruct (levels_split nat m0 o p i W IN) as (a1 & b1 & S1 & HA & HB).
    exists h, p. split; [apply E; exists i; split; auto; now apply SI|]. split; auto.
    intros h' p' H'. apply E in H' as (j & J1 & J2).
    assert (J3 : In (p', j) (sorted_desc (dict m0 o))) by (eapply Permutation_in; [symmetry; apply sorted_desc_perm|exact J1]).
    rewrite S0 in J3. apply in_app_or in J3 as [J3|[J3|J3]].
    + left. eapply N2; [exact J3|now apply SI].
    + injection J3 as <- <-. destruct (Nat.eq_dec h' h) as [->|ND']; [auto|]. left. apply N1; auto. now apply SI.
    + right. left. assert (T : l1 = a1 /\ l2 = b1).
      { rewrite S0 in S1. assert (NK : NoDup (map fst (l1 ++ (p, i) :: l2))).
        { rewrite <- S0. eapply Permutation_NoDup; [apply Permutation_map, Permutation_sym, sorted_desc_perm|apply W]. }
        clear - S1 NK. revert a1 S1. induction l1 as [|x l1 IH]; intros [|y a1] S1; cbn in S1.
        - injection S1 as <-. auto.
        - injection S1 as <- S1. exfalso. cbn in NK. inversion_clear NK as [|? ? N1 _]. apply N1.
          rewrite S1, map_app. apply in_or_app. right. now left.
        - injection S1 as -> S1. exfalso. cbn in NK. inversion_clear NK as [|? ? N1 _]. apply N1.
          rewrite map_app. apply in_or_app. right. now left.
        - injection S1 as <- S1. inversion_clear NK as [|? ? _ NK']. destruct (IH NK' a1 S1) as [-> ->]. auto. }
      destruct T as [-> ->]. eapply HB. exact J3.
  - intros (h & p & HI & A & N). apply E in HI as (i & I1 & I2).
    destruct (levels_split nat m0 o p i W I1) as (a1 & b1 & S1 & HA & HB). rewrite S1, map_app.
    assert (SK : forall (l : list (Z * nat)) ls, (forall q j h', In (q, j) l -> In h' (set_at m j) -> a h' = Ok None) ->
      handle_levels nat unit R g (map (fun x => set_at m (snd x)) l ++ ls) tt = handle_levels nat unit R g ls tt).
    { clear - ga. induction l as [|[q j] l IH]; intros ls N; cbn [map app handle_levels snd]; auto.
      rewrite try_none by (intros; eapply N; [now left|auto]). cbn. apply IH. intros; eapply N; [right|]; eauto. }
    rewrite SK.
    + cbn [map handle_levels snd]. rewrite (try_one _ h r); auto.
      * now apply SI.
      * intros h' I' D'. destruct (N h' p) as [X|[X|[X _]]]; [apply E; exists i; split; auto; now apply SI|auto|lia|congruence].
    + intros q j h' X Y. destruct (N h' q) as [Z|[Z|[_ Z]]]; auto.
      * apply E. exists j. split; [|now apply SI]. eapply Permutation_in; [apply sorted_desc_perm|]. rewrite S1. apply in_or_app. now left.
      * apply HA in X. lia.
      * apply HA in X. lia.
Qed.
End Disp.

(** ** C67 *)

(** After any program, and in whatever order the handlers of one priority are asked: the class
    for a DES or RES is [r] (None: no class) exactly if one handler of the set says so, and all others
    of the same or a higher priority decline.  What a table says is what was registered last, no
    matter whether before or after the set was made or copied. *)
Theorem C67_answer ops o m k id r : ops_ok 0 (set_ops ops) -> regs_ok 0 ops -> k = KDes \/ k = KRes ->
  reordered nat (u_sets (u_run ops)) m ->
  u_cls C {| u_objs := u_objs (u_run ops); u_sets := m |} o (k, id) = Ok r <->
  exists h p, ms_in (m_run (set_ops ops)) o h p /\ says ops h k id (Ok (Some r))
    /\ forall h' p', ms_in (m_run (set_ops ops)) o h' p' ->
         says ops h' k id (Ok None) \/ (p' < p)%Z \/ (h' = h /\ p' = p).
Proof.
  intros O R HK RO. rewrite run_sets in RO. set (u := {| u_objs := u_objs (u_run ops); u_sets := m |}).
  set (a := answer (u_run ops) (k, id)).
  assert (ga : forall h s, u_handle_h C u (k, id) h s = do x <- a h; Ok (x, tt)).
  { intros h []. unfold a, answer, u_handle_h. cbn [u u_objs]. destruct (nth_error _ h) as [[k0 d|sc f]|]; cbn; auto.
    destruct (match sc with Some k0 => kind_eqb k0 k | None => true end); cbn; auto. destruct (f (k, id)); reflexivity. }
  pose proof (handle_iff (option C) a (u_handle_h C u (k, id)) ga (set_ops ops) o m r O RO) as HI.
  assert (EC : u_cls C u o (k, id) = Ok r <-> p_handle nat unit (option C) (u_handle_h C u (k, id)) m o tt = Ok (r, tt)).
  { unfold u_cls. cbn [fst u_sets u]. fold u.
    destruct HK as [->| ->]; destruct (p_handle nat unit (option C) (u_handle_h C u _) m o tt) as [[r0 []]|e]; cbn [bind];
    (split; [intro X; injection X as ->; reflexivity|intro X; injection X as ->; reflexivity]) || (split; intro X; discriminate X). }
  rewrite EC, HI. unfold a. split; intros (h & p & I & A & N); exists h, p; (split; [exact I|]); (split; [now apply answer_says|]);
    intros h' p' I'; destruct (N h' p' I') as [X|[X|X]]; auto; left; now apply answer_says.
Qed.

(** Images, graphics and texts never have one, and nobody is asked. *)
Theorem C67_others u o k id : k <> KDes -> k <> KRes -> u_cls C u o (k, id) = Ok None.
Proof. intros D R. destruct k; (reflexivity || now elim D) || now elim R. Qed.

(** What is done to other sets, such as adding default handles once a file has been made, changes
    nothing; a class registered later with a handle it shares does. *)
Theorem C67_apart ops later o m1 m2 k id r :
  ops_ok 0 (set_ops ops ++ later) -> regs_ok 0 ops -> (o < ms_n (m_run (set_ops ops)))%nat ->
  (forall x, In x later -> target x <> Some o \/ exists c, x = HCopy c) ->
  reordered nat (u_sets (u_run ops)) m1 -> reordered nat (u_sets (u_run (ops ++ map USet later))) m2 ->
  (u_cls C {| u_objs := u_objs (u_run ops); u_sets := m1 |} o (k, id) = Ok r
   <-> u_cls C {| u_objs := u_objs (u_run (ops ++ map USet later)); u_sets := m2 |} o (k, id) = Ok r).
Proof.
  intros O R HO HL R1 R2.
  assert (SO : set_ops (ops ++ map (@USet C) later) = set_ops ops ++ later).
  { rewrite set_ops_app. f_equal. clear. induction later as [|x l IH]; [reflexivity|]. cbn. f_equal. exact IH. }
  assert (ML : makings (map (@USet C) later) = []) by (clear; induction later; cbn; auto).
  assert (MO : makings (ops ++ map (@USet C) later) = makings ops) by now rewrite makings_app, ML, app_nil_r.
  destruct (kind_eqb k KDes || kind_eqb k KRes)%bool eqn:EK.
  2:{ apply orb_false_iff in EK as [E1 E2]. rewrite !C67_others; [reflexivity|..]; intros ->; discriminate. }
  assert (HK : k = KDes \/ k = KRes) by (destruct k; auto; discriminate EK).
  assert (O1 : ops_ok 0 (set_ops ops)).
  { clear - O. revert O. generalize 0%nat. induction (set_ops ops) as [|x l IH]; cbn; auto. intros n []; eauto. }
  assert (RR : regs_ok 0 (ops ++ map (@USet C) later)).
  { clear - R. revert R. generalize 0%nat. induction ops as [|x ops IH]; cbn; intros n R.
    - clear. induction later; cbn; auto.
    - destruct x; cbn in *; auto. destruct R; auto. }
  rewrite (C67_answer ops), (C67_answer (ops ++ map (@USet C) later)); auto; [|now rewrite SO].
  assert (MS : forall h p, ms_in (m_run (set_ops (ops ++ map (@USet C) later))) o h p <-> ms_in (m_run (set_ops ops)) o h p).
  { rewrite SO. unfold m_run at 1. rewrite fold_left_app. fold (m_run (set_ops ops)). generalize (m_run (set_ops ops)) HO. clear - HL.
    induction later as [|x l IH]; intros M HO h p; [reflexivity|]. cbn [fold_left].
    rewrite IH; [|intros; apply HL; now right|destruct x; cbn; lia].
    assert (HX := HL x (or_introl eq_refl)).
    destruct x as [|c|c h' p'|c h'|c|c h' p']; cbn.
    - split; [tauto|]. intro. split; [lia|auto].
    - split; [intros [[? _]|[_ ?]]; [lia|auto]|]. intro. right. split; [lia|auto].
    - destruct HX as [HX|[? HX]]; [|discriminate HX]. cbn in HX. split; [intros [[? _]|?]; [congruence|auto]|auto].
    - destruct HX as [HX|[? HX]]; [|discriminate HX]. cbn in HX. split; [tauto|]. intro. split; [auto|]. intros [? _]. congruence.
    - destruct HX as [HX|[? HX]]; [|discriminate HX]. cbn in HX. split; [tauto|]. intro. split; [auto|congruence].
    - reflexivity. }
  assert (SS : forall h a, says (ops ++ map (@USet C) later) h k id a <-> says ops h k id a).
  { intros h a. rewrite !answer_says by auto. replace (answer (u_run (ops ++ map (@USet C) later)) (k, id) h) with (answer (u_run ops) (k, id) h); [reflexivity|].
    unfold answer, u_handle_h. replace (u_objs (u_run (ops ++ map (@USet C) later))) with (u_objs (u_run ops)); auto.
    unfold u_run. rewrite fold_left_app. generalize (fold_left u_step ops {| u_objs := []; u_sets := {| sets := []; objs := [] |} |}). clear.
    induction later as [|x l IH]; intro u; cbn [map fold_left]; auto. now rewrite <- IH. }
  split; intros (h & p & I & A & N); exists h, p; (split; [now apply MS|]); (split; [now apply SS|]);
    intros h' p' I'; (destruct (N h' p') as [X|[X|X]]; [now apply MS|left; now apply SS|auto|auto]).
Qed.

(** Two tables for the same class of segments in a set at the same priority: nothing of that class can be read or
    written, registered or not, unless a handler of higher priority takes it. *)
Theorem C67_clash ops o m k id h1 h2 p : ops_ok 0 (set_ops ops) -> regs_ok 0 ops -> k = KDes \/ k = KRes ->
  reordered nat (u_sets (u_run ops)) m ->
  nth_error (makings ops) h1 = Some (UTable k) -> nth_error (makings ops) h2 = Some (UTable k) -> h1 <> h2 ->
  ms_in (m_run (set_ops ops)) o h1 p -> ms_in (m_run (set_ops ops)) o h2 p ->
  (forall h' p', ms_in (m_run (set_ops ops)) o h' p' -> (p < p')%Z -> says ops h' k id (Ok None)) ->
  exists e, u_cls C {| u_objs := u_objs (u_run ops); u_sets := m |} o (k, id) = Err e.
Proof.
  intros O R HK RO T1 T2 NE I1 I2 N.
  destruct (u_cls C {| u_objs := u_objs (u_run ops); u_sets := m |} o (k, id)) as [r|e] eqn:E; [|eauto].
  apply C67_answer in E as (h & q & I & A & X); auto. exfalso.
  assert (TN : forall h0, nth_error (makings ops) h0 = Some (UTable k) -> ~ says ops h0 k id (Ok None)).
  { intros h0 T S0. unfold says in S0. rewrite T in S0. destruct S0 as [_ S0]. destruct (S0 eq_refl) as [(c & _ & Y)|(_ & Y)]; discriminate Y. }
  destruct (Z_lt_le_dec p q) as [L|L].
  - specialize (N h q I L). apply answer_says in N; auto. apply answer_says in A; auto. congruence.
  - destruct (X h1 p I1) as [Y|[Y|[Y1 Y2]]]; [now apply (TN h1)|lia|].
    destruct (X h2 p I2) as [Z|[Z|[Z1 Z2]]]; [now apply (TN h2)|lia|congruence].
Qed.

End Run.

(** ** The sets as shipped, and the tables of File.v *)

(** The module: two tables, both default handles of priority 0 (nitf_segment_user_subheader_handle.py:50-54);
    then classes are registered, a file is made, and more classes are registered. *)
Definition boot {C} : list (uop C) :=
  [UTable KDes; UTable KRes; USet HNew; USet (HAdd 0 0 0); USet (HAdd 0 1 0)]%nat%Z.
Definition reg {C} (x : nat * list N * C) : uop C := URegister (fst (fst x)) (snd (fst x)) (snd x).
Definition as_shipped {C} (before after : list (nat * list N * C)) : list (uop C) :=
  boot ++ map reg before ++ [USet (HCopy 0)] ++ map reg after.
(** Of the registrations with one handle, the last first. *)
Definition table_of {C} (regs : list (nat * list N * C)) (h : nat) : list (list N * C) :=
  rev (flat_map (fun x => if Nat.eqb (fst (fst x)) h then [(snd (fst x), snd x)] else []) regs).

Lemma set_ops_regs {C} (l : list (nat * list N * C)) : set_ops (map reg l) = [].
Proof. induction l; cbn; auto. Qed.
Lemma makings_regs {C} (l : list (nat * list N * C)) : makings (map reg l) = [].
Proof. induction l; cbn; auto. Qed.

Lemma shipped_sets {C} (a b : list (nat * list N * C)) :
  set_ops (as_shipped a b) = [HNew; HAdd 0 0 0; HAdd 0 1 0; HCopy 0]%nat%Z.
Proof. unfold as_shipped. rewrite !set_ops_app, !set_ops_regs. reflexivity. Qed.
Lemma shipped_made {C} (a b : list (nat * list N * C)) : makings (as_shipped a b) = [UTable KDes; UTable KRes].
Proof. unfold as_shipped. rewrite !makings_app, !makings_regs. reflexivity. Qed.

Lemma regs_ok_shipped {C} (a b : list (nat * list N * C)) :
  (forall x, In x (a ++ b) -> (fst (fst x) < 2)%nat) -> regs_ok 0 (as_shipped a b).
Proof.
  intro H. unfold as_shipped, boot. cbn [app regs_ok].
  assert (K : forall l t, (forall x, In x l -> (fst (fst x) < 2)%nat) -> @regs_ok C 2 t -> regs_ok 2 (map reg l ++ t)).
  { clear. induction l as [|x l IH]; cbn; intros t N T; auto. }
  apply K; [intros; apply H, in_or_app; now left|]. cbn [app regs_ok]. rewrite <- (app_nil_r (map reg b)).
  apply K; [intros; apply H, in_or_app; now right|exact I].
Qed.

Lemma in_shipped {C} (a b : list (nat * list N * C)) h id c :
  In (URegister h id c) (as_shipped a b) <-> In (h, id, c) (a ++ b).
Proof.
  assert (K : forall l : list (nat * list N * C), In (URegister h id c) (map reg l) <-> In (h, id, c) l).
  { intro l. rewrite in_map_iff. split.
    - intros ([[h' id'] c'] & E & I). unfold reg in E. cbn in E. congruence.
    - intro I. exists (h, id, c). auto. }
  unfold as_shipped, boot. rewrite !in_app_iff, !K. cbn. intuition discriminate.
Qed.

Lemma registered_find {C} (a b : list (nat * list N * C)) h id :
  match find (fun p => list_eqb (fst p) id) (table_of (a ++ b) h) with
  | Some p => registered (as_shipped a b) h id (snd p)
  | None => forall c, ~ In (URegister h id c) (as_shipped a b)
  end.
Proof.
  assert (K : forall (pre : list (uop C)) l, (forall c, ~ In (URegister h id c) pre) ->
    match find (fun p => list_eqb (fst p) id) (table_of l h) with
    | Some p => registered (pre ++ map reg l) h id (snd p)
    | None => forall c, ~ In (URegister h id c) (pre ++ map reg l)
    end).
  { intros pre l HP. induction l as [|[[h' id'] c'] l IH] using rev_ind.
    - cbn. now rewrite app_nil_r.
    - unfold table_of in *. rewrite flat_map_app, rev_app_distr, map_app, app_assoc. cbn [flat_map fst snd app].
      assert (O1 : (h' = h -> id' <> id) -> forall c, URegister h' id' c' <> URegister h id c) by (intros N c X; injection X as -> -> _; now apply N).
      assert (ST : (h' = h -> id' <> id) ->
        match find (fun p => list_eqb (fst p) id) (rev (flat_map (fun x : nat * list N * C => if Nat.eqb (fst (fst x)) h then [(snd (fst x), snd x)] else []) l)) with
        | Some p => registered ((pre ++ map reg l) ++ map reg [(h', id', c')]) h id (snd p)
        | None => forall c, ~ In (URegister h id c) ((pre ++ map reg l) ++ map reg [(h', id', c')]) end).
      { intro N. destruct (find _ _) as [p|]; [apply registered_other; auto|].
        intros c I. apply in_app_or in I as [I|[I|[]]]; [now apply (IH c)|now apply (O1 N c)]. }
      destruct (Nat.eqb h' h) eqn:E.
      + apply Nat.eqb_eq in E. subst h'. cbn [rev app find fst]. destruct (list_eqb id' id) eqn:EI.
        * apply list_eqb_spec in EI. subst id'. apply registered_now.
        * apply ST. intros _ ->. rewrite (proj2 (list_eqb_spec _ _) eq_refl) in EI. discriminate EI.
      + cbn [rev app]. apply ST. intros ->. rewrite Nat.eqb_refl in E. discriminate E. }
  (* the copying in between is no registration *)
  specialize (K [] (a ++ b) (fun c X => X)). cbn [app] in K.
  destruct (find _ _) as [p|].
  - destruct K as (x & y & E & L). rewrite map_app in E.
    assert (Q : forall (X Y : list (uop C)) z, X ++ Y = x ++ z :: y ->
      (exists y1, X = x ++ z :: y1 /\ y = y1 ++ Y) \/ (exists x2, x = X ++ x2 /\ Y = x2 ++ z :: y)).
    { clear. intros X Y z. revert x. induction X as [|w X IH]; intros [|v x] E; cbn in E.
      - right. exists []. auto.
      - right. exists (v :: x). auto.
      - left. injection E as -> <-. exists X. auto.
      - injection E as -> E. apply IH in E as [(y1 & -> & ->)|(x2 & -> & ->)]; [left|right]; eexists; split; reflexivity. }
    apply Q in E as [(y1 & E1 & ->)|(x2 & -> & E2)].
    + exists (boot ++ x), (y1 ++ [USet (HCopy 0)] ++ map reg b). unfold as_shipped. rewrite E1. split; [now rewrite <- !app_assoc|].
      intros c' I. rewrite !in_app_iff in I. destruct I as [I|[[I|[]]|I]]; [|discriminate I|]; apply (L c'); rewrite in_app_iff; auto.
    + exists (boot ++ map reg a ++ [USet (HCopy 0)] ++ x2), y. unfold as_shipped. rewrite E2. split; [now rewrite <- !app_assoc|exact L].
  - intros c I. apply in_shipped in I. apply (K c). apply in_map_iff. exists (h, id, c). auto.
Qed.

(** With the sets as shipped, a file answers as the tables of File.v do, whenever the classes were registered. *)
Theorem C67_shipped FO (before after : list (nat * list N * ucls)) m t :
  (forall x, In x (before ++ after) -> (fst (fst x) < 2)%nat) ->
  reordered nat (u_sets (u_run ucls (as_shipped before after))) m ->
  let u := {| u_objs := u_objs (u_run ucls (as_shipped before after)); u_sets := m |} in
  u_cls ucls u 1 (KDes, t) = Ok (reg_get FO (table_of (before ++ after) 0) (VStr t))
  /\ u_cls ucls u 1 (KRes, t) = Ok (reg_get FO (table_of (before ++ after) 1) (VStr t)).
Proof.
  intros HB RO u.
  assert (O : ops_ok 0 (set_ops (as_shipped before after))) by (rewrite shipped_sets; cbn; lia).
  assert (MS : forall h p, ms_in (m_run (set_ops (as_shipped before after))) 1 h p <-> (h < 2)%nat /\ p = 0%Z).
  { intros h p. rewrite shipped_sets. cbn. split; [lia|]. intros [L ->]. left. split; auto.
    destruct h as [|[|h]]; [right; left|left|lia]; auto. }
  assert (SD : forall h k a, (h < 2)%nat -> nth_error [UTable KDes; UTable KRes] h = Some (@UTable ucls k) ->
    find (fun p => list_eqb (fst p) t) (table_of (before ++ after) h) = a ->
    says (as_shipped before after) h k t (Ok (Some (match a with Some p => Some (snd p) | None => None end)))).
  { intros h k a L HN <-. unfold says. rewrite shipped_made, HN. split; [congruence|]. intros _.
    pose proof (registered_find before after h t) as F. destruct (find _ _) as [p|]; [left; exists (snd p)|right]; auto. }
  assert (SN : forall h k k', nth_error [UTable KDes; UTable KRes] h = Some (@UTable ucls k') -> k' <> k ->
    says (as_shipped before after) h k t (Ok None)).
  { intros h k k' HN NE. unfold says. rewrite shipped_made, HN. split; [auto|congruence]. }
  split.
  - apply C67_answer; auto using regs_ok_shipped. exists 0%nat, 0%Z. split; [apply MS; auto|]. split.
    + exact (SD 0%nat KDes _ ltac:(lia) eq_refl eq_refl).
    + intros h' p' I. apply MS in I as [L ->]. destruct h' as [|[|h']]; [auto| |lia]. left. apply (SN 1%nat KDes KRes); [reflexivity|discriminate].
  - apply C67_answer; auto using regs_ok_shipped. exists 1%nat, 0%Z. split; [apply MS; auto|]. split.
    + exact (SD 1%nat KRes _ ltac:(lia) eq_refl eq_refl).
    + intros h' p' I. apply MS in I as [L ->]. destruct h' as [|[|h']]; [|auto|lia]. left. apply (SN 0%nat KRes KDes); [reflexivity|discriminate].
Qed.

(** ** Refuted: a handler of lower priority, or another table of the same priority, serving ids the shipped table does not know *)

(** Table 2 has MYDES registered, the shipped table 0 has not. *)
Definition lower_prog (p : Z) : list (uop nat) :=
  boot ++ [URegister 0 (str "CSATTB") 7; UTable KDes; URegister 2 (str "MYDES") 8; USet (HAdd 0 2 p); USet (HCopy 0)]%nat.
Definition cls_of (ops : list (uop nat)) (k : kind) (id : string) : res (option nat) := u_cls nat (u_run nat ops) 1 (k, str id).

Theorem C67_lower_refuted : exists ops h p id c,
  ms_in (m_run (set_ops ops)) 1 h p /\ says ops h KDes id (Ok (Some (Some c)))
  /\ (forall h' c', In (URegister h' id c') ops -> h' = h)
  /\ u_cls nat (u_run nat ops) 1 (KDes, id) = Ok None.
Proof.
  exists (lower_prog (-1)), 2%nat, (-1)%Z, (str "MYDES"), 8%nat. split; [cbn; tauto|]. split.
  - cbn. split; [congruence|]. intros _. left. exists 8%nat. split; [|reflexivity].
    exists (boot ++ [URegister 0 (str "CSATTB") 7; UTable KDes])%nat, [USet (HAdd 0 2 (-1)); USet (HCopy 0)]%nat%Z. split; [reflexivity|].
    intros c' [X|[X|[]]]; discriminate X.
  - split; [|vm_compute; reflexivity]. intros h' c' I. unfold lower_prog, boot in I. cbn in I.
    repeat (destruct I as [I|I]; [try discriminate I; try (injection I; congruence)|]). destruct I.
Qed.

(** ** Examples *)

(** At the same priority every DES fails, also the one registered with the shipped table; at a higher one
    the shipped table is never asked. *)
Example C67_case : cls_of (lower_prog (-1)) KDes "CSATTB" = Ok (Some 7%nat) /\ cls_of (lower_prog 0) KDes "CSATTB" = Err ERuntime
  /\ cls_of (lower_prog 0) KDes "MYDES" = Err ERuntime /\ cls_of (lower_prog 0) KRes "MYDES" = Ok None
  /\ cls_of (lower_prog 1) KDes "MYDES" = Ok (Some 8%nat) /\ cls_of (lower_prog 1) KDes "CSATTB" = Ok None
  /\ cls_of (lower_prog 0) KText "MYDES" = Ok None.
Proof. vm_compute. auto 10. Qed.
(** A handler that declines leaves the question to the table, which has a class registered after the copy; one added to
    the default set after it is not asked. *)
Definition shy : kind * list N -> res (option (option nat)) :=
  fun sv => if list_eqb (snd sv) (str "MYDES") then Ok (Some (Some 3%nat)) else Ok None.
Definition late_prog : list (uop nat) :=
  boot ++ [UUser (Some KDes) shy; UUser None (fun _ => Err EKey); USet (HAdd 0 2 5); USet (HCopy 0); URegister 0 (str "CSCSDB") 4; URegister 0 (str "CSCSDB") 5; USet (HAdd 0 3 9)]%nat%Z.
Example C67_late : cls_of late_prog KDes "MYDES" = Ok (Some 3%nat) /\ cls_of late_prog KDes "CSCSDB" = Ok (Some 5%nat)
  /\ cls_of late_prog KRes "MYDES" = Ok None /\ u_cls nat (u_run nat late_prog) 0 (KDes, str "CSCSDB") = Err EKey.
Proof. vm_compute. auto 10. Qed.
Example C67_progs : ops_ok 0 (set_ops late_prog) /\ regs_ok 0 late_prog /\ ops_ok 0 (set_ops (lower_prog 0)) /\ regs_ok 0 (lower_prog 0).
Proof. cbn. lia. Qed.

Print Assumptions C67_answer.
Print Assumptions C67_others.
Print Assumptions C67_apart.
Print Assumptions C67_clash.
Print Assumptions C67_shipped.
Print Assumptions C67_lower_refuted.
