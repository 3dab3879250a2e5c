(** C32: segment hooks. *)
From Verif Require Import Base BaseLemmas Engine Handles Hooks P_Handles.
From Coq Require Import ZifyBool ZifyNat ZifyN Permutation.
Open Scope list_scope.

(** Which hooks each set has: [kops] are the operations so far, the newest last.  Sets are
    numbered in the order they are made. *)
Record ksets (H : Type) := { ks_n : nat; ks_in : nat -> H -> Prop }.
Arguments ks_n {H}. Arguments ks_in {H}.
Definition ks_step {H} (m : ksets H) (x : kop H) : ksets H :=
  match x with
  | KNew => {| ks_n := S (ks_n m); ks_in := fun o h => o <> ks_n m /\ ks_in m o h |}
  | KCopy c => {| ks_n := S (ks_n m); ks_in := fun o h => if Nat.eqb o (ks_n m) then ks_in m c h else ks_in m o h |}
  | KAdd a h => {| ks_n := ks_n m; ks_in := fun o h' => (o = a /\ h' = h) \/ ks_in m o h' |}
  | KDiscard a h => {| ks_n := ks_n m; ks_in := fun o h' => ks_in m o h' /\ ~ (o = a /\ h' = h) |}
  end.
Definition ks_run {H} (ops : list (kop H)) : ksets H :=
  fold_left ks_step ops {| ks_n := 0; ks_in := fun _ _ => False |}.
Fixpoint kops_ok {H} (n : nat) (ops : list (kop H)) : Prop :=
  match ops with
  | [] => True
  | x :: ops' =>
      match x with KNew => True | KCopy o | KAdd o _ | KDiscard o _ => (o < n)%nat end
      /\ kops_ok (match x with KNew | KCopy _ => S n | _ => n end) ops'
  end.

Section Hooks.
Variable H : Type.
Variable heq : H -> H -> bool.
Hypothesis heq_ok : forall a b, heq a b = true <-> a = b.

Lemma add_all_in l : forall s x, In x (fold_left (fun s h => set_add H heq h s) l s) <-> In x l \/ In x s.
Proof.
  induction l as [|h l IH]; intros s x; cbn; [tauto|]. rewrite IH, (set_add_in H heq heq_ok). intuition auto.
Qed.
Lemma add_all_nodup l : forall s, NoDup s -> NoDup (fold_left (fun s h => set_add H heq h s) l s).
Proof. induction l as [|h l IH]; intros s N; cbn; auto. apply IH. now apply (set_add_nodup H heq heq_ok). Qed.

Lemma k_run_ok ops : forall (m : hooks H) (M : ksets H), List.length m = ks_n M ->
  (forall o, NoDup (nth o m [])) -> (forall o h, In h (nth o m []) <-> ks_in M o h) -> kops_ok (ks_n M) ops ->
  let m' := fold_left (k_step H heq) ops m in let M' := fold_left ks_step ops M in
  List.length m' = ks_n M' /\ (forall o, NoDup (nth o m' [])) /\ forall o h, In h (nth o m' []) <-> ks_in M' o h.
Proof.
  induction ops as [|x ops IH]; intros m M L N E O; cbn [fold_left]; auto. destruct O as [O1 O2].
  assert (NS : forall (l : hset H) o, nth o (m ++ [l]) [] = if Nat.eqb o (List.length m) then l else nth o m []).
  { intros l o. destruct (Nat.eqb_spec o (List.length m)) as [->|Ne].
    - rewrite app_nth2, Nat.sub_diag by lia. reflexivity.
    - destruct (Nat.lt_ge_cases o (List.length m)); [now apply app_nth1|].
      rewrite !nth_overflow; auto. rewrite app_length. cbn. lia. }
  assert (NR : forall (l : hset H) a o, (a < List.length m)%nat -> nth o (replace a l m) [] = if Nat.eqb o a then l else nth o m []).
  { intros l a o Ha. rewrite nth_replace. replace (Nat.ltb a _) with true by (symmetry; now apply Nat.ltb_lt). now rewrite andb_true_r. }
  apply IH; [destruct x; cbn [k_step ks_step ks_n]; rewrite ?app_length, ?replace_length; cbn; lia| | |destruct x; cbn in *; auto].
  - intro o. destruct x as [|a|a h|a h]; cbn [k_step]; [rewrite NS|rewrite NS|rewrite NR by lia|rewrite NR by lia];
      match goal with |- context [Nat.eqb ?a ?b] => destruct (Nat.eqb a b) end; auto.
    + constructor.
    + apply add_all_nodup. constructor.
    + now apply (set_add_nodup H heq heq_ok).
    + now apply set_discard_nodup.
  - intros o h0. destruct x as [|a|a h|a h]; cbn [k_step ks_step ks_in].
    + rewrite NS, L. destruct (Nat.eqb_spec o (ks_n M)) as [->|Ne]; [cbn; split; [tauto|intros []; congruence]|].
      rewrite E. tauto.
    + rewrite NS, L. destruct (Nat.eqb_spec o (ks_n M)) as [->|Ne]; [|apply E].
      rewrite add_all_in, E. cbn. tauto.
    + rewrite NR by lia. destruct (Nat.eqb_spec o a) as [->|Ne].
      * rewrite (set_add_in H heq heq_ok), E. tauto.
      * rewrite E. tauto.
    + rewrite NR by lia. destruct (Nat.eqb_spec o a) as [->|Ne].
      * rewrite (set_discard_in H heq heq_ok), E. tauto.
      * rewrite E. tauto.
Qed.

(** A set has the hooks added to it (or to what it was copied from) and not discarded since,
    each once, whatever happened to other sets. *)
Theorem C32_registered ops o : kops_ok 0 ops ->
  NoDup (nth o (k_run H heq ops) []) /\ forall h, In h (nth o (k_run H heq ops) []) <-> ks_in (ks_run ops) o h.
Proof.
  intro O. destruct (k_run_ok ops [] {| ks_n := 0; ks_in := fun _ _ => False |}) as (_ & A & B).
  - reflexivity.
  - intro o'. destruct o'; constructor.
  - intros o' h. destruct o'; cbn; tauto.
  - exact O.
  - split; [apply A|apply B].
Qed.

(** Adding a hook twice is adding it once; discarding undoes adding a new one. *)
Theorem C32_twice ops o h : kops_ok 0 ops -> (o < ks_n (ks_run ops))%nat ->
  k_run H heq (ops ++ [KAdd o h; KAdd o h]) = k_run H heq (ops ++ [KAdd o h])
  /\ (~ ks_in (ks_run ops) o h -> k_run H heq (ops ++ [KAdd o h; KDiscard o h]) = k_run H heq ops).
Proof.
  intros O Ho. destruct (k_run_ok ops [] {| ks_n := 0; ks_in := fun _ _ => False |}) as (L & _ & E);
    [reflexivity|intro o'; destruct o'; constructor|intros o' h'; destruct o'; cbn; tauto|exact O|].
  fold (k_run H heq ops) in L, E. fold (@ks_run H ops) in L, E.
  unfold k_run in *. rewrite !fold_left_app. set (m := fold_left (k_step H heq) ops []) in *. cbn [fold_left k_step].
  assert (R : forall (a b : hset H), replace o a (replace o b m) = replace o a m).
  { intros a b. clear. revert o. induction m as [|x l IH]; intros [|o]; cbn; auto. now rewrite IH. }
  assert (R0 : replace o (nth o m []) m = m).
  { clear. revert o. induction m as [|x l IH]; intros [|o]; cbn; auto. now rewrite IH. }
  rewrite !nth_replace, Nat.eqb_refl. replace (Nat.ltb o (List.length m)) with true by (symmetry; apply Nat.ltb_lt; lia).
  cbn [andb]. split.
  - rewrite R. f_equal. unfold set_add at 1. 
    replace (mem H heq h (set_add H heq h (nth o m []))) with true; auto.
    symmetry. apply (mem_in H heq heq_ok), (set_add_in H heq heq_ok). auto.
  - intro NI. rewrite R. transitivity (replace o (nth o m []) m); [|exact R0]. f_equal. rewrite <- E in NI.
    unfold set_add. destruct (mem H heq h (nth o m [])) eqn:M; [apply (mem_in H heq heq_ok) in M; contradiction|].
    unfold set_discard. rewrite filter_app. cbn. assert (heq h h = true) as -> by now apply heq_ok. cbn. rewrite app_nil_r.
    assert (K : forall s, ~ In h s -> filter (fun x => negb (heq h x)) s = s).
    { clear - heq_ok. induction s as [|y s IH]; cbn; auto. intro N. destruct (heq h y) eqn:Q.
      - apply heq_ok in Q. subst. tauto.
      - cbn. rewrite IH; auto. }
    now apply K.
Qed.

Section Events.
Variable W : Type.

(** The methods of the hooks, noting who was called. *)
Definition noting (m : H -> W -> res W) (h : H) (p : W * list H) : res (W * list H) :=
  do w <- m h (fst p); Ok (w, snd p ++ [h]).
Definition noting_tre (m : H -> W -> res (bool * W)) (h : H) (p : W * list H) : res (bool * (W * list H)) :=
  do (b, w) <- m h (fst p); Ok (b, (w, snd p ++ [h])).

(** An event calls every registered hook once, in whatever order the set gives them, and no
    other; the calls have the effect of the hooks one after the other. *)
Theorem C32_event ops o hs (m : H -> W -> res W) w w' calls : kops_ok 0 ops ->
  Permutation hs (nth o (k_run H heq ops) []) ->
  on_event H (W * list H) (noting m) hs (w, []) = Ok (w', calls) ->
  calls = hs /\ NoDup calls /\ (forall h, In h calls <-> ks_in (ks_run ops) o h)
  /\ on_event H W m hs w = Ok w'.
Proof.
  intros O P E. destruct (C32_registered ops o O) as (N & I).
  assert (K : forall l w0 tr w1 tr1, fold_res (noting m) l (w0, tr) = Ok (w1, tr1) -> tr1 = tr ++ l /\ fold_res m l w0 = Ok w1).
  { clear. induction l as [|h l IH]; intros w0 tr w1 tr1 E.
    - cbn in *. rewrite app_nil_r. split; congruence.
    - cbn [fold_res] in *. unfold noting at 1 in E. cbn [fst snd] in E. destruct (m h w0) as [w2|]; cbn in E; [|discriminate].
      apply IH in E as (-> & E). split; [now rewrite <- app_assoc|]. exact E. }
  apply K in E as (-> & E). cbn [app]. split; auto. split; [eapply Permutation_NoDup; [symmetry; exact P|exact N]|].
  split; auto. intro h. rewrite <- I. split; intro X; (eapply Permutation_in; [|exact X]); auto using Permutation_sym.
Qed.

(** Printing calls the hooks not removed for raw reports. *)
Theorem C32_str ops o hs raw rm (m : H -> W -> res W) w w' calls : kops_ok 0 ops ->
  Permutation hs (nth o (k_run H heq ops) []) ->
  on_str H (W * list H) raw rm (noting m) hs (w, []) = Ok (w', calls) ->
  NoDup calls /\ (forall h, In h calls <-> ks_in (ks_run ops) o h /\ ~ (raw = true /\ rm h = true)).
Proof.
  intros O P E. destruct (C32_registered ops o O) as (N & I).
  assert (K : forall l w0 tr w1 tr1, on_str H (W * list H) raw rm (noting m) l (w0, tr) = Ok (w1, tr1) ->
             tr1 = tr ++ filter (fun h => negb (raw && rm h)) l).
  { clear. induction l as [|h l IH]; intros w0 tr w1 tr1 E; unfold on_str in *; cbn [fold_res filter] in *.
    - rewrite app_nil_r. congruence.
    - destruct (negb (raw && rm h)); [|eauto].
      unfold noting at 1 in E. cbn [fst snd] in E. destruct (m h w0) as [w2|]; cbn in E; [|discriminate].
      apply IH in E as ->. now rewrite <- app_assoc. }
  apply K in E as ->. cbn [app]. split.
  - apply NoDup_filter. eapply Permutation_NoDup; [symmetry; exact P|exact N].
  - intro h. rewrite filter_In, <- I.
    assert (X : In h hs <-> In h (nth o (k_run H heq ops) [])).
    { split; intro X; (eapply Permutation_in; [|exact X]); auto using Permutation_sym. }
    rewrite X. destruct raw, (rm h); cbn; intuition congruence.
Qed.

(** The TRE print hook: hooks are called in turn up to and including the first that says it
    handled the TRE, no hook after it is called, and the answer is whether there was one. *)
Theorem C32_tre_hook hs raw rm (m : H -> W -> res (bool * W)) w b w' calls :
  on_str_tre H (W * list H) raw rm (noting_tre m) hs (w, []) = Ok (b, (w', calls)) ->
  let hs' := filter (fun h => negb (raw && rm h)) hs in
  if b then exists rest h before w1, hs' = calls ++ rest /\ calls = before ++ [h] /\ m h w1 = Ok (true, w')
                   /\ fold_res (fun x (v : W) => do (a, v') <- m x v; if a then Err EKey else Ok v') before w = Ok w1
  else calls = hs'
       /\ fold_res (fun x (v : W) => do (a, v') <- m x v; if a then Err EKey else Ok v') hs' w = Ok w'.
Proof.
  set (F := fun (h : H) (p : bool * (W * list H)) =>
              if negb (raw && rm h) then if fst p then Ok p else noting_tre m h (snd p) else Ok p).
  set (Q := fun x (v : W) => do (a, v') <- m x v; if a then Err EKey else Ok v').
  assert (T : forall l p, fst p = true -> fold_res F l p = Ok p).
  { clear. induction l as [|h l IH]; intros p E; cbn [fold_res]; auto. unfold F at 1. rewrite E.
    destruct (negb (raw && rm h)); cbn [bind]; auto. }
  assert (QA : forall a h v, fold_res Q (a ++ [h]) v = do x <- fold_res Q a v; Q h x).
  { clear. induction a as [|y a IH]; intros h v; cbn [fold_res app].
    - cbn. destruct (Q h v); reflexivity.
    - destruct (Q y v); cbn [bind]; auto. }
  assert (K : forall l tr w0, fold_res Q tr w = Ok w0 -> forall b w1 tr1,
     fold_res F l (false, (w0, tr)) = Ok (b, (w1, tr1)) ->
     if b then exists rest h before w2, tr ++ filter (fun h => negb (raw && rm h)) l = tr1 ++ rest /\ tr1 = before ++ [h]
                /\ m h w2 = Ok (true, w1) /\ fold_res Q before w = Ok w2
     else tr1 = tr ++ filter (fun h => negb (raw && rm h)) l /\ fold_res Q tr1 w = Ok w1).
  { induction l as [|h l IH]; intros tr w0 Hw b0 w1 tr1 E; cbn [fold_res filter] in *.
    - injection E as <- <- <-. rewrite app_nil_r. auto.
    - unfold F at 1 in E. destruct (negb (raw && rm h)); cbn [fst snd] in E.
      + unfold noting_tre at 1 in E. cbn [fst snd] in E. destruct (m h w0) as [[c w2]|] eqn:M; cbn [bind] in E; [|discriminate].
        destruct c.
        * rewrite T in E by reflexivity. injection E as <- <- <-.
          exists (filter (fun h => negb (raw && rm h)) l), h, tr, w0. rewrite <- app_assoc. auto.
        * assert (QQ : fold_res Q (tr ++ [h]) w = Ok w2).
          { rewrite QA, Hw. cbn [bind]. unfold Q. rewrite M. reflexivity. }
          specialize (IH (tr ++ [h]) w2 QQ b0 w1 tr1 E). rewrite <- app_assoc in IH. exact IH.
      + cbn [bind] in E. apply (IH tr w0 Hw b0 w1 tr1 E). }
  intro E. specialize (K hs [] w eq_refl b w' calls E). cbn [app] in K. cbv zeta. destruct b.
  - destruct K as (rest & h & before & w2 & K1 & K2 & K3 & K4). exists rest, h, before, w2. auto.
  - destruct K as (-> & K). auto.
Qed.

End Events.
End Hooks.

(** ** Examples *)

Definition ex_kops : list (kop nat) := [KNew; KAdd 0 1; KAdd 0 2; KAdd 0 2; KAdd 0 3; KCopy 0; KDiscard 0 2; KAdd 1 4]%nat.
Example ex_kops_ok : kops_ok 0 ex_kops.
Proof. cbn. lia. Qed.
Example C32_ex : k_run nat Nat.eqb ex_kops = [[1; 3]; [1; 2; 3; 4]]%nat.
Proof. reflexivity. Qed.
(** Hooks 2 and 3 say they handled the TRE; 4 is left out of raw reports. *)
Example C32_tre_ex : on_str_tre nat (nat * list nat) true (fun h => Nat.eqb h 4)
    (noting_tre nat nat (fun h w => Ok (Nat.eqb h 2 || Nat.eqb h 3, w + h)))%nat [1; 4; 2; 3]%nat (0, [])%nat
  = Ok (true, (3, [1; 2]))%nat
  /\ on_event nat (nat * list nat) (noting nat nat (fun h w => Ok (w + h)%nat)) [1; 4; 2; 3]%nat (0, [])%nat
  = Ok (10, [1; 4; 2; 3])%nat.
Proof. split; reflexivity. Qed.

Print Assumptions C32_registered.
Print Assumptions C32_twice.
Print Assumptions C32_event.
Print Assumptions C32_str.
Print Assumptions C32_tre_hook.
