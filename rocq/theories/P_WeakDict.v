(** C59: the dictionary of weak references behaves as a dictionary of living objects. *)
From Verif Require Import Base BaseLemmas WeakDict.
From Coq Require Import ZifyBool ZifyNat ZifyN Sorted.
Open Scope list_scope.

(** ** What is to be shown *)

(** A dictionary of living objects: to what each key is bound and since when (counting operations),
    and which objects are gone. *)
Record adict := { a_at : obj -> option (obj * nat); a_now : nat; a_gone : obj -> Prop }.

(** Nothing bound. *)
Definition a_new : adict := {| a_at := fun _ => None; a_now := 0; a_gone := fun _ => False |}.
(** A key is bound; one that was bound keeps its place in the order. *)
Definition a_bind (k v : obj) (a : adict) : adict :=
  {| a_at := fun o => if Nat.eqb o k
                      then match a_at a k with Some (_, t) => Some (v, t) | None => Some (v, a_now a) end
                      else a_at a o;
     a_now := S (a_now a); a_gone := a_gone a |}.
(** A key is not bound any more. *)
Definition a_free (k : obj) (a : adict) : adict :=
  {| a_at := fun o => if Nat.eqb o k then None else a_at a o; a_now := a_now a; a_gone := a_gone a |}.
(** Objects die: neither they nor what is bound to them are in the dictionary. *)
Definition a_kill (os : list obj) (a : adict) : adict :=
  {| a_at := fun o => match a_at a o with
                      | Some (v, t) => if memb o os || memb v os then None else Some (v, t)
                      | None => None
                      end;
     a_now := a_now a; a_gone := fun o => a_gone a o \/ In o os |}.

(** The bindings in the order in which the keys came. *)
Definition lists (a : adict) (l : list (obj * obj * nat)) : Prop :=
  StronglySorted (fun x y => (snd x < snd y)%nat) l
  /\ forall k v t, In (k, v, t) l <-> a_at a k = Some (v, t).

Section Spec.
Variable refable : obj -> bool.

(** Bindings one after the other, until one is refused. *)
Fixpoint a_binds (l : list (obj * obj)) (a : adict) : adict :=
  match l with
  | [] => a
  | (k, v) :: l' => if refable k && refable v then a_binds l' (a_bind k v a) else a
  end.

(** What a lookup gives. *)
Definition a_get (a : adict) (k : obj) : res wout :=
  if refable k then match a_at a k with Some (v, _) => Ok (OObj v) | None => Err EKey end else Err EType.

(** What an operation answers on the dictionary of living objects. *)
Definition a_says (a : adict) (x : wop) (r : res wout) : Prop :=
  match x with
  | WGet k | WPop k => r = a_get a k
  | WSet k v => r = if refable k && refable v then Ok ONone else Err EType
  | WDel k => r = match a_get a k with Ok _ => Ok ONone | Err e => Err e end
  | WLen => exists l, lists a l /\ r = Ok (ONum (List.length l))
  | WIn k => r = Ok (OBool (match a_at a k with Some _ => true | None => false end))
  | WGetDef k d gc => r = match a_at a k with
                          | Some (v, _) => if memb v gc then Err EKey else Ok (OObj v)
                          | None => Ok (OObj d)
                          end
  | WPopDef k d _ => match a_at a k with Some _ => exists i, r = Ok (ORef i) | None => r = Ok (OObj d) end
  | WPopItem => (lists a [] /\ r = Err EKey)
                \/ exists k v t, a_at a k = Some (v, t) /\ r = Ok (OItem k (Some v))
                                 /\ forall k' v' t', a_at a k' = Some (v', t') -> (t' <= t)%nat
  | WSetDef k d gc => r = match a_at a k with
                          | Some (v, _) => if memb v gc then Err EKey else Ok (OObj v)
                          | None => if refable k && refable d then Ok (OObj d) else Err EType
                          end
  | WUpdate l => r = if forallb (fun e => refable (fst e) && refable (snd e)) l then Ok ONone else Err EType
  | WClear | WDie _ => r = Ok ONone
  | WItems => exists l, lists a l /\ r = Ok (OList (map (fun e => Some (snd (fst e))) l))
  | WIter => r = Err EAttr
  | WCall _ | WDrop _ => True
  end.

(** The dictionary after it. *)
Definition a_next (a : adict) (x : wop) (r : res wout) : adict :=
  match x with
  | WSet k v => if refable k && refable v then a_bind k v a else a
  | WDel k | WPop k | WPopDef k _ _ => a_free k a
  | WPopItem => match r with Ok (OItem k _) => a_free k a | _ => a end
  | WGetDef _ _ gc => a_kill gc a
  | WSetDef k d gc =>
      match a_at a k with
      | Some _ => a_kill gc a
      | None => if refable k && refable d then a_bind k d (a_kill gc a) else a_kill gc a
      end
  | WUpdate l => a_binds l a
  | WClear => {| a_at := fun _ => None; a_now := a_now a; a_gone := a_gone a |}
  | WDie os => a_kill os a
  | _ => a
  end.

(** The objects an operation is given, and those that die during it. *)
Definition uses (x : wop) : list obj :=
  match x with
  | WGet k | WDel k | WIn k | WPop k => [k]
  | WSet k v => [k; v]
  | WGetDef k d _ | WPopDef k d _ | WSetDef k d _ => [k; d]
  | WUpdate l => map fst l ++ map snd l
  | _ => []
  end.
Definition kills (x : wop) : list obj :=
  match x with WGetDef _ _ gc | WSetDef _ _ gc => gc | WDie os => os | _ => [] end.

(** What python lets a program do: it is given and gives only objects that live, and what it is using
    does not die. *)
Definition can (a : adict) (x : wop) : Prop :=
  (forall o, In o (uses x) -> ~ a_gone a o) /\ (forall o, In o (uses x) -> ~ In o (kills x)).

(** The reference that [pop] with a default gives is not kept. *)
Definition drops (x : wop) : Prop :=
  match x with WPopDef _ _ keep => keep = false | WCall _ | WDrop _ => False | _ => True end.

(** A history and what it sees. *)
Fixpoint a_run (a : adict) (xs : list wop) (rs : list (res wout)) : Prop :=
  match xs, rs with
  | [], [] => True
  | x :: xs', r :: rs' => a_says a x r /\ a_run (a_next a x r) xs' rs'
  | _, _ => False
  end.
Fixpoint a_can (a : adict) (xs : list wop) (rs : list (res wout)) : Prop :=
  match xs, rs with
  | [], [] => True
  | x :: xs', r :: rs' => can a x /\ drops x /\ a_can (a_next a x r) xs' rs'
  | _, _ => False
  end.

(** ** Proofs *)

Definition ent_of (e : obj * obj * nat) : obj * wref :=
  (fst (fst e), {| w_val := snd (fst e); w_key := fst (fst e) |}).

Definition key_of (e : obj * obj * nat) : obj := fst (fst e).

Record inv (s : wst) (a : adict) (l : list (obj * obj * nat)) : Prop := {
  i_ents : ents s = map ent_of l;
  i_sort : StronglySorted (fun x y => (snd x < snd y)%nat) l;
  i_keys : NoDup (map key_of l);
  i_in : forall k v t, In (k, v, t) l <-> a_at a k = Some (v, t);
  i_time : forall e, In e l -> (snd e < a_now a)%nat;
  i_ref : forall k v t, In (k, v, t) l -> refable k = true /\ refable v = true;
  i_live : forall k v t, In (k, v, t) l -> ~ a_gone a k /\ ~ a_gone a v;
  i_gone : forall o, gone s o = true <-> a_gone a o;
  i_outs : forall x, In x (outs s) -> x = None }.

Lemma memb_in : forall o l, memb o l = true <-> In o l.
Proof.
  intros o l. unfold memb. rewrite existsb_exists. split.
  - intros [x [I E]]. apply Nat.eqb_eq in E. subst. exact I.
  - intros I. exists o. split; [exact I | apply Nat.eqb_refl].
Qed.
Lemma memb_not : forall o l, memb o l = false <-> ~ In o l.
Proof. intros o l. rewrite <- memb_in. destruct (memb o l); split; congruence. Qed.

Lemma inv_lists : forall s a l, inv s a l -> lists a l.
Proof. intros s a l I. split; [exact (i_sort _ _ _ I) | exact (i_in _ _ _ I)]. Qed.

Lemma find_none : forall l k, find k (map ent_of l) = None <-> ~ In k (map key_of l).
Proof.
  induction l as [|[[k' v'] t'] l IH]; intros k; simpl.
  - tauto.
  - unfold key_of at 1; simpl. destruct (Nat.eqb k k') eqn:E.
    + apply Nat.eqb_eq in E. subst. split; [discriminate|]. intros N. destruct N. left. reflexivity.
    + apply Nat.eqb_neq in E. rewrite IH. split; [intros N [D|D]; [congruence | exact (N D)] | tauto].
Qed.
Lemma find_some : forall l k w, NoDup (map key_of l) ->
  find k (map ent_of l) = Some w <-> exists v t, In (k, v, t) l /\ w = {| w_val := v; w_key := k |}.
Proof.
  induction l as [|[[k' v'] t'] l IH]; intros k w N; simpl.
  - split; [discriminate | intros [v [t [[] _]]]].
  - inversion N as [|? ? N1 N2]; subst. unfold key_of in N1; simpl in N1. destruct (Nat.eqb k k') eqn:E.
    + apply Nat.eqb_eq in E. subst. split.
      * intros H. injection H as <-. exists v', t'. auto.
      * intros [v [t [[D|D] ->]]]; [injection D as -> ->; reflexivity|].
        destruct N1. change (In (key_of (k', v, t)) (map key_of l)). apply in_map. exact D.
    + apply Nat.eqb_neq in E. rewrite (IH k w N2). split.
      * intros [v [t [I ->]]]. exists v, t. auto.
      * intros [v [t [[D|D] ->]]]; [congruence|]. exists v, t. auto.
Qed.

Lemma inv_find : forall s a l k, inv s a l ->
  find k (ents s) = match a_at a k with Some (v, _) => Some {| w_val := v; w_key := k |} | None => None end.
Proof.
  intros s a l k I. rewrite (i_ents _ _ _ I).
  destruct (a_at a k) as [[v t]|] eqn:E.
  - apply find_some; [exact (i_keys _ _ _ I)|]. exists v, t. split; [apply (i_in _ _ _ I); exact E | reflexivity].
  - apply find_none. intros D. apply in_map_iff in D. destruct D as [[[k' v] t] [K D]].
    unfold key_of in K; simpl in K. subst. apply (i_in _ _ _ I) in D. congruence.
Qed.

Lemma inv_call : forall s a l k v t, inv s a l -> a_at a k = Some (v, t) ->
  call s {| w_val := v; w_key := k |} = Some v.
Proof.
  intros s a l k v t I E. unfold call. simpl. apply (i_in _ _ _ I) in E.
  destruct (gone s v) eqn:G; [|reflexivity].
  apply (i_gone _ _ _ I) in G. destruct (i_live _ _ _ I k v t E) as [_ L]. contradiction.
Qed.

Lemma inv_refable : forall s a l k v t, inv s a l -> a_at a k = Some (v, t) -> refable k = true.
Proof. intros s a l k v t I E. apply (i_in _ _ _ I) in E. exact (proj1 (i_ref _ _ _ I k v t E)). Qed.

Lemma inv_get : forall s a l k, inv s a l -> w_get refable s k = a_get a k.
Proof.
  intros s a l k I. unfold w_get, a_get. destruct (refable k); simpl; [|reflexivity].
  rewrite (inv_find s a l k I). destruct (a_at a k) as [[v t]|] eqn:E; [|reflexivity].
  rewrite (inv_call s a l k v t I E). reflexivity.
Qed.

Lemma inv_in : forall s a l k, inv s a l ->
  w_in refable s k = match a_at a k with Some _ => true | None => false end.
Proof.
  intros s a l k I. unfold w_in. rewrite (inv_find s a l k I).
  destruct (a_at a k) as [[v t]|] eqn:E; [|destruct (refable k); reflexivity].
  rewrite (inv_refable s a l k v t I E). reflexivity.
Qed.

Lemma sorted_filter : forall (R : obj * obj * nat -> obj * obj * nat -> Prop) p l,
  StronglySorted R l -> StronglySorted R (filter p l).
Proof.
  intros R p l H. induction H as [|x l H IH F]; simpl; [constructor|].
  destruct (p x); [|exact IH]. constructor; [exact IH|].
  rewrite Forall_forall in *. intros y I. apply filter_In in I. exact (F y (proj1 I)).
Qed.
Lemma keys_filter : forall p l, NoDup (map key_of l) -> NoDup (map key_of (filter p l)).
Proof.
  intros p l. induction l as [|e l IH]; simpl; intros N; [constructor|].
  inversion N as [|? ? N1 N2]; subst. destruct (p e); simpl; [|exact (IH N2)].
  constructor; [|exact (IH N2)]. intros I. apply N1. apply in_map_iff in I. destruct I as [y [E I]].
  apply filter_In in I. rewrite <- E. apply in_map. exact (proj1 I).
Qed.
Lemma filter_map : forall {A B} (f : A -> B) p (l : list A),
  filter p (map f l) = map f (filter (fun x => p (f x)) l).
Proof. intros A B f p l. induction l as [|x l IH]; simpl; [reflexivity|]. destruct (p (f x)); simpl; rewrite IH; reflexivity. Qed.

(** Dropping bindings keeps the link. *)
Lemma inv_filter : forall s a l s' a' p, inv s a l ->
  ents s' = map ent_of (filter p l) ->
  (forall k v t, a_at a' k = Some (v, t) <-> a_at a k = Some (v, t) /\ p (k, v, t) = true) ->
  a_now a' = a_now a ->
  (forall k v t, In (k, v, t) l -> p (k, v, t) = true -> ~ a_gone a' k /\ ~ a_gone a' v) ->
  (forall o, gone s' o = true <-> a_gone a' o) ->
  (forall x, In x (outs s') -> x = None) ->
  inv s' a' (filter p l).
Proof.
  intros s a l s' a' p I HE HA HN HL HG HO. constructor.
  - exact HE.
  - apply sorted_filter. exact (i_sort _ _ _ I).
  - apply keys_filter. exact (i_keys _ _ _ I).
  - intros k v t. rewrite filter_In, (i_in _ _ _ I), HA. reflexivity.
  - intros e D. apply filter_In in D. rewrite HN. exact (i_time _ _ _ I e (proj1 D)).
  - intros k v t D. apply filter_In in D. exact (i_ref _ _ _ I k v t (proj1 D)).
  - intros k v t D. apply filter_In in D. exact (HL k v t (proj1 D) (proj2 D)).
  - exact HG.
  - exact HO.
Qed.

Lemma inv_free : forall s a l k, inv s a l -> exists l', inv (with_ents s (del k (ents s))) (a_free k a) l'.
Proof.
  intros s a l k I. eexists.
  apply (inv_filter s a l _ _ (fun e => negb (Nat.eqb k (key_of e))) I).
  - simpl. rewrite (i_ents _ _ _ I). unfold del. rewrite filter_map. reflexivity.
  - intros o v t. simpl. unfold key_of. simpl. destruct (Nat.eqb o k) eqn:E.
    + apply Nat.eqb_eq in E. subst. rewrite Nat.eqb_refl. simpl. split; [discriminate | intros [_ D]; discriminate D].
    + rewrite Nat.eqb_sym, E. simpl. tauto.
  - reflexivity.
  - intros o v t D _. exact (i_live _ _ _ I o v t D).
  - exact (i_gone _ _ _ I).
  - exact (i_outs _ _ _ I).
Qed.

Lemma filter_two : forall {A} (p q : A -> bool) l, filter p (filter q l) = filter (fun x => q x && p x) l.
Proof.
  intros A p q l. induction l as [|x l IH]; simpl; [reflexivity|].
  destruct (q x); simpl; [|exact IH]. destruct (p x); rewrite IH; reflexivity.
Qed.

(** Dropping every key that some dying reference names. *)
Lemma fold_del : forall (g : obj -> bool) ws l,
  fold_left (fun l w => if g (w_key w) then l else del (w_key w) l) ws l
  = filter (fun e => negb (existsb (fun w => negb (g (w_key w)) && Nat.eqb (w_key w) (fst e)) ws)) l.
Proof.
  intros g ws. induction ws as [|w ws IH]; intros l; simpl.
  - induction l as [|e l IH]; simpl; [reflexivity | rewrite <- IH; reflexivity].
  - rewrite IH. destruct (g (w_key w)); simpl.
    + reflexivity.
    + unfold del. rewrite filter_two. apply filter_ext. intros e. rewrite negb_orb. reflexivity.
Qed.

Lemma refs_own : forall s, (forall x, In x (outs s) -> x = None) -> refs s = map snd (ents s).
Proof.
  intros s H. unfold refs. replace (List.concat _) with (@nil wref); [apply app_nil_r|].
  induction (outs s) as [|x l IH]; simpl; [reflexivity|].
  rewrite (H x (or_introl eq_refl)). simpl. apply IH. intros y I. apply H. right. exact I.
Qed.

Lemma live_false : forall s a l o, inv s a l -> ~ a_gone a o -> gone s o = false.
Proof.
  intros s a l o I N. destruct (gone s o) eqn:G; [|reflexivity]. apply (i_gone _ _ _ I) in G. contradiction.
Qed.

Lemma inv_kill : forall s a l os, inv s a l -> exists l', inv (collect os s) (a_kill os a) l'.
Proof.
  intros s a l os I. eexists.
  apply (inv_filter s a l _ _ (fun e => negb (memb (key_of e) os || memb (snd (fst e)) os)) I).
  - unfold collect. simpl. rewrite (refs_own s (i_outs _ _ _ I)), (i_ents _ _ _ I).
    etransitivity; [exact (fold_del (fun o => gone s o || memb o os) _ _)|].
    rewrite filter_two, filter_map. f_equal. apply filter_ext_in.
    intros [[k v] t] D. unfold key_of; simpl. destruct (memb k os) eqn:MK; simpl; [reflexivity|]. f_equal.
    destruct (i_live _ _ _ I k v t D) as [LK LV].
    pose proof (live_false s a l k I LK) as GK. pose proof (live_false s a l v I LV) as GV.
    destruct (memb v os) eqn:MV.
    + apply existsb_exists. exists {| w_val := v; w_key := k |}. split.
      * apply filter_In. split.
        -- apply in_map_iff. exists (ent_of (k, v, t)). split; [reflexivity | apply in_map; exact D].
        -- simpl. rewrite MV, GV. reflexivity.
      * simpl. rewrite GK, MK, Nat.eqb_refl. reflexivity.
    + destruct (existsb _ _) eqn:X; [|reflexivity]. exfalso.
      apply existsb_exists in X. destruct X as [w [W1 W2]].
      apply filter_In in W1. destruct W1 as [W1 W3]. apply in_map_iff in W1. destruct W1 as [e [W1 W4]].
      apply in_map_iff in W4. destruct W4 as [[[k' v'] t'] [W4 W5]]. subst e. simpl in W1. subst w. simpl in *.
      apply andb_true_iff in W2. destruct W2 as [_ W2]. apply Nat.eqb_eq in W2. subst k'.
      apply (i_in _ _ _ I) in W5. apply (i_in _ _ _ I) in D. rewrite D in W5. injection W5 as <- <-.
      rewrite MV in W3. discriminate W3.
  - intros k v t. simpl. unfold key_of; simpl. destruct (a_at a k) as [[v' t']|].
    + destruct (memb k os || memb v' os) eqn:M; split.
      * discriminate.
      * intros [E N]. injection E as -> ->. rewrite M in N. discriminate N.
      * intros E. injection E as -> ->. rewrite M. auto.
      * intros [E _]. exact E.
    + split; [discriminate | intros [E _]; discriminate E].
  - reflexivity.
  - intros k v t D P. simpl. unfold key_of in P; simpl in P. apply negb_true_iff, orb_false_iff in P.
    destruct P as [P1 P2]. apply memb_not in P1. apply memb_not in P2.
    destruct (i_live _ _ _ I k v t D). tauto.
  - intros o. simpl. rewrite orb_true_iff, (i_gone _ _ _ I), memb_in. reflexivity.
  - exact (i_outs _ _ _ I).
Qed.

Lemma nodup_snoc : forall (l : list obj) x, NoDup l -> ~ In x l -> NoDup (l ++ [x]).
Proof.
  intros l x N D. induction N as [|y l Y N IH]; simpl; [repeat constructor; exact D|].
  constructor; [|apply IH; simpl in D; tauto]. intros I. apply in_app_or in I.
  destruct I as [I|[<-|[]]]; [contradiction | destruct D; left; reflexivity].
Qed.

Definition rebind (k v : obj) (e : obj * obj * nat) : obj * obj * nat :=
  if Nat.eqb k (key_of e) then (k, v, snd e) else e.

Lemma put_new : forall l k w, ~ In k (map key_of l) -> put k w (map ent_of l) = map ent_of l ++ [(k, w)].
Proof.
  induction l as [|[[k' v'] t'] l IH]; intros k w N; simpl; [reflexivity|].
  simpl in N. unfold key_of at 1 in N; simpl in N. destruct (Nat.eqb k k') eqn:E.
  - apply Nat.eqb_eq in E. subst. destruct N. left. reflexivity.
  - rewrite IH; [reflexivity|]. tauto.
Qed.
Lemma put_old : forall l k v, NoDup (map key_of l) ->
  In k (map key_of l) -> put k {| w_val := v; w_key := k |} (map ent_of l) = map ent_of (map (rebind k v) l).
Proof.
  induction l as [|[[k' v'] t'] l IH]; intros k v N D; simpl; [destruct D|].
  inversion N as [|? ? N1 N2]; subst. unfold rebind at 1. unfold key_of at 1; simpl.
  destruct (Nat.eqb k k') eqn:E.
  - apply Nat.eqb_eq in E. subst. unfold ent_of at 2; simpl. f_equal. f_equal.
    rewrite <- (map_id l) at 1. apply map_ext_in. intros e He. unfold rebind.
    destruct (Nat.eqb k' (key_of e)) eqn:E; [|reflexivity].
    apply Nat.eqb_eq in E. destruct N1. unfold key_of at 1; simpl. rewrite E. apply in_map. exact He.
  - unfold ent_of at 3; simpl. f_equal. apply IH; [exact N2|]. destruct D as [D|D]; [|exact D].
    unfold key_of in D; simpl in D. apply Nat.eqb_neq in E. congruence.
Qed.

Lemma rebind_key : forall k v e, key_of (rebind k v e) = key_of e.
Proof. intros k v e. unfold rebind. destruct (Nat.eqb k (key_of e)) eqn:E; [|reflexivity]. apply Nat.eqb_eq in E. exact E. Qed.
Lemma rebind_time : forall k v e, snd (rebind k v e) = snd e.
Proof. intros k v e. unfold rebind. destruct (Nat.eqb k (key_of e)); reflexivity. Qed.

Lemma sorted_map_time : forall (f : obj * obj * nat -> obj * obj * nat) l, (forall e, snd (f e) = snd e) ->
  StronglySorted (fun x y => (snd x < snd y)%nat) l -> StronglySorted (fun x y => (snd x < snd y)%nat) (map f l).
Proof.
  intros f l H S. induction S as [|x l S IH F]; simpl; [constructor|].
  constructor; [exact IH|]. rewrite Forall_forall in *. intros y D. apply in_map_iff in D.
  destruct D as [z [<- D]]. rewrite !H. exact (F z D).
Qed.
Lemma sorted_snoc : forall l e, StronglySorted (fun x y : obj * obj * nat => (snd x < snd y)%nat) l ->
  (forall x, In x l -> (snd x < snd e)%nat) -> StronglySorted (fun x y => (snd x < snd y)%nat) (l ++ [e]).
Proof.
  intros l e S H. induction S as [|x l S IH F]; simpl; [repeat constructor|].
  constructor; [apply IH; intros y D; apply H; right; exact D|].
  rewrite Forall_forall in *. intros y D. apply in_app_or in D. destruct D as [D|[<-|[]]]; [exact (F y D)|].
  apply H. left. reflexivity.
Qed.

Lemma inv_bind : forall s a l k v, inv s a l -> refable k = true -> refable v = true ->
  ~ a_gone a k -> ~ a_gone a v ->
  exists l', inv (with_ents s (put k {| w_val := v; w_key := k |} (ents s))) (a_bind k v a) l'.
Proof.
  intros s a l k v I RK RV LK LV. destruct (a_at a k) as [[v0 t0]|] eqn:E.
  - assert (D0 : In (k, v0, t0) l) by (apply (i_in _ _ _ I); exact E).
    assert (HI : forall k' v' t', In (k', v', t') (map (rebind k v) l)
                 <-> a_at (a_bind k v a) k' = Some (v', t')).
    { intros k' v' t'. simpl. rewrite E. rewrite in_map_iff. destruct (Nat.eqb k' k) eqn:K.
      - apply Nat.eqb_eq in K. subst k'. split.
        + intros [[[k1 v1] t1] [R D]]. unfold rebind in R. unfold key_of in R. simpl in R.
          destruct (Nat.eqb k k1) eqn:K1.
          * apply Nat.eqb_eq in K1. subst k1. apply (i_in _ _ _ I) in D. congruence.
          * injection R as -> -> ->. rewrite Nat.eqb_refl in K1. discriminate K1.
        + intros R. injection R as <- <-. exists (k, v0, t0). split; [|exact D0].
          unfold rebind, key_of. simpl. rewrite Nat.eqb_refl. reflexivity.
      - rewrite <- (i_in _ _ _ I). split.
        + intros [[[k1 v1] t1] [R D]]. unfold rebind in R. unfold key_of in R. simpl in R.
          destruct (Nat.eqb k k1) eqn:K1.
          * injection R as -> -> ->. rewrite Nat.eqb_refl in K. discriminate K.
          * rewrite <- R. exact D.
        + intros D. exists (k', v', t'). split; [|exact D]. unfold rebind, key_of. simpl.
          rewrite Nat.eqb_sym, K. reflexivity. }
    exists (map (rebind k v) l). constructor.
    + simpl. rewrite (i_ents _ _ _ I). apply put_old; [exact (i_keys _ _ _ I)|].
      change k with (key_of (k, v0, t0)). apply in_map. exact D0.
    + apply sorted_map_time; [apply rebind_time | exact (i_sort _ _ _ I)].
    + rewrite map_map, (map_ext _ _ (rebind_key k v)). exact (i_keys _ _ _ I).
    + exact HI.
    + intros e D. apply in_map_iff in D. destruct D as [e' [<- D]]. rewrite rebind_time.
      pose proof (i_time _ _ _ I e' D). simpl. lia.
    + intros k' v' t' D. apply HI in D. simpl in D. destruct (Nat.eqb k' k) eqn:K.
      * apply Nat.eqb_eq in K. subst. rewrite E in D. injection D as <- <-. auto.
      * apply (i_in _ _ _ I) in D. exact (i_ref _ _ _ I _ _ _ D).
    + intros k' v' t' D. apply HI in D. simpl in D. destruct (Nat.eqb k' k) eqn:K.
      * apply Nat.eqb_eq in K. subst. rewrite E in D. injection D as <- <-. auto.
      * apply (i_in _ _ _ I) in D. exact (i_live _ _ _ I _ _ _ D).
    + exact (i_gone _ _ _ I).
    + exact (i_outs _ _ _ I).
  - assert (NK : ~ In k (map key_of l)).
    { intros D. apply in_map_iff in D. destruct D as [[[k' v'] t'] [K D]]. unfold key_of in K; simpl in K.
      subst. apply (i_in _ _ _ I) in D. congruence. }
    assert (HI : forall k' v' t', In (k', v', t') (l ++ [(k, v, a_now a)])
                 <-> a_at (a_bind k v a) k' = Some (v', t')).
    { intros k' v' t'. simpl. rewrite E, in_app_iff. destruct (Nat.eqb k' k) eqn:K.
      - apply Nat.eqb_eq in K. subst k'. split.
        + intros [D|[D|[]]]; [|congruence]. apply (i_in _ _ _ I) in D. congruence.
        + intros R. injection R as <- <-. right. left. reflexivity.
      - rewrite <- (i_in _ _ _ I). split; [|auto]. intros [D|[D|[]]]; [exact D|].
        injection D as D1 D2 D3. subst k'. rewrite Nat.eqb_refl in K. discriminate K. }
    exists (l ++ [(k, v, a_now a)]). constructor.
    + simpl. rewrite (i_ents _ _ _ I), (put_new l k _ NK), map_app. reflexivity.
    + apply sorted_snoc; [exact (i_sort _ _ _ I) | exact (i_time _ _ _ I)].
    + rewrite map_app. simpl. apply nodup_snoc; [exact (i_keys _ _ _ I) | exact NK].
    + exact HI.
    + intros e D. simpl. apply in_app_or in D. destruct D as [D|[<-|[]]]; [|simpl; lia].
      pose proof (i_time _ _ _ I e D). lia.
    + intros k' v' t' D. apply in_app_or in D. destruct D as [D|[D|[]]]; [exact (i_ref _ _ _ I _ _ _ D)|].
      injection D as <- <- <-. auto.
    + intros k' v' t' D. apply in_app_or in D. destruct D as [D|[D|[]]]; [exact (i_live _ _ _ I _ _ _ D)|].
      injection D as <- <- <-. auto.
    + exact (i_gone _ _ _ I).
    + exact (i_outs _ _ _ I).
Qed.

Lemma inv_update : forall l0 s a l, inv s a l ->
  (forall o, In o (map fst l0 ++ map snd l0) -> ~ a_gone a o) ->
  (exists l', inv (fst (w_update refable s l0)) (a_binds l0 a) l')
  /\ snd (w_update refable s l0)
     = if forallb (fun e => refable (fst e) && refable (snd e)) l0 then Ok ONone else Err EType.
Proof.
  induction l0 as [|[k v] l0 IH]; intros s a l I L; simpl.
  - split; [exists l; exact I | reflexivity].
  - unfold w_set. destruct (refable k) eqn:RK; simpl; [|split; [exists l; exact I | reflexivity]].
    destruct (refable v) eqn:RV; simpl; [|split; [exists l; exact I | reflexivity]].
    destruct (inv_bind s a l k v I RK RV) as [l' I'].
    + apply L. simpl. auto.
    + apply L. apply in_or_app. right. left. reflexivity.
    + apply (IH _ _ _ I'). intros o D. apply L. simpl. apply in_app_or in D. right. apply in_or_app.
      simpl. tauto.
Qed.

Lemma kill_at : forall os a k v t, ~ In k os -> a_at a k = Some (v, t) ->
  a_at (a_kill os a) k = if memb v os then None else Some (v, t).
Proof. intros os a k v t N E. simpl. rewrite E. apply memb_not in N. rewrite N. reflexivity. Qed.

Lemma with_ents_same : forall s l, ents s = l -> with_ents s l = s.
Proof. intros [g e o] l E. simpl in *. subst. reflexivity. Qed.

Lemma inv_free_none : forall s a l k, inv s a l -> a_at a k = None -> inv s (a_free k a) l.
Proof.
  intros s a l k I E. constructor; try apply I.
  intros k' v t. simpl. rewrite (i_in _ _ _ I). destruct (Nat.eqb k' k) eqn:K; [|reflexivity].
  apply Nat.eqb_eq in K. subst. rewrite E. split; discriminate.
Qed.

Lemma get_err : forall a k e, a_get a k = Err e -> a_at a k = None \/ refable k = false.
Proof.
  intros a k e. unfold a_get. destruct (refable k); [|auto]. destruct (a_at a k) as [[v t]|]; [discriminate | auto].
Qed.

(** One operation. *)
Lemma inv_step : forall s a l x, inv s a l -> can a x -> drops x ->
  let '(s', r) := w_step refable s x in a_says a x r /\ exists l', inv s' (a_next a x r) l'.
Proof.
  intros s a l x I [C1 C2] K. destruct x; simpl in *.
  - split; [apply (inv_get s a l k I) | exists l; exact I].
  - unfold w_set. destruct (refable k) eqn:RK; simpl; [|split; [reflexivity | exists l; exact I]].
    destruct (refable v) eqn:RV; simpl; [|split; [reflexivity | exists l; exact I]].
    split; [reflexivity|]. apply (inv_bind s a l k v I RK RV); apply C1; auto.
  - unfold w_del, a_get. destruct (refable k) eqn:RK; simpl.
    + rewrite (inv_find s a l k I). destruct (a_at a k) as [[v t]|] eqn:E.
      * split; [reflexivity | apply (inv_free s a l k I)].
      * split; [reflexivity | exists l; apply (inv_free_none s a l k I E)].
    + split; [reflexivity|]. exists l. apply (inv_free_none s a l k I).
      destruct (a_at a k) as [[v t]|] eqn:E; [|reflexivity].
      rewrite (inv_refable s a l k v t I E) in RK. discriminate RK.
  - split; [|exists l; exact I]. exists l. split; [exact (inv_lists s a l I)|].
    rewrite (i_ents _ _ _ I), map_length. reflexivity.
  - split; [|exists l; exact I]. rewrite (inv_in s a l k I). reflexivity.
  - unfold w_get_default. destruct (inv_kill s a l gc I) as [l' I']. split; [|exists l'; exact I'].
    rewrite (inv_in s a l k I), (inv_get _ _ _ k I'). unfold a_get.
    destruct (a_at a k) as [[v t]|] eqn:E; [|reflexivity].
    rewrite (inv_refable s a l k v t I E), (kill_at gc a k v t (C2 k (or_introl eq_refl)) E).
    destruct (memb v gc); reflexivity.
  - unfold w_pop, a_get. destruct (refable k) eqn:RK; simpl.
    + rewrite (inv_find s a l k I). destruct (a_at a k) as [[v t]|] eqn:E.
      * split; [rewrite (inv_call s a l k v t I E); reflexivity | apply (inv_free s a l k I)].
      * split; [reflexivity | exists l; apply (inv_free_none s a l k I E)].
    + split; [reflexivity|]. exists l. apply (inv_free_none s a l k I).
      destruct (a_at a k) as [[v t]|] eqn:E; [|reflexivity].
      rewrite (inv_refable s a l k v t I E) in RK. discriminate RK.
  - subst keep. unfold w_pop_default. rewrite (inv_in s a l k I), (inv_find s a l k I).
    destruct (a_at a k) as [[v t]|] eqn:E.
    + split; [eexists; reflexivity|]. destruct (inv_free s a l k I) as [l' I']. exists l'.
      destruct I' as [J1 J2 J3 J4 J5 J6 J7 J8 J9]. constructor; auto.
      simpl. intros x D. apply in_app_or in D. destruct D as [D|[<-|[]]]; [exact (i_outs _ _ _ I x D) | reflexivity].
    + split; [reflexivity | exists l; apply (inv_free_none s a l k I E)].
  - unfold w_popitem. rewrite (i_ents _ _ _ I), <- map_rev.
    destruct (rev l) as [|[[k v] t] m] eqn:R; simpl.
    + split; [left | exists l; exact I]. assert (l = []) by (rewrite <- (rev_involutive l), R; reflexivity). subst.
      split; [exact (inv_lists s a [] I) | reflexivity].
    + assert (L : l = rev m ++ [(k, v, t)]) by (rewrite <- (rev_involutive l), R; reflexivity).
      assert (D : In (k, v, t) l) by (rewrite L; apply in_or_app; right; left; reflexivity).
      pose proof (proj1 (i_in _ _ _ I k v t) D) as E.
      assert (T : forall e, In e (rev m) -> (snd e < t)%nat).
      { pose proof (i_sort _ _ _ I) as S. rewrite L in S. clear - S.
        induction (rev m) as [|y n IH]; intros e D; [destruct D|]. simpl in S. inversion S as [|? ? S1 S2]; subst.
        destruct D as [<-|D]; [|exact (IH S1 e D)]. rewrite Forall_forall in S2.
        apply (S2 (k, v, t)). apply in_or_app. right. left. reflexivity. }
      split.
      * right. exists k, v, t. split; [exact E|]. split; [rewrite (inv_call s a l k v t I E); reflexivity|].
        intros k' v' t' E'. apply (i_in _ _ _ I) in E'. rewrite L in E'. apply in_app_or in E'.
        destruct E' as [D'|[D'|[]]]; [pose proof (T _ D') as T'; simpl in T'; lia | injection D' as _ _ <-; lia].
      * destruct (inv_free s a l k I) as [l' I']. exists l'.
        replace (with_ents s (rev (map ent_of m))) with (with_ents s (del k (ents s))); [exact I'|].
        f_equal. rewrite (i_ents _ _ _ I), L, map_app. unfold del. rewrite filter_app. simpl.
        rewrite Nat.eqb_refl. simpl. rewrite app_nil_r, <- map_rev.
        pose proof (i_keys _ _ _ I) as N. rewrite L, map_app in N. simpl in N. apply NoDup_remove_2 in N.
        rewrite app_nil_r in N. unfold key_of at 1 in N; simpl in N. clear - N.
        induction (rev m) as [|[[k1 v1] t1] n IH]; simpl; [reflexivity|]. simpl in N.
        destruct (Nat.eqb k k1) eqn:E; simpl.
        -- apply Nat.eqb_eq in E. subst. destruct N. left. reflexivity.
        -- f_equal. apply IH. tauto.
  - unfold w_setdefault. destruct (inv_kill s a l gc I) as [l' I'].
    rewrite (inv_in s a l k I). destruct (a_at a k) as [[v t]|] eqn:E.
    + split; [|exists l'; exact I']. rewrite (inv_get _ _ _ k I'). unfold a_get.
      rewrite (inv_refable s a l k v t I E), (kill_at gc a k v t (C2 k (or_introl eq_refl)) E).
      destruct (memb v gc); reflexivity.
    + unfold w_set. destruct (refable k) eqn:RK; simpl; [|split; [reflexivity | exists l'; exact I']].
      destruct (refable d) eqn:RD; simpl; [|split; [reflexivity | exists l'; exact I']].
      split; [reflexivity|]. apply (inv_bind _ _ l' k d I' RK RD); simpl.
      * intros [G|G]; [exact (C1 k (or_introl eq_refl) G) | exact (C2 k (or_introl eq_refl) G)].
      * intros [G|G]; [exact (C1 d (or_intror (or_introl eq_refl)) G) | exact (C2 d (or_intror (or_introl eq_refl)) G)].
  - destruct (inv_update l0 s a l I C1) as [U1 U2]. destruct (w_update refable s l0) as [s' r]. simpl in *.
    split; [exact U2 | exact U1].
  - split; [reflexivity|]. exists []. constructor; simpl; try (intros; contradiction).
    + reflexivity.
    + constructor.
    + constructor.
    + intros k v t. split; [intros [] | discriminate].
    + exact (i_gone _ _ _ I).
    + exact (i_outs _ _ _ I).
  - split; [|exists l; exact I]. exists l. split; [exact (inv_lists s a l I)|].
    f_equal. f_equal. rewrite (i_ents _ _ _ I), map_map. apply map_ext_in. intros [[k v] t] D. simpl.
    apply (i_in _ _ _ I) in D. exact (inv_call s a l k v t I D).
  - split; [reflexivity | exists l; exact I].
  - destruct K.
  - destruct K.
  - split; [reflexivity | apply (inv_kill s a l os I)].
Qed.

Lemma inv_new : inv w_new a_new [].
Proof.
  constructor; simpl; try (intros; contradiction); try constructor; try discriminate; try contradiction.
Qed.

(** The dictionary after a history. *)
Fixpoint a_after (a : adict) (xs : list wop) (rs : list (res wout)) : adict :=
  match xs, rs with
  | x :: xs', r :: rs' => a_after (a_next a x r) xs' rs'
  | _, _ => a
  end.

Lemma inv_run : forall xs s a l, inv s a l -> a_can a xs (snd (w_run refable s xs)) ->
  a_run a xs (snd (w_run refable s xs))
  /\ exists l', inv (fst (w_run refable s xs)) (a_after a xs (snd (w_run refable s xs))) l'.
Proof.
  induction xs as [|x xs IH]; intros s a l I C; simpl in *; [split; [exact C | exists l; exact I]|].
  destruct (w_step refable s x) as [s' r] eqn:E. destruct (w_run refable s' xs) as [s'' rs] eqn:E'. simpl in *.
  destruct C as [C1 [C2 C3]]. pose proof (inv_step s a l x I C1 C2) as H. rewrite E in H.
  destruct H as [H1 [l' H2]]. pose proof (IH s' _ l' H2) as H3. rewrite E' in H3. simpl in H3.
  destruct (H3 C3) as [H4 H5]. split; [split; assumption | exact H5].
Qed.

(** ** C59: every history of operations on living objects, in which no reference given by [pop] with a
    default is kept, sees what it would see of a dictionary of living objects. *)
Theorem C59_dict : forall xs,
  let rs := snd (w_run refable w_new xs) in
  a_can a_new xs rs -> a_run a_new xs rs.
Proof. intros xs rs C. exact (proj1 (inv_run xs w_new a_new [] inv_new C)). Qed.

(** The map an image gets for its file handle: the one bound last if both live, else the new one, which
    the next image gets. *)
Theorem C59_cache : forall xs fh new,
  let s := fst (w_run refable w_new xs) in
  let rs := snd (w_run refable w_new xs) in
  let a := a_after a_new xs rs in
  a_can a_new xs rs -> refable fh = true -> refable new = true -> ~ a_gone a fh -> ~ a_gone a new ->
  match a_at a fh with
  | Some (m, _) => mmap_of refable s fh new = (s, Ok (OObj m)) /\ ~ a_gone a m
  | None => snd (mmap_of refable s fh new) = Ok (OObj new)
            /\ forall other, snd (mmap_of refable (fst (mmap_of refable s fh new)) fh other) = Ok (OObj new)
  end.
Proof.
  intros xs fh new s rs a C RF RN LF LN. destruct (inv_run xs w_new a_new [] inv_new C) as [_ [l I]].
  fold s rs in I. fold a in I. unfold mmap_of. rewrite (inv_in s a l fh I), (inv_get s a l fh I).
  destruct (a_at a fh) as [[m t]|] eqn:E; simpl.
  - unfold a_get. rewrite RF, E. split; [reflexivity|].
    apply (i_in _ _ _ I) in E. exact (proj2 (i_live _ _ _ I _ _ _ E)).
  - unfold w_set. rewrite RF, RN. simpl. split; [reflexivity|]. intros other.
    destruct (inv_bind s a l fh new I RF RN LF LN) as [l' I'].
    rewrite (inv_in _ _ _ fh I'), (inv_get _ _ _ fh I'). unfold a_get. simpl. rewrite Nat.eqb_refl, E, RF.
    reflexivity.
Qed.

(** What is bound lives. *)
Theorem C59_living : forall xs k v t,
  let rs := snd (w_run refable w_new xs) in
  a_can a_new xs rs -> a_at (a_after a_new xs rs) k = Some (v, t) ->
  ~ a_gone (a_after a_new xs rs) k /\ ~ a_gone (a_after a_new xs rs) v.
Proof.
  intros xs k v t rs C E. destruct (inv_run xs w_new a_new [] inv_new C) as [_ [l I]]. fold rs in I.
  apply (i_in _ _ _ I) in E. exact (i_live _ _ _ I _ _ _ E).
Qed.
End Spec.

(** What the plain dictionary would not do: [pop] with a default gives not the value. *)
Theorem C59_pop_refuted : exists xs k v d,
  xs = [WSet k v; WPopDef k d false]
  /\ nth 1 (snd (w_run (fun _ => true) w_new xs)) (Err EKey) <> Ok (OObj v)
  /\ nth 1 (snd (w_run (fun _ => true) w_new [WSet k v; WPop k])) (Err EKey) = Ok (OObj v).
Proof. exists [WSet 1 2; WPopDef 1 3 false], 1%nat, 2%nat, 3%nat. vm_compute. repeat split. discriminate. Qed.

(** If that reference is kept, the death of the old value takes away a new one bound to the same key. *)
Theorem C59_stale_refuted : exists k v d w,
  v <> w /\ k <> v
  /\ nth 4 (snd (w_run (fun _ => true) w_new [WSet k v; WPopDef k d true; WSet k w; WDie [v]; WIn k])) (Err EKey)
     = Ok (OBool false)
  /\ nth 4 (snd (w_run (fun _ => true) w_new [WSet k v; WPopDef k d false; WSet k w; WDie [v]; WIn k])) (Err EKey)
     = Ok (OBool true).
Proof. exists 1%nat, 2%nat, 3%nat, 4%nat. vm_compute. repeat split; discriminate. Qed.

(** A value that dies between the two looks of [get] with a default: an exception, not the default. *)
Theorem C59_race_refuted : exists k v d,
  snd (w_run (fun _ => true) w_new [WSet k v; WGetDef k d [v]]) = [Ok ONone; Err EKey].
Proof. exists 1%nat, 2%nat, 3%nat. reflexivity. Qed.

(** The keys cannot be listed, nor the dictionary copied. *)
Theorem C59_iter_refuted : exists k v,
  snd (w_run (fun _ => true) w_new [WSet k v; WIter]) = [Ok ONone; Err EAttr].
Proof. exists 1%nat, 2%nat. reflexivity. Qed.

(** The reference given by [pop] with a default, as long as it is kept, gives the value until that
    dies, whatever else happens. *)
Lemma nth_forget j : forall l i, i <> j -> nth i (forget j l) None = nth i l None.
Proof.
  induction j as [|j IH]; intros [|x l] [|i] H; cbn [forget nth]; auto; try congruence.
Qed.
Lemma nth_kept i l x (w : wref) : nth i l None = Some w -> nth i (l ++ [x]) None = Some w.
Proof.
  intro H. rewrite app_nth1; auto. destruct (Nat.ltb_spec i (List.length l)) as [|L]; auto. rewrite nth_overflow in H by lia. discriminate H.
Qed.
Lemma outs_update refable l : forall s, outs (fst (w_update refable s l)) = outs s.
Proof.
  induction l as [|[k v] l IH]; intro s; cbn [w_update]; auto. unfold w_set.
  destruct (refable k && refable v); cbn [fst]; auto. now rewrite IH.
Qed.
Lemma step_kept refable s x i w : nth i (outs s) None = Some w -> x <> WDrop i ->
  nth i (outs (fst (w_step refable s x))) None = Some w.
Proof.
  intros H Hx. destruct x; cbn [w_step fst]; auto.
  - unfold w_set. destruct (_ && _); auto.
  - unfold w_del. destruct (negb _); auto. destruct (find k (ents s)); auto.
  - unfold w_pop. destruct (negb _); auto. destruct (find k (ents s)); auto.
  - unfold w_pop_default. destruct (w_in refable s k); auto. destruct (find k (ents s)); auto. cbn [fst outs]. now apply nth_kept.
  - unfold w_popitem. destruct (rev (ents s)) as [|[? ?] ?]; auto.
  - unfold w_setdefault. destruct (w_in refable s k); auto. unfold w_set. destruct (_ && _); auto.
  - now rewrite outs_update.
  - cbn [outs]. rewrite nth_forget; auto; congruence.
Qed.
Lemma run_kept refable ys : forall s i w, nth i (outs s) None = Some w -> ~ In (WDrop i) ys ->
  nth i (outs (fst (w_run refable s ys))) None = Some w.
Proof.
  induction ys as [|y ys IH]; intros s i w H Hn; cbn [w_run]; auto.
  assert (H' := step_kept refable s y i w H ltac:(intros ->; apply Hn; now left)).
  destruct (w_step refable s y) as [s' r]. cbn [fst] in H'.
  assert (H2 := IH s' i w H' ltac:(intro; apply Hn; now right)). destruct (w_run refable s' ys) as [s'' rs]. exact H2.
Qed.
Theorem C59_called refable s k v d : snd (w_step refable s (WGet k)) = Ok (OObj v) ->
  exists i, snd (w_step refable s (WPopDef k d true)) = Ok (ORef i)
    /\ forall ys, ~ In (WDrop i) ys ->
         let s2 := fst (w_run refable (fst (w_step refable s (WPopDef k d true))) ys) in
         snd (w_step refable s2 (WCall i)) = Ok (if gone s2 v then ONone else OObj v).
Proof.
  cbn [w_step snd]. unfold w_get. intro H. exists (List.length (outs s)).
  destruct (refable k) eqn:R; [|discriminate H]. cbn [negb] in H. destruct (find k (ents s)) as [w|] eqn:F; [|discriminate H].
  unfold w_pop_default, w_in. rewrite R, F. cbn [andb fst snd]. split; [reflexivity|]. intros ys Hn.
  assert (Ew : w_val w = v) by (unfold call in H; destruct (gone s (w_val w)); cbn in H; congruence).
  rewrite (run_kept refable ys _ (List.length (outs s)) w); [|cbn [outs]; rewrite app_nth2, Nat.sub_diag by lia; reflexivity|exact Hn].
  unfold call. rewrite Ew. match goal with |- context [gone ?q v] => destruct (gone q v) end; reflexivity.
Qed.
Example ex_c59_called : snd (w_run (fun _ => true) w_new
    [WSet 1 11; WSet 2 12; WPopDef 1 3 true; WPopDef 2 3 true; WDrop 0; WCall 1; WSet 2 13; WDie [12]; WCall 1])
  = [Ok ONone; Ok ONone; Ok (ORef 0); Ok (ORef 1); Ok ONone; Ok (OObj 12); Ok ONone; Ok ONone; Ok ONone].
Proof. reflexivity. Qed.

(** A history: three handles, one map replaced, one map dies, one handle dies. *)
Definition c59_ops : list wop :=
  [WSet 1 11; WSet 2 12; WSet 3 13; WSet 1 21; WDie [11]; WGet 1; WDie [12]; WIn 2; WDie [3]; WLen; WItems;
   WSetDef 2 22 []; WGetDef 2 99 [13]; WSet 5 0; WPopItem; WDel 2; WUpdate [(4, 14); (1, 24)]; WItems;
   WPopDef 1 99 false; WGetDef 1 99 []].
(** The object 0 (python's None, say) cannot be weakly referenced. *)
Definition c59_refable (o : obj) : bool := negb (Nat.eqb o 0).

Example ex_c59 : snd (w_run c59_refable w_new c59_ops)
  = [Ok ONone; Ok ONone; Ok ONone; Ok ONone; Ok ONone; Ok (OObj 21); Ok ONone; Ok (OBool false); Ok ONone;
     Ok (ONum 1); Ok (OList [Some 21]); Ok (OObj 22); Ok (OObj 22); Err EType; Ok (OItem 2 (Some 22)); Err EKey;
     Ok ONone; Ok (OList [Some 24; Some 14]); Ok (ORef 0); Ok (OObj 99)]%nat.
Proof. vm_compute. reflexivity. Qed.
Example ex_c59_can : a_can c59_refable a_new c59_ops (snd (w_run c59_refable w_new c59_ops)).
Proof.
  rewrite ex_c59. unfold c59_ops. cbn [a_can]. repeat split; intros o D; cbn in D |- *; intuition (subst; try discriminate).
Qed.
Example ex_c59_cache :
  let s := fst (w_run c59_refable w_new [WSet 1 11; WSet 2 12; WDie [11]]) in
  snd (mmap_of c59_refable s 1 31) = Ok (OObj 31%nat) /\ snd (mmap_of c59_refable s 2 32) = Ok (OObj 12%nat).
Proof. vm_compute. auto. Qed.

Print Assumptions C59_dict.
Print Assumptions C59_cache.
Print Assumptions C59_living.
Print Assumptions C59_pop_refuted.
Print Assumptions C59_stale_refuted.
Print Assumptions C59_race_refuted.
Print Assumptions C59_iter_refuted.
Print Assumptions C59_called.
