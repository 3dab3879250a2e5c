(** Copying structures (nitf_field.py:819-832 and 898-910) in programs with several names for
    several objects. *)
From Verif Require Import Base BaseLemmas Engine Wf EngineLemmas Codec RoundTrip.
From Coq Require Import ZifyBool ZifyNat.
Open Scope list_scope.

(** nitf_field.py:898-910 ([pickle]): the written bytes go into a new object of the class
    ([str]/[eval] of the bytes being inverse); [self.__init__()] gets no description, so the
    class must have one of its own. *)
Definition pickled FO (cls : option (list row)) (rows : list row) (s : state FO) : res (state FO) :=
  do b <- write FO (mk_fs rows) s;
  match cls with
  | None => Err EAttr
  | Some rows' => do p <- read FO (mk_fs rows') false (init_state FO) b; Ok (fst p)
  end.

Section Prog.
Variable FO : FloatOps.

(** A python heap restricted to structures.  An object holds its description and the
    dictionaries of its fields: [FieldStruct.__init__] (nitf_field.py:809-817) builds new
    field objects, each with new dictionaries (nitf_field.py:105-120). *)
Record heap := { hp_next : nat; hp_obj : nat -> option (list row * state FO) }.
(** Names and the objects of nitf_field.py:787-817, 819-832. *)
Definition env := nat -> option nat.
(** Names and the objects of nitf_field.py:787-817, 819-832. *)
Record cfg := { c_heap : heap; c_env : env }.
(** Names and the objects of nitf_field.py:787-817, 819-832. *)
Definition cfg0 : cfg := {| c_heap := {| hp_next := 0; hp_obj := fun _ => None |}; c_env := fun _ => None |}.

(** What the object named [x] is. (nitf_field.py:787-832.) *)
Definition obj (c : cfg) (x : nat) : option (list row * state FO) :=
  match c_env c x with Some a => hp_obj (c_heap c) a | None => None end.

(** nitf_field.py:787-817, 819-832, 856-863, 916-933. *)
Inductive stmt :=
| SNew (x : nat) (rows : list row)                          (* x = FieldStruct(rows) *)
| SAlias (x y : nat)                                        (* x = y *)
| SCopy (x y : nat)                                         (* x = copy.deepcopy(y) *)
| SSet (x : nat) (nm : string) (k : list Z) (v : sval FO)   (* x.nm[k] = v *)
| SRead (x : nat) (lit : bool) (inp : list N).              (* x.read_from_file(inp, lit) *)

(** Names used by a statement, nitf_field.py:819-832. *)
Definition mentions (s : stmt) : list nat :=
  match s with
  | SNew x _ | SSet x _ _ _ | SRead x _ _ => [x]
  | SAlias x y | SCopy x y => [x; y]
  end.

(** nitf_field.py:809-817. *)
Definition put (h : heap) (a : nat) (o : list row * state FO) : heap :=
  {| hp_next := hp_next h; hp_obj := fun b => if Nat.eqb a b then Some o else hp_obj h b |}.
(** nitf_field.py:809-817. *)
Definition alloc (c : cfg) (x : nat) (o : list row * state FO) : cfg :=
  {| c_heap := {| hp_next := S (hp_next (c_heap c));
                  hp_obj := fun b => if Nat.eqb (hp_next (c_heap c)) b then Some o else hp_obj (c_heap c) b |};
     c_env := fun y => if Nat.eqb x y then Some (hp_next (c_heap c)) else c_env c y |}.

(** One statement; one that raises leaves what it has done so far (an error in the middle of
    a read, which leaves a partly read object, is taken to leave it unchanged).
    (nitf_field.py:787-832, 856-863, 912-933.) *)
Definition exec (c : cfg) (s : stmt) : cfg * res unit :=
  match s with
  | SNew x rows => (alloc c x (rows, init_state FO), Ok tt)
  | SAlias x y =>
      match c_env c y with
      | Some a => ({| c_heap := c_heap c; c_env := fun z => if Nat.eqb x z then Some a else c_env c z |}, Ok tt)
      | None => (c, Err EAttr)
      end
  | SCopy x y =>
      match obj c y with
      | Some (rows, s) =>
          match deepcopy FO (mk_fs rows) s with
          | Ok s' => (alloc c x (rows, s'), Ok tt)
          | Err e => (c, Err e)
          end
      | None => (c, Err EAttr)
      end
  | SSet x nm k v =>
      match c_env c x, obj c x with
      | Some a, Some (rows, s) =>
          let '(s', r) := set FO (mk_fs rows) s nm k v in
          ({| c_heap := put (c_heap c) a (rows, s'); c_env := c_env c |}, r)
      | _, _ => (c, Err EAttr)
      end
  | SRead x lit inp =>
      match c_env c x, obj c x with
      | Some a, Some (rows, s) =>
          match read FO (mk_fs rows) lit s inp with
          | Ok (s', _) => ({| c_heap := put (c_heap c) a (rows, s'); c_env := c_env c |}, Ok tt)
          | Err e => (c, Err e)
          end
      | _, _ => (c, Err EAttr)
      end
  end.
(** nitf_field.py:787-832, 856-863, 912-933. *)
Definition exec_all (c : cfg) (ss : list stmt) : cfg := fold_left (fun c s => fst (exec c s)) ss c.

(** Every name is bound to an allocated object. *)
Definition bounded (c : cfg) : Prop := forall x a, c_env c x = Some a -> (a < hp_next (c_heap c))%nat.

Lemma exec_bounded c s : bounded c -> bounded (fst (exec c s)).
Proof.
  intro H. destruct s as [x rows|x y|x y|x nm k v|x lit inp]; cbn [exec].
  - intros z a. cbn. destruct (Nat.eqb x z); [intro E; injection E as <-; lia|]. intro E. apply H in E. lia.
  - destruct (c_env c y) as [b|] eqn:Ey; [|exact H]. intros z a. cbn. destruct (Nat.eqb x z); [|apply H].
    intro E. injection E as <-. eapply H; eauto.
  - destruct (obj c y) as [[rows s]|]; [|exact H]. destruct (deepcopy _ _ _) as [s'|]; [|exact H].
    intros z a. cbn. destruct (Nat.eqb x z); [intro E; injection E as <-; lia|]. intro E. apply H in E. lia.
  - destruct (c_env c x), (obj c x) as [[rows s]|]; try exact H. destruct (set _ _ _ _ _ _). exact H.
  - destruct (c_env c x), (obj c x) as [[rows s]|]; try exact H. destruct (read _ _ _ _ _) as [[? ?]|]; exact H.
Qed.

Lemma exec_all_bounded ss : forall c, bounded c -> bounded (exec_all c ss).
Proof. induction ss as [|s ss IH]; intros c H; [exact H|]. apply IH, exec_bounded, H. Qed.

(** An allocated object to which none of the names used refers is not touched, and none of
    them comes to refer to it. *)
Definition apart (P : nat -> Prop) (a : nat) (c : cfg) : Prop :=
  (a < hp_next (c_heap c))%nat /\ forall x, P x -> c_env c x <> Some a.

Lemma exec_apart P a c s : apart P a c -> (forall x, In x (mentions s) -> P x) ->
  apart P a (fst (exec c s)) /\ hp_obj (c_heap (fst (exec c s))) a = hp_obj (c_heap c) a
  /\ forall x, ~ In x (mentions s) -> c_env (fst (exec c s)) x = c_env c x.
Proof.
  intros [H1 H2] HM.
  assert (A : forall x o, P x -> apart P a (alloc c x o) /\ hp_obj (c_heap (alloc c x o)) a = hp_obj (c_heap c) a).
  { intros x o Hx. split; [split; [cbn; lia|]|].
    - intros z Hz. cbn. destruct (Nat.eqb x z); [intro E; injection E as E; lia|auto].
    - cbn. replace (Nat.eqb (hp_next (c_heap c)) a) with false by lia. reflexivity. }
  assert (E : forall x o z, z <> x -> c_env (alloc c x o) z = c_env c z).
  { intros x o z Hz. cbn. replace (Nat.eqb x z) with false by lia. reflexivity. }
  assert (Id : apart P a c /\ hp_obj (c_heap c) a = hp_obj (c_heap c) a /\ forall x, ~ In x (mentions s) -> c_env c x = c_env c x)
    by (repeat split; auto).
  assert (PU : forall x b o, P x -> c_env c x = Some b ->
    apart P a {| c_heap := put (c_heap c) b o; c_env := c_env c |} /\ hp_obj (put (c_heap c) b o) a = hp_obj (c_heap c) a).
  { intros x b o Hx Hb. split; [split; [exact H1|exact H2]|]. cbn.
    replace (Nat.eqb b a) with false; [reflexivity|]. symmetry. apply Nat.eqb_neq. intros ->. now apply (H2 x). }
  destruct s as [x rows|x y|x y|x nm k v|x lit inp]; cbn [exec mentions In] in *.
  - destruct (A x (rows, init_state FO)) as [A1 A2]; [auto|]. split; [exact A1|]. split; [exact A2|].
    intros z Hz. apply E. intro. apply Hz. auto.
  - destruct (c_env c y) as [b|] eqn:Ey; [|exact Id]. cbn. repeat split; auto.
    + intros z Hz. cbn. destruct (Nat.eqb x z); auto. intro C. injection C as ->. now apply (H2 y); auto.
    + intros z Hz. replace (Nat.eqb x z) with false; [reflexivity|]. symmetry. apply Nat.eqb_neq. tauto.
  - destruct (obj c y) as [[rows s]|]; [|exact Id]. destruct (deepcopy _ _ _) as [s'|]; [|exact Id].
    destruct (A x (rows, s')) as [A1 A2]; [auto|]. split; [exact A1|]. split; [exact A2|].
    intros z Hz. apply E. intro. apply Hz. auto.
  - destruct (c_env c x) as [b|] eqn:Ex; [|exact Id]. destruct (obj c x) as [[rows s]|]; [|exact Id].
    destruct (set _ _ _ _ _ _) as [s' r]. destruct (PU x b (rows, s')) as [B1 B2]; auto.
  - destruct (c_env c x) as [b|] eqn:Ex; [|exact Id]. destruct (obj c x) as [[rows s]|]; [|exact Id].
    destruct (read _ _ _ _ _) as [[s' r]|]; [|exact Id]. destruct (PU x b (rows, s')) as [B1 B2]; auto.
Qed.

Lemma exec_all_apart P a ss : forall c, apart P a c -> (forall s x, In s ss -> In x (mentions s) -> P x) ->
  hp_obj (c_heap (exec_all c ss)) a = hp_obj (c_heap c) a
  /\ forall x, ~ P x -> c_env (exec_all c ss) x = c_env c x.
Proof.
  induction ss as [|s ss IH]; intros c HA HM; [split; auto|]. cbn [exec_all fold_left].
  destruct (exec_apart P a c s HA) as (B1 & B2 & B3); [intros x Hx; eapply HM; [now left|exact Hx]|].
  destruct (IH _ B1) as [C1 C2]; [intros s' x Hs Hx; eapply HM; [right; exact Hs|exact Hx]|].
  split; [unfold exec_all in *; congruence|]. intros x Hx. etransitivity; [exact (C2 x Hx)|].
  apply B3. intro Hin. apply Hx. eapply HM; [now left|exact Hin].
Qed.

Lemma exec_env c s x : ~ In x (mentions s) -> c_env (fst (exec c s)) x = c_env c x.
Proof.
  intro Hx. destruct s as [y rows|y z|y z|y nm k v|y lit inp]; cbn [exec mentions In] in *.
  - cbn. now replace (Nat.eqb y x) with false by lia.
  - destruct (c_env c z); [|reflexivity]. cbn. now replace (Nat.eqb y x) with false by lia.
  - destruct (obj c z) as [[rows s]|]; [|reflexivity]. destruct (deepcopy _ _ _); [|reflexivity].
    cbn. now replace (Nat.eqb y x) with false by lia.
  - destruct (c_env c y), (obj c y) as [[rows s]|]; try reflexivity. now destruct (set _ _ _ _ _ _).
  - destruct (c_env c y), (obj c y) as [[rows s]|]; try reflexivity. now destruct (read _ _ _ _ _) as [[? ?]|].
Qed.

Lemma exec_all_env ss x : forall c, (forall s, In s ss -> ~ In x (mentions s)) -> c_env (exec_all c ss) x = c_env c x.
Proof.
  induction ss as [|s ss IH]; intros c H; [reflexivity|]. cbn [exec_all fold_left].
  etransitivity; [apply IH; intros t Ht; apply H; now right|]. apply exec_env, H. now left.
Qed.

End Prog.
