(** The operators a PriorityHandleSet inherits from collections.abc.Set
    (priority_handle_set.py:4; python's Lib/_collections_abc.py, class Set), on top of the methods
    modelled in Handles.v.

    Iteration over a handler set is taken to give all its pairs at the start: the operators change
    no set while they iterate, [in] only adds empty ones (priority_handle_set.py:8-9), and the keys
    are a list of their own (priority_handle_set.py:18).  The pairs a new set is made of are
    collected first, and then added. *)
From Verif Require Import Base Handles.
Open Scope list_scope.

Section SetOps.
Variable H : Type.
Variable heq : H -> H -> bool.
Notation mst := (mem_st H).

(** [for x in it: if x not in o: return False], then [return True] (Set.__le__, __ge__ on
    priority_handle_set.py:8-9, 17-20). *)
Fixpoint all_in (m : mst) (o : nat) (it : list (H * Z)) : mst * bool :=
  match it with
  | [] => (m, true)
  | (h, p) :: it' =>
      let '(m1, b) := p_contains H heq m o h p in
      if b then all_in m1 o it' else (m1, false)
  end.
(** [for x in it: if x in o: return False], then [return True] (Set.isdisjoint on
    priority_handle_set.py:8-9, 17-20). *)
Fixpoint none_in (m : mst) (o : nat) (it : list (H * Z)) : mst * bool :=
  match it with
  | [] => (m, true)
  | (h, p) :: it' =>
      let '(m1, b) := p_contains H heq m o h p in
      if b then (m1, false) else none_in m1 o it'
  end.
(** [x for x in it if x in o], or [if x not in o] (Set.__and__, __sub__ on
    priority_handle_set.py:8-9, 17-20). *)
Fixpoint keep (want : bool) (m : mst) (o : nat) (it : list (H * Z)) : mst * list (H * Z) :=
  match it with
  | [] => (m, [])
  | (h, p) :: it' =>
      let '(m1, b) := p_contains H heq m o h p in
      let '(m2, r) := keep want m1 o it' in
      (m2, if Bool.eqb b want then (h, p) :: r else r)
  end.

(** [a <= b] (Set.__le__; priority_handle_set.py:4). *)
Definition s_le (m : mst) (a b : nat) : mst * bool :=
  if Nat.ltb (p_len H m b) (p_len H m a) then (m, false) else all_in m b (p_iter H m a).
(** [a >= b] (Set.__ge__; priority_handle_set.py:4). *)
Definition s_ge (m : mst) (a b : nat) : mst * bool :=
  if Nat.ltb (p_len H m a) (p_len H m b) then (m, false) else all_in m a (p_iter H m b).
(** [a < b] (Set.__lt__; priority_handle_set.py:4). *)
Definition s_lt (m : mst) (a b : nat) : mst * bool :=
  if Nat.ltb (p_len H m a) (p_len H m b) then s_le m a b else (m, false).
(** [a > b] (Set.__gt__; priority_handle_set.py:4). *)
Definition s_gt (m : mst) (a b : nat) : mst * bool :=
  if Nat.ltb (p_len H m b) (p_len H m a) then s_ge m a b else (m, false).
(** [a == b] (Set.__eq__; priority_handle_set.py:4). *)
Definition s_eq (m : mst) (a b : nat) : mst * bool :=
  if Nat.eqb (p_len H m a) (p_len H m b) then s_le m a b else (m, false).
(** [a.isdisjoint(b)] (Set.isdisjoint; priority_handle_set.py:4). *)
Definition s_disjoint (m : mst) (a b : nat) : mst * bool := none_in m a (p_iter H m b).

(** [a & b] (Set.__and__; priority_handle_set.py:4, 22-27). *)
Definition s_and (m : mst) (a b : nat) : mst * nat :=
  let '(m1, it) := keep true m a (p_iter H m b) in p_from H heq m1 it.
(** [a | b] (Set.__or__; priority_handle_set.py:4, 22-27). *)
Definition s_or (m : mst) (a b : nat) : mst * nat := p_from H heq m (p_iter H m a ++ p_iter H m b).
(** [a - b] (Set.__sub__; priority_handle_set.py:4, 22-27). *)
Definition s_sub (m : mst) (a b : nat) : mst * nat :=
  let '(m1, it) := keep false m b (p_iter H m a) in p_from H heq m1 it.
(** [a ^ b], which is [(a - b) | (b - a)] (Set.__xor__; priority_handle_set.py:4, 22-27). *)
Definition s_xor (m : mst) (a b : nat) : mst * nat :=
  let '(m1, x) := s_sub m a b in
  let '(m2, y) := s_sub m1 b a in
  s_or m2 x y.

End SetOps.
