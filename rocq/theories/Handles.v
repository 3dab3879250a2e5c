(** Sets of handlers with priorities (priority_handle_set.py). *)
From Verif Require Import Base.
From Coq Require Import ZifyBool ZifyNat ZifyN Permutation.
Open Scope list_scope.

Section Handles.
Variable H : Type.
(** Equality of handlers, as used by [set] (priority_handle_set.py:38, 44). *)
Variable heq : H -> H -> bool.

(** A python [set] of handlers (priority_handle_set.py:6): no handler twice, in the order in
    which iteration happens to give them. *)
Definition hset := list H.

(** [h in s], [s.add(h)], [s.discard(h)] (priority_handle_set.py:9, 38, 44). *)
Definition mem (h : H) (s : hset) : bool := existsb (heq h) s.
(** priority_handle_set.py:38. *)
Definition set_add (h : H) (s : hset) : hset := if mem h s then s else s ++ [h].
(** priority_handle_set.py:44. *)
Definition set_discard (h : H) (s : hset) : hset := filter (fun x => negb (heq h x)) s.

(** The memory: the [set] objects, and per PriorityHandleSet its dictionary [handle_set] from
    priority to set object (priority_handle_set.py:5-6).  Numbers are object identities. *)
Record mem_st := { sets : list hset; objs : list (list (Z * nat)) }.

(** Item [n] of a list replaced (an object changed in place; priority_handle_set.py:38, 44, 48). *)
Fixpoint replace {A} (n : nat) (x : A) (l : list A) : list A :=
  match l, n with
  | [], _ => []
  | _ :: l', O => x :: l'
  | y :: l', S n' => y :: replace n' x l'
  end.

(** The dictionary of an object, a set object (priority_handle_set.py:6). *)
Definition dict (m : mem_st) (o : nat) : list (Z * nat) := nth o (objs m) [].
(** priority_handle_set.py:6. *)
Definition set_at (m : mem_st) (i : nat) : hset := nth i (sets m) [].

(** [self.handle_set[p]] on the defaultdict: creates an empty set under a new key
    (priority_handle_set.py:6, 9, 38). *)
Definition key_find (d : list (Z * nat)) (p : Z) : option nat :=
  match find (fun x => (fst x =? p)%Z) d with Some x => Some (snd x) | None => None end.
(** [defaultdict], priority_handle_set.py:6, 9, 38. *)
Definition get_set (m : mem_st) (o : nat) (p : Z) : mem_st * nat :=
  match key_find (dict m o) p with
  | Some i => (m, i)
  | None => let i := List.length (sets m) in
            ({| sets := sets m ++ [[]]; objs := replace o (dict m o ++ [(p, i)]) (objs m) |}, i)
  end.

(** [PriorityHandleSet()] (priority_handle_set.py:5-6). *)
Definition p_new (m : mem_st) : mem_st * nat :=
  ({| sets := sets m; objs := objs m ++ [[]] |}, List.length (objs m)).

(** [add_handle] (priority_handle_set.py:35-38). *)
Definition p_add (m : mem_st) (o : nat) (h : H) (p : Z) : mem_st :=
  let '(m1, i) := get_set m o p in
  {| sets := replace i (set_add h (set_at m1 i)) (sets m1); objs := objs m1 |}.

(** [discard_handle] (priority_handle_set.py:40-44); the order of the keys does not matter. *)
Fixpoint discard_in (h : H) (d : list (Z * nat)) (ss : list hset) : list hset :=
  match d with
  | [] => ss
  | (_, i) :: d' => discard_in h d' (replace i (set_discard h (nth i ss [])) ss)
  end.
(** priority_handle_set.py:40-44. *)
Definition p_discard (m : mem_st) (o : nat) (h : H) : mem_st :=
  {| sets := discard_in h (dict m o) (sets m); objs := objs m |}.

(** [clear] (priority_handle_set.py:46-48). *)
Definition p_clear (m : mem_st) (o : nat) : mem_st :=
  {| sets := sets m; objs := replace o [] (objs m) |}.

(** [item in self] (priority_handle_set.py:8-9), which may add an empty set. *)
Definition p_contains (m : mem_st) (o : nat) (h : H) (p : Z) : mem_st * bool :=
  let '(m1, i) := get_set m o p in (m1, mem h (set_at m1 i)).

(** [len(self)] (priority_handle_set.py:11-15). *)
Definition p_len (m : mem_st) (o : nat) : nat :=
  fold_left (fun a x => (a + List.length (set_at m (snd x)))%nat) (dict m o) 0%nat.

(** [sorted(self.handle_set.keys(), reverse=True)] (priority_handle_set.py:18, 75). *)
Fixpoint insert_desc (x : Z * nat) (l : list (Z * nat)) : list (Z * nat) :=
  match l with
  | [] => [x]
  | y :: l' => if (fst x <? fst y)%Z then y :: insert_desc x l' else x :: l
  end.
(** priority_handle_set.py:18, 75. *)
Definition sorted_desc (l : list (Z * nat)) : list (Z * nat) := fold_right insert_desc [] l.

(** [__iter__] (priority_handle_set.py:17-20). *)
Definition p_iter (m : mem_st) (o : nat) : list (H * Z) :=
  flat_map (fun x => map (fun h => (h, fst x)) (set_at m (snd x))) (sorted_desc (dict m o)).

(** [_from_iterable] and [__copy__] (priority_handle_set.py:22-33). *)
Definition p_from (m : mem_st) (it : list (H * Z)) : mem_st * nat :=
  let '(m1, o) := p_new m in
  (fold_left (fun m' x => p_add m' o (fst x) (snd x)) it m1, o).
(** priority_handle_set.py:29-33. *)
Definition p_copy (m : mem_st) (o : nat) : mem_st * nat := p_from m (p_iter m o).

(** ** Dispatch *)

Section Dispatch.
Variables S R : Type.
(** [handle_h] (priority_handle_set.py:88-89 and its overrides): the answer [None] is
    [(False, None)]; [S] is what the handlers may change, such as the file position. *)
Variable handle_h : H -> S -> res (option R * S).

(** The handlers of one priority (priority_handle_set.py:76-83). *)
Fixpoint try_level (hs : hset) (found : option R) (s : S) : res (option R * S) :=
  match hs with
  | [] => Ok (found, s)
  | h :: hs' =>
      do (c, s') <- handle_h h s;
      match c, found with
      | Some _, Some _ => Err ERuntime
      | Some r, None => try_level hs' (Some r) s'
      | None, _ => try_level hs' found s'
      end
  end.

(** [handle] (priority_handle_set.py:69-86), over the sets in descending order of priority. *)
Fixpoint handle_levels (ls : list hset) (s : S) : res (R * S) :=
  match ls with
  | [] => Err ERuntime
  | l :: ls' =>
      do (f, s') <- try_level l None s;
      match f with Some r => Ok (r, s') | None => handle_levels ls' s' end
  end.
(** priority_handle_set.py:69-86. *)
Definition p_handle (m : mem_st) (o : nat) (s : S) : res (R * S) :=
  handle_levels (map (fun x => set_at m (snd x)) (sorted_desc (dict m o))) s.

End Dispatch.
End Handles.
Arguments sets {H}. Arguments objs {H}. Arguments dict {H}. Arguments set_at {H}.
