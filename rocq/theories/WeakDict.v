(** [weak_key_value_dict.py]: the dictionary that keeps neither its keys nor its values alive, and its
    use as a cache of memory maps ([nitf_image.py:112, 168-172, 261, 393-405]).
    Objects are numbers and are compared by identity (file handles are); which of them can be weakly
    referenced is the parameter [refable].  A number is never given to a second object. *)
From Verif Require Import Base.
Open Scope list_scope.

Definition obj := nat.

(** The [weakref.ref(value, value_collected)] of [_create_value] (weak_key_value_dict.py:19-23): the
    value, and the key its callback deletes. *)
Record wref := { w_val : obj; w_key : obj }.

(** The state: which objects are gone; the entries of [self._d] (weak_key_value_dict.py:15-17) in order
    of insertion; the weak references that callers were given by [pop] (weak_key_value_dict.py:99-102)
    and have not dropped.  python's own [WeakKeyDictionary] is modelled by the entries. *)
Record wst := { gone : obj -> bool; ents : list (obj * wref); outs : list (option wref) }.

(** Membership in a list of objects (python's identity). *)
Definition memb (o : obj) (l : list obj) : bool := existsb (Nat.eqb o) l.

(** An empty dictionary, weak_key_value_dict.py:12-17. *)
Definition w_new : wst := {| gone := fun _ => false; ents := []; outs := [] |}.

(** [self._d[key]]: the entry of a key ([WeakKeyDictionary.__getitem__], used in
    weak_key_value_dict.py:25-26). *)
Fixpoint find (k : obj) (l : list (obj * wref)) : option wref :=
  match l with
  | [] => None
  | (k', w) :: l' => if Nat.eqb k k' then Some w else find k l'
  end.

(** [self._d[key] = ...]: a key that is there keeps its place (weak_key_value_dict.py:28-29). *)
Fixpoint put (k : obj) (w : wref) (l : list (obj * wref)) : list (obj * wref) :=
  match l with
  | [] => [(k, w)]
  | (k', w') :: l' => if Nat.eqb k k' then (k', w) :: l' else (k', w') :: put k w l'
  end.

(** [del self._d[key]] without the complaint about a missing key (weak_key_value_dict.py:31-32). *)
Definition del (k : obj) (l : list (obj * wref)) : list (obj * wref) :=
  filter (fun e => negb (Nat.eqb k (fst e))) l.

(** [wr()]: the value, or None when it is gone (weak_key_value_dict.py:26, 60, 97, 106). *)
Definition call (s : wst) (w : wref) : option obj := if gone s (w_val w) then None else Some (w_val w).

(** The weak references that exist: those in the dictionary and those given away
    (weak_key_value_dict.py:23). *)
Definition refs (s : wst) : list wref :=
  map snd (ents s) ++ List.concat (map (fun o => match o with Some w => [w] | None => [] end) (outs s)).

(** Objects die.  The dictionary drops entries whose key dies; then the callback of every weak
    reference to a dying value runs [del self[key_weakref()]] (weak_key_value_dict.py:20-22).  When the
    key is dead too, or has no entry, the callback raises, which python reports and forgets. *)
Definition collect (os : list obj) (s : wst) : wst :=
  let g := fun o => gone s o || memb o os in
  let dying := filter (fun w => memb (w_val w) os && negb (gone s (w_val w))) (refs s) in
  {| gone := g;
     ents := fold_left (fun l w => if g (w_key w) then l else del (w_key w) l) dying
                       (filter (fun e => negb (memb (fst e) os)) (ents s));
     outs := outs s |}.

(** The entries replaced, the rest as it is; helper for the operations below
    (weak_key_value_dict.py:12-109). *)
Definition with_ents (s : wst) (l : list (obj * wref)) : wst :=
  {| gone := gone s; ents := l; outs := outs s |}.

(** What operations give: None, an object, a truth value, a number, a weak reference (by number), a key
    with its value, a list of values (weak_key_value_dict.py:25-109). *)
Inductive wout :=
| ONone | OObj (o : obj) | OBool (b : bool) | ONum (n : nat) | ORef (i : nat)
| OItem (k : obj) (v : option obj) | OList (l : list (option obj)).

(** python's None for a value that is gone (weak_key_value_dict.py:26). *)
Definition o_val (v : option obj) : wout := match v with Some o => OObj o | None => ONone end.

Section Dict.
Variable refable : obj -> bool.

(** [__getitem__], weak_key_value_dict.py:25-26; an object that cannot be weakly referenced is refused
    with TypeError by [WeakKeyDictionary]. *)
Definition w_get (s : wst) (k : obj) : res wout :=
  if negb (refable k) then Err EType
  else match find k (ents s) with Some w => Ok (o_val (call s w)) | None => Err EKey end.

(** [__setitem__] with [_create_value], weak_key_value_dict.py:19-29: both must be weakly
    referenceable. *)
Definition w_set (s : wst) (k v : obj) : wst * res wout :=
  if refable k && refable v then (with_ents s (put k {| w_val := v; w_key := k |} (ents s)), Ok ONone)
  else (s, Err EType).

(** [__delitem__], weak_key_value_dict.py:31-32. *)
Definition w_del (s : wst) (k : obj) : wst * res wout :=
  if negb (refable k) then (s, Err EType)
  else match find k (ents s) with
       | Some _ => (with_ents s (del k (ents s)), Ok ONone)
       | None => (s, Err EKey)
       end.

(** [__contains__] and [has_key], weak_key_value_dict.py:49-50, 88-89: an object that cannot be weakly
    referenced is not in the dictionary. *)
Definition w_in (s : wst) (k : obj) : bool :=
  refable k && match find k (ents s) with Some _ => true | None => false end.

(** [get], weak_key_value_dict.py:83-86; [gc] is what dies between the two looks at the dictionary. *)
Definition w_get_default (s : wst) (k : obj) (d : obj) (gc : list obj) : wst * res wout :=
  let b := w_in s k in
  let s' := collect gc s in
  (s', if b then w_get s' k else Ok (OObj d)).

(** [pop(key)], weak_key_value_dict.py:91-97. *)
Definition w_pop (s : wst) (k : obj) : wst * res wout :=
  if negb (refable k) then (s, Err EType)
  else match find k (ents s) with
       | Some w => (with_ents s (del k (ents s)), Ok (o_val (call s w)))
       | None => (s, Err EKey)
       end.

(** [pop(key, default)], weak_key_value_dict.py:91-94, 99-102: what is given is the weak reference, not
    the value; [keep] says whether the caller keeps it. *)
Definition w_pop_default (s : wst) (k d : obj) (keep : bool) : wst * res wout :=
  if w_in s k then
    match find k (ents s) with
    | Some w => ({| gone := gone s; ents := del k (ents s);
                    outs := outs s ++ [if keep then Some w else None] |}, Ok (ORef (List.length (outs s))))
    | None => (s, Err EKey)
    end
  else (s, Ok (OObj d)).

(** [popitem], weak_key_value_dict.py:104-106: the entry inserted last. *)
Definition w_popitem (s : wst) : wst * res wout :=
  match rev (ents s) with
  | (k, w) :: l => (with_ents s (rev l), Ok (OItem k (call s w)))
  | [] => (s, Err EKey)
  end.

(** [setdefault], weak_key_value_dict.py:108-112. *)
Definition w_setdefault (s : wst) (k d : obj) (gc : list obj) : wst * res wout :=
  let b := w_in s k in
  let s' := collect gc s in
  if b then (s', w_get s' k)
  else match w_set s' k d with (s'', Ok _) => (s'', Ok (OObj d)) | r => r end.

(** [update] with a dictionary, and the constructor with one, weak_key_value_dict.py:12-17, 72-74:
    the pairs in order until one is refused. *)
Fixpoint w_update (s : wst) (l : list (obj * obj)) : wst * res wout :=
  match l with
  | [] => (s, Ok ONone)
  | (k, v) :: l' => match w_set s k v with (s', Ok _) => w_update s' l' | r => r end
  end.

(** The operations of a program: those of the dictionary, calling and dropping a weak reference, and
    the death of objects.  [WIter] stands for [__iter__], [iterkeys], [keys], [itervalues], [values] and
    [copy] (weak_key_value_dict.py:52-66, 80-81). *)
Inductive wop :=
| WGet (k : obj) | WSet (k v : obj) | WDel (k : obj) | WLen | WIn (k : obj)
| WGetDef (k d : obj) (gc : list obj) | WPop (k : obj) | WPopDef (k d : obj) (keep : bool) | WPopItem
| WSetDef (k d : obj) (gc : list obj) | WUpdate (l : list (obj * obj)) | WClear | WItems | WIter
| WCall (i : nat) | WDrop (i : nat) | WDie (os : list obj).

(** Forgetting the n-th weak reference (python drops the object; no line of its own,
    weak_key_value_dict.py:23). *)
Fixpoint forget (i : nat) (l : list (option wref)) : list (option wref) :=
  match l, i with
  | [], _ => []
  | _ :: l', O => None :: l'
  | x :: l', S i' => x :: forget i' l'
  end.

(** One step.  [len], [items] (which gives values only) and [clear] are weak_key_value_dict.py:34-35,
    68-70, 77-78; the methods behind [WIter] call [iterkeys]/[itervalues] of [WeakKeyDictionary], which
    python 3 does not have. *)
Definition w_step (s : wst) (x : wop) : wst * res wout :=
  match x with
  | WGet k => (s, w_get s k)
  | WSet k v => w_set s k v
  | WDel k => w_del s k
  | WLen => (s, Ok (ONum (List.length (ents s))))
  | WIn k => (s, Ok (OBool (w_in s k)))
  | WGetDef k d gc => w_get_default s k d gc
  | WPop k => w_pop s k
  | WPopDef k d keep => w_pop_default s k d keep
  | WPopItem => w_popitem s
  | WSetDef k d gc => w_setdefault s k d gc
  | WUpdate l => w_update s l
  | WClear => (with_ents s [], Ok ONone)
  | WItems => (s, Ok (OList (map (fun e => call s (snd e)) (ents s))))
  | WIter => (s, Err EAttr)
  | WCall i => (s, match nth i (outs s) None with Some w => Ok (o_val (call s w)) | None => Err EKey end)
  | WDrop i => ({| gone := gone s; ents := ents s; outs := forget i (outs s) |}, Ok ONone)
  | WDie os => (collect os s, Ok ONone)
  end.

(** A program, with what it sees. *)
Fixpoint w_run (s : wst) (xs : list wop) : wst * list (res wout) :=
  match xs with
  | [] => (s, [])
  | x :: xs' => let '(s', r) := w_step s x in let '(s'', rs) := w_run s' xs' in (s'', r :: rs)
  end.

(** How images use it ([nitf_image.py:168-172]): the memory map of a file handle, a new one [new] if the
    cache has none.  The answer is the map, and whether it is the new one. *)
Definition mmap_of (s : wst) (fh new : obj) : wst * res wout :=
  if negb (w_in s fh) then
    match w_set s fh new with (s', Ok _) => (s', Ok (OObj new)) | r => r end
  else (s, w_get s fh).
End Dict.
