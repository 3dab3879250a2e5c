(** Which class reads the user subheader of a segment
    (nitf_segment_user_subheader_handle.py, with the handler sets of priority_handle_set.py). *)
From Verif Require Import Base Handles File.
Open Scope list_scope.

Section Ush.
(** User subheader classes; only passed on (nitf_segment_user_subheader_handle.py:32, 44). *)
Variable C : Type.

(** What a handler looks at of a segment: its class, and the text of [desid] or [resid]
    (nitf_segment_user_subheader_handle.py:10, 33, 45).  [isinstance] with further subclasses of
    the segment classes is not modelled. *)
Definition sview : Type := (kind * list N)%type.

(** A handler object (nitf_segment_user_subheader_handle.py:21-46): a [DesIdToUSHHandle] or
    [ResIdToUSHHandle] with its dictionary, in the order in which the keys came; or an object of another
    subclass with its [seg_class] and an arbitrary [user_subheader_cls], where [Ok None] is
    [(False, None)] and [Ok (Some r)] is [(True, r)]. *)
Inductive hobj :=
| HTable (k : kind) (d : list (list N * C))
| HUser (sc : option kind) (f : sview -> res (option (option C))).

(** The objects, and the handler sets with the numbers of objects in them
    (nitf_segment_user_subheader_handle.py:48-52, nitf_file.py:60). *)
Record umem := { u_objs : list hobj; u_sets : mem_st nat }.

(** [d[id] = c] on a dictionary (nitf_segment_user_subheader_handle.py:36, 48). *)
Fixpoint tab_put (d : list (list N * C)) (id : list N) (c : C) : list (list N * C) :=
  match d with
  | [] => [(id, c)]
  | (id', c') :: d' => if list_eqb id' id then (id', c) :: d' else (id', c') :: tab_put d' id c
  end.
(** [d.get(id, None)] (nitf_segment_user_subheader_handle.py:33, 45). *)
Fixpoint tab_get (d : list (list N * C)) (id : list N) : option C :=
  match d with
  | [] => None
  | (id', c') :: d' => if list_eqb id' id then Some c' else tab_get d' id
  end.

(** [DesIdToUSHHandle()] and the like (nitf_segment_user_subheader_handle.py:29-30, 41-42). *)
Definition u_new (u : umem) (x : hobj) : umem := {| u_objs := u_objs u ++ [x]; u_sets := u_sets u |}.

(** [h.add_des_user_subheader(id, c)], [h.add_res_user_subheader(id, c)]
    (nitf_segment_user_subheader_handle.py:35-36, 47-48).  Other handlers have no such function:
    AttributeError, and nothing changes. *)
Definition u_register (u : umem) (h : nat) (id : list N) (c : C) : umem :=
  match nth_error (u_objs u) h with
  | Some (HTable k d) => {| u_objs := replace h (HTable k (tab_put d id c)) (u_objs u); u_sets := u_sets u |}
  | _ => u
  end.

(** [handle_h] (nitf_segment_user_subheader_handle.py:9-12) with [user_subheader_cls] of the
    handlers (32-33, 44-45). *)
Definition u_handle_h (u : umem) (sv : sview) (h : nat) (s : unit) : res (option (option C) * unit) :=
  match nth_error (u_objs u) h with
  | None => Ok (None, s)
  | Some (HTable k d) => Ok (if kind_eqb k (fst sv) then Some (tab_get d (snd sv)) else None, s)
  | Some (HUser sc f) =>
      if match sc with None => true | Some k => kind_eqb k (fst sv) end
      then do r <- f sv; Ok (r, s) else Ok (None, s)
  end.

(** [user_subheader_cls] of the set (nitf_segment_user_subheader_handle.py:14-19). *)
Definition u_cls (u : umem) (o : nat) (sv : sview) : res (option C) :=
  match fst sv with
  | KDes | KRes => do (r, _) <- p_handle nat unit (option C) (u_handle_h u sv) (u_sets u) o tt; Ok r
  | _ => Ok None
  end.

End Ush.
Arguments HTable {C}. Arguments HUser {C}. Arguments u_objs {C}. Arguments u_sets {C}.
