(** Segment hooks (nitf_segment_hook.py). *)
From Verif Require Import Base Engine Handles.
From Coq Require Import ZifyBool ZifyNat ZifyN.
Open Scope list_scope.

Section Hooks.
Variable H : Type.
(** Equality of hooks, as used by [set] (nitf_segment_hook.py:21, 36, 39). *)
Variable heq : H -> H -> bool.

(** The hook sets that exist, by object number: [hook_set] of each
    (nitf_segment_hook.py:20-21). *)
Definition hooks := list (hset H).

(** The operations (nitf_segment_hook.py:20-21, 32-39): a new set, a copy, adding and
    discarding a hook. *)
Inductive kop := KNew | KCopy (o : nat) | KAdd (o : nat) (h : H) | KDiscard (o : nat) (h : H).
(** nitf_segment_hook.py:20-39. *)
Definition k_step (m : hooks) (x : kop) : hooks :=
  match x with
  | KNew => m ++ [[]]
  | KCopy o => m ++ [fold_left (fun s h => set_add H heq h s) (nth o m []) []]
  | KAdd o h => replace o (set_add H heq h (nth o m [])) m
  | KDiscard o h => replace o (set_discard H heq h (nth o m [])) m
  end.
(** nitf_segment_hook.py:20-39. *)
Definition k_run (ops : list kop) : hooks := fold_left k_step ops [].

(** [W] is whatever the hooks may look at and change. *)
Variable W : Type.

(** [after_init_hook], [after_append_hook], [before_write_hook], [after_read_hook]
    (nitf_segment_hook.py:41-59): [m h] is the method of hook [h] on the segment and file of the
    event.  A hook that changes the set while it is iterated is not modelled. *)
Definition on_event (m : H -> W -> res W) (hs : hset H) (w : W) : res W := fold_res m hs w.

(** [before_str_hook] (nitf_segment_hook.py:61-65); [raw] is [nitf_file.report_raw] and [rm h]
    is [h.remove_for_report_raw()]. *)
Definition on_str (raw : bool) (rm : H -> bool) (m : H -> W -> res W) (hs : hset H) (w : W) : res W :=
  fold_res (fun h w => if negb (raw && rm h) then m h w else Ok w) hs w.

(** [before_str_tre_hook] (nitf_segment_hook.py:67-75): [res or ...] does not call the hook when
    [res] is already true. *)
Definition on_str_tre (raw : bool) (rm : H -> bool) (m : H -> W -> res (bool * W)) (hs : hset H) (w : W)
  : res (bool * W) :=
  fold_res (fun h (p : bool * W) =>
              if negb (raw && rm h) then if fst p then Ok p else m h (snd p) else Ok p) hs (false, w).

End Hooks.
Arguments KNew {H}. Arguments KCopy {H}. Arguments KAdd {H}. Arguments KDiscard {H}.
