(** Well-formed field tables: what a table must satisfy for the generic theorems.
    This is a checkable condition; [Descs*.v] are shown to satisfy it in [P_Descs.v]. *)
From Verif Require Import Base Engine.
Open Scope list_scope.

(** Fields named in an expression, with the number of indices used. *)
Fixpoint expr_refs (e : expr) : list (string * nat) :=
  match e with
  | EInt _ | EStr _ => []
  | EFld nm m => [(nm, m)]
  | EAdd a b | ESub a b | EMul a b | EFloorDiv a b | EHalfMul a b | EBitAnd a b
  | ECmp _ a b | EAnd a b => expr_refs a ++ expr_refs b
  | EIn _ a l => expr_refs a ++ flat_map expr_refs l
  | EIf c a b => expr_refs c ++ expr_refs a ++ expr_refs b
  | EIntOf a | ERstrip a => expr_refs a
  end.

Definition opt_refs (o : option expr) : list (string * nat) :=
  match o with None => [] | Some e => expr_refs e end.
Definition size_refs (s : fsize) : list (string * nat) :=
  match s with SzInt _ => [] | SzExpr e => expr_refs e end.

(** References of a field's own condition, size and value. *)
Definition own_refs (f : field) : list (string * nat) :=
  opt_refs (fd_cond (f_d f)) ++ size_refs (fd_size (f_d f)) ++ opt_refs (fd_value (f_d f)).

(** References of the count of the innermost loop around a field. *)
Definition shape_refs (f : field) : list (string * nat) :=
  match f_loops f with [] => [] | sh0 :: shs => expr_refs (last shs sh0) end.

(** A field whose value survives text formatting exactly. *)
Definition exact_ty (t : fty) : bool :=
  match t with TFloat | TData KFloat | TData KExt => false | _ => true end.
Definition exact (f : field) : bool := negb (fd_optional (f_d f)) && exact_ty (fd_ty (f_d f)).

(** A reference resolves to an exact field of the scope [env], fully indexed with (a prefix
    of) the [d] indices available. *)
Definition ref_ok (fs : fstruct) (env : list field) (d : nat) (r : string * nat) : bool :=
  match lookup fs (fst r) with
  | Some f => existsb (fun y => Nat.eqb (f_id y) (f_id f)) env && Nat.eqb (depth f) (snd r)
              && (snd r <=? d)%nat && exact f
  | None => false
  end.

Definition is_bytes_ty (t : fty) : bool := match t with TBytes | TData _ => true | _ => false end.

Definition field_ok (fs : fstruct) (env : list field) (d : nat) (f : field) : bool :=
  Nat.eqb (depth f) d
  && forallb (ref_ok fs env d) (own_refs f)
  && forallb (ref_ok fs env (d - 1)) (shape_refs f)
  && ((fd_optchar (f_d f) =? 32) || (fd_optchar (f_d f) =? 45))%N
  && negb (fd_optional (f_d f) && is_bytes_ty (fd_ty (f_d f)))
  && match fd_name (f_d f), fd_ty (f_d f), fd_frmt (f_d f) with
     | None, TStr, FrNone => true | None, _, _ => false | _, _, _ => true end.

(** Scope check: a field may refer to the fields before it at its own level or before an
    enclosing loop. *)
Fixpoint item_ok (fs : fstruct) (env : list field) (d : nat) (it : item) : bool :=
  match it with
  | IField f => field_ok fs env d f
  | ILoop sh its =>
      forallb (ref_ok fs env d) (expr_refs sh)
      && (fix go env its :=
            match its with
            | [] => true
            | it :: its' => item_ok fs env (S d) it
                            && go (match it with IField f => env ++ [f] | ILoop _ _ => env end) its'
            end) env its
  end.

Definition env_after (env : list field) (it : item) : list field :=
  match it with IField f => env ++ [f] | ILoop _ _ => env end.

Fixpoint items_ok (fs : fstruct) (env : list field) (d : nat) (its : list item) : bool :=
  match its with
  | [] => true
  | it :: its' => item_ok fs env d it && items_ok fs (env_after env it) d its'
  end.

(** The condition on a table. *)
Definition wf_rows (rows : list row) : bool :=
  let fs := mk_fs rows in items_ok fs [] 0 (fs_items fs).
