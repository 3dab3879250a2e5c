(** DESs whose content is kept in an object of another library (nitf_des.py:25-109,
    [des_implementation_field] not None): the object reads and writes the data of the segment, the
    fields are a view of the bytes as of the last [update_raw_field].  The partial effects of a failed
    reading of the fields are not modelled (as in DesPrint.v); [subheader.desid] is not changed after
    the object was made. *)
From Verif Require Import Base BaseLemmas Engine Delayed Tre File Listing DesPrint.
From Coq Require Import ZifyBool ZifyNat ZifyN.
Open Scope list_scope.

(** A class with [des_implementation_field] and [des_implementation_class] set (nitf_des.py:25-29):
    tag, fields and what may follow them; the functions asked of the object and its class belong to
    another library and are arbitrary here: [des_write(fh)] appends bytes, [des_read(fh)] makes an
    object from an open file and leaves the file somewhere, [str] prints it. *)
Record dicls (O : Type) := {
  di_cls : dcls;
  di_write : O -> res (list N);
  di_read : list N -> nat -> res (O * nat);
  di_show : O -> res (list N);
}.
Arguments di_cls {O}. Arguments di_write {O}. Arguments di_read {O}. Arguments di_show {O}.

Section Impl.
Variable FO : FloatOps.
Variable O : Type.
Variable c : dicls O.
Notation fdes := (fdes FO).

(** A DES object: the attribute named by [des_implementation_field], once assigned, and the fields
    (nitf_des.py:32-45). *)
Record xdes := { x_obj : option O; x_d : fdes }.

(** [__init__] (nitf_des.py:32-37): for a segment with identifier [id] and, when it is being read,
    its data size. *)
Definition x_new (id : list N) (seg : option Z) : xdes := {| x_obj := None; x_d := fd_new FO (di_cls c) id seg |}.

(** The fields of the class (nitf_des.py:14). *)
Definition x_fs : fstruct := mk_fs (dc_rows (di_cls c)).

(** [x.<des_implementation_field> = o], or the object changed in place (nitf_des.py:43-44). *)
Definition x_put (x : xdes) (o : O) : xdes := {| x_obj := Some o; x_d := x_d x |}.

(** [write_to_file] (nitf_des.py:63-65); without the attribute python asks [__getattr__], which raises
    (nitf_field.py:835-845). *)
Definition x_write (x : xdes) : res (list N) :=
  match x_obj x with None => Err EAttr | Some o => di_write c o end.

(** [update_raw_field] (nitf_des.py:104-109): the object is written, and what it wrote is read into
    the fields (nitf_des.py:39-41, 47-61). *)
Definition x_update (x : xdes) : xdes * res unit :=
  match x_write x with
  | Err e => (x, Err e)
  | Ok b => match fd_read FO (x_d x) b 0 with
            | Ok (_, d, _) => ({| x_obj := x_obj x; x_d := d |}, Ok tt)
            | Err e => (x, Err e)
            end
  end.

(** [read_from_file] (nitf_des.py:39-46): the answer and the position in the file afterwards. *)
Definition x_read (x : xdes) (file : list N) (pos : nat) : xdes * res (bool * nat) :=
  if negb (list_eqb (fd_id (x_d x)) (dc_tag (di_cls c))) then (x, Ok (false, pos))
  else match di_read c file pos with
       | Err e => (x, Err e)
       | Ok (o, p) => match x_update (x_put x o) with
                      | (x', Ok _) => (x', Ok (true, p))
                      | (x', Err e) => (x', Err e)
                      end
       end.

(** As in Listing.v (nitf_field.py:203-209, 669). *)
Variable ext : field -> list N -> res (list N).
Variable source : expr -> list N.

(** [__str__] (nitf_des.py:78-102); [raw] is [nitf_file.report_raw] of the file the segment is in,
    [ush] the user subheader. *)
Definition x_print (raw : bool) (ush : option (list row * state FO)) (x : xdes) : xdes * res (list N) :=
  let user := match ush with
              | Some (rows, s) => do t <- print FO ext source (mk_fs rows) s;
                                  Ok (str "User-Defined Subheader: " ++ [10%N] ++ t ++ [10%N])
              | None => Ok []
              end in
  if raw then
    match x_update x with
    | (x', Err e) => (x', Err e)
    | (x', Ok _) => (x', do u <- user;
                         do t <- print FO ext source x_fs (fd_st (x_d x'));
                         Ok (u ++ t ++ [10%N] ++ left_text (fd_left (x_d x'))))
    end
  else
    (x, do u <- user;
        do t <- match x_obj x with None => Err EAttr | Some o => di_show c o end;
        Ok (u ++ str "Object associated with DES:" ++ [10%N] ++ t ++ [10%N])).

(** What a client does with the DES (nitf_des.py:39-109, nitf_field.py:835-863). *)
Inductive xop :=
| XGet (nm : string) (k : list Z)
| XSet (nm : string) (k : list Z) (v : sval FO)
| XRaw (nm : string) (k : list Z)
| XWrite
| XPut (o : O)
| XUpdate
| XRead (file : list N) (pos : nat)
| XPrint (raw : bool) (ush : option (list row * state FO)).
(** What it sees (nitf_des.py:39-109). *)
Inductive xobs := XSee (o : obs FO) | XBytes (r : res (list N)) | XDone (r : res unit) | XAns (r : res (bool * nat)).

(** The fields replaced; helper for [__setattr__] (nitf_field.py:856-863). *)
Definition with_fields (x : xdes) (s : state FO) : xdes :=
  {| x_obj := x_obj x;
     x_d := {| fd_cls := fd_cls (x_d x); fd_id := fd_id (x_d x); fd_seg := fd_seg (x_d x); fd_st := s;
               fd_left := fd_left (x_d x); fd_copy := fd_copy (x_d x) |} |}.

(** nitf_des.py:39-109, nitf_field.py:835-863.  Assigning a field asks only whether the structure is a
    TRE with an implementation object (nitf_field.py:294-296), which a DES is not. *)
Definition xstep (x : xdes) (o : xop) : xdes * xobs :=
  let on_fields p := let '(s, r) := step FO x_fs (fd_st (x_d x)) p in (with_fields x s, XSee r) in
  match o with
  | XGet nm k => on_fields (OGet FO nm k)
  | XSet nm k v => on_fields (OSet FO nm k v)
  | XRaw nm k => on_fields (ORaw FO nm k)
  | XWrite => (x, XBytes (x_write x))
  | XPut o => (x_put x o, XDone (Ok tt))
  | XUpdate => let '(x', r) := x_update x in (x', XDone r)
  | XRead file pos => let '(x', r) := x_read x file pos in (x', XAns r)
  | XPrint raw ush => let '(x', r) := x_print raw ush x in (x', XBytes r)
  end.

(** A client's calls one after the other (nitf_des.py:39-109). *)
Fixpoint xsteps (x : xdes) (os : list xop) : xdes :=
  match os with [] => x | o :: os' => xsteps (fst (xstep x o)) os' end.
End Impl.
