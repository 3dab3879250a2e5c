(** TREs whose content is kept in an object of another library (nitf_tre.py:28-110,
    [tre_implementation_field] not None): the object gives and takes the bytes of the record, the
    fields are a view of the bytes as of the last [update_raw_field]. *)
From Verif Require Import Base BaseLemmas Engine Wf EngineLemmas Delayed Utf8 Tre.
From Coq Require Import ZifyBool ZifyNat ZifyN.
Open Scope list_scope.

(** What [tre_string()] of the object returns: bytes, or text still to be encoded
    (nitf_tre.py:38-42). *)
Inductive tstr := TsBytes (b : list N) | TsText (t : list N).

(** A class with [tre_implementation_field] and [tre_implementation_class] set
    (nitf_tre.py:30-31): tag, fields, and the two functions asked of the object's class, which
    belong to another library and are arbitrary here. *)
Record icls (O : Type) := {
  ic_tag : list N; ic_rows : list row;
  ic_string : O -> tstr;                (* tre_string() *)
  ic_read : list N -> res O;            (* read_tre_string(t), t text *)
}.
Arguments ic_tag {O}. Arguments ic_rows {O}. Arguments ic_string {O}. Arguments ic_read {O}.

Section Impl.
Variable FO : FloatOps.
Variable O : Type.
Variable c : icls O.
Notation state := (state FO).
Notation dstate := (dstate FO).

(** nitf_tre.py:28; the fields of the class. *)
Definition ic_fs : fstruct := mk_fs (ic_rows c).

(** A TRE object: the attribute named by [tre_implementation_field], once assigned, and the
    fields with a delayed read that may be pending (nitf_tre.py:49-53, nitf_field.py:802-804). *)
Record istate := { i_obj : option O; i_d : dstate }.

(** A new object (nitf_field.py:788-817): no attribute yet, [tre_implementation_field] not None. *)
Definition i_new : istate :=
  {| i_obj := None;
     i_d := {| ds_st := {| st_val := st_val FO (init_state FO); st_raw := st_raw FO (init_state FO);
                           st_loc := st_loc FO (init_state FO); st_impl := true |};
               ds_pending := None |} |}.

(** [tre_bytes] (nitf_tre.py:36-42).  Without the attribute python asks [__getattr__], which
    raises (nitf_field.py:841-845; that it first does a pending read is not kept: without the
    attribute none is pending, nitf_tre.py:106-109). *)
Definition i_bytes (x : istate) : res (list N) :=
  match i_obj x with
  | None => Err EAttr
  | Some o => match ic_string c o with
              | TsBytes b => Ok b
              | TsText t => match utf8_enc t with Some b => Ok b | None => Err EValue end
              end
  end.

(** [write_to_file] (nitf_tre.py:73-80). *)
Definition i_write (x : istate) : res (list N) :=
  match utf8_enc (ljust 6 (ic_tag c)) with
  | None => Err EValue
  | Some tag =>
      do b <- i_bytes x;
      if (99999 <? Z.of_nat (List.length b))%Z then Err ERuntime
      else Ok (tag ++ len5 (List.length b) ++ b)
  end.

(** [update_raw_field] (nitf_tre.py:106-109, nitf_field.py:927-931): the bytes are kept, to be
    read when a field is first asked for. *)
Definition i_update (x : istate) : istate * res unit :=
  match i_bytes x with
  | Err e => (x, Err e)
  | Ok b => ({| i_obj := i_obj x; i_d := {| ds_st := ds_st FO (i_d x); ds_pending := Some (false, b) |} |}, Ok tt)
  end.

(** [x.<tre_implementation_field> = o], or the object changed in place (nitf_tre.py:53). *)
Definition i_put (x : istate) (o : O) : istate := {| i_obj := Some o; i_d := i_d x |}.

(** [read_from_tre_bytes] (nitf_tre.py:47-54); [nitf_literal] is not looked at. *)
Definition i_read_bytes (x : istate) (bt : list N) : istate * res unit :=
  match utf8_dec bt with
  | None => (x, Err EValue)
  | Some t => match ic_read c t with
              | Err e => (x, Err e)
              | Ok o => i_update (i_put x o)
              end
  end.

(** [read_from_file] (nitf_tre.py:58-64): what is left of the file.  [fh.read(cel)] may return
    fewer bytes and nothing is compared afterwards. *)
Definition i_read (x : istate) (inp : list N) : istate * res (list N) :=
  match read_tag inp with
  | Err e => (x, Err e)
  | Ok (tag, i1) =>
      if negb (list_eqb tag (ic_tag c)) then (x, Err ERuntime)
      else match read_cel i1 with
           | Err e => (x, Err e)
           | Ok (cel, i2) =>
               let '(b, i3) := fread cel i2 in
               match i_read_bytes x b with
               | (x', Ok _) => (x', Ok i3)
               | (x', Err e) => (x', Err e)
               end
           end
  end.

(** What a client does with the TRE. (nitf_tre.py:36-109, nitf_field.py:835-863.) *)
Inductive iop :=
| IGet (nm : string) (k : list Z)
| ISet (nm : string) (k : list Z) (v : sval FO)
| IRaw (nm : string) (k : list Z)
| IWrite
| IPut (o : O)
| IUpdate
| IReadBytes (bt : list N)
| IRead (inp : list N).
(** What it sees. (nitf_tre.py:36-109, nitf_field.py:835-863.) *)
Inductive iobs := ISee (x : obs FO) | IBytes (r : res (list N)) | IDone (r : res unit).

(** nitf_tre.py:36-109, nitf_field.py:835-863. *)
Definition istep (x : istate) (o : iop) : istate * iobs :=
  let on_fields p := let '(d, s) := dstep FO ic_fs true (i_d x) p in ({| i_obj := i_obj x; i_d := d |}, ISee s) in
  match o with
  | IGet nm k => on_fields (OGet FO nm k)
  | ISet nm k v => on_fields (OSet FO nm k v)
  | IRaw nm k => on_fields (ORaw FO nm k)
  | IWrite => (x, IBytes (i_write x))
  | IPut o => (i_put x o, IDone (Ok tt))
  | IUpdate => let '(x', r) := i_update x in (x', IDone r)
  | IReadBytes bt => let '(x', r) := i_read_bytes x bt in (x', IDone r)
  | IRead inp => let '(x', r) := i_read x inp in (x', IBytes r)
  end.

(** A client's calls one after the other. (nitf_tre.py:36-109.) *)
Fixpoint isteps (x : istate) (os : list iop) : istate :=
  match os with [] => x | o :: os' => isteps (fst (istep x o)) os' end.

End Impl.
