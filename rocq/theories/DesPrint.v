(** A DES of fields as an object: reading, writing and printing it (nitf_des.py:14-109).  Classes
    with [des_implementation_field] are in DesImpl.v; no shipped class has one, or overrides
    [str_hook]. *)
From Verif Require Import Base Engine File Tre Listing.
From Coq Require Import ZifyBool ZifyNat ZifyN.
Open Scope list_scope.

Section DesPrint.
Variable FO : FloatOps.

(** The object: its class, [subheader.desid], [_seg().data_size] if it was made for a segment
    being read ([_seg] stays None for one made by the program), the fields,
    [data_after_tre_size] and [data_to_copy].  [data_start] is only written, never used.
    (nitf_des.py:32-37; nitf_segment_data_handle.py:45-56.) *)
Record fdes := { fd_cls : dcls; fd_id : list N; fd_seg : option Z; fd_st : state FO;
                 fd_left : option Z; fd_copy : option (list N) }.
(** nitf_des.py:32-37 ([__init__]). *)
Definition fd_new (c : dcls) (id : list N) (seg : option Z) : fdes :=
  {| fd_cls := c; fd_id := id; fd_seg := seg; fd_st := init_state FO; fd_left := None; fd_copy := None |}.

(** What reading changes (nitf_des.py:48-60). *)
Definition fd_put (d : fdes) (s : state FO) (left : Z) (copy : option (list N)) : fdes :=
  {| fd_cls := fd_cls d; fd_id := fd_id d; fd_seg := fd_seg d; fd_st := s; fd_left := Some left; fd_copy := copy |}.

(** nitf_des.py:39-61 ([read_from_file]) at position [pos]: the answer, the object and the
    position afterwards.  The partial effects of a failure are not modelled. *)
Definition fd_read (d : fdes) (file : list N) (pos : nat) : res (bool * fdes * nat) :=
  if negb (list_eqb (fd_id d) (dc_tag (fd_cls d))) then Ok (false, d, pos)
  else
    let inp := skipn pos file in
    do (s, rest) <- read FO (mk_fs (dc_rows (fd_cls d))) false (fd_st d) inp;
    let used := (List.length inp - List.length rest)%nat in
    let left := match fd_seg d with Some n => (n - Z.of_nat used)%Z | None => 0%Z end in
    let p := (pos + used)%nat in
    if (left =? 0)%Z then Ok (true, fd_put d s left (fd_copy d), p)
    else if negb (dc_after (fd_cls d)) then Err ERuntime
    else if dc_copy (fd_cls d) then
      let '(b, p') := take_at left file p in Ok (true, fd_put d s left (Some b), p')
    else do p' <- seek_by left p; Ok (true, fd_put d s left (fd_copy d), p').

(** nitf_des.py:63-69 ([write_to_file]). *)
Definition fd_write (d : fdes) : res (list N) :=
  do b <- write FO (mk_fs (dc_rows (fd_cls d))) (fd_st d);
  Ok (b ++ match fd_copy d with Some x => x | None => [] end).

(** nitf_des.py:104-109 ([update_raw_field]): write, and read what was written back into the
    same object. *)
Definition fd_update (d : fdes) : res fdes :=
  do b <- fd_write d;
  do (_, d', _) <- fd_read d b 0;
  Ok d'.

(** As in Listing.v: text of values of classes defined with a table, source of loop counts
    (nitf_field.py:203-209, 669). *)
Variable ext : field -> list N -> res (list N).
Variable source : expr -> list N.

(** nitf_des.py:91-93. *)
Definition left_text (left : option Z) : list N :=
  match left with
  | Some n => if (n =? 0)%Z then [] else str "Extra data of length " ++ str_of_Z n ++ [10%N]
  | None => []
  end.

(** nitf_des.py:78-94 ([__str__]): the object afterwards and the text; [ush] is the user
    subheader (its table and fields), if there is one. *)
Definition fd_print (ush : option (list row * state FO)) (d : fdes) : res (fdes * list N) :=
  do d' <- fd_update d;
  do u <- match ush with
          | Some (rows, s) => do t <- print FO ext source (mk_fs rows) s;
                              Ok (str "User-Defined Subheader: " ++ [10%N] ++ t ++ [10%N])
          | None => Ok []
          end;
  do t <- print FO ext source (mk_fs (dc_rows (fd_cls d'))) (fd_st d');
  Ok (d', u ++ t ++ [10%N] ++ left_text (fd_left d')).
End DesPrint.
Arguments fd_cls {FO}. Arguments fd_id {FO}. Arguments fd_seg {FO}. Arguments fd_st {FO}.
Arguments fd_left {FO}. Arguments fd_copy {FO}.
