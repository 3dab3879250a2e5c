(** A segment that is in two files: the link a segment keeps is to the file it was appended to last
    (nitf_file.py:20-30), and writing uses that link (nitf_segment.py:180-185, 210-241). *)
From Verif Require Import Base BaseLemmas Engine OpenFile Utf8 Tre Handles TrePlace Security Image DescsHdr File.
Open Scope list_scope.

Section TwoFiles.
Variable FO : FloatOps.
Notation state := (state FO).
Notation seg := (seg FO).
Notation nfile := (nfile FO).

(** [self.nitf_file.file_header.update_field(fh, ...)] twice (nitf_segment.py:180-185), on the header
    given. *)
Definition update_sizes (k : kind) (i : nat) (nb nd : nat) (p : state * fhandle) : res (state * fhandle) :=
  let fs := mk_fs desc_NitfFileHeader in
  match fh_update FO fs (fst (size_names k)) [Z.of_nat i] (SVal (VInt (Z.of_nat nb))) p with
  | (_, Err e) => Err e
  | (p1, Ok _) =>
      match fh_update FO fs (snd (size_names k)) [Z.of_nat i] (SVal (VInt (Z.of_nat nd))) p1 with
      | (_, Err e) => Err e
      | (p2, Ok _) => Ok p2
      end
  end.

(** [NitfSegment.write_to_file] (nitf_segment.py:210-241) at the position of the file.  [hs] is the
    header of the file being written, [ho] that of another file; [o] says that [nitf_file] is the other
    file, [Eo] is what is registered there.  [s_linked] is false if there is no link or the file linked to
    is gone ([self._nitf_file()] is None, nitf_segment.py:98-101).  As in [File.seg_write], the
    positions of the fields of the subheader are not kept, and what a failure leaves is not
    modelled. *)
Definition seg_fh (E Eo : env) (k : kind) (i : nat) (s : seg) (o : bool) (hs ho : state) (h : fhandle)
  : res (seg * (state * state) * fhandle) :=
  do c <- (if s_linked FO s then ush_cls FO (if o then Eo else E) k (s_hdr FO s) else Ok None);
  do _ <- (match c, s_ush FO s with
           | None, _ => Ok tt
           | Some c, Some u => if String.eqb (uc_name c) (uc_name (us_cls FO u)) then Ok tt else Err ERuntime
           | Some _, None => Err ERuntime
           end);
  do sh <- put_ush FO k s;
  do b <- write FO (mk_fs (sub_rows k)) (h_st sh);
  do d <- (match data_bytes FO sh (s_data FO s) with Ok d => Ok d | Err _ => Err ERuntime end);
  let h1 := fh_write (fh_write h b) d in
  let s' := with_hdr FO s sh in
  if s_linked FO s then
    do (x, h2) <- update_sizes k i (List.length b) (List.length d) (if o then ho else hs, h1);
    Ok (s', if o then (hs, x) else (x, ho), h2)
  else Ok (s', (hs, ho), h1).

(** nitf_file.py:215-218; [o i]: segment [i] is linked to the other file. *)
Fixpoint segs_fh (E Eo : env) (k : kind) (o : nat -> bool) (i : nat) (l : list seg) (hs ho : state) (h : fhandle)
  : res (list seg * (state * state) * fhandle) :=
  match l with
  | [] => Ok ([], (hs, ho), h)
  | s :: l' =>
      do (s', hh1, h1) <- seg_fh E Eo k i s (o i) hs ho h;
      do (r, hh2, h2) <- segs_fh E Eo k o (S i) l' (fst hh1) (snd hh1) h1;
      Ok (s' :: r, hh2, h2)
  end.

(** The segments of all kinds, in file order (nitf_file.py:217-218, 228-250). *)
Fixpoint kinds_fh (E Eo : env) (o : kind -> nat -> bool) (g : kind -> list seg) (ks : list kind) (hs ho : state) (h : fhandle)
  : res ((kind -> list seg) * (state * state) * fhandle) :=
  match ks with
  | [] => Ok (g, (hs, ho), h)
  | k :: ks' =>
      do (l, hh1, h1) <- segs_fh E Eo k (o k) 0 (g k) hs ho h;
      do (g', hh2, h2) <- kinds_fh E Eo o g ks' (fst hh1) (snd hh1) h1;
      Ok (put_segs FO g' k l, hh2, h2)
  end.

(** [NitfFile.write] (nitf_file.py:191-226) of a file some of whose segments ([o]) are linked to
    another file with header [ho]: the object afterwards, the header of the other file and the contents
    of the file. *)
Definition file_fh (E Eo : env) (f : nfile) (o : kind -> nat -> bool) (ho : state) : res (nfile * state * list N) :=
  do (h1, g) <- prepare_file FO f;
  let fs := mk_fs desc_NitfFileHeader in
  do (s1, file1) <- write_file FO fs (h_st h1) [];
  let n1 := List.length file1 in
  match fh_update FO fs "hl" [] (SVal (VInt (Z.of_nat n1))) (s1, {| fh_bytes := file1; fh_pos := n1 |}) with
  | (_, Err e) => Err e
  | ((s2, fh2), Ok _) =>
      do (g', hh, fh3) <- kinds_fh E Eo o g kinds s2 ho fh2;
      match fh_update FO fs "fl" [] (SVal (VInt (Z.of_nat (fh_pos fh3)))) (fst hh, fh3) with
      | (_, Err e) => Err e
      | ((s4, fh4), Ok _) =>
          do de' <- drop_overflow FO (g' KDes);
          Ok ({| nf_hdr := {| h_st := s4; h_attr := h_attr h1 |}; nf_tres := nf_tres FO f;
                 nf_segs := put_segs FO g' KDes de';
                 nf_refs := fun k => if kind_eqb k KDes then true else nf_refs FO f k |}, snd hh, fh_bytes fh4)
      end
  end.

End TwoFiles.
