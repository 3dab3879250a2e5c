(** Image data that was read is not kept: writing copies it from the file it was read from, opened
    again by its name (nitf_image.py:66-70, 73-87, 135-136, 189-203).  Here an image says where its data is, and
    writing looks at what the files hold at that time; in File.v ([DFile]) they are taken to be
    unchanged. *)
From Verif Require Import Base BaseLemmas Engine OpenFile Utf8 Tre Handles TrePlace Security Image DescsHdr File.
Open Scope list_scope.

(** [fh_in_name], [data_start] and [_data_size] or [data_size] of the data of an image
    (nitf_image.py:66-70, 135-136, 186); names of files are numbers. *)
Record source := { so_name : nat; so_start : nat; so_size : Z }.

(** [buffer_size] (nitf_image.py:76, 192). *)
Definition buffer_size : Z := 1024 * 1024.
(** [while(bytes_left > 0)] (nitf_image.py:79-87, 195-203) with the rest of the file; [n] bounds the
    number of rounds, reading at the end of the file gives nothing. *)
Fixpoint copy_loop (n : nat) (left : Z) (rest : list N) : list N :=
  match n with
  | O => []
  | S n' =>
      if (left >? 0)%Z then
        let m := Z.to_nat (if (left <? buffer_size)%Z then left else buffer_size) in
        firstn m rest ++ copy_loop n' (left - buffer_size) (skipn m rest)
      else []
  end.
(** nitf_image.py:73-87, 189-203, with the contents of the file [fh_in_name]; [left / buffer_size + 1]
    rounds are enough. *)
Definition copied (r : source) (c : list N) : list N :=
  copy_loop (Z.to_nat (so_size r / buffer_size + 1)) (so_size r) (skipn (so_start r) c).

Section InPlace.
Variable FO : FloatOps.
Notation state := (state FO).
Notation seg := (seg FO).
Notation nfile := (nfile FO).

(** [see w nm]: what is found in the file [nm] when the bytes [w] have been written ([None]: it cannot be
    opened).  [src i]: where the data of image [i] is, if it was read. *)
Section Writing.
Variable see : list N -> nat -> option (list N).
Variable src : nat -> option source.

(** [NitfSegment.write_to_file] (nitf_segment.py:210-241) of an image, as [File.seg_write] except for data
    that was read. *)
Definition image_copy (E : env) (i : nat) (s : seg) (hs : state) (file : list N) : res (seg * state * list N) :=
  do c <- (if s_linked FO s then ush_cls FO E KImage (s_hdr FO s) else Ok None);
  do _ <- (match c, s_ush FO s with
           | None, _ => Ok tt
           | Some c, Some u => if String.eqb (uc_name c) (uc_name (us_cls FO u)) then Ok tt else Err ERuntime
           | Some _, None => Err ERuntime
           end);
  do h <- put_ush FO KImage s;
  do b <- write FO (mk_fs (sub_rows KImage)) (h_st h);
  do d <- (match (match src i with
                  | None => data_bytes FO h (s_data FO s)
                  | Some r => match see (file ++ b) (so_name r) with Some c => Ok (copied r c) | None => Err ERuntime end
                  end) with Ok d => Ok d | Err _ => Err ERuntime end);
  let file1 := file ++ b ++ d in
  let s' := with_hdr FO s h in
  if s_linked FO s then
    let fs := mk_fs desc_NitfFileHeader in
    match update_field FO fs hs file1 (fst (size_names KImage)) [Z.of_nat i] (SVal (VInt (Z.of_nat (List.length b)))) with
    | (_, Err e) => Err e
    | (hs1, Ok file2) =>
        match update_field FO fs hs1 file2 (snd (size_names KImage)) [Z.of_nat i] (SVal (VInt (Z.of_nat (List.length d)))) with
        | (_, Err e) => Err e
        | (hs2, Ok file3) => Ok (s', hs2, file3)
        end
    end
  else Ok (s', hs, file1).
(** nitf_file.py:215-218 for the images. *)
Fixpoint images_copy (E : env) (i : nat) (l : list seg) (hs : state) (file : list N) : res (list seg * state * list N) :=
  match l with
  | [] => Ok ([], hs, file)
  | s :: l' =>
      do (s', hs1, file1) <- image_copy E i s hs file;
      do (r, hs2, file2) <- images_copy E (S i) l' hs1 file1;
      Ok (s' :: r, hs2, file2)
  end.
(** [NitfFile.write] (nitf_file.py:191-226), as [File.file_write] with [images_copy] for the images. *)
Definition file_copy (E : env) (f : nfile) : res (nfile * list N) :=
  do (h1, g) <- prepare_file FO f;
  let fs := mk_fs desc_NitfFileHeader in
  do (s1, file1) <- write_file FO fs (h_st h1) [];
  match update_field FO fs s1 file1 "hl" [] (SVal (VInt (Z.of_nat (List.length file1)))) with
  | (_, Err e) => Err e
  | (s2, Ok file2) =>
      do (im, s3, file3) <- images_copy E 0 (g KImage) s2 file2;
      do (gr, s4, file4) <- segs_write FO E KGraphic 0 (g KGraphic) s3 file3;
      do (tx, s5, file5) <- segs_write FO E KText 0 (g KText) s4 file4;
      do (de, s6, file6) <- segs_write FO E KDes 0 (g KDes) s5 file5;
      do (rs, s7, file7) <- segs_write FO E KRes 0 (g KRes) s6 file6;
      match update_field FO fs s7 file7 "fl" [] (SVal (VInt (Z.of_nat (List.length file7)))) with
      | (_, Err e) => Err e
      | (s8, Ok file8) =>
          do de' <- drop_overflow FO de;
          let g' := fun k => match k with KImage => im | KGraphic => gr | KText => tx | KDes => de' | KRes => rs end in
          Ok ({| nf_hdr := {| h_st := s8; h_attr := h_attr h1 |}; nf_tres := nf_tres FO f; nf_segs := g';
                 nf_refs := fun k => if kind_eqb k KDes then true else nf_refs FO f k |}, file8)
      end
  end.
End Writing.

(** What another handle finds while the file [t] is being written: [open(file_name, 'w+b')] made it empty
    (nitf_file.py:199), and of the bytes [w] written since, [flushed w] have left the buffer.  The other
    files are as on the disk. *)
Definition seen (disk : nat -> option (list N)) (t : nat) (flushed : list N -> list N) (w : list N) (nm : nat)
  : option (list N) := if Nat.eqb nm t then Some (flushed w) else disk nm.
(** [f.write(t)] with the files on the disk (nitf_file.py:191-226). *)
Definition write_to (E : env) (f : nfile) (src : nat -> option source) (disk : nat -> option (list N)) (t : nat)
    (flushed : list N -> list N) : res (nfile * (nat -> option (list N))) :=
  do (f', b) <- file_copy (seen disk t flushed) src E f;
  Ok (f', fun nm => if Nat.eqb nm t then Some b else disk nm).

End InPlace.
