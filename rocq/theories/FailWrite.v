(** What writing a file leaves in the object when it fails (nitf_file.py:191-226): in File.v only the
    outcome of a write that succeeds is given. *)
From Verif Require Import Base BaseLemmas Engine OpenFile Utf8 Tre Handles TrePlace Security Image DescsHdr File.
Open Scope list_scope.

Section FailWrite.
Variable FO : FloatOps.
Notation state := (state FO).
Notation hdr := (hdr FO).
Notation seg := (seg FO).
Notation nfile := (nfile FO).

(** The header of the segment made for the TREs that do not fit (nitf_tre.py:227-228). *)
Definition overflow_hdr (rows : list row) (h : hdr) (prefix : string) (o : over) : res hdr :=
  do sec <- get_security FO rows h prefix;
  match overflow_seg FO o sec with (_, Err e) => Err e | (dh, Ok _) => Ok dh end.

(** [prepare_tre_write] (nitf_tre.py:185-231): the header and the list of DES afterwards.  The segment is
    appended before the overflow number is set.  As in [File.prep], the security is read after that. *)
Definition prep_left (rows : list row) (areas : list tarea) (prefix : string) (idx : nat) (h : hdr) (ts : list (tre FO))
    (des : list seg) : (hdr * list seg) * res unit :=
  match place FO ts (map (fun _ => []) areas) [] with
  | Err e => ((h, des), Err e)
  | Ok (heads, over) =>
      let '(h1, r1) := store_areas FO rows h areas heads in
      match r1 with
      | Err e => ((h1, des), Err e)
      | Ok _ =>
          match over with
          | [] => ((h1, des), Ok tt)
          | _ =>
              match areas with
              | [] => ((h1, des), Err EIndex)
              | a :: _ =>
                  let o := {| ov_oflw := map upper_char (str (ta_data a)); ov_item := (Z.of_nat idx + 1)%Z; ov_data := over |} in
                  let '(h2, r2) := hset FO rows h1 (ta_ofl a) (VInt (Z.of_nat (S (List.length des)))) in
                  match overflow_hdr rows h2 prefix o with
                  | Err e => ((h1, des), Err e)
                  | Ok dh => ((h2, des ++ [{| s_hdr := dh; s_ush := None; s_tres := [];
                                             s_data := DBytes FO (Some over); s_linked := true |}]), r2)
                  end
              end
          end
      end
  end.

(** [seg.prepare_tre_write(i, self.des_segment)] over the segments of a kind
    (nitf_file.py:204-205, nitf_segment.py:155-164). *)
Fixpoint prep_segs_left (k : kind) (i : nat) (l : list seg) (des : list seg) : (list seg * list seg) * res unit :=
  match l with
  | [] => (([], des), Ok tt)
  | s :: l' =>
      let '((h, des1), r1) := prep_left (sub_rows k) (sub_areas k) (sec_prefix k) i (s_hdr FO s) (s_tres FO s) des in
      match r1 with
      | Err e => ((with_hdr FO s h :: l', des1), Err e)
      | Ok _ => let '((r, des2), r2) := prep_segs_left k (S i) l' des1 in ((with_hdr FO s h :: r, des2), r2)
      end
  end.
(** The loop over the segments (nitf_file.py:204-205, 228-250) for the kinds that have TREs; the others do
    nothing (nitf_segment.py:155-164). *)
Fixpoint prep_kinds_left (ks : list kind) (g : kind -> list seg) : (kind -> list seg) * res unit :=
  match ks with
  | [] => (g, Ok tt)
  | k :: ks' =>
      let '((l, des), r) := prep_segs_left k 0 (g k) (g KDes) in
      let g1 := put_segs FO (put_segs FO g KDes des) k l in
      match r with Err e => (g1, Err e) | Ok _ => prep_kinds_left ks' g1 end
  end.
(** nitf_file.py:200-210. *)
Definition prepare_left (h : hdr) (ts : list (tre FO)) (g : kind -> list seg) : (hdr * (kind -> list seg)) * res unit :=
  let '((h0, des), r0) := prep_left desc_NitfFileHeader file_areas "fs" 0 h ts (g KDes) in
  let g0 := put_segs FO g KDes des in
  match r0 with
  | Err e => ((h0, g0), Err e)
  | Ok _ =>
      let '(g1, r1) := prep_kinds_left [KImage; KGraphic; KText] g0 in
      match r1 with
      | Err e => ((h0, g1), Err e)
      | Ok _ =>
          let '(h1, r2) := steps FO (map (fun k h => hset FO desc_NitfFileHeader h (count_name k) (VInt (Z.of_nat (List.length (g1 k))))) kinds) h0 in
          ((h1, g1), r2)
      end
  end.

(** [NitfSegment.write_to_file] (nitf_segment.py:201-241): the segment and the file header afterwards, and the
    contents of the file.  What a failing write has put into the file is not modelled. *)
Definition seg_left (E : env) (k : kind) (i : nat) (s : seg) (hs : state) (file : list N) : (seg * state) * res (list N) :=
  match (do c <- (if s_linked FO s then ush_cls FO E k (s_hdr FO s) else Ok None);
         do _ <- (match c, s_ush FO s with
                  | None, _ => Ok tt
                  | Some c, Some u => if String.eqb (uc_name c) (uc_name (us_cls FO u)) then Ok tt else Err ERuntime
                  | Some _, None => Err ERuntime
                  end);
         match s_ush FO s with
         | Some u => do b <- write FO (mk_fs (uc_rows (us_cls FO u))) (us_st FO u); Ok (VBytes b)
         | None => Ok (VStr [])
         end) with
  | Err e => ((s, hs), Err e)
  | Ok v =>
      let '(h, r) := hset FO (sub_rows k) (s_hdr FO s) (ush_name k) v in
      let s' := with_hdr FO s h in
      match (do _ <- r; do b <- write FO (mk_fs (sub_rows k)) (h_st h);
             do d <- (match data_bytes FO h (s_data FO s) with Ok d => Ok d | Err _ => Err ERuntime end); Ok (b, d)) with
      | Err e => ((s', hs), Err e)
      | Ok (b, d) =>
          let file1 := file ++ b ++ d in
          if s_linked FO s then
            let fs := mk_fs desc_NitfFileHeader in
            match update_field FO fs hs file1 (fst (size_names k)) [Z.of_nat i] (SVal (VInt (Z.of_nat (List.length b)))) with
            | (hs1, Err e) => ((s', hs1), Err e)
            | (hs1, Ok file2) =>
                let '(hs2, r2) := update_field FO fs hs1 file2 (snd (size_names k)) [Z.of_nat i] (SVal (VInt (Z.of_nat (List.length d)))) in
                ((s', hs2), r2)
            end
          else ((s', hs), Ok file1)
      end
  end.
(** nitf_file.py:215-218. *)
Fixpoint segs_left (E : env) (k : kind) (i : nat) (l : list seg) (hs : state) (file : list N) : (list seg * state) * res (list N) :=
  match l with
  | [] => (([], hs), Ok file)
  | s :: l' =>
      match seg_left E k i s hs file with
      | ((s', hs1), Err e) => ((s' :: l', hs1), Err e)
      | ((s', hs1), Ok file1) => let '((r, hs2), o) := segs_left E k (S i) l' hs1 file1 in ((s' :: r, hs2), o)
      end
  end.
(** The five calls (nitf_file.py:215-218). *)
Fixpoint kinds_left (E : env) (ks : list kind) (g : kind -> list seg) (hs : state) (file : list N)
  : ((kind -> list seg) * state) * res (list N) :=
  match ks with
  | [] => ((g, hs), Ok file)
  | k :: ks' =>
      match segs_left E k 0 (g k) hs file with
      | ((l, hs1), Err e) => ((put_segs FO g k l, hs1), Err e)
      | ((l, hs1), Ok file1) => kinds_left E ks' (put_segs FO g k l) hs1 file1
      end
  end.

(** [NitfFile.write] (nitf_file.py:191-226): the object afterwards, whether the file was opened (and so
    emptied, nitf_file.py:199), and the contents of the file if all went well.  If the header cannot be
    written, the positions of its fields are taken to be as before; hooks are not modelled. *)
Definition write_left (E : env) (f : nfile) : nfile * bool * res (list N) :=
  let file h g := {| nf_hdr := h; nf_tres := nf_tres FO f; nf_segs := g;
                     nf_refs := fun k => if kind_eqb k KDes then true else nf_refs FO f k |} in
  match drop_overflow FO (nf_segs FO f KDes) with
  | Err e => (f, false, Err e)
  | Ok des0 =>
      match prepare_left (nf_hdr FO f) (nf_tres FO f) (put_segs FO (nf_segs FO f) KDes des0) with
      | ((h1, g1), Err e) => (file h1 g1, true, Err e)
      | ((h1, g1), Ok _) =>
          let fs := mk_fs desc_NitfFileHeader in
          let with_st s := {| h_st := s; h_attr := h_attr h1 |} in
          match write_file FO fs (h_st h1) [] with
          | Err e => (file h1 g1, true, Err e)
          | Ok (s1, file1) =>
              match update_field FO fs s1 file1 "hl" [] (SVal (VInt (Z.of_nat (List.length file1)))) with
              | (s2, Err e) => (file (with_st s2) g1, true, Err e)
              | (s2, Ok file2) =>
                  match kinds_left E kinds g1 s2 file2 with
                  | ((g2, s3), Err e) => (file (with_st s3) g2, true, Err e)
                  | ((g2, s3), Ok file3) =>
                      match update_field FO fs s3 file3 "fl" [] (SVal (VInt (Z.of_nat (List.length file3)))) with
                      | (s4, Err e) => (file (with_st s4) g2, true, Err e)
                      | (s4, Ok file4) =>
                          match drop_overflow FO (g2 KDes) with
                          | Err e => (file (with_st s4) g2, true, Err e)
                          | Ok de => (file (with_st s4) (put_segs FO g2 KDes de), true, Ok file4)
                          end
                      end
                  end
              end
          end
      end
  end.

End FailWrite.
