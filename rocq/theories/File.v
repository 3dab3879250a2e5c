(** Whole files: segments, their data, writing and reading (nitf_file.py, nitf_segment.py,
    nitf_segment_data_handle.py, nitf_segment_user_subheader_handle.py, nitf_des.py, nitf_text.py). *)
From Verif Require Import Base Engine Utf8 Tre Handles TrePlace Security Image DescsHdr.
From Coq Require Import ZifyBool ZifyNat ZifyN.
Open Scope list_scope.

(** The five kinds of segments, in file order (nitf_segment.py:243-382, nitf_file.py:243-245). *)
Inductive kind := KImage | KGraphic | KText | KDes | KRes.
(** nitf_file.py:240-250. *)
Definition kinds : list kind := [KImage; KGraphic; KText; KDes; KRes].
(** Comparison of kinds, nitf_segment.py:243-382. *)
Definition kind_eqb (a b : kind) : bool :=
  match a, b with
  | KImage, KImage | KGraphic, KGraphic | KText, KText | KDes, KDes | KRes, KRes => true
  | _, _ => false
  end.

(** [sh_class] (nitf_segment.py:246, 284, 307, 330, 366). *)
Definition sub_rows (k : kind) : list row :=
  match k with
  | KImage => desc_NitfImageSubheader | KGraphic => desc_NitfGraphicSubheader
  | KText => desc_NitfTextSubheader | KDes => desc_NitfDesSubheader | KRes => desc_NitfResSubheader
  end.
(** [_tre_field_list], none where [_type_support_tre] is False (nitf_segment.py:248-250, 286-287,
    309-310, 331, 367). *)
Definition sub_areas (k : kind) : list tarea :=
  match k with KImage => image_areas | KGraphic => graphic_areas | KText => text_areas | _ => [] end.
(** nitf_segment.py:149-164. *)
Definition has_tres (k : kind) : bool := match k with KImage | KGraphic | KText => true | _ => false end.
(** [_update_file_header_field] (nitf_segment.py:247, 285, 308, 332, 368), and the count. *)
Definition size_names (k : kind) : string * string :=
  match k with
  | KImage => ("lish", "li") | KGraphic => ("lssh", "ls") | KText => ("ltsh", "lt")
  | KDes => ("ldsh", "ld") | KRes => ("lresh", "lre")
  end%string.
(** nitf_file.py:206-210. *)
Definition count_name (k : kind) : string :=
  match k with KImage => "numi" | KGraphic => "nums" | KText => "numt" | KDes => "numdes" | KRes => "numres" end%string.
(** The prefix of the security fields (nitf_image_subheader.py:95-101, nitf_graphic_subheader.py:55-61,
    nitf_text_subheader.py:52-58). *)
Definition sec_prefix (k : kind) : string :=
  match k with KImage => "is" | KGraphic => "ss" | KText => "ts" | KDes => "des" | KRes => "re" end%string.
(** [user_subheader_data]: in a DES the field [desshf] (nitf_des_subheader.py:57-64), elsewhere a
    plain attribute, which nothing else uses. *)
Definition ush_name (k : kind) : string := match k with KDes => "desshf" | _ => "user_subheader_data" end%string.

(** The text in [des_tag] of an overflow segment (nitf_des.py:159, nitf_file.py:196-198). *)
Definition overflow_id : list N := str "TRE_OVERFLOW".

(** A user subheader class; classes are told apart by their name ([isinstance] with subclasses
    is not modelled). (nitf_segment_user_subheader_handle.py:21-50.) *)
Record ucls := { uc_name : string; uc_rows : list row }.
(** A DES class made of fields (nitf_des.py:14-37): [des_tag], fields, [data_after_allowed], [data_copy].
    Classes with [des_implementation_field] are not modelled. *)
Record dcls := { dc_tag : list N; dc_rows : list row; dc_after : bool; dc_copy : bool }.

(** The classes registered to read data: TreOverflow (nitf_des.py:157-186), classes of fields
    (nitf_des.py:14-69), NitfDesCopy (nitf_des.py:136-155), NitfTextStr (nitf_text.py:10-47),
    NitfGraphicRaw, NitfResRaw, NitfDataPlaceHolder (nitf_segment_data_handle.py:194-241),
    NitfImageReadNumpy, NitfImagePlaceHolder (nitf_image.py:44-87, 101-203).
    The EXT_DEF_CONTENT classes are not modelled. *)
Inductive handler :=
| HOverflow | HFields (c : dcls) | HDesCopy | HText | HGraphicRaw | HResRaw | HNumpy | HImageHole | HHole.

(** [seg_class] of each (nitf_segment_data_handle.py:42, 125, 156, 176, 184, 191). *)
Definition for_kind (hd : handler) (k : kind) : bool :=
  match hd, k with
  | (HOverflow | HFields _ | HDesCopy), KDes => true
  | HText, KText => true
  | HGraphicRaw, KGraphic => true
  | HResRaw, KRes => true
  | (HNumpy | HImageHole), KImage => true
  | HHole, _ => true
  | _, _ => false
  end.

(** What the reader has registered: TRE classes, user subheader classes for desid and resid
    (nitf_segment_user_subheader_handle.py:27-50; a later registration comes first), and the
    data handlers by descending priority (nitf_segment_data_handle.py:15-38). *)
Record env := { e_reg : registry; e_des : list (list N * ucls); e_res : list (list N * ucls);
                e_levels : list (list handler) }.

Section File.
Variable FO : FloatOps.
Notation pyval := (pyval FO).
Notation state := (state FO).
Notation hdr := (hdr FO).

(** The [data] of a segment:
    - [DBytes]: bytes held by NitfTextStr, NitfGraphicRaw, NitfResRaw, NitfDesCopy or TreOverflow,
      [None] if there is nothing yet, or no data object at all;
    - [DStr]: a str held by NitfTextStr;
    - [DFields]: a DES of fields and [data_to_copy];
    - [DFile]: image data still in the file read, taken to be unchanged since (nitf_image.py:73-87, 189-203);
    - [DImage]: image data made by a callback (nitf_image.py:228-440);
    - [DHole]: NitfDataPlaceHolder for so many bytes. *)
Inductive sdata :=
| DBytes (o : option (list N))
| DStr (t : list N)
| DFields (c : dcls) (s : state) (extra : option (list N))
| DFile (b : list N)
| DImage (m : gen_mode) (f : supplier)
| DHole (n : Z).

(** A user subheader object. (nitf_segment.py:187-199.) *)
Record ush := { us_cls : ucls; us_st : state }.

(** A segment (nitf_segment.py:34-58); [s_linked]: [nitf_file] is the file it is in, otherwise
    it is None.  A segment that belongs to another file is not modelled. *)
Record seg := { s_hdr : hdr; s_ush : option ush; s_tres : list (tre FO); s_data : sdata; s_linked : bool }.

(** A NitfFile (nitf_file.py:51-74); [nf_refs]: the list is a ListNitfFileReference, whose
    [append] links the segment (nitf_file.py:20-30). *)
Record nfile := { nf_hdr : hdr; nf_tres : list (tre FO); nf_segs : kind -> list seg; nf_refs : kind -> bool }.

(** nitf_segment.py:13-27, nitf_file.py:62. *)
Definition new_hdr : hdr := {| h_st := init_state FO; h_attr := [] |}.
(** [NitfFile()] (nitf_file.py:51-74); its security is set with [set_security]. *)
Definition new_file (sec : security FO) : nfile * res unit :=
  let '(h, r) := set_security FO desc_NitfFileHeader new_hdr "fs" sec in
  ({| nf_hdr := h; nf_tres := []; nf_segs := fun _ => []; nf_refs := fun _ => true |}, r).

(** Replacing the list of one kind (assignments to [self.des_segment] etc., nitf_file.py:157-181, 195-198). *)
Definition put_segs (g : kind -> list seg) (k : kind) (l : list seg) : kind -> list seg :=
  fun k' => if kind_eqb k k' then l else g k'.

(** [nitf_file.xxx_segment.append(seg)] (nitf_file.py:26-30). *)
Definition append_seg (f : nfile) (k : kind) (s : seg) : nfile :=
  let s' := if nf_refs f k
            then {| s_hdr := s_hdr s; s_ush := s_ush s; s_tres := s_tres s; s_data := s_data s; s_linked := true |}
            else s in
  {| nf_hdr := nf_hdr f; nf_tres := nf_tres f; nf_segs := put_segs (nf_segs f) k (nf_segs f k ++ [s']); nf_refs := nf_refs f |}.

(** [segments(include_seg_index=True)] (nitf_file.py:228-250). *)
Definition enumerate {A} (l : list A) : list (nat * A) := combine (seq 0 (List.length l)) l.
(** nitf_file.py:228-250. *)
Definition segments (f : nfile) : list (kind * nat * seg) :=
  flat_map (fun k => map (fun p => (k, fst p, snd p)) (enumerate (nf_segs f k))) kinds.

(** ** Lookup (nitf_file.py:253-274) *)

(** [iseg.idlvl == idlvl], [iseg.iid1 == iid1]. (nitf_file.py:255, 262; nitf_segment.py:265-280.) *)
Definition attr_eq (nm : string) (v : pyval) (s : seg) : res bool :=
  do x <- hget FO (sub_rows KImage) (s_hdr s) nm; py_eqb FO x v.
(** nitf_file.py:253-258. *)
Fixpoint iseg_by_idlvl (v : pyval) (l : list seg) : res seg :=
  match l with
  | [] => Err EKey
  | s :: l' => do b <- attr_eq "idlvl" v s; if b then Ok s else iseg_by_idlvl v l'
  end.
(** nitf_file.py:260-263. *)
Fixpoint iseg_by_iid1 (v : pyval) (l : list seg) : res (list seg) :=
  match l with
  | [] => Ok []
  | s :: l' => do b <- attr_eq "iid1" v s; do r <- iseg_by_iid1 v l'; Ok (if b then s :: r else r)
  end.
(** nitf_file.py:265-274. *)
Definition iseg_by_iid1_single (v : pyval) (l : list seg) : res seg :=
  do r <- iseg_by_iid1 v l;
  match r with [] => Err EKey | [s] => Ok s | _ => Err ERuntime end.

(** ** Writing *)

(** [user_subheader_cls] (nitf_segment_user_subheader_handle.py:14-50). *)
Definition reg_get (l : list (list N * ucls)) (v : pyval) : option ucls :=
  match v with
  | VStr t => match find (fun p => list_eqb (fst p) t) l with Some p => Some (snd p) | None => None end
  | _ => None
  end.
(** nitf_segment_user_subheader_handle.py:14-50. *)
Definition ush_cls (E : env) (k : kind) (h : hdr) : res (option ucls) :=
  match k with
  | KDes => do v <- hget FO (sub_rows k) h "desid"; Ok (reg_get (e_des E) v)
  | KRes => do v <- hget FO (sub_rows k) h "resid"; Ok (reg_get (e_res E) v)
  | _ => Ok None
  end.

(** [dseg.subheader.desid.encode("utf-8") != b'TRE_OVERFLOW'] (nitf_file.py:196-198), negated. *)
Definition is_overflow (h : hdr) : res bool :=
  do v <- hget FO (sub_rows KDes) h "desid";
  match v with
  | VStr t => match utf8_enc t with Some b => Ok (list_eqb b overflow_id) | None => Err EValue end
  | _ => Err EAttr
  end.
(** nitf_file.py:195-198. *)
Fixpoint drop_overflow (l : list seg) : res (list seg) :=
  match l with
  | [] => Ok []
  | s :: l' => do b <- is_overflow (s_hdr s); do r <- drop_overflow l'; Ok (if b then r else s :: r)
  end.

(** A new overflow segment with the given security (nitf_tre.py:226-230, nitf_des.py:157-168,
    nitf_segment_data_handle.py:160-165, nitf_segment.py:54-55); appending links it.  The
    security is that of the header, read here after [h_ofl] is set instead of before. *)
Definition overflow_seg (o : over) (sec : security FO) : hdr * res unit :=
  let rows := sub_rows KDes in
  steps FO [(fun h => hset FO rows h "dsver" (VInt 1)); (fun h => hset FO rows h "desid" (VStr overflow_id));
            (fun h => hset FO rows h "desoflw" (VStr (ov_oflw o))); (fun h => hset FO rows h "desitem" (VInt (ov_item o)));
            (fun h => set_security FO rows h "des" sec)] new_hdr.
(** nitf_segment.py:155-164, nitf_tre.py:185-231. *)
Definition prep (rows : list row) (areas : list tarea) (prefix : string) (idx : nat) (h : hdr) (ts : list (tre FO))
    (des : list seg) : res (hdr * list seg) :=
  match prepare FO rows areas (Z.of_nat idx) h ts (List.length des) with
  | (_, _, Err e) => Err e
  | (h', None, Ok _) => Ok (h', des)
  | (h', Some o, Ok _) =>
      do sec <- get_security FO rows h' prefix;
      match overflow_seg o sec with
      | (_, Err e) => Err e
      | (dh, Ok _) => Ok (h', des ++ [{| s_hdr := dh; s_ush := None; s_tres := [];
                                         s_data := DBytes (Some (ov_data o)); s_linked := true |}])
      end
  end.
(** nitf_segment.py:77-85. *)
Definition with_hdr (s : seg) (h : hdr) : seg :=
  {| s_hdr := h; s_ush := s_ush s; s_tres := s_tres s; s_data := s_data s; s_linked := s_linked s |}.

(** [seg.prepare_tre_write(i, self.des_segment)] over the segments of a kind
    (nitf_file.py:204-205, nitf_segment.py:155-164). *)
Fixpoint prep_segs (k : kind) (i : nat) (l : list seg) (des : list seg) : res (list seg * list seg) :=
  match l with
  | [] => Ok ([], des)
  | s :: l' =>
      do (h, des1) <- (if has_tres k then prep (sub_rows k) (sub_areas k) (sec_prefix k) i (s_hdr s) (s_tres s) des
                       else Ok (s_hdr s, des));
      do (r, des2) <- prep_segs k (S i) l' des1;
      Ok (with_hdr s h :: r, des2)
  end.

(** [_write_user_subheader] (nitf_segment.py:201-208). *)
Definition put_ush (k : kind) (s : seg) : res hdr :=
  do v <- (match s_ush s with
           | Some u => do b <- write FO (mk_fs (uc_rows (us_cls u))) (us_st u); Ok (VBytes b)
           | None => Ok (VStr [])
           end);
  match hset FO (sub_rows k) (s_hdr s) (ush_name k) v with (h, Ok _) => Ok h | (_, Err e) => Err e end.

(** [data.write_to_file] of each class; any exception becomes a RuntimeError (nitf_segment.py:228-231). *)
Definition data_bytes (h : hdr) (d : sdata) : res (list N) :=
  match d with
  | DBytes (Some b) => Ok b
  | DStr t => match utf8_enc t with Some b => Ok b | None => Err EValue end
  | DFields c s extra =>
      do b <- write FO (mk_fs (dc_rows c)) s; Ok (b ++ match extra with Some x => x | None => [] end)
  | DFile b => Ok b
  | DImage m f => write_image FO m h f
  | DBytes None | DHole _ => Err ERuntime
  end.

(** [NitfSegment.write_to_file] (nitf_segment.py:210-241) at the end of [file]; [hs] is the file
    header object. *)
Definition seg_write (E : env) (k : kind) (i : nat) (s : seg) (hs : state) (file : list N)
  : res (seg * state * list N) :=
  do c <- (if s_linked s then ush_cls E k (s_hdr s) else Ok None);
  do _ <- (match c, s_ush s with
           | None, _ => Ok tt
           | Some c, Some u => if String.eqb (uc_name c) (uc_name (us_cls u)) then Ok tt else Err ERuntime
           | Some _, None => Err ERuntime
           end);
  do h <- put_ush k s;
  do b <- write FO (mk_fs (sub_rows k)) (h_st h);
  do d <- (match data_bytes h (s_data s) with Ok d => Ok d | Err _ => Err ERuntime end);
  let file1 := file ++ b ++ d in
  let s' := with_hdr s h in
  if s_linked s then
    let fs := mk_fs desc_NitfFileHeader in
    match update_field FO fs hs file1 (fst (size_names k)) [Z.of_nat i] (SVal (VInt (Z.of_nat (List.length b)))) with
    | (_, Err e) => Err e
    | (hs1, Ok file2) =>
        match update_field FO fs hs1 file2 (snd (size_names k)) [Z.of_nat i] (SVal (VInt (Z.of_nat (List.length d)))) with
        | (_, Err e) => Err e
        | (hs2, Ok file3) => Ok (s', hs2, file3)
        end
    end
  else Ok (s', hs, file1).
(** nitf_file.py:215-218. *)
Fixpoint segs_write (E : env) (k : kind) (i : nat) (l : list seg) (hs : state) (file : list N)
  : res (list seg * state * list N) :=
  match l with
  | [] => Ok ([], hs, file)
  | s :: l' =>
      do (s', hs1, file1) <- seg_write E k i s hs file;
      do (r, hs2, file2) <- segs_write E k (S i) l' hs1 file1;
      Ok (s' :: r, hs2, file2)
  end.

(** The preparation: overflow segments dropped, TREs placed, counts set (nitf_file.py:195-210). *)
Definition prepare_file (f : nfile) : res (hdr * (kind -> list seg)) :=
  do des0 <- drop_overflow (nf_segs f KDes);
  do (h0, des1) <- prep desc_NitfFileHeader file_areas "fs" 0 (nf_hdr f) (nf_tres f) des0;
  do (im, des2) <- prep_segs KImage 0 (nf_segs f KImage) des1;
  do (gr, des3) <- prep_segs KGraphic 0 (nf_segs f KGraphic) des2;
  do (tx, des4) <- prep_segs KText 0 (nf_segs f KText) des3;
  let g := fun k => match k with KImage => im | KGraphic => gr | KText => tx | KDes => des4 | KRes => nf_segs f KRes end in
  match steps FO (map (fun k h => hset FO desc_NitfFileHeader h (count_name k) (VInt (Z.of_nat (List.length (g k))))) kinds) h0 with
  | (_, Err e) => Err e
  | (h1, Ok _) => Ok (h1, g)
  end.

(** [NitfFile.write] (nitf_file.py:191-226): the object afterwards and the contents of the file.
    The object after a failure is in FailWrite.v; hooks are not modelled; only the file header
    uses the positions remembered while writing. *)
Definition file_write (E : env) (f : nfile) : res (nfile * list N) :=
  do (h1, g) <- prepare_file f;
  let fs := mk_fs desc_NitfFileHeader in
  do (s1, file1) <- write_file FO fs (h_st h1) [];
  match update_field FO fs s1 file1 "hl" [] (SVal (VInt (Z.of_nat (List.length file1)))) with
  | (_, Err e) => Err e
  | (s2, Ok file2) =>
      do (im, s3, file3) <- segs_write E KImage 0 (g KImage) s2 file2;
      do (gr, s4, file4) <- segs_write E KGraphic 0 (g KGraphic) s3 file3;
      do (tx, s5, file5) <- segs_write E KText 0 (g KText) s4 file4;
      do (de, s6, file6) <- segs_write E KDes 0 (g KDes) s5 file5;
      do (rs, s7, file7) <- segs_write E KRes 0 (g KRes) s6 file6;
      match update_field FO fs s7 file7 "fl" [] (SVal (VInt (Z.of_nat (List.length file7)))) with
      | (_, Err e) => Err e
      | (s8, Ok file8) =>
          do de' <- drop_overflow de;
          let g' := fun k => match k with KImage => im | KGraphic => gr | KText => tx | KDes => de' | KRes => rs end in
          Ok ({| nf_hdr := {| h_st := s8; h_attr := h_attr h1 |}; nf_tres := nf_tres f; nf_segs := g';
                 nf_refs := fun k => if kind_eqb k KDes then true else nf_refs f k |}, file8)
      end
  end.

(** ** Reading: the whole file and a position in it *)

(** [FieldStruct.read_from_file] at a position (nitf_field.py:916-933). *)
Definition read_at (rows : list row) (file : list N) (pos : nat) : res (state * nat) :=
  let inp := skipn pos file in
  do (s, rest) <- read FO (mk_fs rows) false (init_state FO) inp;
  Ok (s, (pos + (List.length inp - List.length rest))%nat).
(** [fh.read(n)], [fh.seek(n, 1)]; a negative position is an error (OSError, here EValue).
    ([fh.read], [fh.seek] of nitf_segment.py:166-199, nitf_image.py:59-71.) *)
Definition take_at (n : Z) (file : list N) (pos : nat) : list N * nat :=
  let b := fst (fread n (skipn pos file)) in (b, (pos + List.length b)%nat).
(** [fh.read], [fh.seek] of nitf_segment.py:166-199, nitf_image.py:59-71. *)
Definition seek_by (n : Z) (pos : nat) : res nat :=
  let p := (Z.of_nat pos + n)%Z in if (p <? 0)%Z then Err EValue else Ok (Z.to_nat p).

(** [handle_h] with [cls.read_from_file] (nitf_segment_data_handle.py:27-38; nitf_des.py:39-61,
    147-149, 170-175; nitf_text.py:36-38; nitf_segment_data_handle.py:204-206, 221-223, 236-238;
    nitf_image.py:59-71, 130-187).  [None]: cannot handle it.  [sz] is [data_size]. *)
Definition handle_h (k : kind) (h : hdr) (sz : Z) (file : list N) (hd : handler) (pos : nat)
  : res (option sdata * nat) :=
  if negb (for_kind hd k) then Ok (None, pos) else
  match hd with
  | HOverflow =>
      do v <- hget FO (sub_rows k) h "desid";
      do e <- py_eqb FO v (VStr overflow_id);
      if negb e then Ok (None, pos)
      else let '(b, p) := take_at sz file pos in Ok (Some (DBytes (Some b)), p)
  | HFields c =>
      do v <- hget FO (sub_rows k) h "desid";
      do e <- py_eqb FO v (VStr (dc_tag c));
      if negb e then Ok (None, pos)
      else
        do (s, p) <- read_at (dc_rows c) file pos;
        let left := (sz - (Z.of_nat p - Z.of_nat pos))%Z in
        if (left =? 0)%Z then Ok (Some (DFields c s None), p)
        else if negb (dc_after c) then Err ERuntime
        else if dc_copy c then let '(b, p') := take_at left file p in Ok (Some (DFields c s (Some b)), p')
        else do p' <- seek_by left p; Ok (Some (DFields c s None), p')
  | HDesCopy | HText | HGraphicRaw | HResRaw =>
      let '(b, p) := take_at sz file pos in Ok (Some (DBytes (Some b)), p)
  | HNumpy =>
      do r <- np_read FO h file (Z.of_nat pos);
      match r with
      | None => Ok (None, pos)
      | Some (m, p) => Ok (Some (DFile (firstn (Z.to_nat (mp_size m)) (skipn pos file))), Z.to_nat p)
      end
  | HImageHole =>
      do p <- seek_by sz pos; Ok (Some (DFile (firstn (Z.to_nat sz) (skipn pos file))), p)
  | HHole => do p <- seek_by sz pos; Ok (Some (DHole sz), p)
  end.

(** [NitfSegment.read_from_file] (nitf_segment.py:166-199) of a segment created by
    [NitfFile.read] (nitf_file.py:157-181), so linked; its TREs come later. *)
Definition seg_read (E : env) (k : kind) (sz : Z) (file : list N) (pos : nat) : res (seg * nat) :=
  do (st, p1) <- read_at (sub_rows k) file pos;
  let h := {| h_st := st; h_attr := [] |} in
  do c <- ush_cls E k h;
  do u <- (match c with
           | None => Ok None
           | Some c =>
               do v <- hget FO (sub_rows k) h (ush_name k);
               do b <- (match v with VBytes b => Ok b | VNone => Ok [] | _ => Err EType end);
               do (s, _) <- read FO (mk_fs (uc_rows c)) false (init_state FO) b;
               Ok (Some {| us_cls := c; us_st := s |})
           end);
  do (d, p2) <- handle_levels handler nat sdata (handle_h k h sz file) (e_levels E) p1;
  Ok ({| s_hdr := h; s_ush := u; s_tres := []; s_data := d; s_linked := true |}, p2).
(** nitf_file.py:157-181. *)
Fixpoint segs_read (E : env) (k : kind) (szs : list Z) (file : list N) (pos : nat) : res (list seg * nat) :=
  match szs with
  | [] => Ok ([], pos)
  | sz :: szs' =>
      do (s, p1) <- seg_read E k sz file pos;
      do (r, p2) <- segs_read E k szs' file p1;
      Ok (s :: r, p2)
  end.

(** The data sizes in the header: [li[i] for i in range(numi)] (nitf_file.py:157-181).  The
    subheader sizes are read too but never used. *)
Definition size_at (s : state) (nm : string) (i : Z) : res Z :=
  do v <- get FO (mk_fs desc_NitfFileHeader) s nm [i]; match v with VInt z => Ok z | _ => Err EType end.
(** A list comprehension, nitf_file.py:157-181. *)
Fixpoint map_res {A B} (f : A -> res B) (l : list A) : res (list B) :=
  match l with [] => Ok [] | a :: l' => do b <- f a; do r <- map_res f l'; Ok (b :: r) end.
(** nitf_file.py:157-181. *)
Definition sizes (s : state) (k : kind) : res (list Z) :=
  do v <- get FO (mk_fs desc_NitfFileHeader) s (count_name k) [];
  do n <- (match v with VInt z => Ok z | _ => Err EType end);
  map_res (fun i => do _ <- size_at s (fst (size_names k)) i; size_at s (snd (size_names k)) i) (upto n).

(** [desseg.des.data] (nitf_tre.py:179); other data classes have no attribute of that name. *)
Definition des_data (s : seg) : res (list N) :=
  match s_data s with
  | DBytes (Some b) => Ok b
  | DBytes None => Ok []
  | _ => Err EAttr
  end.
(** [seg.read_tre(self.des_segment)] (nitf_segment.py:149-153). *)
Definition with_tres (E : env) (k : kind) (des : list (res (list N))) (s : seg) : res seg :=
  if has_tres k then
    do ts <- read_areas FO (sub_rows k) (e_reg E) (s_hdr s) des (sub_areas k);
    Ok {| s_hdr := s_hdr s; s_ush := s_ush s; s_tres := ts; s_data := s_data s; s_linked := s_linked s |}
  else Ok s.

(** [NitfFile.read] (nitf_file.py:145-190); hooks are not modelled. *)
Definition file_read (E : env) (file : list N) : res nfile :=
  do (st, p0) <- read_at desc_NitfFileHeader file 0;
  let h := {| h_st := st; h_attr := [] |} in
  do fl <- hget FO desc_NitfFileHeader h "fl";
  do stream <- py_eqb FO fl (VInt 999999999999);
  if stream then Err ERuntime else
  do zi <- sizes st KImage; do zg <- sizes st KGraphic; do zt <- sizes st KText;
  do zd <- sizes st KDes; do zr <- sizes st KRes;
  do (im, p1) <- segs_read E KImage zi file p0;
  do (gr, p2) <- segs_read E KGraphic zg file p1;
  do (tx, p3) <- segs_read E KText zt file p2;
  do (de, p4) <- segs_read E KDes zd file p3;
  do (rs, p5) <- segs_read E KRes zr file p4;
  let dd := map des_data de in
  do ts <- read_areas FO desc_NitfFileHeader (e_reg E) h dd file_areas;
  do im' <- map_res (with_tres E KImage dd) im;
  do gr' <- map_res (with_tres E KGraphic dd) gr;
  do tx' <- map_res (with_tres E KText dd) tx;
  let g := fun k => match k with KImage => im' | KGraphic => gr' | KText => tx' | KDes => de | KRes => rs end in
  Ok {| nf_hdr := h; nf_tres := ts; nf_segs := g; nf_refs := fun _ => false |}.

End File.
