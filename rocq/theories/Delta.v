(** Delta files: what is kept of a file, and the file it makes of another one when merged with it
    (nitf_file_json.py, nitf_file_merge.py). *)
From Verif Require Import Base Engine Utf8 Tre Handles TrePlace Security Image DescsHdr File.
From Coq Require Import ZifyBool ZifyNat ZifyN.
Open Scope list_scope.

Section Delta.
Variable FO : FloatOps.
Notation pyval := (pyval FO).
Notation state := (state FO).
Notation hdr := (hdr FO).
Notation tre := (tre FO).
Notation seg := (seg FO).
Notation sdata := (sdata FO).
Notation nfile := (nfile FO).

(** [copy.deepcopy] of a header (nitf_field.py:819-832, nitf_file_json.py:60, 138): a new object
    without the attributes that are not fields. *)
Definition copy_hdr (rows : list row) (h : hdr) : res hdr :=
  do s <- deepcopy FO (mk_fs rows) (h_st h); Ok {| h_st := s; h_attr := [] |}.

(** [setattr(s.subheader, h_data, b'')] for each area for TREs (nitf_file_json.py:61-66, 139-142). *)
Fixpoint blank_areas (rows : list row) (names : list string) (h : hdr) : res hdr :=
  match names with
  | [] => Ok h
  | nm :: l => let '(h', r) := TrePlace.hset FO rows h nm (VBytes []) in do _ <- r; blank_areas rows l h'
  end.
(** The fields that hold TREs, nitf_file_json.py:63-66 and nitf_segment.py:248-250, 309-310. *)
Definition tre_fields (k : kind) : list string := map ta_data (sub_areas k).

(** [copy.deepcopy] of a TRE, as [__deepcopy__] works on [write_to_file] and [read_from_file] of the
    class (nitf_field.py:819-832, nitf_tre.py:55-82, 121-132). *)
Definition copy_tre (t : tre) : res tre :=
  do b <- tre_write FO t;
  do p <- match t with TObj c _ => obj_read FO c b | TUnk _ _ => unk_read FO b end;
  Ok (fst p).
(** nitf_file_json.py:67. *)
Definition copy_ush (o : option (ush FO)) : res (option (ush FO)) :=
  match o with
  | None => Ok None
  | Some u => do s <- deepcopy FO (mk_fs (uc_rows (us_cls FO u))) (us_st FO u); Ok (Some {| us_cls := us_cls FO u; us_st := s |})
  end.

(** [copy.deepcopy] of the data of a text or a DES of fields.  NitfTextStr keeps [string_as_str]
    (nitf_text.py:21-27, 40-44).  A DES of fields is written with the data after its fields and read
    into a new object that has no segment, so that nothing is expected after the fields
    (nitf_field.py:819-832, nitf_des.py:32-66).  Text held by another class is not modelled. *)
Definition copy_data (d : sdata) : res sdata :=
  match d with
  | DStr _ t => Ok (DStr FO t)
  | DBytes _ (Some b) => match utf8_dec b with Some t => Ok (DStr FO t) | None => Err EValue end
  | DBytes _ None => Err EAttr
  | DFields _ c s extra =>
      do b <- write FO (mk_fs (dc_rows c)) s;
      do p <- read FO (mk_fs (dc_rows c)) false (init_state FO) (b ++ match extra with Some x => x | None => [] end);
      Ok (DFields FO c (fst p) None)
  | _ => Err EType
  end.

(** [primary_key] (nitf_segment.py:60-68, 315-316, 337-342, 370-371; nitf_segment_data_handle.py:58-66,
    132-133, 186-187): [None] if there is none, otherwise the tuple as a list.  [hasattr] is the question
    whether the class has the field, which is taken to be in no loop. *)
Definition ush_key (u : ush FO) : res pyval :=
  let fs := mk_fs (uc_rows (us_cls FO u)) in
  match lookup fs "id", lookup fs "des_id1" with
  | Some _, _ => get FO fs (us_st FO u) "id" []
  | None, Some _ => get FO fs (us_st FO u) "des_id1" []
  | None, None => Ok VNone
  end.
(** nitf_segment.py:60-68, 315-316, 337-342, 370-371. *)
Definition seg_key (k : kind) (s : seg) : res (option (list pyval)) :=
  match k with
  | KImage => match s_data FO s with
              | DHole _ _ => Ok None
              | _ => do a <- hget FO (sub_rows k) (s_hdr FO s) "iid1"; do b <- hget FO (sub_rows k) (s_hdr FO s) "idlvl"; Ok (Some [a; b])
              end
  | KGraphic => match s_data FO s with
                | DHole _ _ => Ok None
                | _ => do a <- hget FO (sub_rows k) (s_hdr FO s) "sid"; Ok (Some [a])
                end
  | KText => do a <- hget FO (sub_rows k) (s_hdr FO s) "textid"; Ok (Some [a])
  | KDes => do a <- hget FO (sub_rows k) (s_hdr FO s) "desid";
            do b <- match s_ush FO s with Some u => ush_key u | None => Ok VNone end; Ok (Some [a; b])
  | KRes => Ok None
  end.

(** A NitfSegmentJson (nitf_file_json.py:9-26): [g_data] is [_data]. *)
Record dseg := { g_hdr : hdr; g_ush : option (ush FO); g_tres : list tre; g_key : option (list pyval); g_data : option sdata }.
(** A NitfFileJson (nitf_file_json.py:118-132); no list and an empty list are taken for the same. *)
Record delta := { d_hdr : hdr; d_tres : list tre; d_segs : kind -> list dseg }.

(** nitf_file_json.py:57-76. *)
Definition seg_delta (k : kind) (include : bool) (s : seg) : res dseg :=
  do h <- copy_hdr (sub_rows k) (s_hdr FO s);
  do h' <- blank_areas (sub_rows k) (tre_fields k) h;
  do u <- copy_ush (s_ush FO s);
  do ts <- map_res copy_tre (s_tres FO s);
  do key <- seg_key k s;
  do d <- (if include then do x <- copy_data (s_data FO s); Ok (Some x) else Ok None);
  Ok {| g_hdr := h'; g_ush := u; g_tres := ts; g_key := key; g_data := d |}.

(** [dseg.subheader.desid != "TRE_OVERFLOW"] (nitf_file_json.py:152), negated. *)
Definition holds_overflow (s : seg) : res bool :=
  do v <- hget FO (sub_rows KDes) (s_hdr FO s) "desid";
  Ok (match v with VStr t => list_eqb t overflow_id | _ => false end).
(** nitf_file_json.py:150-158. *)
Fixpoint des_deltas (l : list seg) : res (list dseg) :=
  match l with
  | [] => Ok []
  | s :: l' =>
      do o <- holds_overflow s;
      if o then des_deltas l'
      else do d <- seg_delta KDes (match s_data FO s with DFields _ _ _ _ => true | _ => false end) s;
           do r <- des_deltas l'; Ok (d :: r)
  end.
(** nitf_file_json.py:134-159; the second file is not used. *)
Definition create_delta (f : nfile) : res delta :=
  do ts <- map_res copy_tre (nf_tres FO f);
  do h <- copy_hdr desc_NitfFileHeader (nf_hdr FO f);
  do h' <- blank_areas desc_NitfFileHeader ["udhd"; "xhd"]%string h;
  do im <- map_res (seg_delta KImage false) (nf_segs FO f KImage);
  do tx <- map_res (seg_delta KText true) (nf_segs FO f KText);
  do de <- des_deltas (nf_segs FO f KDes);
  Ok {| d_hdr := h'; d_tres := ts; d_segs := fun k => match k with KImage => im | KText => tx | KDes => de | _ => [] end |}.

(** Saved with [write] and loaded with [read] (nitf_file_json.py:83-97, 184-207): jsonpickle uses
    [__getstate__] and [__setstate__] of each object (nitf_field.py:898-910, nitf_text.py:40-44), which
    write and read it again.  [__setstate__] calls [__init__] without arguments: a TreUnknown needs its
    tag (nitf_tre.py:113).  Not modelled: the JSON text. *)
Definition load_tre (t : tre) : res tre :=
  match t with TObj _ _ => copy_tre t | TUnk _ _ => Err EType end.
(** nitf_file_json.py:83-97. *)
Definition load_seg (k : kind) (g : dseg) : res dseg :=
  do h <- copy_hdr (sub_rows k) (g_hdr g);
  do u <- copy_ush (g_ush g);
  do ts <- map_res load_tre (g_tres g);
  do d <- match g_data g with None => Ok None | Some x => do y <- copy_data x; Ok (Some y) end;
  Ok {| g_hdr := h; g_ush := u; g_tres := ts; g_key := g_key g; g_data := d |}.
(** nitf_file_json.py:184-207. *)
Definition load_delta (d : delta) : res delta :=
  do h <- copy_hdr desc_NitfFileHeader (d_hdr d);
  do im <- map_res (load_seg KImage) (d_segs d KImage);
  do tx <- map_res (load_seg KText) (d_segs d KText);
  do de <- map_res (load_seg KDes) (d_segs d KDes);
  do ts <- map_res load_tre (d_tres d);
  Ok {| d_hdr := h; d_tres := ts; d_segs := fun k => match k with KImage => im | KText => tx | KDes => de | _ => [] end |}.

(** [s.primary_key() == self.primary_key()], of tuples (nitf_file_json.py:37-38). *)
Fixpoint keys_eqb (l m : list pyval) : res bool :=
  match l, m with
  | [], [] => Ok true
  | a :: l', b :: m' => do r <- py_eqb FO a b; if r then keys_eqb l' m' else Ok false
  | _, _ => Ok false
  end.
(** nitf_file_json.py:37-38. *)
Fixpoint with_key (k : kind) (key : list pyval) (l : list seg) : res (list seg) :=
  match l with
  | [] => Ok []
  | s :: l' =>
      do o <- seg_key k s;
      do b <- match o with None => Ok false | Some x => keys_eqb x key end;
      do r <- with_key k key l'; Ok (if b then s :: r else r)
  end.
(** [notify_segment_merge], and [data] afterwards (nitf_file_json.py:30-55). *)
Definition merge_data (k : kind) (g : dseg) (base : list seg) : res sdata :=
  match g_data g with
  | Some d => Ok d
  | None => do l <- match g_key g with None => Ok [] | Some key => with_key k key base end;
            match l with [s] => Ok (s_data FO s) | _ => Err ERuntime end
  end.
(** nitf_file_json.py:170-182: the segment belongs to the merged file, and its data shows its
    subheaders.  An image read as an array stays the array that was read; here the array is made when
    it is looked at, with the subheader of the delta (simplified). *)
Definition merge_seg (k : kind) (base : list seg) (g : dseg) : res seg :=
  do d <- merge_data k g base;
  Ok {| s_hdr := g_hdr g; s_ush := g_ush g; s_tres := g_tres g; s_data := d; s_linked := true |}.

(** [NitfFileMerge([delta, f])] (nitf_file_merge.py:20-78, nitf_file_json.py:161-182): what the merged
    file shows is that of the delta where that is not empty.  Not modelled: the hooks. *)
Definition merge_delta (d : delta) (f : nfile) : res nfile :=
  do im <- map_res (merge_seg KImage (nf_segs FO f KImage)) (d_segs d KImage);
  do gr <- map_res (merge_seg KGraphic (nf_segs FO f KGraphic)) (d_segs d KGraphic);
  do tx <- map_res (merge_seg KText (nf_segs FO f KText)) (d_segs d KText);
  do de <- map_res (merge_seg KDes (nf_segs FO f KDes)) (d_segs d KDes);
  do re <- map_res (merge_seg KRes (nf_segs FO f KRes)) (d_segs d KRes);
  let own k := match k with KImage => im | KGraphic => gr | KText => tx | KDes => de | KRes => re end in
  let first {A} (l m : list A) := match l with [] => m | _ => l end in
  Ok {| nf_hdr := d_hdr d; nf_tres := first (d_tres d) (nf_tres FO f);
        nf_segs := fun k => first (own k) (nf_segs FO f k);
        nf_refs := fun k => match own k with [] => nf_refs FO f k | _ => false end |}.
End Delta.
