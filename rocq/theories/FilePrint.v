(** Printing and summarising a whole file (nitf_file.py:76-144, nitf_segment.py:113-147, 353-360,
    [__str__] and [summary] of the data classes, the subheaders and the TREs, bin/nitf_info).
    The text is a list of characters.  Not modelled: the EXT_DEF_CONTENT classes, TREs with an
    implementation object (TreImpl.v), the text of ILLUMA's own fields, [flush]. *)
From Verif Require Import Base Engine Utf8 Tre Handles TrePlace Security Image DescsHdr File Hooks Listing DesPrint Diff FileDiff FileLog.
From Coq Require Import ZifyBool ZifyNat ZifyN.
Open Scope list_scope.

(** [print(x, file=fh)]. (nitf_file.py:79-108.) *)
Definition line (t : list N) : list N := t ++ [10%N].
(** nitf_file.py:79, 83, 91, 101, 107. *)
Definition rule : list N := line (str "-------------------------------------------------------------").
(** nitf_file.py:93-97. *)
Definition kind_title (k : kind) : list N :=
  match k with
  | KImage => str "Image" | KGraphic => str "Graphic" | KText => str "Text"
  | KDes => str "Data Extension" | KRes => str "Reserved Extension"
  end.
(** nitf_file.py:103-106. *)
Definition count_line (k : kind) (i n : nat) : list N :=
  line (kind_title k ++ str " segment " ++ str_of_Z (Z.of_nat (S i)) ++ str " of " ++ str_of_Z (Z.of_nat n)).

(** The name numpy gives a type, [str(dtype.newbyteorder("="))] (nitf_image.py:127-128). *)
Definition dtype_name (d : dtype) : list N :=
  str match d with
      | U1 => "uint8" | I1 => "int8" | U2 => "uint16" | I2 => "int16" | U4 => "uint32" | I4 => "int32"
      | F4 => "float32" | C8 => "complex64" | F8 => "float64" | C16 => "complex128"
      end.

Section FilePrint.
Variable FO : FloatOps.
Notation state := (state FO).
Notation pyval := (pyval FO).
Notation hdr := (hdr FO).
Notation tre := (tre FO).
Notation seg := (seg FO).
Notation sdata := (sdata FO).
Notation nfile := (nfile FO).

(** As in Listing.v (nitf_field.py:203-209, 669). *)
Variable ext : field -> list N -> res (list N).
Variable source : expr -> list N.

(** The hooks of the file (nitf_segment_hook.py): what [before_str_hook] and
    [before_str_tre_hook] of a hook write for a segment and a TRE of it, and whether the latter
    took care of the TRE.  Hooks that change what they are given are not modelled here. *)
Variable H : Type.
Variable rm : H -> bool.
Variable h_str : H -> kind -> seg -> res (list N).
Variable h_tre : H -> kind -> seg -> tre -> res (bool * list N).
(** The hooks in the order they are called, [report_raw] (bin/nitf_info:86), and whether
    NitfImageReadNumpy is registered (nitf_image.py:472). *)
Record popts := { po_hooks : list H; po_raw : bool; po_numpy : bool }.
Variable o : popts.

(** nitf_tre.py:90-97, 132-138. *)
Definition tre_text (t : tre) : res (list N) :=
  match t with
  | TObj c s => do b <- print FO ext source (mk_fs (tc_rows c)) s; Ok (line (str "TRE - " ++ tc_tag c) ++ line b)
  | TUnk g b => Ok (line (str "TRE - " ++ g) ++ line (str "   String: " ++ bytes_repr b))
  end.

(** nitf_segment.py:116-118. *)
Definition hook_text (k : kind) (s : seg) : res (list N) :=
  if s_linked FO s
  then on_str H (list N) (po_raw o) rm (fun h w => do t <- h_str h k s; Ok (w ++ t)) (po_hooks o) []
  else Ok [].
(** One TRE of a segment (nitf_segment.py:129-132): [self.nitf_file] is None for a segment
    that is not linked. *)
Definition tre_part (k : kind) (s : seg) (t : tre) : res (list N) :=
  if s_linked FO s then
    do (b, w) <- on_str_tre H (list N) (po_raw o) rm (fun h w => do (b, x) <- h_tre h k s t; Ok (b, w ++ x)) (po_hooks o) [];
    if b then Ok w else do x <- tre_text t; Ok (w ++ line x)
  else Err EAttr.
(** nitf_segment.py:123-132. *)
Definition tres_part (k : kind) (s : seg) : res (list N) :=
  if negb (has_tres k) then Ok []
  else do r <- (match s_tres FO s with
                | [] => Ok [line (str "No segment level TREs")]
                | ts => map_res (tre_part k s) ts
                end);
       Ok (line (str "TREs:") ++ List.concat r).

(** nitf_segment.py:121-123. *)
Definition ush_part (u : option (ush FO)) : res (list N) :=
  match u with
  | None => Ok []
  | Some u => do t <- print FO ext source (mk_fs (uc_rows (us_cls FO u))) (us_st FO u);
              Ok (line (str "User-Defined Subheader: ") ++ line t)
  end.

(** The text of an image that was read (nitf_image.py:49, 125-128); the subheader is taken to be
    as it was then. *)
Definition image_text (h : hdr) (size : option Z) (b : list N) : res (list N) :=
  do r <- (if po_numpy o then np_read FO h b 0 else Ok None);
  match r, size with
  | Some (m, _), _ =>
      let '(nb, nr, nc) := mp_dims m in
      Ok (str "NitfImageReadNumpy " ++ (if (nb =? 1)%Z then [] else str_of_Z nb ++ str " x ")
          ++ str_of_Z nr ++ str " x " ++ str_of_Z nc ++ str " " ++ dtype_name (mp_dt m) ++ str " image")
  | None, Some n => Ok (str "NitfImagePlaceHolder " ++ str_of_Z n ++ str " bytes of data")
  | None, None => Err EAttr
  end.

(** [str(self.data)] and the data afterwards: NitfTextStr (nitf_text.py:17-26), NitfGraphicRaw,
    NitfResRaw and NitfDataPlaceHolder (nitf_segment_data_handle.py:201, 218, 232-234), NitfDesCopy
    (nitf_des.py:144-145), DESs of fields (nitf_des.py:78-109), images (nitf_image.py:22, 49,
    125-128).  [size] is [data_size] of the segment if it was read.  [DBytes None] is taken to
    be no data at all; images not yet written are taken to be NitfImageWriteDataOnDemand; a DES of
    fields whose subheader has got another [desid] is taken to have no [data_after_tre_size]. *)
Definition data_text (k : kind) (s : seg) (size : option Z) : res (sdata * list N) :=
  let h := s_hdr FO s in
  match s_data FO s with
  | DBytes _ None => Ok (s_data FO s, str "None")
  | DBytes _ (Some b) =>
      do t <- (match k with
               | KText => match utf8_dec b with Some t => Ok (line (str "NitfTextStr:") ++ t) | None => Err EValue end
               | KGraphic => Ok (str "NitfGraphicRaw: " ++ bytes_repr b)
               | KRes => Ok (str "NitfResRaw: " ++ bytes_repr b)
               | KDes => Ok (str "NitfDesCopy " ++ str_of_Z (Z.of_nat (List.length b)) ++ str " bytes of data")
               | KImage => Ok (str "None")
               end);
      Ok (s_data FO s, t)
  | DStr _ t => Ok (s_data FO s, line (str "NitfTextStr:") ++ t)
  | DFields _ c st x =>
      do v <- hget FO (sub_rows KDes) h "desid";
      match v with
      | VStr id =>
          let u := match s_ush FO s with Some u => Some (uc_rows (us_cls FO u), us_st FO u) | None => None end in
          do (d, t) <- fd_print FO ext source u
                         {| fd_cls := c; fd_id := id; fd_seg := size; fd_st := st; fd_left := None; fd_copy := x |};
          Ok (DFields FO c (fd_st d) (fd_copy d), t)
      | _ => Err EAttr
      end
  | DFile _ b => do t <- image_text h size b; Ok (s_data FO s, t)
  | DImage _ _ _ => Ok (s_data FO s, str "NitfImageWithSubset")
  | DHole _ n =>
      do vs <- map_res (hget FO (sub_rows k) h) (short_fields k);
      Ok (s_data FO s, str "NitfDataPlaceHolder for " ++ short_desc FO k vs ++ str " with " ++ str_of_Z n ++ str " bytes of data")
  end.

(** The segment with other data. (nitf_des.py:104-109.) *)
Definition with_data (s : seg) (d : sdata) : seg :=
  {| s_hdr := s_hdr FO s; s_ush := s_ush FO s; s_tres := s_tres FO s; s_data := d; s_linked := s_linked FO s |}.

(** [str(seg)] and the segment afterwards (nitf_segment.py:113-135, 353-360). *)
Definition seg_print (k : kind) (size : option Z) (s : seg) : res (seg * list N) :=
  do skip <- (match k with KDes => is_overflow FO (s_hdr FO s) | _ => Ok false end);
  if skip then Ok (s, line (str "TRE_OVERFLOW")) else
  do a <- hook_text k s;
  do b <- print FO ext source (mk_fs (sub_rows k)) (h_st (s_hdr FO s));
  do u <- ush_part (s_ush FO s);
  do t <- tres_part k s;
  do (d, x) <- data_text k s size;
  Ok (with_data s d, a ++ line (str "Sub header:") ++ line b ++ u ++ t ++ line (str "Data") ++ line x).

(** The loop over the segments of a kind (nitf_file.py:102-108). *)
Fixpoint segs_print (k : kind) (size : nat -> option Z) (n i : nat) (l : list seg) : res (list seg * list N) :=
  match l with
  | [] => Ok ([], [])
  | s :: l' =>
      do (s', t) <- seg_print k (size i) s;
      do (r, x) <- segs_print k size n (S i) l';
      Ok (s' :: r, count_line k i n ++ t ++ rule ++ x)
  end.
(** nitf_file.py:98-108. *)
Definition kind_print (size : kind -> nat -> option Z) (f : nfile) (k : kind) : res (list seg * list N) :=
  do (l, t) <- segs_print k (size k) (List.length (nf_segs FO f k)) 0 (nf_segs FO f k);
  Ok (l, (match nf_segs FO f k with [] => line (str "No " ++ kind_title k ++ str " segments") | _ => rule end) ++ t).

(** The file level TREs (nitf_file.py:84-92), whatever is printed for one. *)
Definition file_tres (p : tre -> res (list N)) (ts : list tre) : res (list N) :=
  match ts with
  | [] => Ok (line (str "No file level TREs"))
  | _ => do r <- map_res p ts; Ok (line (str "File level TRES:") ++ List.concat r ++ rule)
  end.

(** [str(nitf_file)] (nitf_file.py:76-109) and the file afterwards. *)
Definition file_print (size : kind -> nat -> option Z) (f : nfile) : res (nfile * list N) :=
  do h <- print FO ext source (mk_fs desc_NitfFileHeader) (h_st (nf_hdr FO f));
  do t <- file_tres (fun t => do x <- tre_text t; Ok (line x)) (nf_tres FO f);
  do (im, ti) <- kind_print size f KImage;
  do (gr, tg) <- kind_print size f KGraphic;
  do (tx, tx2) <- kind_print size f KText;
  do (de, td) <- kind_print size f KDes;
  do (rs, tr) <- kind_print size f KRes;
  let g := fun k => match k with KImage => im | KGraphic => gr | KText => tx | KDes => de | KRes => rs end in
  Ok ({| nf_hdr := nf_hdr FO f; nf_tres := nf_tres FO f; nf_segs := g; nf_refs := nf_refs FO f |},
      rule ++ line (str "File Header:") ++ line h ++ rule ++ t ++ ti ++ tg ++ tx2 ++ td ++ tr).

(** [data_size] of the segments of a file that was read (nitf_file.py:155-181). *)
Definition read_size (f : nfile) (k : kind) (i : nat) : option Z :=
  match size_at FO (h_st (nf_hdr FO f)) (snd (size_names k)) (Z.of_nat i) with Ok z => Some z | Err _ => None end.

(** ** Summaries *)

(** ["%d" % v], here only for int (nitf_file_header.py:93-94 and the like). *)
Definition pct_d (v : pyval) : res (list N) := match v with VInt z => Ok (str_of_Z z) | _ => Err EType end.
(** Text, the field with [%s], the field with [%d]. (nitf_file_header.py:92-94 and the like.) *)
Inductive part := PLit (t : string) | PStr (nm : string) | PInt (nm : string).
(** [get] is the attribute of the object. (nitf_file_header.py:92-94 and the like.) *)
Definition part_text (get : string -> res pyval) (p : part) : res (list N) :=
  match p with
  | PLit t => Ok (str t)
  | PStr nm => do v <- get nm; Ok (str_any FO v)
  | PInt nm => do v <- get nm; pct_d v
  end.
(** One [print] (nitf_file_header.py:92-94 and the like). *)
Definition part_line (get : string -> res pyval) (ps : list part) : res (list N) :=
  do l <- map_res (part_text get) ps; Ok (line (List.concat l)).

(** nitf_file_header.py:90-95. *)
Definition header_summary (h : hdr) : res (list N) :=
  let get := hget FO desc_NitfFileHeader h in
  do a <- part_line get [PStr "fhdr"; PLit " "; PStr "fver"; PLit " "; PStr "ftitle"; PLit " MD5: "];
  do b <- part_line get [PInt "numi"; PLit " Image Segments, "; PInt "nums"; PLit " Graphic Segments, ";
                         PInt "numt"; PLit " Text Segments, "; PInt "numdes"; PLit " DESs"];
  Ok (a ++ b).
(** nitf_image_subheader.py:103-112, nitf_graphic_subheader.py:63-66, nitf_text_subheader.py:60-63,
    nitf_des_subheader.py:51-54, nitf_res_subheader.py:50-53. *)
Definition sub_summary (k : kind) (h : hdr) : res (list N) :=
  let get := hget FO (sub_rows k) h in
  match k with
  | KImage =>
      do a <- part_line get [PStr "im"; PLit " "; PStr "iid1"; PLit " "; PStr "iid2"];
      do nb <- get "nbands"%string;
      do z <- py_eqb FO nb (VInt 0);
      let bands := (if z then "xbands" else "nbands")%string in
      do b <- part_line get [PInt "nrows"; PLit " X "; PInt "ncols"; PLit ", "; PInt bands; PLit " Band(s), ";
                             PInt "abpp"; PLit "/"; PInt "nbpp"; PLit " bpp"];
      Ok (a ++ b)
  | KGraphic => part_line get [PStr "sy"; PLit " "; PStr "sid"; PLit " "; PStr "sname"]
  | KText => part_line get [PStr "te"; PLit " "; PStr "textid"; PLit " "; PStr "txtitl"]
  | KDes => part_line get [PStr "desid"; PLit " "]
  | KRes => part_line get [PStr "re"; PLit " "; PStr "resid"; PLit " "; PStr "resver"; PLit " "]
  end.

(** The TRE classes with a line of their own (nitf_tre_csde.py:41-46, nitf_tre_csepha.py:31-35,
    nitf_tre_engrda.py:128-132, nitf_tre_histoa.py:60-63, nitf_tre_matesa.py:37-40,
    nitf_tre_pixmta.py:44-48, nitf_tre_pixqla.py:31-35, nitf_tre_sensrb.py:253-264); CSEXRB below.
    Known here by the tag. *)
Definition tre_parts : list (string * list part) :=
  [("STDIDC", [PLit ": "; PStr "acquisition_date"; PLit ", "; PStr "mission"; PLit ", "; PStr "pass_"; PLit ", "; PInt "op_num"]);
   ("CSEPHA", [PLit ": "; PStr "ephem_flag"; PLit " "; PInt "num_ephem"; PLit " ephemeris vectors"]);
   ("ENGRDA", [PLit " "; PStr "resrc"; PLit ": "; PInt "recnt"; PLit " Entries:"]);
   ("HISTOA", [PLit ": "; PInt "nevents"; PLit " events"]);
   ("MATESA", [PLit " num_groups:"; PInt "num_groups"]);
   ("PIXMTA", [PLit " "; PStr "numais"; PLit " Associated ISs, "; PInt "nummetrics"; PLit " Metrics"]);
   ("PIXQLA", [PLit " "; PStr "numais"; PLit " Associated ISs, "; PInt "npixqual"; PLit " Quality Conditions"]);
   ("SENSRB", [PLit " Flags 1:"; PStr "general_data"; PLit " 2:"; PStr "sensor_array_data"; PLit " 3:"; PStr "sensor_calibration_data";
               PLit " 4:"; PStr "image_formation_data"; PLit " ... 7:"; PStr "attitude_euler_angles"; PLit " 8:"; PStr "attitude_unit_vectors";
               PLit " 9:"; PStr "attitude_quaternion"; PLit " 10:"; PStr "sensor_velocity_data"; PLit " 11:"; PInt "point_set_data";
               PLit " 12:"; PInt "time_stamped_data_sets"; PLit " 13:"; PInt "pixel_referenced_data_sets";
               PLit " 14:"; PInt "uncertainty_data"; PLit " 15:"; PInt "additional_parameter_data"; PLit " "])]%string.
(** nitf_tre.py:99-102, nitf_tre_csexrb.py:138-144 and the classes above. *)
Definition tre_summary (t : tre) : res (list N) :=
  match t with
  | TUnk g _ => Ok (line (str "TRE - " ++ g))
  | TObj c s =>
      let get nm := get FO (mk_fs (tc_rows c)) s nm [] in
      if list_eqb (tc_tag c) (str "CSEXRB") then
        do v <- get "number_dt"%string;
        match v with
        | VNone => Ok (line (str "TRE - CSEXRB"))
        | _ => part_line get [PLit "TRE - CSEXRB: "; PInt "number_dt"; PLit " FDTs"]
        end
      else
        match find (fun p => list_eqb (str (fst p)) (tc_tag c)) tre_parts with
        | Some (g, ps) => part_line get (PLit "TRE - " :: PLit g :: ps)
        | None => Ok (line (str "TRE - " ++ tc_tag c))
        end
  end.

(** nitf_segment.py:137-147. *)
Definition seg_summary (k : kind) (s : seg) : res (list N) :=
  do t <- (match s_tres FO s with
           | [] => Ok (line (str "No Segment level TRES"))
           | ts => do r <- map_res tre_summary ts; Ok (line (str "Segment level TRES:") ++ List.concat r)
           end);
  do a <- sub_summary k (s_hdr FO s);
  Ok (a ++ t).
(** nitf_file.py:130-143. *)
Fixpoint segs_summary (k : kind) (n i : nat) (l : list seg) : res (list N) :=
  match l with
  | [] => Ok []
  | s :: l' => do t <- seg_summary k s; do x <- segs_summary k n (S i) l'; Ok (count_line k i n ++ t ++ rule ++ x)
  end.
(** nitf_file.py:126-143. *)
Definition kind_summary (f : nfile) (k : kind) : res (list N) :=
  do t <- segs_summary k (List.length (nf_segs FO f k)) 0 (nf_segs FO f k);
  Ok ((match nf_segs FO f k with [] => line (str "No " ++ kind_title k ++ str " segments") | _ => rule end) ++ t).
(** [NitfFile.summary] (nitf_file.py:110-144). *)
Definition file_summary (f : nfile) : res (list N) :=
  do h <- header_summary (nf_hdr FO f);
  do t <- file_tres tre_summary (nf_tres FO f);
  do l <- map_res (kind_summary f) kinds;
  Ok (line (str "NITF File Summary") ++ rule ++ line (str "File Header:") ++ h ++ rule ++ t ++ List.concat l).
End FilePrint.
Arguments po_hooks {H}. Arguments po_raw {H}. Arguments po_numpy {H}.
