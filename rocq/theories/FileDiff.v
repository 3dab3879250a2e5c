(** Comparing two files (nitf_file_diff.py, and the handlers registered for the parts of a file).
    Only the result is modelled, not what is logged; the fields written to the log are read as
    far as reading them can fail. *)
From Verif Require Import Base Engine Utf8 Tre Handles TrePlace Security Image DescsHdr File Diff.
From Coq Require Import ZifyBool ZifyNat ZifyN.
Open Scope list_scope.

(** The value of a big endian integer pixel ([np.dtype], nitf_image_subheader.py:133-155). *)
Definition be (b : list N) : Z := fold_left (fun a x => (256 * a + Z.of_N x)%Z) b 0%Z.
(** Signed types in two's complement; [None]: not an integer type (nitf_image_subheader.py:133-155). *)
Definition pix_int (d : dtype) (b : item) : option Z :=
  match d with
  | U1 | U2 | U4 => Some (be b)
  | I1 | I2 | I4 => let n := (2 ^ (8 * itemsize d))%Z in
                    Some (if (2 * be b <? n)%Z then be b else (be b - n)%Z)
  | F4 | C8 | F8 | C16 => None
  end.
(** [np.allclose(t1, t2)] for a pair of integers, [abs(x - y) <= 1e-8 + 1e-5 * abs(y)]
    (nitf_image.py:217).  In exact arithmetic: no pair of 32 bit integers comes close enough to
    the bound for rounding to matter. *)
Definition int_close (x y : Z) : bool := (100000000 * Z.abs (x - y) <=? 1 + 1000 * Z.abs y)%Z.

Section FileDiff.
Variable FO : FloatOps.
Variable CO : CmpOps FO.
(** [np.allclose] for a pair of pixels of which one is a floating point or complex number
    (nitf_image.py:217). *)
Variable fl_pix : dtype -> dtype -> item -> item -> bool.
Notation state := (state FO).
Notation hdr := (hdr FO).
Notation config := (config FO).
Notation tre := (tre FO).
Notation seg := (seg FO).
Notation sdata := (sdata FO).

(** A NitfDiff (nitf_file_diff.py:12-25): the configuration of the handlers, the user
    subheader classes that have a handler, what [skip_obj_func] skips (taken to be functions
    that do not fail), and whether NitfImageReadNumpy was among the classes that read the images. *)
Record fcfg := {
  fc_hdr : config;
  fc_sub : kind -> config;
  fc_ush : string -> option config;
  fc_tre : list N -> config;
  fc_des : list N -> config;
  fc_skip_tre : tre -> bool;
  fc_skip_seg : kind -> seg -> bool;
  fc_numpy : bool;
}.

(** Configuration with only an exclude list (nitf_file_header.py:123-131 etc.). *)
Definition excluding (ex warn : list string) : config :=
  {| c_exclude := ex; c_warn := warn; c_include := []; c_eq := fun _ => None; c_rel := fun _ => None; c_abs := fun _ => None |}.
(** The defaults (nitf_file_header.py:110-133, nitf_image_subheader.py:434-445,
    nitf_graphic_subheader.py:82-92, nitf_text_subheader.py:78-87, nitf_des_subheader.py:84-94,
    nitf_res_subheader.py:68-77, nitf_des_associated_user_subheader.py:113-131,
    nitf_des_ext_def_content.py:105-121, nitf_tre_csexrb.py:193-199, nitf_diff_handle.py:100). *)
Definition default_fcfg : fcfg :=
  {| fc_hdr := excluding ["fl"; "hl"; "numi"; "lish"; "li"; "nums"; "lssh"; "ls"; "numx"; "numt"; "ltsh"; "lt"; "numdes"; "ldsh"; "ld";
                          "numres"; "lresh"; "lre"; "udhdl"; "udhofl"; "udhd"; "xhdl"; "xhdlofl"; "xhd"]%string ["fdt"%string];
     fc_sub := fun k => match k with
                        | KImage => excluding ["udidl"; "udofl"; "udid"; "ixshdl"; "ixofl"; "ixshd"]%string []
                        | KGraphic => excluding ["sxshdl"; "sxofl"; "sxshd"]%string []
                        | KText => excluding ["txshdl"; "txsofl"; "txshd"]%string []
                        | KDes => excluding ["desoflw"; "desitem"; "desshl"; "desshf"]%string []
                        | KRes => excluding ["resshl"; "resshf"]%string []
                        end;
     fc_ush := fun nm => if String.eqb nm "DesAssociatedUserSubheader" then Some (excluding ["id"; "assoc_elem_id"]%string [])
                         else if String.eqb nm "DesExtContentHeader" then Some (no_config FO) else None;
     fc_tre := fun t => if list_eqb t (str "CSEXRB") then excluding ["image_uuid"; "assoc_des_id"]%string [] else no_config FO;
     fc_des := fun _ => no_config FO;
     fc_skip_tre := fun _ => false;
     fc_skip_seg := fun _ _ => false;
     fc_numpy := true |}.

Section Cfg.
Variable C : fcfg.

(** [FieldStructDiff.compare_obj], the result alone (nitf_field.py:1040-1066). *)
Definition fields_same (rows1 rows2 : list row) (s1 s2 : state) (c : config) : res bool :=
  do r <- compare FO CO (mk_fs rows1) (mk_fs rows2) s1 s2 c; Ok (fst r).

(** TreUnknownDiff, tried first, and TreDiff (nitf_tre.py:286-323).  The bytes that differ are
    decoded for the log.  A TreUnknown has no fields (nitf_tre.py:113-116). *)
Definition tre_same (t1 t2 : tre) : res bool :=
  match t1, t2 with
  | TUnk g1 b1, TUnk g2 b2 =>
      if negb (list_eqb g1 g2) then Ok false
      else if list_eqb b1 b2 then Ok true
      else match utf8_dec b1, utf8_dec b2 with Some _, Some _ => Ok false | _, _ => Err EValue end
  | _, _ =>
      if negb (list_eqb (tre_tag FO t1) (tre_tag FO t2)) then Ok false
      else
        let rows t := match t with TObj c _ => tc_rows c | TUnk _ _ => [] end in
        let st t := match t with TObj _ s => s | TUnk _ _ => init_state FO end in
        fields_same (rows t1) (rows t2) (st t1) (st t2) (fc_tre C (tre_tag FO t1))
  end.

(** [for i in range(min(len(l1), len(l2))): is_same = compare_obj(l1[i], l2[i]) and is_same]
    (nitf_file_diff.py:132-133, 162-164): everything is compared. *)
Fixpoint pairs_same {A} (p : A -> A -> res bool) (l1 l2 : list A) : res bool :=
  match l1, l2 with
  | a :: l1', b :: l2' => do r <- p a b; do r' <- pairs_same p l1' l2'; Ok (r && r')
  | _, _ => Ok true
  end.
(** nitf_file_diff.py:127-133, 158-164. *)
Definition lists_same {A} (p : A -> A -> res bool) (l1 l2 : list A) : res bool :=
  do r <- pairs_same p l1 l2; Ok (Nat.eqb (List.length l1) (List.length l2) && r).

(** Both DESs hold TREs that did not fit elsewhere (nitf_file_diff.py:146-152,
    nitf_des_subheader.py:76-80). *)
Definition both_overflow (h1 h2 : hdr) : res bool :=
  do v <- hget FO (sub_rows KDes) h1 "desid"; do a <- py_eqb FO v (VStr overflow_id);
  if a then do w <- hget FO (sub_rows KDes) h2 "desid"; py_eqb FO w (VStr overflow_id) else Ok false.
(** nitf_file_diff.py:146-149: the other kinds of subheader have no [desid]. *)
Definition skip_pair (k : kind) (h1 h2 : hdr) : res bool :=
  match k with KDes => both_overflow h1 h2 | _ => Ok false end.

(** ImageSubheaderDiff (nitf_image_subheader.py:421-431), GraphicSubheaderDiff
    (nitf_graphic_subheader.py:69-79), TextSubheaderDiff (nitf_text_subheader.py:65-75),
    DesSubheaderDiff (nitf_des_subheader.py:66-81), ResSubheaderDiff (nitf_res_subheader.py:55-65). *)
Definition sub_same (k : kind) (h1 h2 : hdr) : res bool :=
  do o <- skip_pair k h1 h2;
  if o then Ok true else fields_same (sub_rows k) (sub_rows k) (h_st h1) (h_st h2) (fc_sub C k).

(** The user subheaders: compared if the first has one; a handler takes two of its own class
    (nitf_file_diff.py:155-157, nitf_des_associated_user_subheader.py:113-123,
    nitf_des_ext_def_content.py:105-115, priority_handle_set.py:69-86). *)
Definition ush_same (o1 o2 : option (ush FO)) : res bool :=
  match o1, o2 with
  | None, _ => Ok true
  | Some _, None => Err ERuntime
  | Some u1, Some u2 =>
      if negb (String.eqb (uc_name (us_cls FO u1)) (uc_name (us_cls FO u2))) then Err ERuntime
      else match fc_ush C (uc_name (us_cls FO u1)) with
           | None => Err ERuntime
           | Some c => fields_same (uc_rows (us_cls FO u1)) (uc_rows (us_cls FO u2)) (us_st FO u1) (us_st FO u2) c
           end
  end.

(** [string_as_str] (nitf_text.py:21-27); [None] has no [decode]. *)
Definition text_str (d : sdata) : option (res (list N)) :=
  match d with
  | DStr _ t => Some (Ok t)
  | DBytes _ None => Some (Err EAttr)
  | DBytes _ (Some b) => Some (match utf8_dec b with Some t => Ok t | None => Err EValue end)
  | _ => None
  end.
(** TextStrDiff (nitf_text.py:49-62). *)
Definition text_same (d1 d2 : sdata) : res bool :=
  match text_str d1, text_str d2 with
  | Some r1, Some r2 => do a <- r1; do b <- r2; Ok (list_eqb a b)
  | _, _ => Err ERuntime
  end.

(** All indices of an array, in C order ([d1[:,:,:]], nitf_image.py:211-212). *)
Definition indices (nb nr nc : Z) : list (Z * Z * Z) :=
  flat_map (fun b => flat_map (fun r => map (fun c => (b, r, c)) (upto nc)) (upto nr)) (upto nb).
(** [np.allclose] of two pixels (nitf_image.py:217). *)
Definition pix_close (d1 d2 : dtype) (p1 p2 : item) : bool :=
  match pix_int d1 p1, pix_int d2 p2 with
  | Some x, Some y => int_close x y
  | _, _ => fl_pix d1 d2 p1 p2
  end.
(** ImageWithSubsetDiff (nitf_image.py:205-224) for two arrays, each in bytes of its own. *)
Definition arrays_same (m1 m2 : mapped) (b1 b2 : list N) : bool :=
  let '(nb, nr, nc) := mp_dims m1 in
  let '(nb', nr', nc') := mp_dims m2 in
  (nb =? nb')%Z && (nr =? nr')%Z && (nc =? nc')%Z
  && forallb (fun x => let '(b, r, c) := x in pix_close (mp_dt m1) (mp_dt m2) (mp_item b1 m1 b r c) (mp_item b2 m2 b r c))
             (indices nb nr nc).
(** The class that holds the data of an image read from a file: NitfImageReadNumpy if that was
    registered and takes the image, otherwise NitfImagePlaceHolder (nitf_image.py:472-474).  The
    subheader is taken to be as it was when the data was read. *)
Definition image_plan (h : hdr) (b : list N) : res (option mapped) :=
  if fc_numpy C then do r <- np_read FO h b 0; Ok (match r with Some (m, _) => Some m | None => None end) else Ok None.
(** ImageWithSubsetDiff and ImagePlaceHolderDiff (nitf_image.py:90-99, 205-226). *)
Definition image_same (h1 h2 : hdr) (b1 b2 : list N) : res bool :=
  do p1 <- image_plan h1 b1;
  do p2 <- image_plan h2 b2;
  match p1, p2 with
  | Some m1, Some m2 => Ok (arrays_same m1 m2 b1 b2)
  | None, None => Ok true
  | _, _ => Err ERuntime
  end.

(** [compare_obj(seg1.data, seg2.data)] (nitf_file_diff.py:165).  DataPlaceHolderDiff
    (nitf_segment_data_handle.py:244-251); DesFieldStructDiff and the handlers of DES classes
    (nitf_des.py:111-133, nitf_des_csattb.py:54-66 and the like): different tags end in a
    NameError, here EAttr, and [data_to_copy] is not compared; nothing is registered for
    NitfGraphicRaw, NitfResRaw, NitfDesCopy and TreOverflow (priority_handle_set.py:86).
    Images not yet written are not compared here ([DImage], simplified to the error). *)
Definition data_same (k : kind) (h1 h2 : hdr) (d1 d2 : sdata) : res bool :=
  match d1, d2 with
  | DHole _ _, DHole _ _ => Ok true
  | _, _ =>
      match k with
      | KText => text_same d1 d2
      | KImage => match d1, d2 with DFile _ b1, DFile _ b2 => image_same h1 h2 b1 b2 | _, _ => Err ERuntime end
      | KDes => match d1, d2 with
                | DFields _ c1 s1 _, DFields _ c2 s2 _ =>
                    if negb (list_eqb (dc_tag c1) (dc_tag c2)) then Err EAttr
                    else fields_same (dc_rows c1) (dc_rows c2) s1 s2 (fc_des C (dc_tag c1))
                | _, _ => Err ERuntime
                end
      | KGraphic | KRes => Err ERuntime
      end
  end.

(** What is left after [skip_obj] (nitf_file_diff.py:27-33, 158-159). *)
Definition kept_tres (l : list tre) : list tre := filter (fun t => negb (fc_skip_tre C t)) l.
(** nitf_file_diff.py:27-33, 101-125. *)
Definition kept_segs (k : kind) (l : list seg) : list seg := filter (fun s => negb (fc_skip_seg C k s)) l.

(** The fields of [short_desc] (nitf_segment.py:255-256, 292-294, 318-319, 344-345, 376-377). *)
Definition short_fields (k : kind) : list string :=
  match k with KImage => ["iid1"] | KGraphic => ["sid"; "sname"] | KText => ["textid"] | KDes => ["desid"] | KRes => ["resid"] end%string.

(** SegmentDiff (nitf_file_diff.py:138-166). *)
Definition seg_same (k : kind) (s1 s2 : seg) : res bool :=
  do o <- skip_pair k (s_hdr FO s1) (s_hdr FO s2);
  if o then Ok true else
  do _ <- map_res (hget FO (sub_rows k) (s_hdr FO s1)) (short_fields k);
  do a <- sub_same k (s_hdr FO s1) (s_hdr FO s2);
  do b <- ush_same (s_ush FO s1) (s_ush FO s2);
  do c <- lists_same tre_same (kept_tres (s_tres FO s1)) (kept_tres (s_tres FO s2));
  do d <- data_same k (s_hdr FO s1) (s_hdr FO s2) (s_data FO s1) (s_data FO s2);
  Ok (a && b && c && d).

(** The lists of segments, one kind after the other (nitf_file_diff.py:101-133). *)
Fixpoint kinds_same (l : list kind) (f1 f2 : nfile FO) : res bool :=
  match l with
  | [] => Ok true
  | k :: l' => do a <- lists_same (seg_same k) (kept_segs k (nf_segs FO f1 k)) (kept_segs k (nf_segs FO f2 k));
               do b <- kinds_same l' f1 f2; Ok (a && b)
  end.
(** NitfFileHandle (nitf_file_diff.py:91-134) and FileHeaderDiff (nitf_file_header.py:97-107). *)
Definition file_same (f1 f2 : nfile FO) : res bool :=
  do a <- fields_same desc_NitfFileHeader desc_NitfFileHeader (h_st (nf_hdr FO f1)) (h_st (nf_hdr FO f2)) (fc_hdr C);
  do b <- lists_same tre_same (kept_tres (nf_tres FO f1)) (kept_tres (nf_tres FO f2));
  do c <- kinds_same kinds f1 f2;
  Ok (a && b && c).
End Cfg.
End FileDiff.
