(** What comparing two files writes to the log, and what the tool nitf_diff prints
    (nitf_diff_handle.py, nitf_file_diff.py, nitf_field.py:989-1066, bin/nitf_diff).
    A message is given by what it is about, not by its text; levels and contexts are modelled. *)
From Verif Require Import Base Engine Utf8 Tre Handles TrePlace Security Image DescsHdr File Diff FileDiff.
From Coq Require Import ZifyBool ZifyNat ZifyN.
Open Scope list_scope.

(** The levels of the messages (nitf_diff_handle.py:22-26, nitf_image.py:95,
    nitf_segment_data_handle.py:250). *)
Inductive level := LFound | LIgnored | LDetail | LWarn.
(** Their numbers (nitf_diff_handle.py:24-28; 30 is [logging.WARNING]). *)
Definition level_no (l : level) : Z := match l with LFound => 39 | LIgnored => 38 | LDetail => 21 | LWarn => 30 end%Z.

(** The messages: a field that differs, the shape of an array, elements of an array, other
    fields (nitf_field.py:1025-1038, 1051, 1065), the tags or the bytes of TREs (nitf_tre.py:294, 313-319),
    the numbers of TREs or segments (nitf_file_diff.py:129, 161), images and texts
    (nitf_image.py:95, 215-219, nitf_text.py:61), data that is not compared
    (nitf_segment_data_handle.py:250). *)
Inductive what :=
  | WValue (nm : string) | WShape (nm : string) | WArray (nm : string) (bad total : nat) | WElem (nm : string) (k : list Z)
  | WStop (nm1 nm2 : string) | WTags (t1 t2 : list N) | WBytes (t : list N)
  | WCount (n1 : nat) (desc : string) (n2 : nat) | WTreCount (n1 n2 : nat)
  | WImageShape | WImage | WText | WSkipImage | WSkipData.

(** A record of the log with the context the filter puts on it (nitf_diff_handle.py:88-96). *)
Record entry := Entry { e_level : level; e_ctx : list N; e_what : what }.

(** A computation that logs: what was logged stays logged when it raises. *)
Definition lg (A : Type) : Type := (list entry * res A)%type.
(** Sequencing of such computations (any sequence of python statements, e.g. nitf_file_diff.py:95-134). *)
Definition lbind {A B} (m : lg A) (k : A -> lg B) : lg B :=
  match m with
  | (l, Ok a) => let r := k a in (l ++ fst r, snd r)
  | (l, Err e) => (l, Err e)
  end.
(** Without logging. *)
Definition quiet {A} (r : res A) : lg A := ([], r).
(** [logger.difference(..)] and the like (nitf_diff_handle.py:78-86). *)
Definition say (lv : level) (ctx : list N) (w : what) : lg unit := ([Entry lv ctx w], Ok tt).
Notation "'log' x <- m ; k" := (lbind m (fun x => k)) (at level 60, x pattern, m at next level, right associativity).

(** [ctx += " " + v] of [diff_context(v, add_text = True)] (nitf_file_diff.py:36-52). *)
Definition within (ctx v : list N) : list N := ctx ++ str " " ++ v.
(** [NAME 'tag'] (nitf_tre.py:299, nitf_des.py:128). *)
Definition quoted (name : string) (t : list N) : list N := str name ++ str " '" ++ t ++ str "'".

Section FileLog.
Variable FO : FloatOps.
Variable CO : CmpOps FO.
Variable fl_pix : dtype -> dtype -> item -> item -> bool.
Notation pyval := (pyval FO).
Notation state := (state FO).
Notation hdr := (hdr FO).
Notation config := (config FO).
Notation tre := (tre FO).
Notation seg := (seg FO).
Notation sdata := (sdata FO).

Section Two.
Variables (fs1 fs2 : fstruct) (s1 s2 : state) (ctx : list N).

(** The loop of nitf_field.py:1027-1035: how many differ, and of how many. *)
Fixpoint lcount (nm : string) (f1 f2 : field) (cmp : pyval -> pyval -> res bool) (ks1 ks2 : list (list Z)) : lg (nat * nat) :=
  match ks1, ks2 with
  | [], [] => quiet (Ok (O, O))
  | [], _ :: _ => quiet (Err EType)
  | k1 :: ks1', _ =>
      log a <- quiet (fget FO fs1 s1 f1 k1);
      log b <- quiet (match ks2 with [] => Ok VNone | k2 :: _ => fget FO fs2 s2 f2 k2 end);
      log r <- quiet (cmp a b);
      log _ <- (if r then quiet (Ok tt) else say LDetail ctx (WElem nm k1));
      log n <- lcount nm f1 f2 cmp ks1' (tl ks2);
      quiet (Ok (if r then fst n else S (fst n), S (snd n)))
  end.

(** [_cmp_nitf_field] (nitf_field.py:1022-1038): whether [rep_diff], which logs at [lv], was
    called.  As in [cmp_field] the indices are made before the loop. *)
Definition lfield (lv : level) (nm : string) (f1 f2 : field) (cmp : pyval -> pyval -> res bool) : lg bool :=
  log sh <- quiet (shape_equal FO fs1 fs2 s1 s2 f1 f2);
  if sh then
    log ks1 <- quiet (field_keys FO fs1 s1 f1);
    log ks2 <- quiet (field_keys FO fs2 s2 f2);
    log n <- lcount nm f1 f2 cmp ks1 ks2;
    match fst n with
    | O => quiet (Ok false)
    | S _ => log _ <- say lv ctx (WArray nm (fst n) (snd n)); quiet (Ok true)
    end
  else log _ <- say lv ctx (WShape nm); quiet (Ok true).

(** nitf_field.py:1061-1065, as [differs]. *)
Definition ldiffers (lv : level) (c : config) (nm : string) (a b : attr FO) : lg bool :=
  match a, b with
  | AFld _ f, AFld _ g => lfield lv nm f g (cmp_fun FO CO c nm (match fd_ty (f_d f) with TFloat => true | _ => false end))
  | _, _ =>
      log d <- quiet (differs FO CO fs1 fs2 s1 s2 c nm a b);
      if d then log _ <- say lv ctx (WValue nm); quiet (Ok true) else quiet (Ok false)
  end.

(** [compare_obj] (nitf_field.py:1040-1066), [n] steps; [self.is_same] turns False where a
    difference is logged by [_is_diff] (989-993). *)
Fixpoint lcompare_from (n : nat) (c : config) (ns1 ns2 : list string) : lg bool :=
  match n with
  | O => quiet (Ok true)
  | S n' =>
      log p <- quiet (next_item FO fs1 s1 ns1);
      log q <- quiet (next_item FO fs2 s2 ns2);
      if negb (String.eqb (fst p) (fst q)) then log _ <- say LFound ctx (WStop (fst p) (fst q)); quiet (Ok false)
      else if skipped FO c (fst p) then lcompare_from n' c (tl ns1) (tl ns2)
      else
        let warn := existsb (String.eqb (fst p)) (c_warn FO c) in
        log d <- ldiffers (if warn then LIgnored else LFound) c (fst p) (snd p) (snd q);
        log r <- lcompare_from n' c (tl ns1) (tl ns2);
        quiet (Ok (r && negb (d && negb warn)))
  end.
(** nitf_field.py:1040-1066. *)
Definition lcompare (c : config) : lg bool :=
  lcompare_from (Nat.max (List.length (dict_names fs1)) (List.length (dict_names fs2))) c (dict_names fs1) (dict_names fs2).
End Two.

Section Cfg.
Variable C : fcfg FO.

(** nitf_field.py:1040-1066. *)
Definition lfields (ctx : list N) (rows1 rows2 : list row) (s1 s2 : state) (c : config) : lg bool :=
  lcompare (mk_fs rows1) (mk_fs rows2) s1 s2 ctx c.

(** TreUnknownDiff and TreDiff (nitf_tre.py:286-323). *)
Definition tre_log (ctx : list N) (t1 t2 : tre) : lg bool :=
  match t1, t2 with
  | TUnk g1 b1, TUnk g2 b2 =>
      if negb (list_eqb g1 g2) then log _ <- say LFound ctx (WTags g1 g2); quiet (Ok false)
      else if list_eqb b1 b2 then quiet (Ok true)
      else match utf8_dec b1, utf8_dec b2 with
           | Some _, Some _ => log _ <- say LFound ctx (WBytes g1); quiet (Ok false)
           | _, _ => quiet (Err EValue)
           end
  | _, _ =>
      if negb (list_eqb (tre_tag FO t1) (tre_tag FO t2)) then
        log _ <- say LFound ctx (WTags (tre_tag FO t1) (tre_tag FO t2)); quiet (Ok false)
      else
        let rows t := match t with TObj c _ => tc_rows c | TUnk _ _ => [] end in
        let st t := match t with TObj _ s => s | TUnk _ _ => init_state FO end in
        lfields (within ctx (quoted "TRE" (tre_tag FO t1))) (rows t1) (rows t2) (st t1) (st t2) (fc_tre FO C (tre_tag FO t1))
  end.

(** nitf_file_diff.py:132-133, 162-164. *)
Fixpoint pairs_log {A} (p : A -> A -> lg bool) (l1 l2 : list A) : lg bool :=
  match l1, l2 with
  | a :: l1', b :: l2' => log r <- p a b; log r' <- pairs_log p l1' l2'; quiet (Ok (r && r'))
  | _, _ => quiet (Ok true)
  end.
(** nitf_file_diff.py:127-133, 160-164: the numbers first. *)
Definition lists_log {A} (ctx : list N) (w : nat -> nat -> what) (p : A -> A -> lg bool) (l1 l2 : list A) : lg bool :=
  let same := Nat.eqb (List.length l1) (List.length l2) in
  log _ <- (if same then quiet (Ok tt) else say LFound ctx (w (List.length l1) (List.length l2)));
  log r <- pairs_log p l1 l2;
  quiet (Ok (same && r)).

(** ImageSubheaderDiff (nitf_image_subheader.py:427) and the like, see [sub_same]. *)
Definition sub_log (ctx : list N) (k : kind) (h1 h2 : hdr) : lg bool :=
  log o <- quiet (skip_pair FO k h1 h2);
  if o then quiet (Ok true) else lfields (within ctx (str "Subheader")) (sub_rows k) (sub_rows k) (h_st h1) (h_st h2) (fc_sub FO C k).

(** The user subheaders, see [ush_same]: the context is replaced by the name of the class
    (nitf_des_associated_user_subheader.py:119, nitf_des_ext_def_content.py:111). *)
Definition ush_log (o1 o2 : option (ush FO)) : lg bool :=
  match o1, o2 with
  | None, _ => quiet (Ok true)
  | Some _, None => quiet (Err ERuntime)
  | Some u1, Some u2 =>
      if negb (String.eqb (uc_name (us_cls FO u1)) (uc_name (us_cls FO u2))) then quiet (Err ERuntime)
      else match fc_ush FO C (uc_name (us_cls FO u1)) with
           | None => quiet (Err ERuntime)
           | Some c => lfields (str (uc_name (us_cls FO u1))) (uc_rows (us_cls FO u1)) (uc_rows (us_cls FO u2)) (us_st FO u1) (us_st FO u2) c
           end
  end.

(** TextStrDiff (nitf_text.py:54-62). *)
Definition text_log (ctx : list N) (d1 d2 : sdata) : lg bool :=
  log b <- quiet (text_same FO d1 d2);
  if b then quiet (Ok true) else log _ <- say LFound (within ctx (str "TextStr")) WText; quiet (Ok false).

(** ImageWithSubsetDiff and ImagePlaceHolderDiff (nitf_image.py:90-99, 205-226). *)
Definition image_log (ctx : list N) (h1 h2 : hdr) (b1 b2 : list N) : lg bool :=
  log p1 <- quiet (image_plan FO C h1 b1);
  log p2 <- quiet (image_plan FO C h2 b2);
  match p1, p2 with
  | Some m1, Some m2 =>
      let '(nb, nr, nc) := mp_dims m1 in
      let '(nb', nr', nc') := mp_dims m2 in
      if negb ((nb =? nb')%Z && (nr =? nr')%Z && (nc =? nc')%Z) then log _ <- say LFound ctx WImageShape; quiet (Ok false)
      else if negb (arrays_same fl_pix m1 m2 b1 b2) then log _ <- say LFound ctx WImage; quiet (Ok false)
      else quiet (Ok true)
  | None, None => log _ <- say LWarn ctx WSkipImage; quiet (Ok true)
  | _, _ => quiet (Err ERuntime)
  end.

(** The context for the fields of a DES: replaced for the classes with a handler of their own
    (nitf_des_csatta.py:53, which says CSATTB, nitf_des_csattb.py:60, nitf_des_cscsdb.py:353,
    nitf_des_csephb.py:60, nitf_des_cssfab.py:170), otherwise extended (nitf_des.py:128). *)
Definition des_ctx (ctx t : list N) : list N :=
  if list_eqb t (str "CSATTA") then str "DesCSATTB"
  else if existsb (list_eqb t) [str "CSATTB"; str "CSCSDB"; str "CSEPHB"; str "CSSFAB"] then str "Des" ++ t
  else within ctx (quoted "DES" t).

(** [compare_obj(seg1.data, seg2.data)] (nitf_file_diff.py:165), see [data_same]. *)
Definition data_log (ctx : list N) (k : kind) (h1 h2 : hdr) (d1 d2 : sdata) : lg bool :=
  match d1, d2 with
  | DHole _ _, DHole _ _ => log _ <- say LWarn ctx WSkipData; quiet (Ok true)
  | _, _ =>
      match k with
      | KText => text_log ctx d1 d2
      | KImage => match d1, d2 with DFile _ b1, DFile _ b2 => image_log ctx h1 h2 b1 b2 | _, _ => quiet (Err ERuntime) end
      | KDes => match d1, d2 with
                | DFields _ c1 s1 _, DFields _ c2 s2 _ =>
                    if negb (list_eqb (dc_tag c1) (dc_tag c2)) then quiet (Err EAttr)
                    else lfields (des_ctx ctx (dc_tag c1)) (dc_rows c1) (dc_rows c2) s1 s2 (fc_des FO C (dc_tag c1))
                | _, _ => quiet (Err ERuntime)
                end
      | KGraphic | KRes => quiet (Err ERuntime)
      end
  end.

(** [short_desc()] (nitf_segment.py:255-256, 292-294, 318-319, 344-345, 376-377), from the
    values of [short_fields]. *)
Definition short_desc (k : kind) (vs : list pyval) : list N :=
  match k, vs with
  | KImage, v :: _ => str "ImageSegment " ++ conv_str FO v
  | KGraphic, v :: w :: _ => str "GraphicSegment " ++ conv_str FO v ++ str " """ ++ conv_str FO w ++ str """"
  | KText, v :: _ => str "TextSegment " ++ conv_str FO v
  | KDes, v :: _ => str "DesSegment " ++ conv_str FO v
  | KRes, v :: _ => str "ResSegment " ++ conv_str FO v
  | _, _ => []
  end.

(** SegmentDiff (nitf_file_diff.py:138-166). *)
Definition seg_log (k : kind) (s1 s2 : seg) : lg bool :=
  log o <- quiet (skip_pair FO k (s_hdr FO s1) (s_hdr FO s2));
  if o then quiet (Ok true) else
  log vs <- quiet (map_res (hget FO (sub_rows k) (s_hdr FO s1)) (short_fields k));
  let ctx := short_desc k vs in
  log a <- sub_log ctx k (s_hdr FO s1) (s_hdr FO s2);
  log b <- ush_log (s_ush FO s1) (s_ush FO s2);
  log c <- lists_log ctx WTreCount (tre_log ctx) (kept_tres FO C (s_tres FO s1)) (kept_tres FO C (s_tres FO s2));
  log d <- data_log ctx k (s_hdr FO s1) (s_hdr FO s2) (s_data FO s1) (s_data FO s2);
  quiet (Ok (a && b && c && d)).

(** nitf_file_diff.py:101-125. *)
Definition kind_desc (k : kind) : string :=
  match k with KImage => "image segments" | KGraphic => "graphic segments" | KText => "text segments"
             | KDes => "des segments" | KRes => "res segments" end%string.
(** The context a NitfDiff starts with (nitf_file_diff.py:25). *)
Definition file_ctx : list N := str "File level".
(** nitf_file_diff.py:101-133. *)
Fixpoint kinds_log (l : list kind) (f1 f2 : nfile FO) : lg bool :=
  match l with
  | [] => quiet (Ok true)
  | k :: l' => log a <- lists_log file_ctx (fun n m => WCount n (kind_desc k) m) (seg_log k)
                                  (kept_segs FO C k (nf_segs FO f1 k)) (kept_segs FO C k (nf_segs FO f2 k));
               log b <- kinds_log l' f1 f2; quiet (Ok (a && b))
  end.
(** NitfFileHandle (nitf_file_diff.py:91-134) and FileHeaderDiff (nitf_file_header.py:97-107). *)
Definition file_log (f1 f2 : nfile FO) : lg bool :=
  log a <- lfields (str "NITF File Header") desc_NitfFileHeader desc_NitfFileHeader (h_st (nf_hdr FO f1)) (h_st (nf_hdr FO f2)) (fc_hdr FO C);
  log b <- lists_log file_ctx (fun n m => WCount n "file level TREs"%string m) (tre_log file_ctx)
                     (kept_tres FO C (nf_tres FO f1)) (kept_tres FO C (nf_tres FO f2));
  log c <- kinds_log kinds f1 f2;
  quiet (Ok (a && b && c)).
End Cfg.
End FileLog.

(** ** The tool *)

(** Options of nitf_diff (bin/nitf_diff:41-73); a log file is given by [--log-file] or
    [--log-file-only]. *)
Record topts := { o_debug : bool; o_verbose : bool; o_quiet : bool; o_file : bool; o_only : bool }.
(** The level set on the logger and the screen (bin/nitf_diff:120-135). *)
Definition threshold (o : topts) : Z :=
  if o_debug o then 10 else if o_verbose o then 20 else if o_quiet o then 1000 else 30.
(** What is printed: a message of the comparison or the final line (bin/nitf_diff:137-155; the
    names of the files at the top of the log file are left out). *)
Inductive line := LEntry (e : entry) | LDiffer | LSame.
(** Messages at or above a level ([logging]). *)
Definition shown (t : Z) (l : list entry) : list line := map LEntry (filter (fun e => (t <=? level_no (e_level e))%Z) l).
(** What the user gets: the screen, the log file if there is one, the exit status.  An
    exception ends the program with status 1. *)
Record outcome := { r_screen : list line; r_file : option (list line); r_status : Z }.
(** bin/nitf_diff:107-155. *)
Definition nitf_diff (o : topts) (m : lg bool) : outcome :=
  let has_file := o_file o || o_only o in
  let ends := match snd m with
              | Ok false => (if o_quiet o then [] else [LDiffer], [LDiffer])
              | Ok true => if o_quiet o then ([], []) else ([LSame], [LSame])
              | Err _ => ([], [])
              end in
  {| r_screen := (if o_only o then [] else shown (threshold o) (fst m)) ++ fst ends;
     r_file := if has_file then Some (shown (Z.max 20 (threshold o)) (fst m) ++ snd ends) else None;
     r_status := match snd m with Ok true => 0%Z | _ => 1%Z end |}.
