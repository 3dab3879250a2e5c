(** The log of a comparison: cases, and where it does not name the part that differs (C62). *)
From Verif Require Import Base Engine Utf8 Decimal Ex Tre Handles TrePlace Security Image DescsHdr DescsDes File P_File Diff P_Diff P_DiffCases FileDiff P_FileDiff
  P_FileDiffEx FileLog P_FileLog.
Open Scope list_scope.

Section Ex.
Variable FO : FloatOps.
Variable CO : CmpOps FO.
Variable fp : dtype -> dtype -> item -> item -> bool.

(** What comparing two files, written and read back, logs. *)
Definition logged (E : env) (f1 f2 : nfile FO) : res (list entry * res bool) :=
  do g1 <- through FO E f1; do g2 <- through FO E f2; Ok (file_log FO CO fp (default_fcfg FO) g1 g2).
Lemma logged_read E f1 f2 m : logged E f1 f2 = Ok m ->
  exists b1 b2 g1 g2, file_read FO E b1 = Ok g1 /\ file_read FO E b2 = Ok g2 /\ file_log FO CO fp (default_fcfg FO) g1 g2 = m.
Proof.
  unfold logged. generalize (file_log FO CO fp (default_fcfg FO)). intros C X. destruct (through FO E f1) as [g1|] eqn:E1; [|discriminate X].
  destruct (through FO E f2) as [g2|] eqn:E2; [|discriminate X]. apply through_read in E1 as (b1 & E1). apply through_read in E2 as (b2 & E2).
  cbn [bind] in X. injection X as X. exists b1, b2, g1, g2. auto.
Qed.

Local Notation found_at c w := (Entry LFound (str c) w).
(** Another text, another TRE, a TRE more. *)
Example ex_c62_text : logged diff_env (one_text FO (str "hello") []) (one_text FO (str "hallo") []) = Ok ([found_at "TextSegment  TextStr" WText], Ok false).
Proof. vm_compute. reflexivity. Qed.
Example ex_c62_tre :
  logged diff_env (one_text FO (str "hello") [TUnk (str "SMALL") (str "x")]) (one_text FO (str "hello") [TUnk (str "SMALL") (str "y")])
    = Ok ([found_at "TextSegment " (WBytes (str "SMALL"))], Ok false)
  /\ logged diff_env (one_text FO (str "hello") [TUnk (str "SMALL") (str "x")]) (one_text FO (str "hello") [])
    = Ok ([found_at "TextSegment " (WTreCount 1 0)], Ok false)
  /\ logged diff_env (one_text FO (str "hello") [TUnk (str "SMALL") (str "x")]) (one_text FO (str "hello") [TUnk (str "TINY") (str "y")])
    = Ok ([found_at "TextSegment " (WTags (str "SMALL") (str "TINY"))], Ok false).
Proof. split; [|split]; vm_compute; reflexivity. Qed.
(** A pixel, the size of an image, a segment more, a title and the date, which is ignored. *)
Example ex_c62_image : logged diff_env (one_pixel FO 5) (one_pixel FO 6) = Ok ([found_at "ImageSegment Test" WImage], Ok false).
Proof. vm_compute. reflexivity. Qed.
Example ex_c62_count : logged diff_env (one_text FO (str "hello") []) (new FO) = Ok ([found_at "File level" (WCount 1 "text segments" 0)], Ok false).
Proof. vm_compute. reflexivity. Qed.
Example ex_c62_header : logged diff_env (with_field FO "ftitle" (str "one")) (with_field FO "ftitle" (str "two"))
    = Ok ([found_at "NITF File Header" (WValue "ftitle")], Ok false)
  /\ logged diff_env (with_field FO "fdt" (str "20200101000000")) (with_field FO "fdt" (str "20210101000000"))
    = Ok ([Entry LIgnored (str "NITF File Header") (WValue "fdt")], Ok true).
Proof. split; vm_compute; reflexivity. Qed.
Example ex_c62_des : logged diff_env (one_des FO "NOTE" (str "001")) (one_des FO "NOTE" (str "002"))
  = Ok ([found_at "DesSegment NOTE DES 'NOTE'" (WValue "num")], Ok false).
Proof. vm_compute. reflexivity. Qed.
(** Data of a class that is not registered is not compared; the warning says so. *)
Example ex_c62_unread : logged diff_env (one_des FO "OTHER" (str "001")) (one_des FO "OTHER" (str "002"))
  = Ok ([Entry LWarn (str "DesSegment OTHER") WSkipData], Ok true).
Proof. vm_compute. reflexivity. Qed.
(** The end of the comparison of a text that is not UTF-8: what was found before is logged. *)
Example ex_c62_raises : logged diff_env (one_text FO [233%N] [TUnk (str "SMALL") (str "x")]) (one_text FO [233%N] [TUnk (str "SMALL") (str "y")])
  = Ok ([found_at "TextSegment " (WBytes (str "SMALL"))], Err EValue).
Proof. vm_compute. reflexivity. Qed.

(** The DES class CSATTA has a handler that speaks of CSATTB, and does not name the segment
    (nitf_des_csatta.py:53). *)
Definition csatta : dcls := {| dc_tag := str "CSATTA"; dc_rows := desc_DesCSATTA; dc_after := false; dc_copy := false |}.
Definition csatta_env : env := {| e_reg := []; e_des := []; e_res := []; e_levels := [[HOverflow; HFields csatta]; [HHole]] |}.
Definition csatta_body (d : string) : list N := str "ORIGINAL    00000000001.00" ++ str d ++ str "000000.00000000000".
Definition segs_of (g : nfile FO) : list (list N) :=
  map (fun s => match TrePlace.hget FO (sub_rows KDes) (s_hdr FO s) "desid" with Ok (VStr t) => t | _ => [] end) (nf_segs FO g KDes).
(** A difference can be logged without the name of the segment it is in, and with the name of
    another class. *)
Theorem C62_context_refuted : exists b1 b2 g1 g2 e, file_read FO csatta_env b1 = Ok g1 /\ file_read FO csatta_env b2 = Ok g2
  /\ segs_of g1 = [str "CSATTA"] /\ segs_of g2 = [str "CSATTA"]
  /\ file_log FO CO fp (default_fcfg FO) g1 g2 = ([e], Ok false) /\ e_level e = LFound /\ e_ctx e = str "DesCSATTB".
Proof.
  assert (H : match through FO csatta_env (one_des FO "CSATTA" (csatta_body "20200101")), through FO csatta_env (one_des FO "CSATTA" (csatta_body "20200102")) with
              | Ok g1, Ok g2 => segs_of g1 = [str "CSATTA"] /\ segs_of g2 = [str "CSATTA"]
                  /\ file_log FO CO fp (default_fcfg FO) g1 g2 = ([found_at "DesCSATTB" (WValue "date_att")], Ok false)
              | _, _ => False end) by (vm_compute; repeat split; reflexivity).
  destruct (through FO csatta_env (one_des FO "CSATTA" (csatta_body "20200101"))) as [g1|] eqn:E1; [|destruct H].
  destruct (through FO csatta_env (one_des FO "CSATTA" (csatta_body "20200102"))) as [g2|] eqn:E2; [|destruct H].
  apply through_read in E1 as (b1 & E1). apply through_read in E2 as (b2 & E2). destruct H as (H1 & H2 & H).
  exists b1, b2, g1, g2, (found_at "DesCSATTB" (WValue "date_att")). repeat (split; [assumption|]). split; reflexivity.
Qed.
End Ex.

(** ** Arrays *)
Definition arr_rows : list row := [RField (ex_field "n" 2 TInt); RLoop (EFld "n" 0) [RField (ex_field "a" 3 TInt)]].
Definition arr_log (t1 t2 : string) : lg bool :=
  lcompare DecF DecC (mk_fs arr_rows) (mk_fs arr_rows) (from_text (mk_fs arr_rows) (str t1)) (from_text (mk_fs arr_rows) (str t2)) (str "here") (no_config DecF).
Example ex_c62_elements : arr_log "04001002003004" "04001007003008"
  = ([Entry LDetail (str "here") (WElem "a" [1%Z]); Entry LDetail (str "here") (WElem "a" [3%Z]); Entry LFound (str "here") (WArray "a" 2 4)], Ok false).
Proof. vm_compute. reflexivity. Qed.
Example ex_c62_shape : arr_log "02001002" "03001002003"
  = ([Entry LFound (str "here") (WValue "n"); Entry LFound (str "here") (WShape "a")], Ok false).
Proof. vm_compute. reflexivity. Qed.

(** ** The tool *)
Definition plain_opts : topts := {| o_debug := false; o_verbose := false; o_quiet := false; o_file := false; o_only := false |}.
Definition quiet_opts : topts := {| o_debug := false; o_verbose := false; o_quiet := true; o_file := true; o_only := false |}.
(** By default the elements are not shown, with [--verbose] they are. *)
Example ex_c62_tool : nitf_diff plain_opts (arr_log "02001002" "02001003")
    = {| r_screen := [LEntry (Entry LFound (str "here") (WArray "a" 1 2)); LDiffer]; r_file := None; r_status := 1%Z |}
  /\ r_screen (nitf_diff {| o_debug := false; o_verbose := true; o_quiet := false; o_file := false; o_only := false |} (arr_log "02001002" "02001003"))
    = [LEntry (Entry LDetail (str "here") (WElem "a" [1%Z])); LEntry (Entry LFound (str "here") (WArray "a" 1 2)); LDiffer].
Proof. split; vm_compute; reflexivity. Qed.
(** An exception and a difference have the same status; the log file of a quiet run tells that
    files differ, but not that they are the same, nor what differs. *)
Theorem C62_status_refuted : exists o m m', snd m = Ok false /\ snd m' = Err EValue /\ r_status (nitf_diff o m) = r_status (nitf_diff o m').
Proof. exists plain_opts, ([], Ok false), ([], Err EValue). repeat split. Qed.
Theorem C62_quiet_file_refuted : exists m m', snd m = Ok true /\ snd m' = Ok false /\ r_file (nitf_diff quiet_opts m) = Some []
  /\ found (fst m') = true /\ r_file (nitf_diff quiet_opts m') = Some [LDiffer].
Proof. exists (arr_log "02001002" "02001002"), (arr_log "02001002" "02001003"). vm_compute. repeat split; reflexivity. Qed.
Print Assumptions C62_context_refuted.
Print Assumptions C62_status_refuted.
Print Assumptions C62_quiet_file_refuted.
