(** Printing and summarising whole files: cases, and where printing says less, or something else,
    than the file holds (C63). *)
From Verif Require Import Base Engine Wf Rewrite Codec Utf8 Decimal DecimalFit P_RoundTrip Ex Tre Handles TrePlace Security Image P_Image DescsHdr DescsDes File P_File Diff P_Diff P_DiffCases FileDiff P_FileDiff
  P_FileDiffEx Listing P_ListingRead DesPrint FilePrint P_FilePrint P_FilePrintRead P_FileSummary P_FilePrintKeep.
Open Scope list_scope.

(** [x] occurs in [y]. *)
Fixpoint starts (x y : list N) : bool :=
  match x, y with
  | [], _ => true
  | a :: x', b :: y' => N.eqb a b && starts x' y'
  | _, _ => false
  end.
Fixpoint occurs (x y : list N) : nat :=
  (if starts x y then 1 else 0) + match y with [] => 0 | _ :: y' => occurs x y' end.
Fixpoint words (l : list string) : list N := match l with [] => [] | a :: l' => str a ++ [10%N] ++ words l' end.
Definition dashes : string := "-------------------------------------------------------------".

Section Ex.
Variable FO : FloatOps.
(** No hook, as in a file that nothing was registered for. *)
Definition bare : popts unit := {| po_hooks := []; po_raw := false; po_numpy := true |}.
Definition silent (_ : unit) (_ : kind) (_ : seg FO) : res (list N) := Ok [].
Definition declines (_ : unit) (_ : kind) (_ : seg FO) (_ : tre FO) : res (bool * list N) := Ok (false, []).
Definition shown (f : nfile FO) : res (nfile FO * list N) := file_print FO no_ext case_source unit (fun _ => true) silent declines bare (read_size FO f) f.

(** The text of a file with an image, a text with a TRE, two DESs and a graphic that was read. *)
Definition counts (l : list string) (f : nfile FO) : res (list nat) := do (_, t) <- shown f; Ok (map (fun x => occurs (str x) t) l).
Example ex_c63_text : (do g <- through FO self_env (self_file FO); counts
    [dashes; "File Header:"; "No file level TREs"; "Image segment 1 of 1"; "Graphic segment 1 of 1"; "Text segment 1 of 1";
     "Data Extension segment 1 of 2"; "Data Extension segment 2 of 2"; "Data Extension segment 3 of 2"; "No Reserved Extension segments";
     "NitfImageReadNumpy 1 x 1 uint32 image"; "hello"; "TRE - SMALL"; "   String: b'x'"; "Sub header:"; "User-Defined Subheader: "]%string g)
  = Ok [11; 1; 1; 1; 1; 1; 1; 1; 0; 1; 1; 1; 1; 1; 5; 1]%nat.
Proof. vm_compute. reflexivity. Qed.
(** The end of the text of a file with one text segment. *)
Definition tail (n : nat) (t : list N) : list N := skipn (List.length t - n) t.
Example ex_c63_segment : (do g <- through FO self_env (one_text FO (str "hello") [TUnk (str "SMALL") (str "x")]);
    do (_, t) <- shown g; Ok (let e := words ["TREs:"; "TRE - SMALL"; "   String: b'x'"; ""; "Data"; "NitfTextStr:"; "hello"; dashes;
      "No Data Extension segments"; "No Reserved Extension segments"]%string in list_eqb (tail (List.length e) t) e))
  = Ok true.
Proof. vm_compute. reflexivity. Qed.

(** The summary of it. *)
Example ex_c63_summary : (do g <- through FO self_env (self_file FO); file_summary FO g)
  = Ok (words ["NITF File Summary"; dashes; "File Header:"; "NITF 02.10  MD5: ";
      "1 Image Segments, 1 Graphic Segments, 1 Text Segments, 2 DESs"; dashes; "No file level TREs"; dashes;
      "Image segment 1 of 1"; "IM Test second"; "1 X 1, 1 Band(s), 32/32 bpp"; "No Segment level TRES"; dashes; dashes;
      "Graphic segment 1 of 1"; "SY  "; "No Segment level TRES"; dashes; dashes;
      "Text segment 1 of 1"; "TE  "; "Segment level TRES:"; "TRE - SMALL"; dashes; dashes;
      "Data Extension segment 1 of 2"; "NOTE "; "No Segment level TRES"; dashes;
      "Data Extension segment 2 of 2"; "ASSOC "; "No Segment level TRES"; dashes;
      "No Reserved Extension segments"]%string).
Proof. vm_compute. reflexivity. Qed.

(** ** Hooks *)
(** The hook says something before the segment, and takes care of the TRE SMALL. *)
Definition speaks (_ : unit) (_ : kind) (_ : seg FO) : res (list N) := Ok (words ["Hook"%string]).
Definition takes (_ : unit) (_ : kind) (_ : seg FO) (t : tre FO) : res (bool * list N) :=
  if list_eqb (tre_tag FO t) (str "SMALL") then Ok (true, words ["Taken"%string]) else Ok (false, []).
Definition hooked (raw : bool) (f : nfile FO) : res (nfile FO * list N) :=
  file_print FO no_ext case_source unit (fun _ => true) speaks takes {| po_hooks := [tt]; po_raw := raw; po_numpy := true |} (read_size FO f) f.
Definition two_tres : nfile FO := one_text FO (str "hello") [TUnk (str "SMALL") (str "x"); TUnk (str "LARGE") (str "y")].
Example ex_c63_hooks : (do g <- through FO self_env two_tres; do (_, t) <- hooked false g;
    Ok (map (fun x => occurs x t) [words ["Text segment 1 of 1"; "Hook"; "Sub header:"]; words ["TREs:"; "Taken"; "TRE - LARGE"]; words ["TRE - SMALL"]]%string))
  = Ok [1; 1; 0]%nat.
Proof. vm_compute. reflexivity. Qed.
(** With [report_raw], as if nothing was registered. *)
Example ex_c63_raw : match through FO self_env two_tres with
  | Ok g => match hooked true g, shown g with
            | Ok (_, t), Ok (_, u) => list_eqb t u = true /\ occurs (words ["Hook"%string]) t = 0%nat /\ occurs (words ["TRE - SMALL"%string]) t = 1%nat
            | _, _ => False end
  | Err _ => False end.
Proof. vm_compute. repeat split; reflexivity. Qed.

(** ** Where printing is not what one expects *)
(** A text that is not UTF-8 keeps the rest of the file from being printed, though the file was
    read, can be written and can be summarised (nitf_text.py:23). *)
Theorem C63_utf8_refuted : exists b g, file_read FO diff_env b = Ok g /\ is_okb (file_write FO diff_env g) = true
  /\ is_okb (file_summary FO g) = true /\ map (fun k => List.length (nf_segs FO g k)) kinds = [1; 0; 1; 0; 0]%nat /\ shown g = Err EValue.
Proof.
  assert (H : match through FO diff_env (append_seg FO (one_pixel FO 7) KText (ex_seg FO (new_hdr FO) (DBytes FO (Some [233%N])) [])) with
              | Ok g => is_okb (file_write FO diff_env g) = true
                  /\ is_okb (file_summary FO g) = true /\ map (fun k => List.length (nf_segs FO g k)) kinds = [1; 0; 1; 0; 0]%nat /\ shown g = Err EValue
              | Err _ => False end) by (vm_compute; repeat split; reflexivity).
  destruct (through FO diff_env _) as [g|] eqn:E1; [|destruct H]. apply through_read in E1 as (b & E1). exists b, g. split; [exact E1|exact H].
Qed.
(** A segment appended to a file that was read does not know the file; if it has TREs the file
    cannot be printed, though it can be written (nitf_segment.py:129, nitf_file.py:155-198). *)
Theorem C63_appended_refuted : exists b g k s, file_read FO diff_env b = Ok g /\ is_okb (shown g) = true
  /\ shown (append_seg FO g k s) = Err EAttr /\ is_okb (file_write FO diff_env (append_seg FO g k s)) = true.
Proof.
  assert (H : match through FO diff_env (new FO) with
              | Ok g => is_okb (shown g) = true
                  /\ shown (append_seg FO g KText (ex_seg FO (new_hdr FO) (DBytes FO (Some (str "hello"))) [TUnk (str "SMALL") (str "x")])) = Err EAttr
                  /\ is_okb (file_write FO diff_env (append_seg FO g KText (ex_seg FO (new_hdr FO) (DBytes FO (Some (str "hello"))) [TUnk (str "SMALL") (str "x")]))) = true
              | Err _ => False end) by (vm_compute; repeat split; reflexivity).
  destruct (through FO diff_env _) as [g|] eqn:E1; [|destruct H]. apply through_read in E1 as (b & E1).
  exists b, g, KText, (ex_seg FO (new_hdr FO) (DBytes FO (Some (str "hello"))) [TUnk (str "SMALL") (str "x")]). split; [exact E1|exact H].
Qed.
(** The summary of a file made by a program says how many segments there were when it was last
    written, not how many there are (nitf_file_header.py:93, nitf_file.py:258-310). *)
Definition says (x : list string) (r : res (list N)) : bool := match r with Ok t => Nat.eqb (occurs (words x) t) 1 | Err _ => false end.
Theorem C63_stale_refuted : exists f, nf_segs FO f KText <> []
  /\ says ["0 Image Segments, 0 Graphic Segments, 0 Text Segments, 0 DESs"%string] (file_summary FO f) = true
  /\ says ["Text segment 1 of 1"%string] (file_summary FO f) = true.
Proof. exists (one_text FO (str "hello") []). split; [|split]; vm_compute; [intro X; discriminate X|reflexivity|reflexivity]. Qed.

(** ** DESs of fields *)
Definition assoc_des : dcls := {| dc_tag := str "ASSOC"; dc_rows := dc_rows note_des; dc_after := true; dc_copy := true |}.
Definition assoc_env : env := {| e_reg := []; e_des := [(str "ASSOC", user_cls)]; e_res := []; e_levels := [[HOverflow; HFields assoc_des]; [HHole]] |}.
Definition assoc_file : nfile FO := append_seg FO (new FO) KDes {| s_hdr := s_hdr FO (user_seg FO); s_ush := s_ush FO (user_seg FO);
  s_tres := []; s_data := DBytes FO (Some (str "042one")); s_linked := false |}.
(** Its user subheader is printed twice, once by the segment and once by the data
    (nitf_segment.py:121-123, nitf_des.py:87-89). *)
Theorem C63_twice_refuted : exists b g, file_read FO assoc_env b = Ok g /\ List.length (nf_segs FO g KDes) = 1%nat
  /\ (do (_, t) <- shown g; Ok (occurs (words ["User-Defined Subheader: "%string]) t)) = Ok 2%nat.
Proof.
  assert (H : match through FO assoc_env assoc_file with
              | Ok g => List.length (nf_segs FO g KDes) = 1%nat /\ (do (_, t) <- shown g; Ok (occurs (words ["User-Defined Subheader: "%string]) t)) = Ok 2%nat
              | Err _ => False end) by (vm_compute; repeat split; reflexivity).
  destruct (through FO assoc_env _) as [g|] eqn:E1; [|destruct H]. apply through_read in E1 as (b & E1). exists b, g. split; [exact E1|exact H].
Qed.
(** The data after the fields is mentioned, and what is written is what was read, also after
    printing. *)
Example ex_c63_written : match through FO assoc_env assoc_file with
  | Ok g => match shown g with
            | Ok (g', t) =>
                occurs (words ["Extra data of length 3"%string]) t = 1%nat
                /\ match file_write FO assoc_env assoc_file, file_write FO assoc_env g, file_write FO assoc_env g' with
                   | Ok (_, a), Ok (_, b), Ok (_, c) => list_eqb a b && list_eqb b c = true
                   | _, _, _ => False end
            | Err _ => False end
  | Err _ => False end.
Proof. vm_compute. repeat split; reflexivity. Qed.
End Ex.


(** The hypotheses of C63_prints, C63_read_written and C63_again hold of a file with a DES of
    fields. *)
Definition plain_strings (rows : list row) : bool := forallb (fun f => negb (fd_optional (f_d f))) (fs_fields (mk_fs rows)).
Lemma plain_no_fill rows s : plain_strings rows = true -> no_fill_text DecF (mk_fs rows) s.
Proof. intros Q f k t I _ O. unfold plain_strings in Q. rewrite forallb_forall in Q. apply Q in I. rewrite O in I. discriminate I. Qed.
Example ex_c63_hyps : printed_classes unit bare assoc_env /\ quiet_hooks DecF unit (silent DecF) (declines DecF) bare /\ blind_hooks DecF unit (silent DecF) (declines DecF)
  /\ exists b g, file_read DecF assoc_env b = Ok g /\ all_bytes b = true /\ (forall i z, (i < List.length (nf_segs DecF g KDes))%nat -> read_size DecF g KDes i = Some z -> (0 <= z)%Z)
     /\ List.length (nf_segs DecF g KDes) = 1%nat /\ (forall s, In s (nf_segs DecF g KDes) -> regular DecF s /\ presentable DecF KDes s).
Proof.
  split; [|split; [split; [intros h k s []|intros h k s t []]|split; [split; reflexivity|]]].
  - split; [intros c []|]. split; [intros t u [[X|[]]|[]]; injection X as <- <-; split; [vm_compute; reflexivity|split; vm_compute; reflexivity]|].
    split; [|intros _ l1 lv l2 X].
    + intros lv c [<-|[<-|[]]] I; [|destruct I as [I|[]]; discriminate I]. destruct I as [I|[I|[]]]; [discriminate I|]. injection I as <-.
      split; [vm_compute; reflexivity|split; vm_compute; reflexivity].
    + intro I. exfalso. assert (Y : In lv (e_levels assoc_env)) by (rewrite X; apply in_or_app; right; now left).
      destruct Y as [<-|[<-|[]]]; [destruct I as [I|[I|[]]]; discriminate I|destruct I as [I|[]]; discriminate I].
  - pose (check := fun b g => all_bytes b
      && match read_size DecF g KDes 0 with Some z => (z =? 6)%Z | None => false end
      && match nf_segs DecF g KDes with
         | [s] => match s_data DecF s with
                  | DFields _ c st _ => wf_rows (dc_rows c) && ext_sized (mk_fs (dc_rows c)) && plain_strings (dc_rows c) && is_okb (write DecF (mk_fs (dc_rows c)) st)
                  | _ => false end
         | _ => false end).
    assert (Q : match file_write DecF assoc_env (assoc_file DecF) with
                | Ok (_, b) => match file_read DecF assoc_env b with Ok g => check b g = true | Err _ => False end
                | Err _ => False end) by (vm_compute; reflexivity).
    destruct (file_write DecF assoc_env (assoc_file DecF)) as [(x & b)|]; [|destruct Q]. destruct (file_read DecF assoc_env b) as [g|] eqn:R; [|destruct Q].
    unfold check in Q. apply andb_true_iff in Q as (Q & D). apply andb_true_iff in Q as (A & Z).
    exists b, g. split; [exact R|]. split; [exact A|].
    destruct (nf_segs DecF g KDes) as [|s [|]]; try discriminate D. split; [|split; [reflexivity|]].
    + intros i z I S. cbn [List.length] in I. replace i with 0%nat in S by (destruct i; [reflexivity|inversion I; inversion H0]). rewrite S in Z. apply Z.eqb_eq in Z. subst z. discriminate.
    + intros s' [<-|[]]. unfold regular, presentable. destruct (s_data DecF s) as [| |c st y| | |]; try discriminate D.
      apply andb_true_iff in D as (D & W). apply andb_true_iff in D as (D & P). apply andb_true_iff in D as (D & X).
      split; [split; [exact D|split; [apply DecF_stable; exact X|apply plain_no_fill; exact P]]|].
      right. destruct (write DecF (mk_fs (dc_rows c)) st) as [w|]; [eauto|discriminate W].
Qed.
Print Assumptions C63_utf8_refuted.
Print Assumptions C63_appended_refuted.
Print Assumptions C63_stale_refuted.
Print Assumptions C63_twice_refuted.
