(** Comparing files: cases, and where the comparison goes wrong (C47). *)
From Verif Require Import Base BaseLemmas Engine Wf EngineLemmas RoundTrip Literal Positions Keys Deps Spec Decimal Utf8 Tre Handles TrePlace Security Image
  DescsHdr DescsTre2 File P_Image P_File P_Skip P_Descs Diff P_Diff P_DiffCases FileDiff P_FileDiff P_FileDiffRead.
From Coq Require Import ZifyBool ZifyNat ZifyN.
Open Scope list_scope.
Ltac Zify.zify_post_hook ::= idtac.

(** The tables of the shipped classes can be read back whatever was read, except for three:
    CSEXRB and MTIMSA have numbers whose size is in the TRE, ENGRDA has a computed count. *)
Theorem C47_shipped_tables cls rows : In (cls, rows) shipped -> cls <> "TreCSEXRB"%string -> cls <> "TreENGRDA"%string -> cls <> "TreMTIMSA"%string ->
  good_table rows.
Proof.
  intros I N1 N2 N3. split; [exact (proj1 (shipped_wf cls rows I))|].
  assert (H : forallb (fun p => legible (snd p) || String.eqb (fst p) "TreCSEXRB" || String.eqb (fst p) "TreENGRDA" || String.eqb (fst p) "TreMTIMSA") shipped = true)
    by (vm_compute; reflexivity).
  rewrite forallb_forall in H. specialize (H _ I). cbn [fst snd] in H. apply String.eqb_neq in N1, N2, N3. rewrite N1, N2, N3, !orb_false_r in H. exact H.
Qed.

(** ** What is compared by default *)

(** The fields with a single value that count, apart from lengths, TRE areas and the file date. *)
Definition file_content : list string :=
  ["fhdr"; "fver"; "clevel"; "stype"; "ostaid"; "ftitle"; "fsclas"; "fsclsy"; "fscode"; "fsctlh"; "fsrel"; "fsdctp"; "fsdcdt"; "fsdcxm"; "fsdg";
   "fsdgdt"; "fscltx"; "fscatp"; "fscaut"; "fscrsn"; "fssrdt"; "fsctln"; "fscop"; "fscpys"; "encryp"; "fbkgc"; "oname"; "ophone"]%string.
Definition content (k : kind) : list string :=
  match k with
  | KImage => ["im"; "iid1"; "idatim"; "tgtid"; "iid2"; "isclas"; "isclsy"; "iscode"; "isctlh"; "isrel"; "isdctp"; "isdcdt"; "isdcxm"; "isdg";
         "isdgdt"; "iscltx"; "iscatp"; "iscaut"; "iscrsn"; "issrdt"; "isctln"; "encryp"; "isorce"; "nrows"; "ncols"; "pvtype"; "irep";
         "icat"; "abpp"; "pjust"; "icords"; "igeolo"; "nicom"; "ic"; "comrat"; "nbands"; "xbands"; "isync"; "imode"; "nbpr"; "nbpc"; "nppbh";
         "nppbv"; "nbpp"; "idlvl"; "ialvl"; "iloc"; "imag"]
  | KGraphic => ["sy"; "sid"; "sname"; "ssclas"; "ssclsy"; "sscode"; "ssctlh"; "ssrel"; "ssdctp"; "ssdcdt"; "ssdcxm"; "ssdg"; "ssdgdt"; "sscltx";
         "sscatp"; "sscaut"; "sscrsn"; "sssrdt"; "ssctln"; "encryp"; "sfmt"; "sstruct"; "sdlvl"; "salvl"; "sloc"; "sbnd1"; "scolor"; "sbnd2"; "sres2"]
  | KText => ["te"; "textid"; "txtalvl"; "txtdt"; "txtitl"; "tsclas"; "tsclsy"; "tscode"; "tsctlh"; "tsrel"; "tsdctp"; "tsdcdt"; "tsdcxm"; "tsdg";
         "tsdgdt"; "tscltx"; "tscatp"; "tscaut"; "tscrsn"; "tssrdt"; "tsctln"; "encryp"; "txtfmt"]
  | KDes => ["de"; "desid"; "dsver"; "desclas"; "desclsy"; "descode"; "desctlh"; "desrel"; "desdctp"; "desdcdt"; "desdcxm"; "desdg"; "desdgdt";
         "descltx"; "descatp"; "descaut"; "descrsn"; "dessrdt"; "desctln"]
  | KRes => ["re"; "resid"; "resver"; "reclas"; "reclsy"; "recode"; "rectlh"; "rerel"; "redctp"; "redcdt"; "redcxm"; "redg"; "redgdt"; "recltx";
         "recatp"; "recaut"; "recrsn"; "resrdt"; "rectln"]
  end%string.
(** A field with a single value that is not a float, and counts. *)
Definition counts (FO : FloatOps) (c : config FO) (rows : list row) (nm : string) : bool :=
  negb (existsb (String.eqb nm) (c_exclude FO c)) && negb (existsb (String.eqb nm) (c_warn FO c))
  && match c_include FO c with [] => true | _ => false end && match c_eq FO c nm with None => true | _ => false end
  && match lookup (mk_fs rows) nm with
     | Some f => match f_loops f, fd_ty (f_d f) with [], (TStr | TInt | TBytes | TData (KString | KBytes | KInt _ | KExt)) => true | _, _ => false end
     | None => false end.
Lemma content_counts FO : forallb (counts FO (fc_hdr FO (default_fcfg FO)) desc_NitfFileHeader) file_content = true
  /\ forall k, forallb (counts FO (fc_sub FO (default_fcfg FO) k) (sub_rows k)) (content k) = true.
Proof. split; [vm_compute; reflexivity|]. intros []; vm_compute; reflexivity. Qed.
Lemma counts_same FO (CO : CmpOps FO) c rows (h1 h2 : hdr FO) nm : counts FO c rows nm = true -> fields_alike FO CO c rows (h_st h1) (h_st h2) ->
  exists v, hget FO rows h1 nm = Ok v /\ hget FO rows h2 nm = Ok v.
Proof.
  unfold counts. rewrite !andb_true_iff, !negb_true_iff. intros ((((E & W) & I) & Q) & L) H.
  destruct (lookup (mk_fs rows) nm) as [f|] eqn:Lk; [|discriminate]. destruct (f_loops f) eqn:Sh; [|discriminate].
  assert (Nin : forall l, existsb (String.eqb nm) l = false -> ~ In nm l).
  { intros l X Y. assert (existsb (String.eqb nm) l = true); [|congruence]. apply existsb_exists. exists nm. split; [exact Y|apply String.eqb_refl]. }
  destruct (H nm f Lk) as (ks & K1 & K2 & V).
  - split; [exact (Nin _ E)|]. left. destruct (c_include FO c); [reflexivity|discriminate].
  - exact (Nin _ W).
  - destruct (c_eq FO c nm); [discriminate|reflexivity].
  - left. rewrite Sh. cbn. lia.
  - rewrite (keys_scalar FO _ _ _ Sh) in K1. injection K1 as <-. destruct (V [] (or_introl eq_refl)) as (v & w & G1 & G2 & Cl).
    assert (NF : nonfloat f) by (split; intro X; rewrite X in L; discriminate).
    assert (v = w).
    { destruct Cl as [Cl|(x & y & -> & _)]; [exact Cl|]. pose proof (fget_plain FO _ _ _ _ _ NF G1) as P. destruct P. }
    subst w. exists v. unfold hget, get. rewrite Lk. unfold key_shape_ok, depth. rewrite Sh. cbn [List.length Nat.eqb]. auto.
Qed.
Lemma Forall2_nth {A B} (R : A -> B -> Prop) l l' : Forall2 R l l' -> forall i a b, nth_error l i = Some a -> nth_error l' i = Some b -> R a b.
Proof. induction 1 as [|a b l l' H _ IH]; intros [|i] x y X Y; try discriminate; cbn in X, Y; [congruence|eauto]. Qed.

(** With the default configuration, files found to be the same have as many segments of each
    kind, and the same values in these fields. *)
Theorem C47_default FO (CO : CmpOps FO) fp f1 f2 : file_same FO CO fp (default_fcfg FO) f1 f2 = Ok true ->
  (forall nm, In nm file_content -> exists v, hget FO desc_NitfFileHeader (nf_hdr FO f1) nm = Ok v /\ hget FO desc_NitfFileHeader (nf_hdr FO f2) nm = Ok v)
  /\ forall k, List.length (nf_segs FO f1 k) = List.length (nf_segs FO f2 k)
     /\ forall i s1 s2, nth_error (nf_segs FO f1 k) i = Some s1 -> nth_error (nf_segs FO f2 k) i = Some s2 ->
          overflow_pair FO k (s_hdr FO s1) (s_hdr FO s2)
          \/ forall nm, In nm (content k) -> exists v, hget FO (sub_rows k) (s_hdr FO s1) nm = Ok v /\ hget FO (sub_rows k) (s_hdr FO s2) nm = Ok v.
Proof.
  intro E. apply C47_same_means_partial in E as (H & _ & S). destruct (content_counts FO) as (C1 & C2). rewrite forallb_forall in C1. split.
  - intros nm I. exact (counts_same _ _ _ _ _ _ _ (C1 nm I) H).
  - intro k. specialize (S k). assert (F : forall l : list (seg FO), left_segs FO (default_fcfg FO) k l = l).
    { induction l as [|a l IH]; [reflexivity|]. unfold left_segs in *. cbn [filter default_fcfg fc_skip_seg negb]. now f_equal. }
    rewrite !F in S. split; [clear - S; induction S; cbn; congruence|]. intros i s1 s2 X Y.
    destruct (Forall2_nth _ _ _ S i s1 s2 X Y) as [O|(A & _)]; [now left|right]. intros nm I. specialize (C2 k). rewrite forallb_forall in C2.
    exact (counts_same _ _ _ _ _ _ _ (C2 nm I) A).
Qed.

Section Ex.
Variable FO : FloatOps.
Variable CO : CmpOps FO.
Variable fp : dtype -> dtype -> item -> item -> bool.
Notation same := (file_same FO CO fp (default_fcfg FO)).

(** Written and read back. *)
Definition through (E : env) (f : nfile FO) : res (nfile FO) := do (_, b) <- file_write FO E f; file_read FO E b.
Lemma through_read E f g : through E f = Ok g -> exists b, file_read FO E b = Ok g.
Proof. unfold through. intro H. apply bind_ok_elim in H as ((x & b) & _ & H). eauto. Qed.

(** Reading with NitfGraphicRaw, and a DES class of one field followed by anything. *)
Definition note_des : dcls :=
  {| dc_tag := str "NOTE"; dc_rows := [RField (Build_fdesc (Some "num"%string) (SzInt 3%Z) TInt FrNone DfNone None false 32%N false None 0%Z false)];
     dc_after := true; dc_copy := true |}.
Definition user_cls : ucls := {| uc_name := "DesAssociatedUserSubheader"%string; uc_rows := desc_DesAssociatedUserSubheader |}.
Definition diff_env : env :=
  {| e_reg := []; e_des := [(str "ASSOC", user_cls)]; e_res := [];
     e_levels := [[HOverflow; HNumpy; HText; HGraphicRaw; HFields note_des]; [HImageHole]; [HHole]] |}.

Definition new := fst (new_file FO (sec_default FO)).
Definition one_pixel (z : Z) : nfile FO :=
  append_seg FO new KImage (ex_seg FO (ex_hdr FO GAll U4 1 1 1)
    (DFile FO [Z.to_N (z / 16777216 mod 256); Z.to_N (z / 65536 mod 256); Z.to_N (z / 256 mod 256); Z.to_N (z mod 256)]) []).
Definition one_text (b : list N) (ts : list (tre FO)) : nfile FO := append_seg FO new KText (ex_seg FO (new_hdr FO) (DBytes FO (Some b)) ts).
Definition one_graphic : nfile FO := append_seg FO new KGraphic (ex_seg FO (new_hdr FO) (DBytes FO (Some (str "cgm"))) []).
Definition des_hdr (id : string) : hdr FO := fst (TrePlace.hset FO desc_NitfDesSubheader (fst (TrePlace.hset FO desc_NitfDesSubheader (new_hdr FO) "desid" (VStr (str id)))) "dsver" (VInt 1)).
Definition one_des (id : string) (b : list N) : nfile FO := append_seg FO new KDes (ex_seg FO (des_hdr id) (DBytes FO (Some b)) []).
Definition user_text : list N := str "                                    0000000000".
Definition user_seg : seg FO := {| s_hdr := des_hdr "ASSOC";
    s_ush := match read FO (mk_fs desc_DesAssociatedUserSubheader) false (init_state FO) user_text with
             | Ok (s, _) => Some {| us_cls := user_cls; us_st := s |} | Err _ => None end;
    s_tres := []; s_data := DBytes FO (Some (str "x")); s_linked := false |}.
Definition one_user : nfile FO := append_seg FO new KDes user_seg.

(** What comparing the two, both written and read back, gives. *)
Definition verdict (f1 f2 : nfile FO) : res bool := do g1 <- through diff_env f1; do g2 <- through diff_env f2; same g1 g2.
Lemma verdict_read f1 f2 r : verdict f1 f2 = r -> is_okb (through diff_env f1) = true -> is_okb (through diff_env f2) = true ->
  exists b1 b2 g1 g2, file_read FO diff_env b1 = Ok g1 /\ file_read FO diff_env b2 = Ok g2 /\ same g1 g2 = r.
Proof.
  unfold verdict. generalize diff_env, same. intros E C X O1 O2. destruct (through E f1) as [g1|] eqn:E1; [|discriminate O1].
  destruct (through E f2) as [g2|] eqn:E2; [|discriminate O2].
  apply through_read in E1 as (b1 & E1). apply through_read in E2 as (b2 & E2). cbn [bind] in X. exists b1, b2, g1, g2. split; [exact E1|]. split; [exact E2|exact X].
Qed.
Lemma verdict_self f r : verdict f f = r -> is_okb (through diff_env f) = true ->
  exists b g, file_read FO diff_env b = Ok g /\ same g g = r.
Proof.
  unfold verdict. generalize diff_env, same. intros E C X O1. destruct (through E f) as [g|] eqn:E1; [|discriminate O1].
  apply through_read in E1 as (b & E1). cbn [bind] in X. exists b, g. split; [exact E1|exact X].
Qed.

(** The same text, another text, another TRE, another pixel, another DES. *)
Example ex_c47_same : verdict (one_text (str "hello") [TUnk (str "SMALL") (str "x")]) (one_text (str "hello") [TUnk (str "SMALL") (str "x")]) = Ok true.
Proof. vm_compute. reflexivity. Qed.
Example ex_c47_text : verdict (one_text (str "hello") []) (one_text (str "hallo") []) = Ok false.
Proof. vm_compute. reflexivity. Qed.
Example ex_c47_tre : verdict (one_text (str "hello") [TUnk (str "SMALL") (str "x")]) (one_text (str "hello") [TUnk (str "SMALL") (str "y")]) = Ok false
  /\ verdict (one_text (str "hello") [TUnk (str "SMALL") (str "x")]) (one_text (str "hello") []) = Ok false.
Proof. split; vm_compute; reflexivity. Qed.
Example ex_c47_pixel : verdict (one_pixel 100000) (one_pixel 100002) = Ok false /\ verdict (one_pixel 5) (one_pixel 6) = Ok false.
Proof. split; vm_compute; reflexivity. Qed.
Example ex_c47_des : verdict (one_des "NOTE" (str "001")) (one_des "NOTE" (str "002")) = Ok false
  /\ verdict (one_des "NOTE" (str "001")) (one_des "OTHER" (str "001")) = Err ERuntime.
Proof. split; vm_compute; reflexivity. Qed.

(** Another title counts, another date does not. *)
Definition with_field (nm : string) (v : list N) : nfile FO :=
  {| nf_hdr := fst (TrePlace.hset FO desc_NitfFileHeader (nf_hdr FO new) nm (VStr v)); nf_tres := []; nf_segs := fun _ => []; nf_refs := fun _ => true |}.
Example ex_c47_default : verdict (with_field "ftitle" (str "one")) (with_field "ftitle" (str "two")) = Ok false
  /\ verdict (with_field "fdt" (str "20200101000000")) (with_field "fdt" (str "20210101000000")) = Ok true.
Proof. split; vm_compute; reflexivity. Qed.

(** A text segment that is not UTF-8: comparing the file with itself raises (nitf_text.py:23). *)
Theorem C47_text_refuted : exists b g, file_read FO diff_env b = Ok g /\ same g g = Err EValue.
Proof. apply (verdict_self (one_text [233%N] [])); vm_compute; reflexivity. Qed.
(** A graphic segment: nothing compares its data (priority_handle_set.py:86). *)
Theorem C47_graphic_refuted : exists b g, file_read FO diff_env b = Ok g /\ same g g = Err ERuntime.
Proof. apply (verdict_self one_graphic); vm_compute; reflexivity. Qed.
(** The data after the fields of a DES is not compared (nitf_des.py:111-123). *)
Theorem C47_extra_refuted : exists b1 b2 g1 g2, file_read FO diff_env b1 = Ok g1 /\ file_read FO diff_env b2 = Ok g2 /\ same g1 g2 = Ok true
  /\ map (s_data FO) (nf_segs FO g1 KDes) <> map (s_data FO) (nf_segs FO g2 KDes).
Proof.
  set (data g := map (fun s => match s_data FO s with DFields _ _ _ (Some x) => x | _ => [] end) (nf_segs FO g KDes)).
  assert (H : match through diff_env (one_des "NOTE" (str "001one")), through diff_env (one_des "NOTE" (str "001two")) with
              | Ok g1, Ok g2 => same g1 g2 = Ok true /\ data g1 = [str "one"] /\ data g2 = [str "two"] | _, _ => False end)
    by (vm_compute; repeat split; reflexivity).
  destruct (through diff_env (one_des "NOTE" (str "001one"))) as [g1|] eqn:E1; [|destruct H].
  destruct (through diff_env (one_des "NOTE" (str "001two"))) as [g2|] eqn:E2; [|destruct H].
  apply through_read in E1 as (b1 & E1). apply through_read in E2 as (b2 & E2). destruct H as (H & D1 & D2).
  exists b1, b2, g1, g2. repeat (split; [assumption|]). intro X.
  assert (Y : data g1 = data g2).
  { unfold data. rewrite <- !(map_map (s_data FO) (fun d => match d with DFields _ _ _ (Some x) => x | _ => [] end)). now rewrite X. }
  rewrite D1, D2 in Y. vm_compute in Y. discriminate Y.
Qed.
(** Integer pixels are compared with a tolerance (nitf_image.py:217). *)
Theorem C47_pixels_refuted : exists b1 b2 g1 g2, file_read FO diff_env b1 = Ok g1 /\ file_read FO diff_env b2 = Ok g2 /\ same g1 g2 = Ok true
  /\ map (s_data FO) (nf_segs FO g1 KImage) = [DFile FO [0; 1; 134; 160]%N] /\ map (s_data FO) (nf_segs FO g2 KImage) = [DFile FO [0; 1; 134; 161]%N].
Proof.
  assert (H : match through diff_env (one_pixel 100000), through diff_env (one_pixel 100001) with
              | Ok g1, Ok g2 => same g1 g2 = Ok true /\ map (s_data FO) (nf_segs FO g1 KImage) = [DFile FO [0; 1; 134; 160]%N]
                                /\ map (s_data FO) (nf_segs FO g2 KImage) = [DFile FO [0; 1; 134; 161]%N] | _, _ => False end)
    by (vm_compute; repeat split; reflexivity).
  destruct (through diff_env (one_pixel 100000)) as [g1|] eqn:E1; [|destruct H].
  destruct (through diff_env (one_pixel 100001)) as [g2|] eqn:E2; [|destruct H].
  apply through_read in E1 as (b1 & E1). apply through_read in E2 as (b2 & E2). exists b1, b2, g1, g2. auto.
Qed.
(** Unknown TREs that differ and are not UTF-8 (nitf_tre.py:296-301). *)
Theorem C47_unknown_refuted : exists b1 b2 g1 g2, file_read FO diff_env b1 = Ok g1 /\ file_read FO diff_env b2 = Ok g2 /\ same g1 g2 = Err EValue.
Proof. apply (verdict_read (one_text [] [TUnk (str "SMALL") [200%N]]) (one_text [] [TUnk (str "SMALL") [201%N]])); vm_compute; reflexivity. Qed.
(** Which file comes first matters: the user subheader of the second is not looked at if the
    first has none (nitf_file_diff.py:155-157). *)
Theorem C47_order_refuted : exists b1 b2 g1 g2, file_read FO diff_env b1 = Ok g1 /\ file_read FO diff_env b2 = Ok g2
  /\ same g1 g2 = Ok false /\ same g2 g1 = Err ERuntime.
Proof.
  assert (H : match through diff_env (one_des "OTHER" (str "x")), through diff_env one_user with
              | Ok g1, Ok g2 => same g1 g2 = Ok false /\ same g2 g1 = Err ERuntime | _, _ => False end)
    by (vm_compute; repeat split; reflexivity).
  destruct (through diff_env (one_des "OTHER" (str "x"))) as [g1|] eqn:E1; [|destruct H].
  destruct (through diff_env one_user) as [g2|] eqn:E2; [|destruct H].
  apply through_read in E1 as (b1 & E1). apply through_read in E2 as (b2 & E2). exists b1, b2, g1, g2. tauto.
Qed.

(** A file with an image, a text, a DES with a user subheader and TREs, read with the classes
    that are compared, is the same as itself. *)
Definition self_env : env :=
  {| e_reg := []; e_des := [(str "ASSOC", user_cls)]; e_res := []; e_levels := [[HOverflow; HNumpy; HText; HFields note_des]; [HImageHole]; [HHole]] |}.
Definition self_file : nfile FO :=
  append_seg FO (append_seg FO (append_seg FO (append_seg FO (one_pixel 7)
    KText (ex_seg FO (new_hdr FO) (DStr FO (str "hello")) [TUnk (str "SMALL") (str "x")]))
    KDes (ex_seg FO (des_hdr "NOTE") (DBytes FO (Some (str "001one"))) []))
    KDes user_seg)
    KGraphic (ex_seg FO (new_hdr FO) (DBytes FO (Some (str "cgm"))) []).

Example ex_c47_itself : reflexive FO CO fp (default_fcfg FO) -> exists b g, file_read FO self_env b = Ok g
  /\ map (fun k => List.length (nf_segs FO g k)) kinds = [1; 1; 1; 2; 0]%nat /\ same g g = Ok true.
Proof.
  intro HR.
  assert (H : match through self_env self_file with
              | Ok g => map (fun k => List.length (nf_segs FO g k)) kinds = [1; 1; 1; 2; 0]%nat
                        /\ forallb (fun s => match s_data FO s with DBytes _ (Some b) => match utf8_dec b with Some _ => true | None => false end | _ => false end) (nf_segs FO g KText) = true
              | Err _ => False end) by (vm_compute; split; reflexivity).
  destruct (through self_env self_file) as [g|] eqn:E; [|destruct H]. apply through_read in E as (b & E). destruct H as (H & T).
  exists b, g. split; [exact E|]. split; [exact H|]. apply (C47_itself FO CO fp (default_fcfg FO) self_env HR) with (bytes := b); [|exact E|].
  - split; [intros c []|]. split.
    + intros t u [[X|[]]|[]]. injection X as <- <-. split; [split; vm_compute; reflexivity|discriminate].
    + split.
      * intros lv hd [<-|[<-|[<-|[]]]]; cbn; intros [<-|X]; try exact I; repeat (destruct X as [<-|X]; try exact I); try contradiction. split; vm_compute; reflexivity.
      * intros _ l1 lv l2 X I. destruct l1 as [|a [|b' [|c [|d l1]]]]; cbn in X; try discriminate X.
        -- injection X as <- _. apply in_or_app. right. right. now left.
        -- injection X as <- <- _. right. now left.
        -- injection X as <- <- <- _. right. now left.
  - intros s Hs _. rewrite forallb_forall in T. specialize (T s Hs). right. destruct (s_data FO s) as [[x|]| | | | |]; try discriminate T.
    destruct (utf8_dec x) as [t|] eqn:U; [|discriminate T]. exists t. right. eauto.
Qed.
End Ex.

(** A TRE whose numbers have a size of their own: five bytes are read but cannot be compared
    (nitf_field.py:484-505, nitf_tre_mtimsa.py:36). *)
Definition mtimsa_env : env :=
  {| e_reg := [{| tc_tag := str "MTIMSA"; tc_rows := desc_TreMTIMSA |}]; e_des := []; e_res := []; e_levels := [[HText]; [HHole]] |}.
Definition mtimsa_body : list N :=
  str "00100" ++ repeat 32%N 36 ++ str "001" ++ repeat 32%N 36 ++ str "0000010010000000000.50000000001" ++ repeat 32%N 24
  ++ [0; 0; 0; 0; 0; 0; 0; 1]%N ++ [5%N] ++ [0; 0; 0; 1]%N ++ [0; 0; 0; 1]%N ++ [1; 2; 3; 4; 5]%N.
Theorem C47_number_size_refuted fp : exists b g c s, file_read DecF mtimsa_env b = Ok g
  /\ nf_tres DecF g = [TObj c s] /\ file_same DecF DecC fp (default_fcfg DecF) g g = Err ERuntime.
Proof.
  assert (H : match file_write DecF mtimsa_env {| nf_hdr := nf_hdr DecF (new DecF); nf_tres := [TUnk (str "MTIMSA") mtimsa_body]; nf_segs := fun _ => []; nf_refs := fun _ => true |} with
              | Ok (_, b) => match file_read DecF mtimsa_env b with
                             | Ok g => match nf_tres DecF g with [TObj _ _] => true | _ => false end = true /\ file_same DecF DecC fp (default_fcfg DecF) g g = Err ERuntime
                             | Err _ => False end
              | Err _ => False end) by (vm_compute; split; reflexivity).
  destruct (file_write DecF mtimsa_env _) as [(f & b)|]; [|destruct H]. destruct (file_read DecF mtimsa_env b) as [g|] eqn:E; [|destruct H].
  destruct H as (H & S). exists b, g. destruct (nf_tres DecF g) as [|[c s|] [|]] eqn:T; try discriminate H. exists c, s. auto.
Qed.

Print Assumptions C47_same_means_partial.
Print Assumptions C47_no_false_alarm.
Print Assumptions C47_itself.
Print Assumptions C47_shipped_tables.
Print Assumptions C47_default.
Print Assumptions C47_text_refuted.
Print Assumptions C47_graphic_refuted.
Print Assumptions C47_extra_refuted.
Print Assumptions C47_pixels_refuted.
Print Assumptions C47_unknown_refuted.
Print Assumptions C47_order_refuted.
Print Assumptions C47_number_size_refuted.
