(** Summaries of files (C63). *)
From Verif Require Import Base BaseLemmas Engine Wf EngineLemmas Codec RoundTrip Rewrite Reach Literal Positions Keys Deps Spec Scalar Decimal Utf8 Tre Handles TrePlace Security Image ImageLemmas
  DescsHdr File P_Skip P_Descs Diff P_Diff Hooks Listing P_Listing P_ListingRead DesPrint P_DesPrint FileDiff P_FileDiff P_FileDiffRead FileLog FilePrint P_FilePrint P_FilePrintRead.
From Coq Require Import ZifyBool ZifyNat ZifyN.
Open Scope list_scope.
Ltac Zify.zify_post_hook ::= idtac.

(** The fields a summary is made of, in the table of the class: text for [%s], numbers for [%d],
    neither optional nor conditional. *)
Definition said (rows : list row) (p : part) : bool :=
  match p with
  | PLit _ => true
  | PStr nm => match lookup (mk_fs rows) nm with Some f => plain_field f && match fd_ty (f_d f) with TStr | TInt => true | _ => false end | None => false end
  | PInt nm => match lookup (mk_fs rows) nm with Some f => plain_field f && match fd_ty (f_d f) with TInt => true | _ => false end | None => false end
  end.
(** A number with a single value, possibly not there. *)
Definition a_number (rows : list row) (nm : string) : bool :=
  match lookup (mk_fs rows) nm with
  | Some f => match f_loops f, fd_ty (f_d f) with [], (TInt | TData (KInt _)) => legible_field f | _, _ => false end
  | None => false
  end.
Definition summary_table (tag : list N) (rows : list row) : bool :=
  if list_eqb tag (str "CSEXRB") then a_number rows "number_dt"
  else match find (fun p => list_eqb (str (fst p)) tag) tre_parts with Some (_, ps) => forallb (said rows) ps | None => true end.

(** The shipped classes with such a line have those fields. *)
Theorem C63_shipped_summaries g rows : In (String.append "Tre" g, rows) shipped -> summary_table (str g) rows = true.
Proof.
  intro I. assert (Q : forallb (fun p => match fst p with
    | String "T" (String "r" (String "e" g)) => summary_table (str g) (snd p)
    | _ => true end) shipped = true) by (vm_compute; reflexivity).
  rewrite forallb_forall in Q. exact (Q _ I).
Qed.
(** Not empty: all nine classes are there. *)
Example ex_c63_shipped : forallb (fun g => existsb (fun p => String.eqb (fst p) (String.append "Tre" g)) shipped) ("CSEXRB"%string :: map fst tre_parts) = true.
Proof. vm_compute. reflexivity. Qed.

Section P.
Variable FO : FloatOps.
Notation state := (state FO).
Notation hdr := (hdr FO).
Notation tre := (tre FO).
Notation seg := (seg FO).
Notation nfile := (nfile FO).
Notation nl := [10%N].

Lemma said_read rows (s s' : state) inp rest p : wf_rows rows = true -> read FO (mk_fs rows) false s inp = Ok (s', rest) -> said rows p = true ->
  exists t, part_text FO (fun nm => get FO (mk_fs rows) s' nm []) p = Ok t.
Proof.
  intros W R S. destruct p as [t|nm|nm]; cbn [part_text]; [eauto| |]; unfold said in S; destruct (lookup (mk_fs rows) nm) as [f|] eqn:L; try discriminate S;
    apply andb_true_iff in S as (P & T); assert (Q := plain_read FO rows s s' inp rest nm f W R L P); destruct (fd_ty (f_d f)); try discriminate T.
  - destruct Q as (t & -> & _). cbn [bind]. eauto.
  - destruct Q as (z & ->). cbn [bind]. eauto.
  - destruct Q as (z & ->). cbn [bind pct_d]. eauto.
Qed.
Lemma line_read rows (s s' : state) inp rest ps : wf_rows rows = true -> read FO (mk_fs rows) false s inp = Ok (s', rest) -> forallb (said rows) ps = true ->
  exists t, part_line FO (fun nm => get FO (mk_fs rows) s' nm []) ps = Ok t.
Proof.
  intros W R S. unfold part_line. assert (Q : exists l, Listing.map_res (part_text FO (fun nm => get FO (mk_fs rows) s' nm [])) ps = Ok l).
  { induction ps as [|p ps IH]; [exists []; reflexivity|]. cbn [forallb] in S. apply andb_true_iff in S as (S1 & S2). destruct (IH S2) as (l & E).
    destruct (said_read rows s s' inp rest p W R S1) as (t & T). cbn [Listing.map_res]. rewrite T. cbn [bind]. rewrite E. cbn [bind]. eauto. }
  destruct Q as (l & ->). cbn [bind]. eauto.
Qed.
Lemma number_read rows (s s' : state) inp rest nm : wf_rows rows = true -> read FO (mk_fs rows) false s inp = Ok (s', rest) -> a_number rows nm = true ->
  exists v, get FO (mk_fs rows) s' nm [] = Ok v /\ (v = VNone \/ exists z, v = VInt z).
Proof.
  intros W R A. unfold a_number in A. destruct (lookup (mk_fs rows) nm) as [f|] eqn:L; [|discriminate A]. destruct (f_loops f) eqn:Sh; [|discriminate A].
  assert (LF : legible_field f = true) by (destruct (fd_ty (f_d f)) as [ | | | |kd]; try discriminate A; [exact A|destruct kd; try discriminate A; exact A]).
  assert (HV : valid_index FO (mk_fs rows) s' f []) by (split; [now rewrite Sh|]; rewrite Sh; cbn; intros j J; lia).
  assert (Hf := lookup_in _ _ _ L). assert (Hn := lookup_name _ _ _ L).
  destruct (read_block_at FO rows false s inp s' rest W R) as (used & _ & X). destruct (X f [] Hf HV) as (b & _ & HB & HC). cbn [fst snd] in HB, HC.
  unfold get. rewrite L. unfold key_shape_ok, depth. rewrite Sh. cbn [List.length]. unfold fget, get_pub, get_base.
  rewrite Hn, (valid_check _ _ _ _ _ HV). cbn [bind]. unfold legible_field in LF. destruct (fd_value (f_d f)) eqn:EV; [discriminate LF|].
  destruct HB as [(Cf & _)|(Ct & Sz)].
  - apply cond_is_check in Cf. cbn [fst snd] in Cf. rewrite Cf. cbn [negb bind]. destruct (fd_ty (f_d f)); eauto.
  - destruct (HC Ct) as (P & _); [rewrite Hn; discriminate|].
    apply cond_is_check in Ct. cbn [fst snd] in Ct, Sz. rewrite Ct. cbn [negb bind]. unfold parse_field in P.
    destruct (fd_optional (f_d f)) eqn:EO; cbn [andb] in P; [destruct (is_blank (f_d f) b)|].
    1: { injection P as <-. cbn [convert]. rewrite EO. cbn [bind]. destruct (fd_ty (f_d f)); eauto. }
    all: destruct (fd_ty (f_d f)) as [ | | | |kd] eqn:T; try discriminate A.
    all: try (destruct (rstrip_by ws_byte b) as [|x l]; [discriminate P|]; destruct (conv_int FO (VBytes (x :: l))) as [z|]; [|discriminate P]; injection P as <-; cbn [convert]; rewrite T; cbn; eauto).
    all: destruct kd; try discriminate A; injection P as <-; cbn [convert]; rewrite T; cbn [conv_bytes bind].
    all: destruct Sz as (raw & SR & SN); destruct (fd_size (f_d f)) as [m|e] eqn:ES; try discriminate LF.
    all: unfold unpack; rewrite T; unfold fsize_of; rewrite ES; cbn [bind]; apply andb_true_iff in LF as (LF & O); apply Z.eqb_eq in O; rewrite O.
    all: subst raw; replace (m + 0)%Z with m in * by lia.
    all: assert (LB : Z.of_nat (List.length b) = m) by (rewrite O in SN; lia).
    all: rewrite !orb_true_iff, !Z.eqb_eq in LF; destruct LF as [[[[N|N]|N]|N]|N]; rewrite N in *; unfold unpack_int; rewrite LB;
         cbn [Z.eqb Pos.eqb orb Z.sub Z.opp Z.add bind]; eauto.
Qed.
Lemma summary_read c inp (s : state) rest s0 : wf_rows (tc_rows c) = true -> summary_table (tc_tag c) (tc_rows c) = true ->
  read FO (mk_fs (tc_rows c)) false s0 inp = Ok (s, rest) -> exists t, tre_summary FO (TObj c s) = Ok t.
Proof.
  intros W S R. unfold summary_table in S. cbn [tre_summary]. destruct (list_eqb (tc_tag c) (str "CSEXRB")).
  - destruct (number_read _ _ _ _ _ _ W R S) as (v & E & [V|(z & V)]); rewrite E; cbn [bind]; rewrite V; [eauto|].
    unfold part_line. cbn [Listing.map_res part_text bind]. rewrite E. cbn [bind]. rewrite V. cbn [pct_d bind]. eauto.
  - destruct (find _ tre_parts) as [(g & ps)|]; [|eauto]. apply (line_read (tc_rows c) s0 s inp rest (PLit "TRE - " :: PLit g :: ps) W R). exact S.
Qed.

Section Read.
Variable E : env.
(** The registered TRE classes. *)
Definition summary_classes : Prop := forall c, In c (e_reg E) -> wf_rows (tc_rows c) = true /\ summary_table (tc_tag c) (tc_rows c) = true.
Hypothesis HE : summary_classes.

Definition summed (t : tre) : Prop := exists x, tre_summary FO t = Ok x.
Lemma rec_summed inp t rest : rec_read FO (e_reg E) inp = Ok (t, rest) -> summed t.
Proof.
  intros R. assert (U : forall t rest, unk_read FO inp = Ok (t, rest) -> summed t).
  { intros t0 r0 U. unfold unk_read in U. apply bind_ok_elim in U as ((tag & i1) & _ & U). apply bind_ok_elim in U as ((cel & i2) & _ & U).
    destruct (fread cel i2). injection U as <- <-. eexists. reflexivity. }
  unfold rec_read in R.
  destruct (reg_find (e_reg E) (firstn 6 inp)) as [c|] eqn:F.
  2: { destruct (unk_read FO inp) as [x|] eqn:EU; [injection R as ->; exact (U _ _ eq_refl)|].
       destruct (utf8_dec (firstn 6 inp)); discriminate R. }
  destruct (obj_read FO c inp) as [x|] eqn:EO; [|destruct (utf8_dec (firstn 6 inp)); [exact (U _ _ R)|discriminate R]].
  injection R as ->. unfold obj_read in EO. apply bind_ok_elim in EO as ((tag & i1) & _ & EO). destruct (negb _); [discriminate EO|].
  apply bind_ok_elim in EO as ((cel & i2) & _ & EO). apply bind_ok_elim in EO as ((s & i3) & RS & EO). destruct (_ =? _)%Z; [|discriminate EO].
  injection EO as <- <-. assert (G : In c (e_reg E)) by (unfold reg_find in F; apply find_some in F as (I & _); now apply in_rev).
  exact (summary_read c _ s _ _ (proj1 (HE c G)) (proj2 (HE c G)) RS).
Qed.
Lemma stream_summed : forall n inp ts, stream_read FO n (e_reg E) inp = Ok ts -> Forall summed ts.
Proof.
  induction n as [|n IH]; intros inp ts R; cbn [stream_read] in R; [discriminate R|].
  destruct inp as [|x inp]; [injection R as <-; constructor|]. destruct (_ <? 6)%nat; [discriminate R|].
  apply bind_ok_elim in R as ((t & rest) & R1 & R). apply bind_ok_elim in R as (ts' & R2 & R). injection R as <-.
  constructor; [exact (rec_summed _ _ _ R1)|exact (IH _ _ R2)].
Qed.
Lemma areas_summed rows h des : forall areas ts, read_areas FO rows (e_reg E) h des areas = Ok ts -> Forall summed ts.
Proof.
  induction areas as [|a areas IH]; intros ts R; cbn [read_areas] in R; [injection R as <-; constructor|].
  apply bind_ok_elim in R as (n & _ & R). apply bind_ok_elim in R as (t0 & R0 & R). apply bind_ok_elim in R as (t' & R' & R). injection R as <-.
  apply Forall_app. split; [|exact (IH _ R')]. destruct (n >? 0)%Z; [|injection R0 as <-; constructor].
  apply bind_ok_elim in R0 as (i & _ & R0). apply bind_ok_elim in R0 as (t1 & R1 & R0). apply bind_ok_elim in R0 as (v & _ & R0).
  apply bind_ok_elim in R0 as (t2 & R2 & R0). injection R0 as <-. apply Forall_app. split.
  - destruct (i >? 0)%Z; [|injection R1 as <-; constructor]. apply bind_ok_elim in R1 as (d & _ & R1). exact (stream_summed _ _ _ R1).
  - destruct v; try discriminate R2. exact (stream_summed _ _ _ R2).
Qed.

(** The subheaders. *)
Lemma hget_get rows (h : hdr) nm f : lookup (mk_fs rows) nm = Some f -> hget FO rows h nm = get FO (mk_fs rows) (h_st h) nm [].
Proof. intro L. unfold hget. now rewrite L. Qed.
Lemma said_hget rows (h : hdr) ps : forallb (said rows) ps = true -> part_line FO (hget FO rows h) ps = part_line FO (fun nm => get FO (mk_fs rows) (h_st h) nm []) ps.
Proof.
  intro S. unfold part_line. f_equal. induction ps as [|p ps IH]; [reflexivity|]. cbn [forallb] in S. apply andb_true_iff in S as (S1 & S2).
  cbn [Listing.map_res]. rewrite (IH S2). f_equal. destruct p as [t|nm|nm]; [reflexivity| |]; cbn [part_text]; unfold said in S1;
    destruct (lookup (mk_fs rows) nm) as [f|] eqn:L; try discriminate S1; now rewrite (hget_get rows h nm f L).
Qed.
Lemma sub_lines : 
  forallb (said (sub_rows KImage)) [PStr "im"; PStr "iid1"; PStr "iid2"; PInt "nrows"; PInt "ncols"; PInt "nbands"; PInt "abpp"; PInt "nbpp"]%string = true
  /\ forallb (said (sub_rows KGraphic)) [PStr "sy"; PStr "sid"; PStr "sname"]%string = true
  /\ forallb (said (sub_rows KText)) [PStr "te"; PStr "textid"; PStr "txtitl"]%string = true
  /\ forallb (said (sub_rows KDes)) [PStr "desid"]%string = true /\ forallb (said (sub_rows KRes)) [PStr "re"; PStr "resid"; PStr "resver"]%string = true
  /\ forallb (said desc_NitfFileHeader) [PStr "fhdr"; PStr "fver"; PStr "ftitle"; PInt "numi"; PInt "nums"; PInt "numt"; PInt "numdes"]%string = true.
Proof. repeat split; vm_compute; reflexivity. Qed.
Lemma xbands_shape : exists f, lookup (mk_fs (sub_rows KImage)) "xbands" = Some f /\ f_loops f = [] /\ fd_cond (f_d f) = Some (ECmp CEq (EFld "nbands" 0) (EInt 0%Z))
  /\ fd_value (f_d f) = None /\ fd_optional (f_d f) = false /\ fd_ty (f_d f) = TInt.
Proof. eexists. split; [vm_compute; reflexivity|]. repeat split. Qed.
Lemma nbands_shape : exists f, lookup (mk_fs (sub_rows KImage)) "nbands" = Some f /\ f_loops f = [].
Proof. eexists. split; [vm_compute; reflexivity|reflexivity]. Qed.
Lemma xbands_read (s s' : state) inp rest : read FO (mk_fs (sub_rows KImage)) false s inp = Ok (s', rest) ->
  get FO (mk_fs (sub_rows KImage)) s' "nbands" [] = Ok (VInt 0) -> exists z, get FO (mk_fs (sub_rows KImage)) s' "xbands" [] = Ok (VInt z).
Proof.
  intros R NB. destruct xbands_shape as (f & L & Sh & C & V & O & T). destruct nbands_shape as (fb & LB & ShB). assert (W := proj1 (proj2 good_headers KImage)).
  revert W R NB L LB. generalize (sub_rows KImage). intros rows W R NB L LB.
  assert (HV : valid_index FO (mk_fs rows) s' f []) by (split; [now rewrite Sh|]; rewrite Sh; cbn; intros j J; lia).
  assert (Hf := lookup_in _ _ _ L). assert (Hn := lookup_name _ _ _ L).
  destruct (read_block_at FO rows false s inp s' rest W R) as (used & _ & X). destruct (X f [] Hf HV) as (b & _ & _ & HC). cbn [fst snd] in HC.
  assert (Ct : check_condition FO (G FO (mk_fs rows) s') (mk_fs rows) f [] = Ok true).
  { unfold check_condition. rewrite C. assert (NE := eval_fld0 FO rows W s' [] "nbands"%string fb LB ShB). rewrite NB in NE. cbn [eval] in NE |- *. rewrite NE. reflexivity. }
  destruct HC as (HP & _); [now apply cond_is_check|congruence|].
  unfold get. rewrite L. unfold key_shape_ok, depth. rewrite Sh. cbn [List.length]. unfold fget, get_pub, get_base.
  rewrite Hn, (valid_check _ _ _ _ _ HV), Ct, V. cbn [bind negb]. unfold parse_field in HP. rewrite O, T in HP. cbn [andb] in HP.
  destruct (rstrip_by ws_byte b) as [|x l]; [discriminate HP|]. destruct (conv_int FO (VBytes (x :: l))) as [z|]; [|discriminate HP]. injection HP as <-.
  cbn [convert]. rewrite T. cbn. eauto.
Qed.
Lemma sub_summed k (h : hdr) s0 inp rest : read FO (mk_fs (sub_rows k)) false s0 inp = Ok (h_st h, rest) -> exists t, sub_summary FO k h = Ok t.
Proof.
  intro R. assert (W := proj1 (proj2 good_headers k)). destruct sub_lines as (SI & SG & ST & SD & SR & _).
  assert (LN : forall ps, forallb (said (sub_rows k)) ps = true -> exists t, part_line FO (hget FO (sub_rows k) h) ps = Ok t).
  { intros ps S. rewrite (said_hget _ h ps S). exact (line_read _ _ _ _ _ ps W R S). }
  destruct k; cbn [sub_summary].
  2: apply LN; cbn [forallb said andb] in SG |- *; exact SG.
  2: apply LN; cbn [forallb said andb] in ST |- *; exact ST.
  2: apply LN; cbn [forallb said andb] in SD |- *; exact SD.
  2: apply LN; cbn [forallb said andb] in SR |- *; exact SR.
  set (rows := sub_rows KImage) in *. cbn [forallb] in SI. rewrite !andb_true_iff in SI. destruct SI as (I1 & I2 & I3 & I4 & I5 & I6 & I7 & I8 & _).
  destruct (LN [PStr "im"; PLit " "; PStr "iid1"; PLit " "; PStr "iid2"]%string) as (a & A); [cbn [forallb]; rewrite I1, I2, I3; reflexivity|]. rewrite A. cbn [bind].
  assert (NB : exists z, hget FO rows h "nbands" = Ok (VInt z) /\ get FO (mk_fs rows) (h_st h) "nbands" [] = Ok (VInt z)).
  { unfold said in I6. destruct (lookup (mk_fs rows) "nbands") as [f|] eqn:L; [|discriminate I6]. apply andb_true_iff in I6 as (P & T).
    assert (Q := plain_read FO rows _ _ inp rest _ f W R L P). destruct (fd_ty (f_d f)); try discriminate T. destruct Q as (z & Q). exists z.
    split; [|exact Q]. rewrite (hget_get rows h _ f L). exact Q. }
  destruct NB as (z & NB & NB'). rewrite NB. cbn [bind py_eqb as_Z]. destruct (z =? 0)%Z eqn:Z0; cbv beta iota zeta.
  2: { destruct (LN [PInt "nrows"; PLit " X "; PInt "ncols"; PLit ", "; PInt "nbands"; PLit " Band(s), "; PInt "abpp"; PLit "/"; PInt "nbpp"; PLit " bpp"]%string) as (b & B);
         [cbn [forallb]; rewrite I4, I5, I6, I7, I8; reflexivity|]. rewrite B. cbn [bind]. eauto. }
  apply Z.eqb_eq in Z0. subst z. destruct (xbands_read _ _ _ _ R NB') as (x & XB). fold rows in XB.
  assert (XB' : hget FO rows h "xbands" = Ok (VInt x)).
  { destruct xbands_shape as (f & L & _). fold rows in L. rewrite (hget_get rows h _ f L). exact XB. }
  assert (N : forall nm, said rows (PInt nm) = true -> exists t, part_text FO (hget FO rows h) (PInt nm) = Ok t).
  { intros nm S. destruct (LN [PInt nm]) as (t & T); [cbn [forallb]; rewrite S; reflexivity|]. unfold part_line in T. apply bind_ok_elim in T as (l & T & _).
    cbn [Listing.map_res] in T. apply bind_ok_elim in T as (y & T & _). eauto. }
  destruct (N _ I4) as (t1 & T1), (N _ I5) as (t2 & T2), (N _ I7) as (t3 & T3), (N _ I8) as (t4 & T4).
  assert (T5 : part_text FO (hget FO rows h) (PInt "xbands") = Ok (str_of_Z x)) by (cbn [part_text]; rewrite XB'; reflexivity).
  unfold part_line. cbn [Listing.map_res]. rewrite T1, T2, T3, T4, T5. cbn [part_text bind]. eauto.
Qed.

Lemma segs_summed_read k file : forall szs p l q, segs_read FO E k szs file p = Ok (l, q) ->
  List.length l = List.length szs /\ Forall (fun s => (exists t, sub_summary FO k (s_hdr FO s) = Ok t) /\ s_tres FO s = []) l.
Proof.
  induction szs as [|sz szs IH]; intros p l q R; cbn [segs_read] in R; [injection R as <- _; split; [reflexivity|constructor]|].
  apply bind_ok_elim in R as ((s & p1) & R1 & R). apply bind_ok_elim in R as ((r & p2) & R2 & R). injection R as <- _.
  destruct (IH _ _ _ R2) as (L & F). split; [cbn [List.length]; now rewrite L|]. constructor; [|exact F].
  unfold seg_read in R1. apply bind_ok_elim in R1 as ((st & q1) & RS & R1). apply bind_ok_elim in R1 as (c & Ec & R1).
  apply bind_ok_elim in R1 as (u & U & R1). apply bind_ok_elim in R1 as ((d & q2) & HL & R1). injection R1 as <- _. cbn [s_hdr s_tres]. split; [|reflexivity].
  unfold read_at in RS. apply bind_ok_elim in RS as ((s' & rest) & RS & X). injection X as X _. subst s'. exact (sub_summed k {| h_st := st; h_attr := [] |} _ _ _ RS).
Qed.
Lemma with_summed k dd : forall l l', File.map_res (with_tres FO E k dd) l = Ok l' ->
  Forall (fun s => (exists t, sub_summary FO k (s_hdr FO s) = Ok t) /\ s_tres FO s = []) l ->
  List.length l' = List.length l /\ Forall (fun s => exists t, seg_summary FO k s = Ok t) l'.
Proof.
  assert (Q : forall s, (exists t, sub_summary FO k (s_hdr FO s) = Ok t) -> Forall summed (s_tres FO s) -> exists t, seg_summary FO k s = Ok t).
  { intros s (a & A) F. unfold seg_summary. rewrite A. destruct (s_tres FO s) as [|t0 ts]; [cbn [bind]; eauto|].
    assert (M : exists r, Listing.map_res (tre_summary FO) (t0 :: ts) = Ok r).
    { clear - F. induction F as [|x l (y & Y) _ (r & IH)]; [exists []; reflexivity|]. cbn [Listing.map_res]. rewrite Y. cbn [bind]. rewrite IH. cbn [bind]. eauto. }
    destruct M as (r & ->). cbn [bind]. eauto. }
  induction l as [|s l IH]; intros l' M F; cbn [File.map_res] in M; [injection M as <-; split; [reflexivity|constructor]|].
  apply bind_ok_elim in M as (s' & S & M). apply bind_ok_elim in M as (r & R & M). injection M as <-. inversion_clear F as [|? ? (A & X) F'].
  destruct (IH _ R F') as (L & F2). split; [cbn [List.length]; now rewrite L|]. constructor; [|exact F2].
  unfold with_tres in S. destruct (has_tres k).
  - apply bind_ok_elim in S as (ts & T & S). injection S as <-. apply Q; cbn [s_hdr s_tres]; [exact A|exact (areas_summed _ _ _ _ _ T)].
  - injection S as <-. apply Q; [exact A|]. rewrite X. constructor.
Qed.
Lemma plain_summed k l : Forall (fun s => (exists t, sub_summary FO k (s_hdr FO s) = Ok t) /\ s_tres FO s = []) l -> Forall (fun s => exists t, seg_summary FO k s = Ok t) l.
Proof.
  apply Forall_impl. intros s ((a & A) & X). unfold seg_summary. rewrite A, X. cbn [bind]. eauto.
Qed.

(** What the summary of the segments of a kind says: one section for each, in order. *)
Definition sums_kind (f : nfile) (k : kind) (x : list N) : Prop :=
  exists ts, Forall2 (fun s t => seg_summary FO k s = Ok t) (nf_segs FO f k) ts
    /\ x = (match nf_segs FO f k with [] => str "No " ++ kind_title k ++ str " segments" ++ nl | _ => rule end)
           ++ flat_map (section k (List.length ts)) (enumerate ts).
Lemma kind_sums f k : Forall (fun s => exists t, seg_summary FO k s = Ok t) (nf_segs FO f k) -> exists x, kind_summary FO f k = Ok x /\ sums_kind f k x.
Proof.
  intro F. assert (Q : forall n l i, Forall (fun s => exists t, seg_summary FO k s = Ok t) l ->
    exists ts, Forall2 (fun s t => seg_summary FO k s = Ok t) l ts /\ segs_summary FO k n i l = Ok (flat_map (section k n) (combine (seq i (List.length ts)) ts))).
  { intros n. induction l as [|s l IH]; intros i F0; [exists []; split; [constructor|reflexivity]|]. inversion_clear F0 as [|? ? (t & T) F1].
    destruct (IH (S i) F1) as (ts & A & B). exists (t :: ts). split; [constructor; assumption|]. cbn [segs_summary]. rewrite T. cbn [bind]. rewrite B. cbn [bind List.length seq combine flat_map].
    f_equal. change (section k n (i, t)) with (kind_title k ++ str " segment " ++ str_of_Z (Z.of_nat (i + 1)) ++ str " of " ++ str_of_Z (Z.of_nat n) ++ nl ++ t ++ rule).
    unfold count_line, line. replace (i + 1)%nat with (S i) by lia. now rewrite <- !app_assoc. }
  destruct (Q (List.length (nf_segs FO f k)) _ 0%nat F) as (ts & A & B). unfold kind_summary. rewrite B. cbn [bind]. eexists. split; [reflexivity|].
  exists ts. split; [exact A|]. unfold enumerate. replace (List.length ts) with (List.length (nf_segs FO f k)) by (clear - A; induction A; cbn; congruence).
  destruct (nf_segs FO f k); [unfold line; now rewrite <- !app_assoc|reflexivity].
Qed.
Lemma sizes_count hs k szs : sizes FO hs k = Ok szs -> exists n, get FO (mk_fs desc_NitfFileHeader) hs (count_name k) [] = Ok (VInt n) /\ Z.to_nat n = List.length szs.
Proof.
  unfold sizes. intro S. apply bind_ok_elim in S as (v & G & S). apply bind_ok_elim in S as (n & N & S). destruct v; try discriminate N. injection N as ->.
  exists n. split; [exact G|]. assert (L : forall (A B : Type) (g : A -> res B) l r, File.map_res g l = Ok r -> List.length r = List.length l).
  { intros A B g. induction l as [|a l IH]; intros r X; cbn [File.map_res] in X; [injection X as <-; reflexivity|].
    apply bind_ok_elim in X as (b & _ & X). apply bind_ok_elim in X as (r' & X' & X). injection X as <-. cbn. now rewrite (IH _ X'). }
  rewrite (L _ _ _ _ _ S). unfold upto. now rewrite map_length, seq_length.
Qed.

(** The summary of a file that was read: never an exception, and the numbers of segments it gives
    are those of the lists (a negative count in the header stands for an empty list). *)
Theorem C63_summary bytes f : file_read FO E bytes = Ok f ->
  exists title tres (n : kind -> Z) (parts : kind -> list N),
    file_summary FO f = Ok (str "NITF File Summary" ++ nl ++ rule ++ str "File Header:" ++ nl ++ title ++ nl
      ++ str_of_Z (n KImage) ++ str " Image Segments, " ++ str_of_Z (n KGraphic) ++ str " Graphic Segments, "
      ++ str_of_Z (n KText) ++ str " Text Segments, " ++ str_of_Z (n KDes) ++ str " DESs" ++ nl ++ rule ++ tres ++ flat_map parts kinds)
    /\ (forall k, Z.to_nat (n k) = List.length (nf_segs FO f k))
    /\ forall k, sums_kind f k (parts k).
Proof.
  intro R. unfold file_read in R. apply bind_ok_elim in R as ((st & p0) & RH & R).
  apply bind_ok_elim in R as (fl & _ & R). apply bind_ok_elim in R as (stm & _ & R). destruct stm; [discriminate R|].
  apply bind_ok_elim in R as (zi & Zi & R). apply bind_ok_elim in R as (zg & Zg & R). apply bind_ok_elim in R as (zt & Zt & R).
  apply bind_ok_elim in R as (zd & Zd & R). apply bind_ok_elim in R as (zr & Zr & R).
  apply bind_ok_elim in R as ((im & p1) & R1 & R). apply bind_ok_elim in R as ((gr & p2) & R2 & R).
  apply bind_ok_elim in R as ((tx & p3) & R3 & R). apply bind_ok_elim in R as ((de & p4) & R4 & R).
  apply bind_ok_elim in R as ((rs & p5) & R5 & R). apply bind_ok_elim in R as (ts & TS & R).
  apply bind_ok_elim in R as (im' & M1 & R). apply bind_ok_elim in R as (gr' & M2 & R). apply bind_ok_elim in R as (tx' & M3 & R).
  injection R as <-.
  set (zs := fun k => match k with KImage => zi | KGraphic => zg | KText => zt | KDes => zd | KRes => zr end).
  set (ls := fun k => match k with KImage => im' | KGraphic => gr' | KText => tx' | KDes => de | KRes => rs end).
  set (f := {| nf_hdr := {| h_st := st; h_attr := [] |}; nf_tres := ts; nf_segs := ls; nf_refs := fun _ => false |}).
  assert (F : forall k, List.length (ls k) = List.length (zs k) /\ Forall (fun s => exists t, seg_summary FO k s = Ok t) (ls k)).
  { destruct (segs_summed_read KImage _ _ _ _ _ R1) as (L1 & F1), (segs_summed_read KGraphic _ _ _ _ _ R2) as (L2 & F2), (segs_summed_read KText _ _ _ _ _ R3) as (L3 & F3),
      (segs_summed_read KDes _ _ _ _ _ R4) as (L4 & F4), (segs_summed_read KRes _ _ _ _ _ R5) as (L5 & F5).
    destruct (with_summed _ _ _ _ M1 F1) as (N1 & G1), (with_summed _ _ _ _ M2 F2) as (N2 & G2), (with_summed _ _ _ _ M3 F3) as (N3 & G3).
    apply plain_summed in F4, F5. intros []; cbn [ls zs]; split; auto; congruence. }
  assert (Cn : forall k, exists n, get FO (mk_fs desc_NitfFileHeader) st (count_name k) [] = Ok (VInt n) /\ Z.to_nat n = List.length (zs k)) by (intros []; apply sizes_count; assumption).
  destruct (Cn KImage) as (ni & Ci & Li), (Cn KGraphic) as (ng & Cg & Lg), (Cn KText) as (nt & Ct & Lt), (Cn KDes) as (nd & Cd & Ld), (Cn KRes) as (nr & Cr & Lr).
  assert (KS := fun k => kind_sums f k (proj2 (F k))).
  destruct (KS KImage) as (x1 & X1 & Y1), (KS KGraphic) as (x2 & X2 & Y2), (KS KText) as (x3 & X3 & Y3), (KS KDes) as (x4 & X4 & Y4), (KS KRes) as (x5 & X5 & Y5).
  assert (T : exists t, file_tres FO (tre_summary FO) ts = Ok t).
  { apply areas_summed in TS. unfold file_tres. destruct ts as [|t0 ts']; [eauto|].
    assert (Q : exists r, Listing.map_res (tre_summary FO) (t0 :: ts') = Ok r).
    { clear - TS. induction TS as [|a l (x & X) _ (r & IH)]; [exists []; reflexivity|]. cbn [Listing.map_res]. rewrite X. cbn [bind]. rewrite IH. cbn [bind]. eauto. }
    destruct Q as (r & ->). cbn [bind]. eauto. }
  destruct T as (t & T).
  assert (TL : exists title, part_line FO (hget FO desc_NitfFileHeader (nf_hdr FO f)) [PStr "fhdr"; PLit " "; PStr "fver"; PLit " "; PStr "ftitle"; PLit " MD5: "]%string = Ok (title ++ nl)).
  { destruct sub_lines as (_ & _ & _ & _ & _ & SH). cbn [forallb] in SH. rewrite !andb_true_iff in SH. destruct SH as (H1 & H2 & H3 & _).
    unfold read_at in RH. apply bind_ok_elim in RH as ((s' & rest) & RH & X). injection X as X _. subst s'.
    assert (S : forallb (said desc_NitfFileHeader) [PStr "fhdr"; PLit " "; PStr "fver"; PLit " "; PStr "ftitle"; PLit " MD5: "]%string = true) by (cbn [forallb]; rewrite H1, H2, H3; reflexivity).
    destruct (line_read desc_NitfFileHeader _ st _ rest _ (proj1 (proj1 good_headers)) RH S) as (y & Y). rewrite (said_hget _ (nf_hdr FO f) _ S). cbn [nf_hdr f h_st].
    assert (Y' := Y). unfold part_line in Y'. apply bind_ok_elim in Y' as (l & _ & Y'). apply ok_eq in Y'. unfold line in Y'. rewrite <- Y' in Y. exists (List.concat l). exact Y. }
  destruct TL as (title & TL).
  exists title, t, (fun k => match k with KImage => ni | KGraphic => ng | KText => nt | KDes => nd | KRes => nr end),
    (fun k => match k with KImage => x1 | KGraphic => x2 | KText => x3 | KDes => x4 | KRes => x5 end).
  split; [|split; [intros []; rewrite (proj1 (F _)); assumption|intros []; assumption]].
  change (fun k => match k with KImage => im' | KGraphic => gr' | KText => tx' | KDes => de | KRes => rs end) with ls. fold f.
  assert (HS : header_summary FO (nf_hdr FO f) = Ok (title ++ nl ++ str_of_Z ni ++ str " Image Segments, " ++ str_of_Z ng ++ str " Graphic Segments, "
      ++ str_of_Z nt ++ str " Text Segments, " ++ str_of_Z nd ++ str " DESs" ++ nl)).
  { unfold header_summary. rewrite TL. cbn [bind].
    assert (Gt : forall nm n, said desc_NitfFileHeader (PInt nm) = true -> get FO (mk_fs desc_NitfFileHeader) st nm [] = Ok (VInt n) -> part_text FO (hget FO desc_NitfFileHeader (nf_hdr FO f)) (PInt nm) = Ok (str_of_Z n)).
    { intros nm n S G. cbn [part_text]. unfold said in S. destruct (lookup (mk_fs desc_NitfFileHeader) nm) as [fd|] eqn:L; [|discriminate S].
      rewrite (hget_get desc_NitfFileHeader (nf_hdr FO f) nm fd L). cbn [nf_hdr f h_st]. rewrite G. reflexivity. }
    destruct sub_lines as (_ & _ & _ & _ & _ & SH). cbn [forallb] in SH. rewrite !andb_true_iff in SH. destruct SH as (_ & _ & _ & H4 & H5 & H6 & H7 & _).
    unfold part_line. cbn [Listing.map_res]. rewrite (Gt _ _ H4 Ci), (Gt _ _ H5 Cg), (Gt _ _ H6 Ct), (Gt _ _ H7 Cd). cbn [part_text bind List.concat]. unfold line.
    rewrite app_nil_r, <- !app_assoc. reflexivity. }
  unfold file_summary. rewrite HS. cbn [bind nf_tres f]. rewrite T. fold f. unfold kinds. cbn [Listing.map_res]. rewrite X1, X2, X3, X4, X5. cbn [bind List.concat flat_map].
  unfold line. now rewrite <- !app_assoc.
Qed.
End Read.
End P.
Print Assumptions C63_shipped_summaries.
Print Assumptions C63_summary.
