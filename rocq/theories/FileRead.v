(** Reading whole files: lemmas for P_FileRead.v. *)
From Verif Require Import Base BaseLemmas Engine Wf EngineLemmas Codec RoundTrip Rewrite Literal
  Positions Keys Deps Assign Update Spec Decimal DecimalLemmas DescsHdr Utf8 Handles Tre TreLemmas P_RoundTrip P_Fields P_Tre
  TrePlace TrePlaceLemmas P_TrePlace Scalar Security P_Security Image ImageLemmas P_Image File FileLemmas P_File.
From Coq Require Import ZifyBool ZifyNat ZifyN Permutation.
Open Scope list_scope.
Ltac Zify.zify_post_hook ::= idtac.

Lemma sub_rows_wf k : wf_rows (sub_rows k) = true.
Proof. destruct k; vm_compute; reflexivity. Qed.

Section R.
Variable FO : FloatOps.
Notation st := (state FO).
Notation hdr := (hdr FO).
Notation seg := (seg FO).
Hypothesis laws : FloatLaws FO.

(** ** Fields after writing and reading *)

Lemma parsed_converts d b sv : parse_field FO d false b = Ok sv -> exists v, convert FO d sv = Ok v.
Proof.
  unfold parse_field. destruct (fd_optional d && is_blank d b) eqn:B.
  - intro H. injection H as <-. apply andb_true_iff in B as [O _]. cbn [convert]. rewrite O. eauto.
  - destruct (fd_ty d) eqn:T.
    + intro H. injection H as <-. cbn [convert]. rewrite T. eauto.
    + destruct (rstrip_by ws_byte b) as [|c l]; [discriminate|]. destruct (conv_int FO (VBytes (c :: l))) as [z|]; [|discriminate].
      intro H. injection H as <-. cbn [convert]. rewrite T. cbn. eauto.
    + destruct (rstrip_by ws_byte b) as [|c l]; [discriminate|]. destruct (conv_float FO (VBytes (c :: l))) as [z|]; [|discriminate].
      intro H. injection H as <-. cbn [convert]. rewrite T. cbn. eauto.
    + intro H. injection H as <-. cbn [convert]. rewrite T. cbn. eauto.
    + intro H. injection H as <-. cbn [convert]. rewrite T. cbn. eauto.
Qed.

(** What could be written can be read. *)
Lemma written_get rows (s : st) b nm f : wf_rows rows = true -> literals_ok FO (mk_fs rows) s -> write FO (mk_fs rows) s = Ok b ->
  lookup (mk_fs rows) nm = Some f -> f_loops f = [] -> fd_value (f_d f) = None -> is_data_ty (fd_ty (f_d f)) = false ->
  exists v, get FO (mk_fs rows) s nm [] = Ok v.
Proof.
  intros Hwf HL HW L LF LV LT. assert (Hf := lookup_in _ _ _ L).
  assert (HV : valid_index FO (mk_fs rows) s f []) by (split; rewrite LF; [reflexivity|cbn; lia]).
  destruct (write_block_at FO rows s b f [] HW Hf HV) as (b' & _ & HK).
  unfold get. rewrite L. unfold key_shape_ok, depth. rewrite LF. cbn [List.length Nat.eqb].
  unfold fget, get_pub.
  enough (exists v, get_base FO (G FO (mk_fs rows) s) (mk_fs rows) s f [] = Ok v) as (v & E).
  { rewrite E. cbn [bind]. destruct (fd_ty (f_d f)); try (eexists; reflexivity). discriminate. }
  assert (N := has_name_lookup rows nm f L).
  destruct HK as [[HC _]|(HC & _ & HF)]; cbn [fst snd] in *.
  - unfold get_base. rewrite N. unfold check_index. rewrite LF. cbn [bind]. rewrite HC. cbn. eauto.
  - unfold field_bytes in HF. apply bind_ok_elim in HF as (sz & _ & HF).
    destruct (stored FO s f []) as [v0|b0] eqn:S.
    + apply bind_ok_elim in HF as (v & Hv & _). eauto.
    + destruct (HL f [] b0 Hf (stored_lit FO _ _ _ _ S)) as [(sv & Hp) _].
      unfold get_base. rewrite N. unfold check_index. rewrite LF. cbn [bind]. rewrite HC. cbn [bind negb]. rewrite LV, S.
      rewrite (convert_lit_parse FO laws _ _ _ Hp). destruct (parsed_converts _ _ _ Hp) as (v & ->). eauto.
Qed.

(** Fields whose values survive exactly. *)
Definition exactb (f : field) : bool :=
  match fd_ty (f_d f) with TStr => negb (fd_optional (f_d f)) | TInt | TBytes | TData _ => true | TFloat => false end.
Lemma same_exact rows (s s1 : st) nm f k v : same_fields FO rows s s1 -> lookup (mk_fs rows) nm = Some f -> exactb f = true ->
  valid_index FO (mk_fs rows) s f k -> get FO (mk_fs rows) s nm k = Ok v -> get FO (mk_fs rows) s1 nm k = Ok v.
Proof.
  intros (_ & HG) L HE HV Hg. destruct (HG nm f k v L HV Hg) as (v' & sz & E & [->|(_ & S)]); [exact E|].
  rewrite E. unfold exactb in HE. destruct S as [->|[(x & t & y & T & _)|(t & T & O & _)]]; [reflexivity| |]; exfalso.
  - rewrite T in HE. discriminate.
  - rewrite T, O in HE. discriminate.
Qed.
Definition exact_name (rows : list row) (nm : string) : bool :=
  match lookup (mk_fs rows) nm with
  | Some f => match f_loops f with [] => true | _ => false end && exactb f
  | None => false
  end.
Lemma same_get rows (s s1 : st) nm v : same_fields FO rows s s1 -> exact_name rows nm = true ->
  get FO (mk_fs rows) s nm [] = Ok v -> get FO (mk_fs rows) s1 nm [] = Ok v.
Proof.
  intros HS HE Hg. unfold exact_name in HE. destruct (lookup (mk_fs rows) nm) as [f|] eqn:L; [|discriminate].
  apply andb_true_iff in HE as [E1 E2]. apply (same_exact rows s s1 nm f [] v HS L E2); [|exact Hg].
  destruct (f_loops f) eqn:LF; [|discriminate]. split; rewrite LF; [reflexivity|cbn; lia].
Qed.

(** Fields of which both the value and the presence can be told from what was written. *)
Definition plain_name (rows : list row) (nm : string) : bool :=
  match lookup (mk_fs rows) nm with
  | Some f => match f_loops f with [] => true | _ => false end && exactb f
      && match fd_value (f_d f) with None => true | _ => false end && negb (is_data_ty (fd_ty (f_d f)))
  | None => false
  end.
Lemma same_plain rows (s s1 : st) b nm : wf_rows rows = true -> literals_ok FO (mk_fs rows) s -> write FO (mk_fs rows) s = Ok b ->
  same_fields FO rows s s1 -> plain_name rows nm = true ->
  get FO (mk_fs rows) s1 nm [] = get FO (mk_fs rows) s nm [].
Proof.
  intros Hwf HL HW HS HP. unfold plain_name in HP. destruct (lookup (mk_fs rows) nm) as [f|] eqn:L; [|discriminate].
  apply andb_true_iff in HP as [HP P4]. apply andb_true_iff in HP as [HP P3]. 
  assert (HE : exact_name rows nm = true) by (unfold exact_name; rewrite L; exact HP).
  apply andb_true_iff in HP as [P1 P2].
  destruct (written_get rows s b nm f Hwf HL HW L) as (v & E).
  - now destruct (f_loops f).
  - now destruct (fd_value (f_d f)).
  - now apply negb_true_iff.
  - rewrite E. exact (same_get rows s s1 nm v HS HE E).
Qed.

(** ** Positions in the file *)

Lemma skipn_pre {A} (pre l : list A) : skipn (List.length pre) (pre ++ l) = l.
Proof. rewrite skipn_app, skipn_all, Nat.sub_diag. reflexivity. Qed.

Lemma read_at_ok rows (s : st) b pre rest : wf_rows rows = true -> literals_ok FO (mk_fs rows) s ->
  write FO (mk_fs rows) s = Ok b ->
  exists s1, read_at FO rows (pre ++ b ++ rest) (List.length pre) = Ok (s1, List.length (pre ++ b)) /\ same_fields FO rows s s1.
Proof.
  intros Hwf HL HW. destruct (C01_round_trip FO rows s (init_state FO) false b rest laws Hwf HL HW) as (s1 & R & H1 & H2).
  exists s1. split; [|split; assumption]. unfold read_at. rewrite skipn_pre, R. cbn [bind]. f_equal. f_equal.
  rewrite !app_length. lia.
Qed.

Lemma take_at_ok pre b rest : take_at (Z.of_nat (List.length b)) (pre ++ b ++ rest) (List.length pre) = (b, List.length (pre ++ b)).
Proof.
  unfold take_at, fread. rewrite skipn_pre. replace (_ <? 0)%Z with false by lia. cbn [fst].
  rewrite Nat2Z.id, firstn_app, firstn_all, Nat.sub_diag, app_nil_r. f_equal. rewrite app_length. reflexivity.
Qed.
Lemma seek_by_ok (pre b : list N) : seek_by (Z.of_nat (List.length b)) (List.length pre) = Ok (List.length (pre ++ b)).
Proof. unfold seek_by. replace (_ <? 0)%Z with false by lia. f_equal. rewrite app_length. lia. Qed.
Lemma firstn_at (pre b rest : list N) : firstn (Z.to_nat (Z.of_nat (List.length b))) (skipn (List.length pre) (pre ++ b ++ rest)) = b.
Proof. rewrite skipn_pre, Nat2Z.id, firstn_app, firstn_all, Nat.sub_diag. apply app_nil_r. Qed.

(** ** The image reader *)

Definition np_names : list string :=
  ["ic"; "imode"; "nbpr"; "nbpc"; "nppbh"; "nrows"; "ncols"; "nbands"; "xbands"; "nbpp"; "pvtype"]%string.
Lemma np_plain : forallb (plain_name desc_NitfImageSubheader) np_names = true.
Proof. vm_compute. reflexivity. Qed.

Lemma find_dtype_same (h h1 : hdr) l : (forall nm, In nm np_names -> iget FO h1 nm = iget FO h nm) ->
  find_dtype FO h1 l = find_dtype FO h l.
Proof.
  intro H. assert (A : iget FO h1 "nbpp" = iget FO h "nbpp") by (apply H; cbn; tauto).
  assert (B : iget FO h1 "pvtype" = iget FO h "pvtype") by (apply H; cbn; tauto).
  induction l as [|[[n p] d] l IH]; cbn [find_dtype]; unfold ieq; rewrite A, B; [reflexivity|]. rewrite IH. reflexivity.
Qed.
Lemma np_same (h h1 : hdr) : (forall nm, In nm np_names -> iget FO h1 nm = iget FO h nm) ->
  np_plan FO h1 = np_plan FO h /\ dims FO h1 = dims FO h.
Proof.
  intro H. assert (D := find_dtype_same h h1 dtype_table H).
  assert (A1 := H "ic"%string ltac:(cbn; tauto)). assert (A2 := H "imode"%string ltac:(cbn; tauto)).
  assert (A3 := H "nbpr"%string ltac:(cbn; tauto)). assert (A4 := H "nbpc"%string ltac:(cbn; tauto)).
  assert (A5 := H "nppbh"%string ltac:(cbn; tauto)). assert (A6 := H "nrows"%string ltac:(cbn; tauto)).
  assert (A7 := H "ncols"%string ltac:(cbn; tauto)). assert (A8 := H "nbands"%string ltac:(cbn; tauto)).
  assert (A9 := H "xbands"%string ltac:(cbn; tauto)). assert (A10 := H "nbpp"%string ltac:(cbn; tauto)).
  assert (NB : number_band FO h1 = number_band FO h).
  { unfold number_band, iint, hint. fold (iget FO h1 "nbands") (iget FO h "nbands"). rewrite A8, A9. reflexivity. }
  assert (S : shape FO h1 = shape FO h) by (unfold shape; rewrite NB, A6, A7; reflexivity).
  split; [|unfold dims; rewrite S; reflexivity].
  unfold np_plan, ieq, get_dtype. rewrite A1, A2, A3, A10, D, S.
  destruct (shape FO h) as [[[b r] c]|e]; cbn [bind]; rewrite ?A4, ?A5; reflexivity.
Qed.

Lemma np_map_ok (h : hdr) il d flen off b r c : dims FO h = Ok (b, r, c) -> (0 <= b)%Z -> (0 <= r)%Z -> (0 <= c)%Z ->
  (off + b * r * c * itemsize d <= flen)%Z ->
  exists m, np_map FO h il d flen off = Ok m /\ mp_size m = (b * r * c * itemsize d)%Z.
Proof.
  intros HD Hb Hr Hc HF. unfold np_map. rewrite HD. cbn [bind].
  replace (b <? 0)%Z with false by lia. replace (r <? 0)%Z with false by lia. replace (c <? 0)%Z with false by lia. cbn [orb].
  match goal with |- context [if ?x then _ else _] => assert (E : x = false) by (cbn [mp_size mp_dims mp_dt]; lia); rewrite E end.
  eexists. split; [reflexivity|]. reflexivity.
Qed.
End R.
