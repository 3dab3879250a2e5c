(** One field: formatting a value and parsing the text again. *)
From Verif Require Import Base BaseLemmas Engine Wf EngineLemmas.
From Coq Require Import ZifyBool ZifyNat ZifyN.
Open Scope list_scope.

(** ** Specification of the floating codec (assumed of python's float; see DESIGN.md) *)

(** A character that makes a text neither blank nor dashes. *)
Definition visible (c : N) : bool := negb (c =? 32)%N && negb (c =? 45)%N && negb (ws_byte c).

Record FloatLaws (FO : FloatOps) : Prop := {
  (** every text printed for a number is accepted by [float()] *)
  law_fmt_parses : forall sp x t, fl_fmt FO sp x = Some t -> exists y, fl_parse FO t = Some y;
  (** [float()] ignores trailing white space *)
  law_parse_ws : forall t u, forallb ws_byte u = true -> fl_parse FO (t ++ u) = fl_parse FO t;
  (** [float()] accepts no text made only of blanks and dashes *)
  law_parse_visible : forall t y, fl_parse FO t = Some y -> existsb visible t = true;
}.

Section Codec.
Variable FO : FloatOps.
Hypothesis laws : FloatLaws FO.
Notation pyval := (pyval FO).
Notation sval := (sval FO).
Notation state := (state FO).

(** ** What a value reads back as *)

Definition fill_only (d : fdesc) (s : list N) : bool :=
  forallb (fun c => (c =? fd_optchar d) || (c =? 32))%N s.

(** The format of a float field of size [sz] (nitf_field.py:189-196). *)
Definition float_spec (d : fdesc) (sz : Z) : fspec :=
  match fd_frmt d with FrF sp => sp | _ => FsFit sz end.

(** Printing, parsing and printing again gives the same text, for texts that fit the field. *)
Definition stable_at (d : fdesc) (sz : Z) : Prop :=
  forall x t y, fl_fmt FO (float_spec d sz) x = Some t -> (Z.of_nat (List.length t) <= sz)%Z ->
    fl_parse FO t = Some y -> fl_fmt FO (float_spec d sz) y = Some t.

(** The same for every float field of a structure; a field of fixed size has that size. *)
Definition FloatStable (fs : fstruct) : Prop :=
  forall f sz, In f (fs_fields fs) -> fd_ty (f_d f) = TFloat ->
    (forall n, fd_size (f_d f) = SzInt n ->
       sz = if (n =? 0)%Z then n else (n - fd_size_offset (f_d f))%Z) ->
    stable_at (f_d f) sz.

(** The value [v] of a field of size [sz], after being written and read back: floats
    become what their printed form denotes, text made only of fill characters in an
    optional field becomes None, everything else is unchanged. *)
Definition reads_back (d : fdesc) (sz : Z) (v v' : pyval) : Prop :=
  match fd_ty d, v with
  | TFloat, VFloat x =>
      exists t y, fl_fmt FO (float_spec d sz) x = Some t /\ fl_parse FO t = Some y /\ v' = VFloat y
  | TStr, VStr s => v' = if fd_optional d && fill_only d s then VNone else VStr s
  | _, _ => v' = v
  end.

Lemma is_blank_fill d b : is_blank d b = fill_only d b.
Proof.
  unfold is_blank, fill_only. destruct (rstrip_by _ b) eqn:E.
  - symmetry. now apply rstrip_nil.
  - destruct (forallb _ b) eqn:F; auto. apply rstrip_nil in F. congruence.
Qed.

Lemma fill_only_ljust d n b : fill_only d (ljust n b) = fill_only d b.
Proof.
  unfold fill_only, ljust. rewrite forallb_app, forallb_spaces, andb_true_r; auto.
  rewrite N.eqb_refl. apply orb_true_r.
Qed.

Lemma is_blank_ljust d n b : is_blank d (ljust n b) = is_blank d b.
Proof. now rewrite !is_blank_fill, fill_only_ljust. Qed.

Definition optchar_ok (d : fdesc) : Prop := fd_optchar d = 32%N \/ fd_optchar d = 45%N.

Lemma visible_not_fill d t : optchar_ok d -> existsb visible t = true -> fill_only d t = false.
Proof.
  intros Ho H. apply existsb_exists in H as (c & Hc & Hv).
  destruct (fill_only d t) eqn:E; auto. unfold fill_only in E.
  rewrite forallb_forall in E. specialize (E c Hc). unfold visible in Hv.
  destruct Ho as [-> | ->] in E; lia.
Qed.

Lemma visible_not_ws t : existsb visible t = true -> rstrip_by ws_byte t <> [].
Proof.
  intros H E. apply rstrip_nil in E. apply existsb_exists in H as (c & Hc & Hv).
  rewrite forallb_forall in E. specialize (E c Hc). unfold visible in Hv. lia.
Qed.

Lemma digit_visible c : is_digit c = true -> visible c = true.
Proof. unfold is_digit, visible, ws_byte. lia. Qed.

Lemma fmt_d_visible f z : existsb visible (fmt_d f z) = true.
Proof.
  destruct (fmt_d_shape f z) as (pre & sign & ds & post & -> & _ & _ & _ & Hn & Hd & _).
  apply existsb_exists. destruct ds as [|c ds]; [contradiction|]. exists c. split.
  - apply in_or_app; right. apply in_or_app; right. now left.
  - apply digit_visible. cbn in Hd. now apply andb_true_iff in Hd.
Qed.

Lemma existsb_app_l {A} (p : A -> bool) a b : existsb p a = true -> existsb p (a ++ b) = true.
Proof. intro H. rewrite existsb_app, H. reflexivity. Qed.

Lemma fl_parse_rstrip t : fl_parse FO (rstrip_by ws_byte t) = fl_parse FO t.
Proof.
  destruct (rstrip_decomp ws_byte t) as (u & E & Hu). rewrite E at 2.
  now rewrite (law_parse_ws _ laws).
Qed.

Lemma fl_parse_ljust n t : fl_parse FO (ljust n t) = fl_parse FO t.
Proof. unfold ljust. apply (law_parse_ws _ laws). now apply forallb_spaces. Qed.

Lemma has_len_eq t sz : has_len t sz = true -> Z.of_nat (List.length t) = sz.
Proof. unfold has_len. lia. Qed.

(** Text of an integer field is read back as that integer. *)
Lemma parse_field_int d f z :
  fd_ty d = TInt -> optchar_ok d -> parse_field FO d false (fmt_d f z) = Ok (SVal (VInt z)).
Proof.
  intros HT Ho. unfold parse_field.
  rewrite is_blank_fill, (visible_not_fill d _ Ho (fmt_d_visible f z)), andb_false_r, HT.
  destruct (rstrip_by ws_byte (fmt_d f z)) eqn:E.
  - exfalso. eapply visible_not_ws; [apply fmt_d_visible|exact E].
  - rewrite <- E. unfold conv_int. rewrite parse_int_rstrip, parse_int_fmt_d; auto.
    exact ws_ok_byte.
Qed.

Lemma parse_field_float d t y :
  fd_ty d = TFloat -> optchar_ok d -> fl_parse FO t = Some y ->
  parse_field FO d false t = Ok (SVal (VFloat y)).
Proof.
  intros HT Ho Hp. unfold parse_field. assert (Hv := law_parse_visible _ laws _ _ Hp).
  rewrite is_blank_fill, (visible_not_fill d _ Ho Hv), andb_false_r, HT.
  destruct (rstrip_by ws_byte t) eqn:E.
  - exfalso. eapply visible_not_ws; eauto.
  - rewrite <- E. unfold conv_float. now rewrite fl_parse_rstrip, Hp.
Qed.

Lemma parse_field_pad d b n sv :
  is_bytes_ty (fd_ty d) = false ->
  parse_field FO d false b = Ok sv -> parse_field FO d false (ljust n b) = Ok sv.
Proof.
  intros HT. unfold parse_field. rewrite is_blank_ljust, rstrip_ljust by reflexivity.
  destruct (fd_optional d && is_blank d b); auto. destruct (fd_ty d); auto; discriminate.
Qed.

(** A literal reads as what its text means. *)
Lemma convert_lit_parse d b sv :
  parse_field FO d false b = Ok sv -> convert FO d (SLit b) = convert FO d sv.
Proof.
  unfold parse_field. cbn [convert]. destruct (fd_optional d && is_blank d b) eqn:B.
  - intros H1. injection H1 as <-. cbn [convert].
    apply andb_true_iff in B as [-> _]. reflexivity.
  - destruct (fd_ty d) eqn:T.
    + intros H1. injection H1 as <-. cbn [convert conv_str]. rewrite T.
      now rewrite rstrip_sub by exact ws_byte_str.
    + destruct (rstrip_by ws_byte b) eqn:E; [discriminate|]. rewrite <- E. unfold conv_int.
      rewrite parse_int_rstrip. destruct (parse_int ws_byte b); [|discriminate].
      intros H1. injection H1 as <-. cbn [convert]. now rewrite T.
    + destruct (rstrip_by ws_byte b) eqn:E; [discriminate|]. rewrite <- E. unfold conv_float.
      rewrite fl_parse_rstrip. destruct (fl_parse FO b); [|discriminate].
      intros H1. injection H1 as <-. cbn [convert]. now rewrite T.
    + intros H1. injection H1 as <-. cbn [convert]. now rewrite T.
    + intros H1. injection H1 as <-. cbn [convert]. now rewrite T.
Qed.

(** ** Shape of converted values *)

(** The values a field can have, by type. *)
Definition typed (d : fdesc) (v : pyval) : Prop :=
  (v = VNone /\ fd_optional d = true) \/
  match fd_ty d, v with
  | TStr, VStr s => rstrip_by ws_str s = s
  | TInt, VInt _ => True
  | TFloat, VFloat _ => True
  | (TBytes | TData _), VBytes _ => True
  | _, _ => False
  end.

Lemma convert_typed d sv v : convert FO d sv = Ok v -> typed d v.
Proof.
  unfold typed. intro H. destruct sv as [w|b]; cbn [convert] in H.
  - destruct w; [destruct (fd_optional d);
      [injection H as <-; auto
      |destruct (fd_ty d); try discriminate; injection H as <-; right; reflexivity]|..];
    (right; destruct (fd_ty d);
      [injection H as <-; apply rstrip_idem
      |apply bind_ok_elim in H as (x' & _ & H); injection H as <-; exact I ..]).
  - destruct (fd_optional d && is_blank d b) eqn:B.
    + injection H as <-. left. apply andb_true_iff in B. tauto.
    + right. destruct (fd_ty d);
        [injection H as <-; apply rstrip_idem
        |apply bind_ok_elim in H as (x' & _ & H); injection H as <-; exact I
        |apply bind_ok_elim in H as (x' & _ & H); injection H as <-; exact I
        |injection H as <-; exact I ..].
Qed.

Lemma get_base_typed g fs s f k v :
  fd_name (f_d f) <> None -> check_condition FO g fs f k = Ok true ->
  get_base FO g fs s f k = Ok v -> typed (f_d f) v.
Proof.
  intros Hn Hc H. unfold get_base in H. destruct (fd_name (f_d f)); [|contradiction].
  apply bind_ok_elim in H as (u & _ & H). rewrite Hc in H. cbn [bind negb] in H.
  destruct (fd_value (f_d f)) as [e|].
  - destruct (eval FO g fs k e); cbn [bind] in H; [|discriminate].
    destruct (convert FO (f_d f) (SVal a)) eqn:E; [|discriminate]. injection H as <-.
    eapply convert_typed; eauto.
  - destruct (convert FO (f_d f) (stored FO s f k)) eqn:E; [|discriminate]. injection H as <-.
    eapply convert_typed; eauto.
Qed.

(** [get_base] of a plain present field is the converted stored value. *)
Lemma get_base_stored g fs s f k v :
  fd_name (f_d f) <> None -> check_condition FO g fs f k = Ok true -> fd_value (f_d f) = None ->
  get_base FO g fs s f k = Ok v -> convert FO (f_d f) (stored FO s f k) = Ok v.
Proof.
  intros Hn Hc Hv H. unfold get_base in H. destruct (fd_name (f_d f)); [|contradiction].
  apply bind_ok_elim in H as (u & _ & H). rewrite Hc, Hv in H. cbn [bind negb] in H.
  destruct (convert FO (f_d f) (stored FO s f k)) eqn:E; [|discriminate]. congruence.
Qed.

(** ** Formatting a typed value *)

(** The bytes written for the value [v] of a field (the part of [field_bytes] after the
    value has been read), nitf_field.py:326-337. *)
Definition value_bytes (d : fdesc) (v : pyval) (sz : Z) : res (list N) :=
  match v, fd_optional d, fd_ty d with
  | VNone, true, (TBytes | TData _) => Err EType
  | VNone, true, _ =>
      let t := repeat (fd_optchar d) (Z.to_nat sz) in
      if has_len t sz then encode_latin1 t else Err ERuntime
  | VBytes t, _, (TBytes | TData _) => if has_len t sz then Ok t else Err ERuntime
  | _, _, (TBytes | TData _) => Err EType
  | _, _, _ =>
      do t <- format_val FO d v sz;
      if has_len t sz then encode_latin1 t else Err ERuntime
  end.

Lemma field_bytes_val g fs s f k v0 :
  stored FO s f k = SVal v0 ->
  field_bytes FO g fs s f k =
  (do sz <- fsize_of FO g fs f k; do v <- get_base FO g fs s f k; value_bytes (f_d f) v sz).
Proof. intro H. unfold field_bytes. rewrite H. reflexivity. Qed.

Lemma value_bytes_none d sz b :
  fd_optional d = true -> value_bytes d VNone sz = Ok b ->
  b = repeat (fd_optchar d) (Z.to_nat sz) /\ Z.of_nat (List.length b) = sz
  /\ is_bytes_ty (fd_ty d) = false.
Proof.
  intros Ho H. unfold value_bytes in H. rewrite Ho in H.
  destruct (fd_ty d); try discriminate;
    (destruct (has_len (repeat (fd_optchar d) (Z.to_nat sz)) sz) eqn:L; [|discriminate];
     apply encode_ok in H as [-> _]; repeat split; now apply has_len_eq).
Qed.

Lemma fill_only_repeat d n : fill_only d (repeat (fd_optchar d) n) = true.
Proof. unfold fill_only. induction n; cbn; auto. now rewrite N.eqb_refl. Qed.

Lemma value_bytes_len d v sz b : value_bytes d v sz = Ok b -> Z.of_nat (List.length b) = sz.
Proof.
  unfold value_bytes. intro H.
  assert (Hgen : forall t, (if has_len t sz then encode_latin1 t else Err ERuntime) = Ok b ->
                           Z.of_nat (List.length b) = sz).
  { intros t Ht. destruct (has_len t sz) eqn:L; [|discriminate].
    apply encode_ok in Ht as [-> _]. now apply has_len_eq. }
  destruct v, (fd_optional d), (fd_ty d); try discriminate; eauto;
    try (apply bind_ok_elim in H as (t & _ & H); eauto);
    try (destruct (has_len b0 sz) eqn:L; [|discriminate]; injection H as <-; now apply has_len_eq).
Qed.

(** Main codec lemma: the bytes written for a typed value parse, and convert to what the
    value reads back as. *)
Lemma value_bytes_parse d v sz b :
  optchar_ok d -> (is_bytes_ty (fd_ty d) = true -> fd_optional d = false) ->
  typed d v -> value_bytes d v sz = Ok b ->
  exists sv v', parse_field FO d false b = Ok sv /\ convert FO d sv = Ok v'
                /\ reads_back d sz v v'.
Proof.
  intros Ho Hob [[-> Hopt] | HT] HB.
  - destruct (value_bytes_none _ _ _ Hopt HB) as (-> & HL & HbT).
    exists (SVal VNone), VNone. unfold parse_field.
    rewrite is_blank_fill, fill_only_repeat, Hopt. cbn. rewrite Hopt.
    repeat split. unfold reads_back. destruct (fd_ty d); reflexivity.
  - unfold value_bytes in HB. unfold reads_back.
    destruct (fd_ty d) eqn:T; destruct v; try contradiction.
    + (* str *)
      assert (HB' : (do t <- format_val FO d (VStr s) sz;
                     if has_len t sz then encode_latin1 t else Err ERuntime) = Ok b)
        by (destruct (fd_optional d); exact HB).
      clear HB. unfold format_val in HB'. rewrite T in HB'.
      destruct (fd_frmt d); cbn [bind conv_str] in HB'; try discriminate.
      destruct (has_len _ sz) eqn:L; [|discriminate]. apply encode_ok in HB' as [-> _].
      unfold parse_field. rewrite is_blank_ljust, is_blank_fill.
      destruct (fd_optional d && fill_only d s) eqn:B.
      * exists (SVal VNone), VNone. apply andb_true_iff in B as [B _]. cbn. rewrite B. auto.
      * rewrite T, rstrip_ljust by reflexivity.
        rewrite <- HT, rstrip_sup by exact ws_byte_str. rewrite HT.
        exists (SVal (VStr s)), (VStr s). cbn. rewrite T, HT. auto.
    + (* int *)
      assert (HB' : (do t <- format_val FO d (VInt z) sz;
                     if has_len t sz then encode_latin1 t else Err ERuntime) = Ok b)
        by (destruct (fd_optional d); exact HB).
      clear HB. unfold format_val in HB'. rewrite T in HB'.
      exists (SVal (VInt z)), (VInt z). cbn [convert]. rewrite T. cbn [bind conv_int conv_float conv_bytes].
      destruct (fd_frmt d); cbn [bind conv_str] in HB'; try discriminate;
        (destruct (has_len _ sz) eqn:L; [|discriminate]; apply encode_ok in HB' as [-> _];
         rewrite parse_field_int; auto).
    + (* float *)
      assert (HB' : (do t <- format_val FO d (VFloat x) sz;
                     if has_len t sz then encode_latin1 t else Err ERuntime) = Ok b)
        by (destruct (fd_optional d); exact HB).
      clear HB. unfold format_val in HB'. rewrite T in HB'.
      assert (exists t, fl_fmt FO (float_spec d sz) x = Some t /\ b = ljust (Z.to_nat sz) t)
        as (t & Ht & ->).
      { unfold float_spec. destruct (fd_frmt d); try discriminate.
        - destruct (fl_fmt FO (FsFit sz) x) as [t|]; [|discriminate]. cbn [bind conv_str] in HB'.
          destruct (has_len _ sz); [|discriminate]. apply encode_ok in HB' as [-> _]. eauto.
        - destruct (fl_fmt FO s x) as [t|]; [|discriminate]. cbn [bind conv_str] in HB'.
          destruct (has_len _ sz); [|discriminate]. apply encode_ok in HB' as [-> _]. eauto. }
      destruct (law_fmt_parses _ laws _ _ _ Ht) as (y & Hy).
      exists (SVal (VFloat y)), (VFloat y). cbn [convert]. rewrite T. cbn [bind conv_int conv_float conv_bytes].
      rewrite (parse_field_float d _ y); auto.
      * repeat split. eauto.
      * now rewrite fl_parse_ljust.
    + (* bytes *)
      unfold parse_field. rewrite Hob by reflexivity. rewrite T. cbn [andb].
      exists (SVal (VBytes b)), (VBytes b). cbn [convert]. rewrite T. cbn [bind conv_int conv_float conv_bytes].
      destruct (has_len b0 sz); [|discriminate].
      injection HB as ->. auto.
    + (* field data *)
      unfold parse_field. rewrite Hob by reflexivity. rewrite T. cbn [andb].
      exists (SVal (VBytes b)), (VBytes b). cbn [convert]. rewrite T. cbn [bind conv_int conv_float conv_bytes].
      destruct (has_len b0 sz); [|discriminate].
      injection HB as ->. auto.
Qed.

(** ** A stored field *)

(** The literals held by a structure make sense for their field. *)
Definition literals_ok (fs : fstruct) (st : state) : Prop :=
  forall f k b, In f (fs_fields fs) -> st_val FO st (f_id f) k = Some (SLit b) ->
    (exists sv, parse_field FO (f_d f) false b = Ok sv)
    /\ (is_bytes_ty (fd_ty (f_d f)) = true ->
        fsize_of FO (G FO fs st) fs f k = Ok (Z.of_nat (List.length b))).

(** What the stored value of a field becomes when written and read back. *)
Definition reads_back_stored (d : fdesc) (sz : Z) (sv : sval) (v v' : pyval) : Prop :=
  match sv with SLit _ => v' = v | SVal _ => reads_back d sz v v' end.

Lemma stored_lit s f k b : stored FO s f k = SLit b -> st_val FO s (f_id f) k = Some (SLit b).
Proof. unfold stored. destruct (st_val FO s (f_id f) k); [congruence|discriminate]. Qed.

Lemma field_bytes_len g fs s f k b sz :
  fsize_of FO g fs f k = Ok sz -> field_bytes FO g fs s f k = Ok b -> Z.of_nat (List.length b) = sz.
Proof.
  intros Hs H. unfold field_bytes in H. rewrite Hs in H. cbn [bind] in H.
  destruct (stored FO s f k).
  - apply bind_ok_elim in H as (v' & _ & H). eapply value_bytes_len. exact H.
  - destruct (has_len (ljust (Z.to_nat sz) b0) sz) eqn:L; [|discriminate].
    injection H as <-. now apply has_len_eq.
Qed.

Lemma field_bytes_fsize g fs s f k b :
  field_bytes FO g fs s f k = Ok b -> exists sz, fsize_of FO g fs f k = Ok sz.
Proof. unfold field_bytes. intro H. apply bind_ok_elim in H as (sz & H & _). eauto. Qed.

Lemma ljust_full n b : (n <= List.length b)%nat -> ljust n b = b.
Proof.
  intro H. unfold ljust. replace (n - List.length b)%nat with O by lia. apply app_nil_r.
Qed.

Lemma field_bytes_parse fs st f k b lit :
  literals_ok fs st -> In f (fs_fields fs) ->
  optchar_ok (f_d f) -> (is_bytes_ty (fd_ty (f_d f)) = true -> fd_optional (f_d f) = false) ->
  fd_name (f_d f) <> None -> check_condition FO (G FO fs st) fs f k = Ok true ->
  field_bytes FO (G FO fs st) fs st f k = Ok b ->
  exists sv, parse_field FO (f_d f) lit b = Ok sv /\
    (forall v, fd_value (f_d f) = None -> get_base FO (G FO fs st) fs st f k = Ok v ->
      exists v' sz, fsize_of FO (G FO fs st) fs f k = Ok sz /\ convert FO (f_d f) sv = Ok v'
         /\ reads_back_stored (f_d f) sz (stored FO st f k) v v').
Proof.
  intros HL Hin Ho Hob Hn Hc HB.
  enough (exists sv, parse_field FO (f_d f) false b = Ok sv /\
    (forall v, fd_value (f_d f) = None -> get_base FO (G FO fs st) fs st f k = Ok v ->
      exists v' sz, fsize_of FO (G FO fs st) fs f k = Ok sz /\ convert FO (f_d f) sv = Ok v'
         /\ reads_back_stored (f_d f) sz (stored FO st f k) v v')) as (sv & H1 & H2).
  { destruct lit; [|eauto]. exists (SLit b). split; [reflexivity|].
    intros v Hv Hg. rewrite (convert_lit_parse _ _ _ H1). eauto. }
  destruct (field_bytes_fsize _ _ _ _ _ _ HB) as (sz & Hsz).
  destruct (stored FO st f k) as [v0|b0] eqn:S.
  - rewrite (field_bytes_val _ _ _ _ _ v0 S), Hsz in HB. cbn [bind] in HB.
    apply bind_ok_elim in HB as (v & Hg & HB).
    assert (HT := get_base_typed _ _ _ _ _ _ Hn Hc Hg).
    destruct (value_bytes_parse _ _ _ _ Ho Hob HT HB) as (sv & v' & P1 & P2 & P3).
    exists sv. split; auto. intros w _ Hw. rewrite Hg in Hw. injection Hw as <-.
    exists v', sz. auto.
  - destruct (HL f k b0 Hin (stored_lit _ _ _ _ S)) as [(sv & Hp) Hby].
    unfold field_bytes in HB. rewrite Hsz, S in HB. cbn [bind] in HB.
    destruct (has_len (ljust (Z.to_nat sz) b0) sz) eqn:L; [|discriminate]. injection HB as <-.
    exists sv. split.
    + destruct (is_bytes_ty (fd_ty (f_d f))) eqn:T.
      * specialize (Hby eq_refl). rewrite Hsz in Hby. injection Hby as ->.
        rewrite ljust_full by lia. exact Hp.
      * now apply parse_field_pad.
    + intros v Hv Hg. apply get_base_stored in Hg; auto. rewrite S in Hg.
      rewrite (convert_lit_parse _ _ _ Hp) in Hg. exists v, sz. repeat split; auto.
Qed.

(** Exact fields read back unchanged. *)
Lemma reads_back_exact f sz sv v v' :
  exact f = true -> reads_back_stored (f_d f) sz sv v v' -> v' = v.
Proof.
  unfold exact, reads_back_stored, reads_back. intro H. apply andb_true_iff in H as [H1 H2].
  apply negb_true_iff in H1. destruct sv; auto. rewrite H1.
  destruct (fd_ty (f_d f)); auto; [|discriminate]. destruct v; auto.
Qed.

End Codec.
