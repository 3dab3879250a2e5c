(** Writing again what was read back; prefixes; general facts about [read]. *)
From Verif Require Import Base BaseLemmas Engine Wf EngineLemmas Codec RoundTrip.
From Coq Require Import ZifyBool ZifyNat ZifyN.
Open Scope list_scope.

(** ** General facts about [read] *)

Section ReadFacts.
Variable FO : FloatOps.
Variable fs : fstruct.
Variable lit : bool.

(** A property of states kept by storing what was read in a named field. *)
Lemma read_item_pres (P : state FO -> Prop) :
  (forall s f k t v, In f (fs_fields fs) -> fd_name (f_d f) <> None ->
     parse_field FO (f_d f) lit t = Ok v -> P s ->
     P (set_val FO (set_raw FO s (f_id f) k (Some t)) (f_id f) k v)) ->
  forall it k s inp s' rest, incl (item_fields it) (fs_fields fs) ->
    read_item FO fs lit k it (s, inp) = Ok (s', rest) -> P s -> P s'.
Proof.
  intros Hset it. induction it as [f|sh its IH] using item_ind'; intros k s inp s' rest Hf H HP.
  - cbn [read_item] in H. unfold read_field in H. apply bind_ok_elim in H as (c & _ & H).
    destruct c; cbn [negb] in H; [|congruence]. apply bind_ok_elim in H as (sz & _ & H).
    destruct (_ || _); [discriminate|]. destruct (fd_name (f_d f)) eqn:N; [|congruence].
    apply bind_ok_elim in H as (v & Hv & H). injection H as <- _. eapply Hset; eauto.
    + apply Hf. now left. + congruence.
  - rewrite read_item_loop in H. apply bind_ok_elim in H as (n & _ & H).
    assert (Hits : forall its', Forall (fun it => In it its) its' -> forall k s inp s' rest,
       read_items FO fs lit k its' (s, inp) = Ok (s', rest) -> P s -> P s').
    { intros its' Hin. induction Hin as [|it its' Hi _ IHl]; intros k1 s1 i1 s2 r2 H1 HP1.
      - injection H1 as <- _. exact HP1.
      - unfold read_items in H1. cbn [fold_res] in H1. apply bind_ok_elim in H1 as ([s3 r3] & H2 & H3).
        eapply IHl; [exact H3|]. rewrite Forall_forall in IH. eapply IH; eauto.
        intros y Hy. apply Hf. cbn [item_fields]. apply in_flat_map. eauto. }
    revert s inp HP H. induction (zrange n) as [|i idx IHx]; intros s inp HP H.
    + injection H as <- _. exact HP.
    + cbn [fold_res] in H. apply bind_ok_elim in H as ([s3 r3] & H2 & H3).
      eapply IHx; [|exact H3]. eapply Hits; [|exact H2|exact HP]. apply Forall_forall. auto.
Qed.

Lemma read_items_pres (P : state FO -> Prop) :
  (forall s f k t v, In f (fs_fields fs) -> fd_name (f_d f) <> None ->
     parse_field FO (f_d f) lit t = Ok v -> P s ->
     P (set_val FO (set_raw FO s (f_id f) k (Some t)) (f_id f) k v)) ->
  forall its k s inp s' rest, incl (flat_map item_fields its) (fs_fields fs) ->
    read_items FO fs lit k its (s, inp) = Ok (s', rest) -> P s -> P s'.
Proof.
  intros Hset its. induction its as [|it its IH]; intros k s inp s' rest Hf H HP.
  - injection H as <- _. exact HP.
  - unfold read_items in H. cbn [fold_res] in H. apply bind_ok_elim in H as ([s3 r3] & H2 & H3).
    cbn [flat_map] in Hf. apply incl_app_inv in Hf as [Hf1 Hf2].
    eapply IH; [exact Hf2|exact H3|]. eapply read_item_pres; eauto.
Qed.

(** Bytes after those consumed do not matter. *)
Lemma read_item_ext it : forall k s inp s' rest ext,
  read_item FO fs lit k it (s, inp) = Ok (s', rest) ->
  read_item FO fs lit k it (s, inp ++ ext) = Ok (s', rest ++ ext).
Proof.
  induction it as [f|sh its IH] using item_ind'; intros k s inp s' rest ext H.
  - cbn [read_item] in *. unfold read_field in *. apply bind_ok_elim in H as (c & -> & H).
    cbn [bind]. destruct c; cbn [negb] in *; [|congruence].
    apply bind_ok_elim in H as (sz & -> & H). cbn [bind].
    destruct ((sz <? 0)%Z || (Z.of_nat (List.length inp) <? sz)%Z) eqn:E; [discriminate|].
    replace ((sz <? 0)%Z || (Z.of_nat (List.length (inp ++ ext)) <? sz)%Z) with false
      by (rewrite app_length; lia).
    rewrite firstn_app, skipn_app. replace (Z.to_nat sz - List.length inp)%nat with O by lia.
    cbn [firstn skipn]. rewrite app_nil_r. destruct (fd_name (f_d f)); [|congruence].
    apply bind_ok_elim in H as (v & -> & H). cbn [bind]. congruence.
  - rewrite read_item_loop in *. cbn [fst] in *. apply bind_ok_elim in H as (n & -> & H). cbn [bind].
    assert (Hits : forall its', Forall (fun it => In it its) its' -> forall k s inp s' rest,
       read_items FO fs lit k its' (s, inp) = Ok (s', rest) ->
       read_items FO fs lit k its' (s, inp ++ ext) = Ok (s', rest ++ ext)).
    { intros its' Hin. induction Hin as [|it its' Hi _ IHl]; intros k1 s1 i1 s2 r2 H1.
      - cbn in *. congruence.
      - unfold read_items in *. cbn [fold_res] in *. apply bind_ok_elim in H1 as ([s3 r3] & H2 & H3).
        rewrite Forall_forall in IH. rewrite (IH it Hi _ _ _ _ _ ext H2). cbn [bind]. now apply IHl. }
    revert s inp H. induction (zrange n) as [|i idx IHx]; intros s inp H.
    + cbn in *. congruence.
    + cbn [fold_res] in *. apply bind_ok_elim in H as ([s3 r3] & H2 & H3).
      rewrite (Hits its) with (s' := s3) (rest := r3); auto; [|apply Forall_forall; auto].
      cbn [bind]. now apply IHx.
Qed.

Lemma read_ext s inp s' rest ext :
  read FO fs lit s inp = Ok (s', rest) -> read FO fs lit s (inp ++ ext) = Ok (s', rest ++ ext).
Proof.
  unfold read, read_items. revert s inp. induction (fs_items fs) as [|it its IH]; intros s inp H.
  - cbn in *. congruence.
  - cbn [fold_res] in *. apply bind_ok_elim in H as ([s3 r3] & H2 & H3).
    rewrite (read_item_ext it _ _ _ _ _ ext H2). cbn [bind]. now apply IH.
Qed.

(** A shorter input than the one consumed is refused. *)
Theorem read_prefix s p q s' :
  read FO fs lit s (p ++ q) = Ok (s', []) -> q <> [] -> exists e, read FO fs lit s p = Err e.
Proof.
  intros H Hq. destruct (read FO fs lit s p) as [[s1 r]|e] eqn:E; eauto.
  apply read_ext with (ext := q) in E. rewrite H in E. injection E as _ E.
  destruct r; cbn in E; [|discriminate]. now subst q.
Qed.

End ReadFacts.

(** ** Second write *)

(** No field holds a literal (NitfLiteral). *)
Definition no_literals FO (fs : fstruct) (st : state FO) : Prop :=
  forall f k b, In f (fs_fields fs) -> st_val FO st (f_id f) k <> Some (SLit b).

(** Reserved fields hold nothing but their default (no operation can store anything in them,
    see [P_Engine.reserved_clean_*]). *)
Definition reserved_clean FO (fs : fstruct) (st : state FO) : Prop :=
  forall f k b, In f (fs_fields fs) -> fd_name (f_d f) = None ->
    st_val FO st (f_id f) k <> Some (SLit b).

(** No optional text field with fill character other than blank holds text made of fill
    characters and blanks only. *)
Definition no_fill_text FO (fs : fstruct) (st : state FO) : Prop :=
  forall f k t, In f (fs_fields fs) -> fd_ty (f_d f) = TStr -> fd_optional (f_d f) = true ->
    get_base FO (G FO fs st) fs st f k = Ok (VStr t) -> fill_only (f_d f) t = true ->
    fd_optchar (f_d f) = 32%N.

Lemma reserved_clean_init FO fs : reserved_clean FO fs (init_state FO).
Proof. intros f k b _ _. discriminate. Qed.

Lemma reserved_clean_read FO rows lit s inp s' rest :
  reserved_clean FO (mk_fs rows) s -> read FO (mk_fs rows) lit s inp = Ok (s', rest) ->
  reserved_clean FO (mk_fs rows) s'.
Proof.
  intros HC H. eapply read_items_pres; [| |exact H|exact HC]; [|apply incl_refl].
  intros s1 f k t v Hf Hn _ HP y p b Hy Hny. cbn [st_val set_val set_raw].
  rewrite upd_neq; [now apply HP|]. left. intro E. apply (mk_fs_id_inj rows) in E; auto. subst. auto.
Qed.

Section Again.
Variable FO : FloatOps.
Hypothesis laws : FloatLaws FO.
Variable rows : list row.
Let fs := mk_fs rows.
Variables (st : state FO).
Notation g := (G FO fs st).

Lemma no_literals_ok : no_literals FO fs st -> literals_ok FO fs st.
Proof. intros H f k b Hf E. exfalso. eapply H; eauto. Qed.

Lemma stored_no_lit f k : no_literals FO fs st -> In f (fs_fields fs) ->
  exists v, stored FO st f k = SVal v.
Proof.
  intros H Hf. unfold stored. destruct (st_val FO st (f_id f) k) as [[v|b]|] eqn:E; eauto.
  exfalso. eapply H; eauto.
Qed.

Lemma reserved_stored s f k : reserved_clean FO fs s -> In f (fs_fields fs) ->
  fd_name (f_d f) = None -> exists v, stored FO s f k = SVal v.
Proof.
  intros H Hf Hn. unfold stored. destruct (st_val FO s (f_id f) k) as [[v|b]|] eqn:E; eauto.
  exfalso. eapply H; eauto.
Qed.

Lemma reserved_bytes_same V st1 lit f k b :
  literals_ok FO fs st ->
  Inv FO rows st lit V st1 -> In (f, k) V -> fd_name (f_d f) = None ->
  reserved_clean FO fs st -> reserved_clean FO fs st1 ->
  field_bytes FO g fs st f k = Ok b -> field_bytes FO (G FO fs st1) fs st1 f k = Ok b.
Proof.
  intros HL HI HV Hn HC HC1 H. assert (Hin := proj1 (proj2 HI f k HV)).
  destruct (reserved_stored st f k HC Hin Hn) as (v & Hv).
  destruct (reserved_stored st1 f k HC1 Hin Hn) as (v1 & Hv1).
  rewrite (field_bytes_val FO _ _ _ _ _ _ Hv) in H. rewrite (field_bytes_val FO _ _ _ _ _ _ Hv1).
  apply bind_ok_elim in H as (sz & Hsz & H).
  assert (Hag := G_agree FO laws rows st lit HL V st1 HI).
  destruct (proj1 HI f k HV) as (_ & Hown & _). destruct (own_split _ _ Hown) as (_ & Rs & _).
  rewrite (fsize_agree FO g (G FO fs st1) fs f k sz); auto; [|eapply refs_in_agree; eauto].
  cbn [bind]. unfold get_base in *. rewrite Hn in *. exact H.
Qed.

(** Literal mode: the stored text is written as it is. *)
Lemma bytes_same_lit V st1 :
  literals_ok FO fs st -> reserved_clean FO fs st -> reserved_clean FO fs st1 ->
  Inv FO rows st true V st1 -> bytes_same FO rows st V st1.
Proof.
  intros HL HC HC1 HI f k b HV Hc H.
  destruct (fd_name (f_d f)) eqn:N; [|eapply reserved_bytes_same; eauto].
  assert (Hag := G_agree FO laws rows st true HL V st1 HI).
  destruct (proj1 HI f k HV) as (_ & Hown & _). destruct (own_split _ _ Hown) as (_ & Rs & _).
  destruct (proj2 HI f k HV) as (Hin & Hok & c & Hc' & Hs).
  fold fs in Hc, H, Hc', Hs |- *. rewrite Hc in Hc'. injection Hc' as <-.
  destruct (Hs eq_refl) as (b' & sv & HB & HP & Hval & _); [congruence|].
  rewrite H in HB. injection HB as <-. injection HP as <-.
  destruct (field_bytes_fsize _ _ _ _ _ _ _ H) as (sz & Hsz).
  assert (HLn := field_bytes_len _ _ _ _ _ _ _ _ Hsz H).
  unfold field_bytes. rewrite (fsize_agree FO g (G FO fs st1) fs f k sz); auto;
    [|eapply refs_in_agree; eauto].
  cbn [bind]. unfold stored. rewrite Hval. rewrite ljust_full by lia.
  unfold has_len. now rewrite HLn, Z.eqb_refl.
Qed.

Lemma fill_rstrip_blank (d : fdesc) t : fd_optchar d = 32%N -> fill_only d t = true ->
  rstrip_by ws_str t = t -> t = [].
Proof.
  intros Ho Hf Hr. rewrite <- Hr. apply rstrip_nil. unfold fill_only in Hf. rewrite Ho in Hf.
  eapply forallb_impl; [|exact Hf]. intros c Hc. cbn beta in Hc. assert (c = 32%N) as -> by lia. reflexivity.
Qed.

Lemma value_bytes_again (d : fdesc) sz w v' b :
  (fd_ty d = TFloat -> stable_at FO d sz) -> typed FO d w -> value_bytes FO d w sz = Ok b ->
  (forall t, fd_ty d = TStr -> fd_optional d = true -> w = VStr t -> fill_only d t = true ->
     fd_optchar d = 32%N) ->
  reads_back FO d sz w v' -> value_bytes FO d v' sz = Ok b.
Proof.
  intros HS HT HB Hfill HR. unfold reads_back in HR.
  destruct (fd_ty d) eqn:T; [|now subst v'| |now subst v'|now subst v'].
  - destruct w as [| | |t| |]; try (now subst v').
    destruct (fd_optional d && fill_only d t) eqn:E; [|now subst v'].
    apply andb_true_iff in E as [Eo Ef]. subst v'.
    assert (Ho := Hfill t eq_refl Eo eq_refl Ef).
    destruct HT as [[? _]|HT]; [discriminate|]. rewrite T in HT.
    assert (t = []) by (eapply fill_rstrip_blank; eauto). subst t.
    unfold value_bytes in *. rewrite T, Eo in *. rewrite Ho.
    unfold format_val in HB. rewrite T in HB. destruct (fd_frmt d); [|discriminate|discriminate].
    cbn [bind conv_str] in HB. unfold ljust, spaces in HB. cbn [app List.length] in HB.
    rewrite Nat.sub_0_r in HB. exact HB.
  - destruct w as [| | | | |x]; try (now subst v').
    destruct HR as (t & y & Hf & Hp & ->). 
    assert (Hst : fl_fmt FO (float_spec d sz) y = Some t).
    { apply (HS eq_refl x); auto. unfold value_bytes in HB. rewrite T in HB.
      assert (HB' : (do t <- format_val FO d (VFloat x) sz;
                     if has_len t sz then encode_latin1 t else Err ERuntime) = Ok b)
        by (destruct (fd_optional d); exact HB).
      unfold format_val in HB'. rewrite T in HB'. unfold float_spec in Hf.
      destruct (fd_frmt d); [|discriminate|]; rewrite Hf in HB'; cbn [bind] in HB';
        (destruct (has_len _ sz) eqn:HH; [|discriminate]); unfold has_len in HH;
        rewrite length_ljust in HH; lia. }
    unfold value_bytes in *. rewrite T in *.
    assert (E : format_val FO d (VFloat y) sz = format_val FO d (VFloat x) sz).
    { unfold format_val. rewrite T. unfold float_spec in *.
      destruct (fd_frmt d); [|reflexivity|]; now rewrite Hf, Hst. }
    destruct (fd_optional d); now rewrite E.
Qed.

Lemma bytes_same_plain V st1 :
  FloatStable FO fs -> no_literals FO fs st -> no_fill_text FO fs st ->
  reserved_clean FO fs st1 ->
  Inv FO rows st false V st1 -> bytes_same FO rows st V st1.
Proof.
  intros HS HL HF HC1 HI f k b HV Hc H.
  assert (HC : reserved_clean FO fs st) by (intros y p t Hy _; now apply HL).
  assert (HLo := no_literals_ok HL).
  destruct (fd_name (f_d f)) eqn:N; [|eapply reserved_bytes_same; eauto].
  assert (Hag := G_agree FO laws rows st false HLo V st1 HI).
  destruct (proj1 HI f k HV) as (Hlen & Hown & Hsh). destruct (own_split _ _ Hown) as (Rc & Rs & Rv).
  destruct (proj2 HI f k HV) as (Hin & (Ho & Hob) & c & Hc' & Hs).
  fold fs in Hc, H, Hc', Hs, Hin |- *. rewrite Hc in Hc'. injection Hc' as <-.
  destruct (Hs eq_refl) as (b' & sv & HB & HP & Hval & _); [congruence|].
  rewrite H in HB. injection HB as <-.
  assert (Hn : fd_name (f_d f) <> None) by congruence.
  destruct (field_bytes_parse FO laws fs st f k b false HLo Hin Ho Hob Hn Hc H) as (sv' & HP' & Hg).
  rewrite HP in HP'. injection HP' as <-.
  destruct (stored_no_lit f k HL Hin) as (v0 & Hv0).
  assert (Hsv : exists w1, sv = SVal w1).
  { unfold parse_field in HP. destruct (fd_optional (f_d f) && is_blank (f_d f) b);
      [injection HP as <-; eauto|]. destruct (fd_ty (f_d f)); try (injection HP as <-; eauto);
      (destruct (rstrip_by ws_byte b); [discriminate|]);
      [destruct (conv_int _ _)|destruct (conv_float _ _)]; try discriminate; injection HP as <-; eauto. }
  destruct Hsv as (w1 & ->).
  rewrite (field_bytes_val FO _ _ _ _ _ _ Hv0) in H.
  assert (Hst1 : stored FO st1 f k = SVal w1) by (unfold stored; now rewrite Hval).
  rewrite (field_bytes_val FO _ _ _ _ _ _ Hst1).
  apply bind_ok_elim in H as (sz & Hsz & H). apply bind_ok_elim in H as (w & Hw & H).
  rewrite (fsize_agree FO g (G FO fs st1) fs f k sz); auto; [|eapply refs_in_agree; eauto].
  cbn [bind].
  assert (HT := get_base_typed FO _ _ _ _ _ _ Hn Hc Hw).
  assert (Hci : exists u, check_index FO g fs f k = Ok u).
  { unfold get_base in Hw. rewrite N in Hw. apply bind_ok_elim in Hw as (u & Hu & _). eauto. }
  destruct Hci as (u & Hu).
  assert (Hcond1 : check_condition FO (G FO fs st1) fs f k = Ok true)
    by (eapply check_condition_agree; [|exact Hc]; eapply refs_in_agree; eauto).
  assert (Hci1 : check_index FO (G FO fs st1) fs f k = Ok u)
    by (eapply check_index_agree; [|exact Hu]; eapply refs_in_agree_rl; eauto).
  destruct (fd_value (f_d f)) as [e|] eqn:FV.
  - assert (Hw1 : get_base FO (G FO fs st1) fs st1 f k = Ok w).
    { unfold get_base in *. rewrite N in *. rewrite Hci1. rewrite Hu in Hw. cbn [bind] in *.
      rewrite Hcond1. rewrite Hc in Hw. cbn [bind negb] in *. rewrite FV in *.
      destruct (eval FO g fs k e) as [a|] eqn:EV; cbn [bind] in Hw; [|discriminate].
      rewrite (eval_agree FO g (G FO fs st1) fs k e a); auto. eapply refs_in_agree; eauto. }
    rewrite Hw1. cbn [bind]. exact H.
  - destruct (Hg w eq_refl Hw) as (v' & sz' & Hsz' & HCv & HR). rewrite Hsz in Hsz'.
    injection Hsz' as <-. rewrite Hv0 in HR. cbn [reads_back_stored] in HR.
    assert (Hw1 : get_base FO (G FO fs st1) fs st1 f k = Ok v').
    { unfold get_base. rewrite N, Hci1. cbn [bind]. rewrite Hcond1. cbn [bind negb].
      now rewrite FV, Hst1, HCv. }
    rewrite Hw1. cbn [bind].
    assert (Hstab : fd_ty (f_d f) = TFloat -> stable_at FO (f_d f) sz).
    { intro HTF. apply HS; auto. intros n Hn'. unfold fsize_of in Hsz. rewrite Hn' in Hsz.
      cbn [bind] in Hsz. congruence. }
    eapply value_bytes_again; eauto.
    intros t T1 T2 -> T3. eapply HF; eauto.
Qed.

Theorem rewrite_identical s0 b rest st1 rest' :
  wf_rows rows = true -> FloatStable FO fs -> no_literals FO fs st -> no_fill_text FO fs st ->
  reserved_clean FO fs s0 ->
  write FO fs st = Ok b -> read FO fs false s0 (b ++ rest) = Ok (st1, rest') ->
  write FO fs st1 = Ok b.
Proof.
  intros Hwf HS HL HF HC0 HW HR. unfold write in *. apply bind_ok_elim in HW as (cs & HW & E).
  injection E as <-.
  destruct (read_write_rt FO laws rows st false (no_literals_ok HL) s0 cs rest Hwf HW)
    as (st1' & V & R & I1 & K & W).
  fold fs in R, HR, W. rewrite HR in R. injection R as <- <-.
  assert (HC1 : reserved_clean FO fs st1) by (eapply reserved_clean_read; eauto).
  assert (E1 := W V st1 (incl_refl V) I1 (bytes_same_plain V st1 HS HL HF HC1 I1)).
  cbn beta in E1. fold fs in E1. rewrite E1. reflexivity.
Qed.

Theorem rewrite_identical_lit s0 b rest st1 rest' :
  wf_rows rows = true -> literals_ok FO fs st ->
  reserved_clean FO fs st -> reserved_clean FO fs s0 ->
  write FO fs st = Ok b -> read FO fs true s0 (b ++ rest) = Ok (st1, rest') ->
  write FO fs st1 = Ok b.
Proof.
  intros Hwf HL HCs HC0 HW HR. unfold write in *. apply bind_ok_elim in HW as (cs & HW & E).
  injection E as <-.
  destruct (read_write_rt FO laws rows st true HL s0 cs rest Hwf HW) as (st1' & V & R & I1 & K & W).
  fold fs in R, HR, W. rewrite HR in R. injection R as <- <-.
  assert (HC1 : reserved_clean FO fs st1) by (eapply reserved_clean_read; eauto).
  assert (E1 := W V st1 (incl_refl V) I1 (bytes_same_lit V st1 HL HCs HC1 I1)).
  cbn beta in E1. fold fs in E1. rewrite E1. reflexivity.
Qed.

End Again.
