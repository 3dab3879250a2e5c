(** Property C53: printing a DES of fields.  [str(des)] writes the fields and reads them back into
    the same object before listing them (nitf_des.py:78-109). *)
From Verif Require Import Base BaseLemmas Engine Wf EngineLemmas Codec RoundTrip Rewrite Literal
  Positions Keys Deps Assign Update Spec Reach Ext Decimal DecimalLemmas DecimalFit Ex Tre TrePlace DescsDes File Listing P_RoundTrip DesPrint.
From Coq Require Import ZifyBool ZifyNat ZifyN.
Open Scope list_scope.
Ltac Zify.zify_post_hook ::= idtac.

(** ** Reading the same bytes again *)
Section Again.
Variable FO : FloatOps.
Variable rows : list row.
Let fs := mk_fs rows.
Notation st := (state FO).

Lemma again_field (s : st) f k b rest t : In f (fs_fields fs) -> eqst FO rows t s -> read_block FO rows false s (f, k) b ->
  exists t', read_field FO fs false f k (t, b ++ rest) = Ok (t', rest) /\ eqst FO rows t' s.
Proof.
  intros Hf He [HB HS]. cbn [fst snd] in *. unfold read_field.
  rewrite (check_condition_ext FO (G FO fs t) (G FO fs s)) by now apply eq_refs.
  destruct HB as [[Hc ->]|[Hc Hz]].
  - cbn [fst] in Hc. rewrite (proj1 (cond_is_check FO fs s f k false) Hc). cbn [bind negb app]. eauto.
  - rewrite (proj1 (cond_is_check FO fs s f k true) Hc). cbn [bind negb].
    rewrite (fsize_ext FO (G FO fs t) (G FO fs s)) by now apply eq_refs.
    rewrite (proj1 (size_is_fsize FO fs s f k _) Hz). cbn [bind].
    replace ((Z.of_nat (List.length b) <? 0)%Z || (Z.of_nat (List.length (b ++ rest)) <? Z.of_nat (List.length b))%Z) with false
      by (rewrite app_length; lia).
    rewrite Nat2Z.id. rewrite firstn_app, skipn_app, firstn_all, skipn_all, Nat.sub_diag, firstn_O, skipn_O, app_nil_r. cbn [app].
    destruct (fd_name (f_d f)) eqn:N; [|eauto]. destruct (HS Hc) as [HP _]; [congruence|]. rewrite HP. cbn [bind].
    eexists. split; [reflexivity|]. split; [exact (proj1 He)|]. intros y p Hy. unfold stored. cbn [st_val set_val set_raw]. unfold upd.
    destruct (Nat.eqb (f_id f) (f_id y) && keyeqb k p) eqn:E; [|exact (proj2 He y p Hy)].
    apply andb_prop in E as [E1 E2]. apply Nat.eqb_eq in E1. apply (mk_fs_id_inj rows) in E1; auto. subst y.
    apply keyeqb_spec in E2. subst p. reflexivity.
Qed.

Lemma again_item (s : st) it : forall lead ps bs rest t, incl (item_fields it) (fs_fields fs) -> eqst FO rows t s ->
  positions_item FO fs s lead it = Ok ps -> Forall2 (read_block FO rows false s) ps bs ->
  exists t', read_item FO fs false lead it (t, List.concat bs ++ rest) = Ok (t', rest) /\ eqst FO rows t' s.
Proof.
  induction it as [f|sh its IH] using item_ind'; intros lead ps bs rest t HI He HP HB.
  - injection HP as <-. inversion HB as [|? b ? bs' HB1 HB2]; subst. inversion HB2; subst. cbn [List.concat]. rewrite app_nil_r.
    apply again_field; auto. apply HI. now left.
  - rewrite positions_item_loop in HP. rewrite read_item_loop. cbn [fst].
    rewrite (eval_shape_ext FO (G FO fs t) (G FO fs s)) by now apply eq_refs.
    apply bind_ok_elim in HP as (n & Hn & HP). rewrite Hn. cbn [bind]. clear Hn.
    assert (HL : forall i ps bs rest t, eqst FO rows t s -> positions_items FO fs s (lead ++ [i]) its = Ok ps ->
      Forall2 (read_block FO rows false s) ps bs ->
      exists t', read_items FO fs false (lead ++ [i]) its (t, List.concat bs ++ rest) = Ok (t', rest) /\ eqst FO rows t' s).
    { clear HP HB He t rest bs ps n. intro i. cbn [item_fields] in HI. unfold positions_items, read_items.
      induction its as [|it its IHi]; intros ps bs rest t He HP HB.
      - injection HP as <-. inversion HB; subst. cbn. eauto.
      - cbn [concat_map_res] in HP. apply bind_ok_elim in HP as (p1 & H1 & HP). apply bind_ok_elim in HP as (p2 & H2 & HP).
        injection HP as <-. apply Forall2_app_inv_l in HB as (b1 & b2 & HB1 & HB2 & ->).
        inversion IH as [|? ? IH1 IH2]; subst. cbn [flat_map] in HI. apply incl_app_inv in HI as [HI1 HI2].
        rewrite concat_app, <- app_assoc. cbn [fold_res].
        destruct (IH1 (lead ++ [i]) p1 b1 (List.concat b2 ++ rest) t HI1 He H1 HB1) as (t1 & R1 & E1). rewrite R1. cbn [bind].
        apply (IHi IH2 HI2 p2 b2 rest t1 E1 H2 HB2). }
    revert ps bs rest t He HP HB. induction (zrange n) as [|i l IHl]; intros ps bs rest t He HP HB.
    + injection HP as <-. inversion HB; subst. cbn. eauto.
    + cbn [concat_map_res] in HP. apply bind_ok_elim in HP as (p1 & H1 & HP). apply bind_ok_elim in HP as (p2 & H2 & HP).
      injection HP as <-. apply Forall2_app_inv_l in HB as (b1 & b2 & HB1 & HB2 & ->).
      rewrite concat_app, <- app_assoc. cbn [fold_res].
      destruct (HL i p1 b1 (List.concat b2 ++ rest) t He H1 HB1) as (t1 & R1 & E1). rewrite R1. cbn [bind].
      apply (IHl p2 b2 rest t1 E1 H2 HB2).
Qed.

(** A structure that was read from some bytes does not change when it reads them again. *)
Lemma read_again (s0 s : st) inp rest rest' : wf_rows rows = true -> read FO fs false s0 inp = Ok (s, rest) ->
  exists b, inp = b ++ rest /\ exists t, read FO fs false s (b ++ rest') = Ok (t, rest') /\ eqst FO rows t s.
Proof.
  intros Hwf HR. destruct (read_blocks FO rows false s0 inp s rest Hwf HR) as (ps & bs & HP & HB & ->). exists (List.concat bs).
  split; [reflexivity|]. unfold positions, read, positions_items, read_items in *. fold fs in HP.
  assert (HI : incl (flat_map item_fields (fs_items fs)) (fs_fields fs)) by apply incl_refl.
  clear HR. cut (forall t, eqst FO rows t s -> exists t', fold_res (read_item FO fs false []) (fs_items fs) (t, List.concat bs ++ rest') = Ok (t', rest')
    /\ eqst FO rows t' s). { intro C. exact (C s (eqst_refl FO rows s)). }
  revert HI ps bs HP HB. induction (fs_items fs) as [|it its IH]; intros HI ps bs HP HB t He.
  - injection HP as <-. inversion HB; subst. cbn. eauto.
  - cbn [concat_map_res] in HP. apply bind_ok_elim in HP as (p1 & H1 & HP). apply bind_ok_elim in HP as (p2 & H2 & HP).
    injection HP as <-. apply Forall2_app_inv_l in HB as (b1 & b2 & HB1 & HB2 & ->).
    cbn [flat_map] in HI. apply incl_app_inv in HI as [HI1 HI2].
    rewrite concat_app, <- app_assoc. cbn [fold_res].
    destruct (again_item s it [] p1 b1 (List.concat b2 ++ rest') t HI1 He H1 HB1) as (t1 & R1 & E1). rewrite R1. cbn [bind].
    apply (IH HI2 p2 b2 H2 HB2 t1 E1).
Qed.

(** A structure that was read writes as many bytes as it read, if it can be written. *)
Lemma read_write_length (s0 s : st) inp rest b : wf_rows rows = true -> read FO fs false s0 inp = Ok (s, rest) ->
  write FO fs s = Ok b -> (List.length b + List.length rest = List.length inp)%nat.
Proof.
  intros Hwf HR HW. destruct (read_blocks FO rows false s0 inp s rest Hwf HR) as (ps & bs & HP & HB & ->).
  apply write_blocks in HW as (ps' & bs' & HP' & HB' & ->). fold fs in HP. rewrite HP in HP'. injection HP' as <-.
  rewrite app_length. f_equal. clear HP HR. revert bs' HB'. induction HB as [|p b ps bs [H1 _] _ IH]; intros bs' HB'.
  - inversion HB'; subst. reflexivity.
  - inversion HB' as [|? b' ? bs2 H2 HB2]; subst. cbn [List.concat]. rewrite !app_length, (IH _ HB2). f_equal.
    destruct H1 as [[A ->]|[A B]], H2 as [[C ->]|(C & D & _)]; auto.
    + apply (cond_is_check FO fs) in A. congruence.
    + apply (cond_is_check FO fs) in A. congruence.
    + apply (size_is_fsize FO fs) in B. rewrite B in D. injection D as D. lia.
Qed.

(** Listing depends only on the values held. *)
Section Print.
Variable ext : field -> list N -> res (list N).
Variable source : expr -> list N.
Lemma eq_keys (s t : st) shs : eqst FO rows s t -> forall lead, keys_from FO fs s lead shs = keys_from FO fs t lead shs.
Proof.
  intro He. induction shs as [|sh shs IH]; intro lead; auto. cbn [keys_from].
  rewrite (eval_shape_ext FO (G FO fs s) (G FO fs t)) by now apply eq_refs.
  destruct (eval_shape FO (G FO fs t) fs lead sh); auto. cbn [bind]. apply concat_map_res_ext. intros i _. apply IH.
Qed.
Lemma eq_print_item (s t : st) it : eqst FO rows s t -> incl (item_fields it) (fs_fields fs) -> forall w path,
  print_item FO ext source fs s w path it = print_item FO ext source fs t w path it.
Proof.
  intro He. induction it as [f|sh its IH] using item_ind'; intros HI w path; cbn [print_item].
  - destruct (fd_name (f_d f)); auto. rewrite (eq_keys s t path He). destruct (keys_from FO fs t [] path) as [ks|]; auto. cbn [bind].
    induction ks as [|k ks IHk]; auto. cbn [Listing.map_res]. unfold get_print at 1. rewrite (eq_fget FO rows s t He) by (apply HI; now left).
    fold (get_print FO ext fs t f k). now rewrite IHk.
  - rewrite (eq_keys s t _ He). destruct (keys_from FO fs t [] (path ++ [sh])) as [ks|]; auto. cbn [bind].
    set (w' := width its ks). clearbody w'. cbn [item_fields] in HI.
    match goal with |- bind ?a _ = bind ?b _ => assert (E : a = b); [|now rewrite E] end.
    induction its as [|it its IHi]; auto. inversion IH as [|? ? IH1 IH2]; subst. cbn [flat_map] in HI. apply incl_app_inv in HI as [HI1 HI2].
    rewrite (IH1 HI1). now rewrite (IHi IH2 HI2).
Qed.
Lemma eq_print (s t : st) : eqst FO rows s t -> print FO ext source fs s = print FO ext source fs t.
Proof.
  intro He. unfold print, print_lines. f_equal. apply concat_map_res_ext. intros it Hit. apply eq_print_item; auto.
  intros f Hf. unfold fs_fields. apply in_flat_map. eauto.
Qed.
End Print.
End Again.

(** ** The object *)
Section P.
Variable FO : FloatOps.
Notation fdes := (fdes FO).
Notation tfs d := (mk_fs (dc_rows (fd_cls d))).

(** What is shown after printing: the same, or what survives being written (Spec.v). *)
Definition shown_after (rows : list row) (s s' : state FO) : Prop :=
  (forall f k, In f (fs_fields (mk_fs rows)) -> (valid_index FO (mk_fs rows) s' f k <-> valid_index FO (mk_fs rows) s f k))
  /\ forall nm f k v, lookup (mk_fs rows) nm = Some f -> valid_index FO (mk_fs rows) s f k -> get FO (mk_fs rows) s nm k = Ok v ->
       exists v' sz, get FO (mk_fs rows) s' nm k = Ok v' /\ (v' = v \/ size_is FO (mk_fs rows) s f k sz /\ survives FO (f_d f) sz v v').

Lemma update_eq (d : fdes) b : fd_write FO d = Ok b ->
  fd_update FO d = do (_, d', _) <- fd_read FO d b 0; Ok d'.
Proof. intro H. unfold fd_update. now rewrite H. Qed.

(** [update_raw_field]: what it does, by the number of bytes the fields take now compared with the
    size of the segment the object was read from. *)
Theorem C53_update (d : fdes) b :
  FloatLaws FO -> wf_rows (dc_rows (fd_cls d)) = true -> literals_ok FO (tfs d) (fd_st d) -> fd_id d = dc_tag (fd_cls d) ->
  write FO (tfs d) (fd_st d) = Ok b ->
  exists s, shown_after (dc_rows (fd_cls d)) (fd_st d) s
    /\ let now left copy := {| fd_cls := fd_cls d; fd_id := fd_id d; fd_seg := fd_seg d; fd_st := s; fd_left := Some left; fd_copy := copy |} in
       let size := Z.of_nat (List.length b) in
       (fd_seg d = None \/ fd_seg d = Some size -> fd_update FO d = Ok (now 0%Z (fd_copy d)))
       /\ (forall n, fd_seg d = Some n -> n <> size -> dc_after (fd_cls d) = false -> fd_update FO d = Err ERuntime)
       /\ (forall n, fd_seg d = Some n -> n <> size -> dc_after (fd_cls d) = true -> dc_copy (fd_cls d) = false -> (0 <= n)%Z ->
             fd_update FO d = Ok (now (n - size)%Z (fd_copy d)))
       /\ (forall n, fd_seg d = Some n -> (n < size)%Z -> dc_after (fd_cls d) = true -> dc_copy (fd_cls d) = true ->
             fd_update FO d = Ok (now (n - size)%Z (Some (match fd_copy d with Some x => x | None => [] end))))
       /\ (forall n, fd_seg d = Some n -> (size < n)%Z -> dc_after (fd_cls d) = true -> dc_copy (fd_cls d) = true ->
             fd_update FO d = Ok (now (n - size)%Z (Some (firstn (Z.to_nat (n - size)) (match fd_copy d with Some x => x | None => [] end))))).
Proof.
  intros laws Hwf HL Hid HW. set (x := match fd_copy d with Some x => x | None => [] end).
  destruct (C01_round_trip FO (dc_rows (fd_cls d)) (fd_st d) (fd_st d) false b x laws Hwf HL HW) as (s & HR & HV & HG).
  exists s. split; [split; [exact HV|exact HG]|]. cbn zeta.
  assert (U : fd_update FO d = do (_, d', _) <- fd_read FO d (b ++ x) 0; Ok d') by (apply update_eq; unfold fd_write; rewrite HW; reflexivity).
  rewrite U. clear U. unfold fd_read. rewrite Hid, (proj2 (list_eqb_spec _ _) eq_refl). cbn [negb skipn]. rewrite HR. cbn [bind].
  replace (List.length (b ++ x) - List.length x)%nat with (List.length b) by (rewrite app_length; lia).
  unfold fd_put. rewrite Hid. cbn [Nat.add].
  split; [intros [->|E]|split; [|split; [|split]]].
  - reflexivity.
  - rewrite E. replace (Z.of_nat (List.length b) - Z.of_nat (List.length b))%Z with 0%Z by lia. reflexivity.
  - intros n E Hn Ha. rewrite E, Ha. replace (n - Z.of_nat (List.length b) =? 0)%Z with false by lia. reflexivity.
  - intros n E Hn Ha Hc H0. rewrite E, Ha, Hc. replace (n - Z.of_nat (List.length b) =? 0)%Z with false by lia. cbn [negb].
    unfold seek_by. replace (Z.of_nat (List.length b) + (n - Z.of_nat (List.length b)) <? 0)%Z with false by lia. reflexivity.
  - intros n E Hn Ha Hc. rewrite E, Ha, Hc. replace (n - Z.of_nat (List.length b) =? 0)%Z with false by lia. cbn [negb].
    unfold take_at, fread. replace (n - Z.of_nat (List.length b) <? 0)%Z with true by lia. cbn [fst bind].
    rewrite skipn_app, skipn_all, Nat.sub_diag. reflexivity.
  - intros n E Hn Ha Hc. rewrite E, Ha, Hc. replace (n - Z.of_nat (List.length b) =? 0)%Z with false by lia. cbn [negb].
    unfold take_at, fread. replace (n - Z.of_nat (List.length b) <? 0)%Z with false by lia. cbn [fst bind].
    rewrite skipn_app, skipn_all, Nat.sub_diag. reflexivity.
Qed.

(** An object that was read and not changed: printing raises only if writing does; it keeps the
    data to copy, and the object still takes the bytes of its segment. *)
Theorem C53_after_read (d0 d : fdes) file pos p n b :
  FloatLaws FO -> wf_rows (dc_rows (fd_cls d0)) = true -> no_literals FO (tfs d0) (fd_st d0) ->
  fd_seg d0 = Some n -> (0 <= n)%Z -> fd_copy d0 = None ->
  fd_read FO d0 file pos = Ok (true, d, p) -> fd_write FO d = Ok b ->
  (exists d', fd_update FO d = Ok d' /\ fd_left d' = fd_left d /\ fd_copy d' = fd_copy d
     /\ shown_after (dc_rows (fd_cls d)) (fd_st d) (fd_st d'))
  /\ (fd_left d = Some 0%Z \/ dc_copy (fd_cls d) = true /\ (pos + Z.to_nat n <= List.length file)%nat
        /\ (exists m, fd_left d = Some m /\ (0 <= m)%Z) -> Z.of_nat (List.length b) = n).
Proof.
  intros laws Hwf HL Hs H0 Hc HR HW. unfold fd_read in HR. rewrite Hs, Hc in HR.
  destruct (list_eqb (fd_id d0) (dc_tag (fd_cls d0))) eqn:T; cbn [negb] in HR; [|discriminate HR]. apply list_eqb_spec in T.
  apply bind_ok_elim in HR as ([s rest] & HR1 & HR). set (inp := skipn pos file) in *.
  assert (HLs := no_literals_read FO _ (fd_st d0) inp s rest HL HR1).
  set (used := (List.length inp - List.length rest)%nat) in *. unfold fd_put in HR. rewrite Hs in HR.
  assert (HD : fd_cls d = fd_cls d0 /\ fd_id d = fd_id d0 /\ fd_seg d = Some n /\ fd_st d = s /\ fd_left d = Some (n - Z.of_nat used)%Z
    /\ ((n - Z.of_nat used)%Z = 0%Z /\ fd_copy d = None
        \/ (n - Z.of_nat used)%Z <> 0%Z /\ dc_after (fd_cls d0) = true /\ dc_copy (fd_cls d0) = true
             /\ fd_copy d = Some (fst (take_at (n - Z.of_nat used) file (pos + used)))
        \/ (n - Z.of_nat used)%Z <> 0%Z /\ dc_after (fd_cls d0) = true /\ dc_copy (fd_cls d0) = false /\ fd_copy d = None)).
  { destruct ((n - Z.of_nat used =? 0)%Z) eqn:E0.
    - injection HR as <- _. cbn. repeat split; auto. left. split; auto. lia.
    - destruct (dc_after (fd_cls d0)); cbn [negb] in HR; [|discriminate HR]. destruct (dc_copy (fd_cls d0)).
      + destruct (take_at (n - Z.of_nat used) file (pos + used)) as [b' p'] eqn:Et. injection HR as <- _. cbn.
        repeat split; auto. right. left. repeat split; auto. lia.
      + apply bind_ok_elim in HR as (p' & _ & HR). injection HR as <- _. cbn. repeat split; auto. right. right. repeat split; auto. lia. }
  destruct HD as (D1 & D2 & D3 & D4 & D5 & D6). clear HR.
  unfold fd_write in HW. rewrite D1, D4 in HW. apply bind_ok_elim in HW as (w & HW & HB). injection HB as <-.
  assert (HLen := read_write_length FO _ (fd_st d0) s inp rest w Hwf HR1 HW).
  assert (Hu : List.length w = used) by (unfold used; lia).
  assert (HW' : write FO (tfs d) (fd_st d) = Ok w) by now rewrite D1, D4.
  destruct (C53_update d w laws) as (s' & HS & U1 & _ & U3 & U4 & U5).
  { now rewrite D1. } { rewrite D1, D4. now apply no_literals_ok. } { congruence. } { exact HW'. }
  rewrite Hu in *. split.
  - destruct D6 as [(E & Ec)|[(E & Ea & Ec & Ed)|(E & Ea & Ec & Ed)]].
    + eexists. split; [apply U1; right; rewrite D3; f_equal; lia|]. cbn [fd_left fd_copy fd_st]. rewrite D5, E. auto.
    + rewrite <- D1 in Ea, Ec. destruct (Z_lt_le_dec n (Z.of_nat used)) as [Lt|Le].
      * eexists. split; [exact (U4 n D3 Lt Ea Ec)|]. cbn [fd_left fd_copy fd_st]. rewrite D5, Ed. auto.
      * eexists. split; [apply (U5 n D3); auto; lia|]. cbn [fd_left fd_copy fd_st]. rewrite D5, Ed. split; [reflexivity|]. split; [|exact HS].
        unfold take_at, fread. replace (n - Z.of_nat used <? 0)%Z with false by lia. cbn [fst]. now rewrite firstn_firstn, Nat.min_id.
    + rewrite <- D1 in Ea, Ec. eexists. split; [apply (U3 n D3); auto; lia|]. cbn [fd_left fd_copy fd_st]. rewrite D5. auto.
  - rewrite app_length. intros [E|(Ec & Hlen & m & Em & Hm)].
    + rewrite D5 in E. injection E as E. destruct D6 as [(_ & Ed)|[(E' & _)|(E' & _)]]; [|contradiction|contradiction]. rewrite Ed. cbn. lia.
    + rewrite D5 in Em. injection Em as Em. rewrite D1 in Ec. destruct D6 as [(E & Ed)|[(E & Ea & _ & Ed)|(E & Ea & Ec' & Ed)]]; [| |congruence].
      * rewrite Ed. cbn. lia.
      * rewrite Ed. unfold take_at, fread. replace (n - Z.of_nat used <? 0)%Z with false by lia. cbn [fst].
        rewrite firstn_length, skipn_length. assert (List.length inp = List.length file - pos)%nat by (unfold inp; now rewrite skipn_length). lia.
Qed.

(** Printing a second time prints the same text and changes nothing shown. *)
Theorem C53_twice ext source ush (d d1 : fdes) txt :
  FloatLaws FO -> FloatStable FO (tfs d) -> wf_rows (dc_rows (fd_cls d)) = true ->
  no_literals FO (tfs d) (fd_st d) -> no_fill_text FO (tfs d) (fd_st d) -> reachable FO (dc_rows (fd_cls d)) (fd_st d) ->
  (forall n, fd_seg d = Some n -> (0 <= n)%Z) ->
  fd_print FO ext source ush d = Ok (d1, txt) ->
  write FO (tfs d) (fd_st d1) = write FO (tfs d) (fd_st d)
  /\ exists d2, fd_print FO ext source ush d1 = Ok (d2, txt)
     /\ fd_left d2 = fd_left d1 /\ fd_copy d2 = fd_copy d1 /\ fd_write FO d2 = fd_write FO d1
     /\ forall nm k, get FO (tfs d) (fd_st d2) nm k = get FO (tfs d) (fd_st d1) nm k.
Proof.
  intros laws HS Hwf HL HF Hr Hn HP. unfold fd_print in HP. apply bind_ok_elim in HP as (d' & HU & HP).
  apply bind_ok_elim in HP as (u & Hu & HP). apply bind_ok_elim in HP as (t & Ht & HP). injection HP as <- <-.
  assert (HU' := HU). unfold fd_update in HU'. apply bind_ok_elim in HU' as (b0 & HW & HR). unfold fd_write in HW.
  apply bind_ok_elim in HW as (b & HW & E). injection E as <-. apply bind_ok_elim in HR as ([[g d''] q] & HR & E). injection E as ->.
  destruct (list_eqb (fd_id d) (dc_tag (fd_cls d))) eqn:T.
  2: { unfold fd_read in HR. rewrite T in HR. injection HR as _ <- _. split; [reflexivity|]. exists d. unfold fd_print. rewrite HU. cbn [bind].
       rewrite Hu. cbn [bind]. rewrite Ht. auto. }
  apply list_eqb_spec in T.
  set (x := match fd_copy d with Some x => x | None => [] end) in *.
  assert (K : exists s, read FO (tfs d) false (fd_st d) (b ++ x) = Ok (s, x) /\ fd_st d' = s /\ fd_cls d' = fd_cls d /\ fd_id d' = fd_id d /\ fd_seg d' = fd_seg d).
  { destruct (C01_round_trip FO (dc_rows (fd_cls d)) (fd_st d) (fd_st d) false b x laws Hwf (no_literals_ok FO _ _ HL) HW) as (s & R & _).
    exists s. split; [exact R|]. unfold fd_read in HR. rewrite T, (proj2 (list_eqb_spec _ _) eq_refl) in HR. cbn [negb skipn] in HR. rewrite R in HR. cbn [bind] in HR.
    unfold fd_put in HR. cbv zeta in HR.
    match type of HR with (if ?c then _ else _) = _ => destruct c end; [injection HR as _ <- _; cbn; auto|].
    destruct (dc_after (fd_cls d)); cbn [negb] in HR; [|discriminate HR]. destruct (dc_copy (fd_cls d)).
    - destruct (take_at _ _ _) in HR. injection HR as _ <- _. cbn. auto.
    - apply bind_ok_elim in HR as (p' & _ & HR). injection HR as _ <- _. cbn. auto. }
  destruct K as (s & R & K1 & K2 & K3 & K4).
  assert (W1 : write FO (tfs d) s = Ok b).
  { exact (C03_rewrite_identical FO (dc_rows (fd_cls d)) (fd_st d) (fd_st d) s b x x laws HS Hwf HL HF Hr HW R). }
  split; [now rewrite K1, W1, HW|].
  (* the second update *)
  destruct (C53_update d b laws Hwf (no_literals_ok FO _ _ HL) T HW) as (sa & _ & A1 & A2 & A3 & A4 & A5).
  assert (HLs : no_literals FO (tfs d) s) by (eapply no_literals_read; eauto).
  destruct (C53_update d' b laws) as (s2 & _ & B1 & _ & B3 & B4 & B5).
  { now rewrite K2. } { rewrite K2, K1. now apply no_literals_ok. } { congruence. } { now rewrite K2, K1. }
  (* the state after it *)
  assert (E2 : exists d2, fd_update FO d' = Ok d2 /\ fd_left d2 = fd_left d' /\ fd_copy d2 = fd_copy d' /\ fd_cls d2 = fd_cls d).
  { rewrite HU in A1, A2, A3, A4, A5. rewrite K4 in B1, B3, B4, B5. rewrite K2 in B1, B3, B4, B5. destruct (fd_seg d) as [n|] eqn:Sg.
    - specialize (Hn n eq_refl). destruct (Z.eq_dec n (Z.of_nat (List.length b))) as [E|E].
      + assert (C := A1 (or_intror (f_equal Some E))). injection C as C. eexists. split; [apply B1; right; now rewrite E|]. rewrite C. cbn. auto.
      + destruct (dc_after (fd_cls d)) eqn:Ea; [|discriminate (A2 n eq_refl E eq_refl)].
        destruct (dc_copy (fd_cls d)) eqn:Ec.
        * destruct (Z_lt_le_dec n (Z.of_nat (List.length b))) as [Lt|Le].
          -- assert (C := A4 n eq_refl Lt eq_refl eq_refl). injection C as C. eexists. split; [apply (B4 n); auto|]. rewrite C. cbn. auto.
          -- assert (Lt : (Z.of_nat (List.length b) < n)%Z) by lia. assert (C := A5 n eq_refl Lt eq_refl eq_refl). injection C as C.
             eexists. split; [apply (B5 n); auto|]. rewrite C. cbn [fd_left fd_copy fd_cls]. rewrite firstn_firstn, Nat.min_id. auto.
        * assert (C := A3 n eq_refl E eq_refl eq_refl Hn). injection C as C. eexists. split; [apply (B3 n); auto|]. rewrite C. cbn. auto.
    - assert (C := A1 (or_introl eq_refl)). injection C as C. eexists. split; [apply B1; now left|]. rewrite C. cbn. auto. }
  destruct E2 as (d2 & U2 & L2 & C2 & Cl2). exists d2.
  assert (EQ : eqst FO (dc_rows (fd_cls d)) (fd_st d2) s).
  { assert (U2' := U2). unfold fd_update, fd_write in U2'. rewrite K2, K1, W1 in U2'. cbn [bind] in U2'.
    set (x2 := match fd_copy d' with Some x => x | None => [] end) in *.
    destruct (read_again FO (dc_rows (fd_cls d)) (fd_st d) s (b ++ x) x x2 Hwf R) as (b' & Eb & t2 & R2 & E2). apply app_inv_tail in Eb. subst b'.
    apply bind_ok_elim in U2' as ([[g2 d2'] q2] & HR2 & E). injection E as ->.
    unfold fd_read in HR2. rewrite K3, K2, T, (proj2 (list_eqb_spec _ _) eq_refl) in HR2. cbn [negb skipn] in HR2. rewrite K1, R2 in HR2. cbn [bind] in HR2.
    unfold fd_put in HR2. cbv zeta in HR2. rewrite K4 in HR2.
    match type of HR2 with (if ?c then _ else _) = _ => destruct c end; [injection HR2 as _ <- _; exact E2|].
    destruct (dc_after (fd_cls d)); cbn [negb] in HR2; [|discriminate HR2]. destruct (dc_copy (fd_cls d)).
    - destruct (take_at _ _ _) in HR2. injection HR2 as _ <- _. exact E2.
    - apply bind_ok_elim in HR2 as (p' & _ & HR2). injection HR2 as _ <- _. exact E2. }
  split; [|split; [exact L2|split; [exact C2|split]]].
  - unfold fd_print. rewrite U2. cbn [bind]. rewrite Hu. cbn [bind]. rewrite Cl2, (eq_print FO _ ext source _ _ EQ), <- K1, <- K2, Ht. cbn [bind]. now rewrite L2.
  - unfold fd_write. rewrite Cl2, K2, C2, K1. now rewrite (eq_write FO _ _ _ EQ).
  - intros nm k. rewrite K1. now apply eq_get.
Qed.

(** The text: the user subheader if there is one, the fields as they are after [update_raw_field],
    and a last line exactly if the size of the segment is not the number of bytes the fields take,
    with the difference. *)
Theorem C53_text ext source ush (d d1 : fdes) b txt :
  FloatLaws FO -> wf_rows (dc_rows (fd_cls d)) = true -> literals_ok FO (tfs d) (fd_st d) -> fd_id d = dc_tag (fd_cls d) ->
  (forall n, fd_seg d = Some n -> (0 <= n)%Z) ->
  write FO (tfs d) (fd_st d) = Ok b -> fd_print FO ext source ush d = Ok (d1, txt) ->
  exists head t last, txt = head ++ t ++ [10%N] ++ last
    /\ print FO ext source (tfs d) (fd_st d1) = Ok t /\ shown_after (dc_rows (fd_cls d)) (fd_st d) (fd_st d1)
    /\ match ush with
       | None => head = []
       | Some (rows, s) => exists u, print FO ext source (mk_fs rows) s = Ok u /\ head = str "User-Defined Subheader: " ++ [10%N] ++ u ++ [10%N]
       end
    /\ match fd_seg d with
       | Some n => if (n =? Z.of_nat (List.length b))%Z then last = []
                   else last = str "Extra data of length " ++ str_of_Z (n - Z.of_nat (List.length b)) ++ [10%N]
       | None => last = []
       end.
Proof.
  intros laws Hwf HL Hid H0 HW HP. unfold fd_print in HP. apply bind_ok_elim in HP as (d' & HU & HP).
  apply bind_ok_elim in HP as (u & Hu & HP). apply bind_ok_elim in HP as (t & Ht & HP). injection HP as <- <-.
  destruct (C53_update d b laws Hwf HL Hid HW) as (s & Hs & C1 & C2 & C3 & C4 & C5).
  assert (K : fd_cls d' = fd_cls d /\ fd_st d' = s
     /\ fd_left d' = Some (match fd_seg d with Some n => (n - Z.of_nat (List.length b))%Z | None => 0%Z end)).
  { destruct (fd_seg d) as [n|] eqn:E; [|specialize (C1 (or_introl eq_refl)); rewrite C1 in HU; injection HU as <-; auto].
    destruct (Z.eq_dec n (Z.of_nat (List.length b))) as [En|En].
    { subst n. specialize (C1 (or_intror eq_refl)). rewrite C1 in HU. injection HU as <-. cbn [fd_cls fd_st fd_left]. now rewrite Z.sub_diag. }
    destruct (dc_after (fd_cls d)) eqn:A; [|rewrite (C2 n eq_refl En eq_refl) in HU; discriminate HU].
    destruct (dc_copy (fd_cls d)) eqn:B.
    - destruct (Z_lt_ge_dec n (Z.of_nat (List.length b))) as [L|L].
      + rewrite (C4 n eq_refl L eq_refl eq_refl) in HU. injection HU as <-. auto.
      + rewrite (C5 n eq_refl) in HU by (auto; lia). injection HU as <-. auto.
    - rewrite (C3 n eq_refl En eq_refl eq_refl (H0 n eq_refl)) in HU. injection HU as <-. auto. }
  destruct K as (K1 & K2 & K3). exists u, t, (left_text (fd_left d')). rewrite K1 in Ht. rewrite K2 in *.
  split; [reflexivity|]. split; [exact Ht|]. split; [exact Hs|]. split.
  - destruct ush as [[rows s0]|]; [|now injection Hu as <-]. apply bind_ok_elim in Hu as (x & Hx & Hu). injection Hu as <-. eauto.
  - rewrite K3. unfold left_text. destruct (fd_seg d) as [n|]; [|reflexivity].
    destruct (n =? Z.of_nat (List.length b))%Z eqn:E.
    + replace (n - Z.of_nat (List.length b) =? 0)%Z with true by lia. reflexivity.
    + replace (n - Z.of_nat (List.length b) =? 0)%Z with false by lia. reflexivity.
Qed.

(** The object agrees with what [NitfFile.read] keeps of it (File.v). *)
Theorem C53_file c k h sz file pos :
  k = KDes -> hget FO (sub_rows k) h "desid" = Ok (VStr (dc_tag c)) ->
  handle_h FO k h sz file (HFields c) pos =
  do (g, d, p) <- fd_read FO (fd_new FO c (dc_tag c) (Some sz)) file pos; Ok (Some (DFields FO c (fd_st d) (fd_copy d)), p).
Proof.
  intros -> Hd. cbn [handle_h for_kind negb]. rewrite Hd. cbn [bind py_eqb]. rewrite (proj2 (list_eqb_spec (dc_tag c) (dc_tag c)) eq_refl). cbn [bind negb].
  unfold fd_read. cbn [fd_id fd_cls fd_new fd_st fd_seg fd_copy]. rewrite (proj2 (list_eqb_spec (dc_tag c) (dc_tag c)) eq_refl). cbn [negb].
  unfold read_at. destruct (read FO (mk_fs (dc_rows c)) false (init_state FO) (skipn pos file)) as [[s rest]|e]; auto. cbn [bind].
  set (u := (List.length (skipn pos file) - List.length rest)%nat).
  replace (Z.of_nat (pos + u) - Z.of_nat pos)%Z with (Z.of_nat u) by lia.
  destruct (sz - Z.of_nat u =? 0)%Z; auto. destruct (dc_after c); auto. cbn [negb]. destruct (dc_copy c).
  - now destruct (take_at _ _ _).
  - now destruct (seek_by _ _).
Qed.
End P.
Print Assumptions C53_update.
Print Assumptions C53_after_read.
Print Assumptions C53_twice.
Print Assumptions C53_text.
Print Assumptions C53_file.

(** ** Cases *)
(** What an object shows: the values asked for, what is left, the data to copy, the bytes. *)
Definition look (names : list (string * list Z)) (r : res (fdes DecF)) : res (list seen * option Z * option (list N) * res (list N)) :=
  do d <- r;
  Ok (map (fun nk => see (get DecF (mk_fs (dc_rows (fd_cls d))) (fd_st d) (fst nk) (snd nk))) names, fd_left d, fd_copy d, fd_write DecF d).
Definition obj (r : res (bool * fdes DecF * nat)) : res (fdes DecF) := do (_, d, _) <- r; Ok d.
(** [des.name = v]. *)
Definition put (nm : string) (k : list Z) (v : pyval DecF) (d : fdes DecF) : fdes DecF :=
  {| fd_cls := fd_cls d; fd_id := fd_id d; fd_seg := fd_seg d;
     fd_st := fst (set DecF (mk_fs (dc_rows (fd_cls d))) (fd_st d) nm k (SVal v)); fd_left := fd_left d; fd_copy := fd_copy d |}.

(** The attitude DES shipped (pynitf/nitf_des_csattb.py:17-44). *)
Definition ex_att : dcls := {| dc_tag := str "CSATTB"; dc_rows := desc_DesCSATTB; dc_after := false; dc_copy := false |}.
Definition ex_att_bytes (dt : string) : list N := str "0000" ++ str dt ++ str "20200101" ++ str "012345.000000000" ++ str "00000" ++ str "000000000".
Definition ex_att_read (dt : string) : res (fdes DecF) :=
  obj (fd_read DecF (fd_new DecF ex_att (str "CSATTB") (Some 55%Z)) (str "xx" ++ ex_att_bytes dt ++ str "more") 2).

Example ex_c53_read : look [("dt_att"%string, []); ("num_att"%string, [])] (ex_att_read "001.500000000")
  = Ok ([SeeDec false 1500000000 (-9); SeeInt 0], Some 0%Z, None, Ok (ex_att_bytes "001.500000000")).
Proof. vm_compute. reflexivity. Qed.
Example ex_c53_update : look [("dt_att"%string, []); ("num_att"%string, [])] (do d <- ex_att_read "001.500000000"; fd_update DecF d)
  = Ok ([SeeDec false 1500000000 (-9); SeeInt 0], Some 0%Z, None, Ok (ex_att_bytes "001.500000000")).
Proof. vm_compute. reflexivity. Qed.

(** "Printing an object changes nothing it shows" is false of one that was read: the digits the
    format has no room for are lost. *)
Theorem C53_keeps_refuted : exists d,
  ex_att_read "0.12345678901" = Ok d
  /\ see (get DecF (mk_fs desc_DesCSATTB) (fd_st d) "dt_att" []) = SeeDec false 12345678901 (-11)
  /\ exists d', fd_update DecF d = Ok d' /\ see (get DecF (mk_fs desc_DesCSATTB) (fd_st d') "dt_att" []) = SeeDec false 123456789 (-9).
Proof.
  assert (A : look [("dt_att"%string, [])] (ex_att_read "0.12345678901") = Ok ([SeeDec false 12345678901 (-11)], Some 0%Z, None, Ok (ex_att_bytes "000.123456789"))
    /\ look [("dt_att"%string, [])] (do d <- ex_att_read "0.12345678901"; fd_update DecF d) = Ok ([SeeDec false 123456789 (-9)], Some 0%Z, None, Ok (ex_att_bytes "000.123456789"))
    /\ match ex_att_read "0.12345678901" with Ok d => match fd_update DecF d with Ok d' => fd_cls d = ex_att /\ fd_cls d' = ex_att | Err _ => False end | Err _ => False end)
   by (split; [|split]; vm_compute; try split; reflexivity).
  destruct (ex_att_read "0.12345678901") as [d|] eqn:E; [|destruct A as [A _]; discriminate A]. exists d.
  cbn [bind] in A. destruct A as (A1 & A2 & A3). destruct (fd_update DecF d) as [d'|] eqn:E'; [|destruct A3]. destruct A3 as [C1 C2].
  split; [reflexivity|]. unfold look in A1, A2. cbn [bind map fst snd] in A1, A2. rewrite C1 in A1. rewrite C2 in A2. cbn [dc_rows ex_att] in A1, A2.
  assert (B : forall (a a' : option Z) (b b' : option (list N)) (c c' : res (list N)) (x y : seen), Ok ([x], a, b, c) = Ok ([y], a', b', c') -> x = y)
    by (intros; congruence).
  split; [exact (B _ _ _ _ _ _ _ _ A1)|]. exists d'. split; [reflexivity|exact (B _ _ _ _ _ _ _ _ A2)].
Qed.
Print Assumptions C53_keeps_refuted.

(** "What was read can be printed" is false: the value read does not fit the format it is written
    with. *)
Theorem C53_prints_refuted : exists d e, ex_att_read "1234567890.12" = Ok d /\ fd_update DecF d = Err e.
Proof.
  assert (A : match ex_att_read "1234567890.12" with Ok d => match fd_update DecF d with Ok _ => False | Err _ => True end | Err _ => False end) by (vm_compute; exact I).
  destruct (ex_att_read "1234567890.12") as [d|]; [|destruct A]. exists d. destruct (fd_update DecF d) as [|e]; [destruct A|]. exists e. auto.
Qed.
Print Assumptions C53_prints_refuted.

(** "An object that can be written can be printed" is false: one that was read, and then given
    fields of another length, raises. *)
Theorem C53_edited_refuted : exists d b, ex_att_read "001.500000000" = Ok d
  /\ fd_write DecF (put "reserved" [] (VBytes (str "abc")) d) = Ok b /\ List.length b = 58%nat
  /\ fd_update DecF (put "reserved" [] (VBytes (str "abc")) d) = Err ERuntime.
Proof.
  assert (A : match ex_att_read "001.500000000" with
              | Ok d => match fd_write DecF (put "reserved" [] (VBytes (str "abc")) d) with
                        | Ok b => Nat.eqb (List.length b) 58 = true
                        | Err _ => False
                        end
                        /\ match fd_update DecF (put "reserved" [] (VBytes (str "abc")) d) with Err ERuntime => True | _ => False end
              | Err _ => False
              end) by (vm_compute; split; [reflexivity|exact I]).
  destruct (ex_att_read "001.500000000") as [d|]; [|destruct A]. exists d. destruct A as [A1 A2].
  destruct (fd_write DecF (put "reserved" [] (VBytes (str "abc")) d)) as [b|]; [|destruct A1]. exists b.
  split; [reflexivity|]. split; [reflexivity|]. split; [now apply Nat.eqb_eq|].
  destruct (fd_update DecF (put "reserved" [] (VBytes (str "abc")) d)) as [|[]]; try destruct A2. reflexivity.
Qed.
Print Assumptions C53_edited_refuted.

(** A class that keeps the data after its fields (none is shipped). *)
Definition ex_keep : dcls := {| dc_tag := str "KEEP"; dc_after := true; dc_copy := true;
  dc_rows := [RField (Build_fdesc (Some "n"%string) (SzInt 1%Z) TInt FrNone DfNone None false 32%N false None 0%Z false);
              RLoop (EFld "n" 0) [RField (Build_fdesc (Some "a"%string) (SzInt 2%Z) TInt FrNone DfNone None false 32%N false None 0%Z false)]] |}.
Definition ex_keep_read : res (fdes DecF) :=
  obj (fd_read DecF (fd_new DecF ex_keep (str "KEEP") (Some 8%Z)) (str "110abcdefgh") 0).
Example ex_c53_keep : look [("a"%string, [0%Z])] ex_keep_read = Ok ([SeeInt 10], Some 5%Z, Some (str "abcde"), Ok (str "110abcde")).
Proof. vm_compute. reflexivity. Qed.
Example ex_c53_keep_update : look [("a"%string, [0%Z])] (do d <- ex_keep_read; fd_update DecF d)
  = Ok ([SeeInt 10], Some 5%Z, Some (str "abcde"), Ok (str "110abcde")).
Proof. vm_compute. reflexivity. Qed.
(** Printing such an object after its fields grew drops the end of the data it would write. *)
Example ex_c53_drop :
  let edit := fun d => put "a" [1%Z] (VInt 22) (put "n" [] (VInt 2) d) in
  look [] (do d <- ex_keep_read; Ok (edit d)) = Ok ([], Some 5%Z, Some (str "abcde"), Ok (str "21022abcde"))
  /\ look [] (do d <- ex_keep_read; fd_update DecF (edit d)) = Ok ([], Some 3%Z, Some (str "abc"), Ok (str "21022abc")).
Proof. vm_compute. split; reflexivity. Qed.
Theorem C53_drops_refuted : exists d d' b b',
  fd_update DecF d = Ok d' /\ fd_write DecF d = Ok b /\ fd_write DecF d' = Ok b' /\ Nat.ltb (List.length b') (List.length b) = true.
Proof.
  set (edit := fun d => put "a" [1%Z] (VInt 22) (put "n" [] (VInt 2) d)).
  assert (A : match ex_keep_read with
              | Ok d => match fd_update DecF (edit d), fd_write DecF (edit d) with
                        | Ok d', Ok b => match fd_write DecF d' with Ok b' => Nat.ltb (List.length b') (List.length b) = true | Err _ => False end
                        | _, _ => False
                        end
              | Err _ => False
              end) by (vm_compute; reflexivity).
  destruct ex_keep_read as [d|]; [|destruct A]. exists (edit d). destruct (fd_update DecF (edit d)) as [d'|]; [|destruct A]. exists d'.
  destruct (fd_write DecF (edit d)) as [b|]; [|destruct A]. exists b. destruct (fd_write DecF d') as [b'|] eqn:E; [|destruct A]. exists b'. auto.
Qed.
Print Assumptions C53_drops_refuted.

(** The text printed for the second class. *)
Example ex_c53_text : match ex_keep_read with
  | Ok d => match fd_print DecF (fun _ _ => Err EType) (fun _ => str "f.n") None d with
            | Ok (_, t) => t = str "n: 1" ++ [10%N] ++ str "Loop - f.n" ++ [10%N] ++ str "  a[0]: 10" ++ [10%N] ++ [10%N] ++ str "Extra data of length 5" ++ [10%N]
            | Err _ => False
            end
  | Err _ => False
  end.
Proof. vm_compute. reflexivity. Qed.
(** With nothing left over no such line. *)
Example ex_c53_text_exact : match obj (fd_read DecF (fd_new DecF ex_keep (str "KEEP") (Some 3%Z)) (str "110abc") 0) with
  | Ok d => match fd_print DecF (fun _ _ => Err EType) (fun _ => str "f.n") None d with
            | Ok (_, t) => t = str "n: 1" ++ [10%N] ++ str "Loop - f.n" ++ [10%N] ++ str "  a[0]: 10" ++ [10%N] ++ [10%N]
            | Err _ => False
            end
  | Err _ => False
  end.
Proof. vm_compute. reflexivity. Qed.
(** One made by the program has no segment: the size is not checked. *)
Example ex_c53_made : look [("a"%string, [0%Z])] (fd_update DecF (put "a" [0%Z] (VInt 7) (put "n" [] (VInt 1) (fd_new DecF ex_keep (str "KEEP") None))))
  = Ok ([SeeInt 7], Some 0%Z, None, Ok (str "107")).
Proof. vm_compute. reflexivity. Qed.
