(** The subheader of a new image (C36). *)
From Verif Require Import Base BaseLemmas Engine Wf EngineLemmas Codec RoundTrip Rewrite Literal
  Positions Keys Deps Assign Update Spec DescsHdr Utf8 Tre TreLemmas TrePlace TrePlaceLemmas Scalar Security P_Security
  P_RoundTrip Image ImageLemmas.
From Coq Require Import ZifyBool ZifyNat ZifyN.
Open Scope list_scope.
Ltac Zify.zify_post_hook ::= idtac.

(** ** Subheaders of new images *)
Lemma imode_default FO : stored FO (init_state FO) (fld_of "imode") [] = SVal (VStr (str "B")).
Proof. vm_compute. reflexivity. Qed.
Opaque fld_of.

Section New.
Variable FO : FloatOps.
Notation hdr := (hdr FO).
Notation st0 h nm := (stored FO (h_st h) (fld_of nm) []).

Lemma steps_app (a b : list (hdr -> hdr * res unit)) h :
  steps FO (a ++ b) h = match steps FO a h with (h1, Ok _) => steps FO b h1 | r => r end.
Proof.
  revert h. induction a as [|f a IH]; intro h; cbn [app steps]; [reflexivity|].
  destruct (f h) as [h1 [u|e]]; auto.
Qed.

(** A header without literal values. *)
Definition clean (h : hdr) : Prop := open FO h /\ no_literals FO ifs (h_st h).

Lemma clean_assigned s f k v : no_literals FO ifs s -> no_literals FO ifs (assigned FO s f k (SVal v)).
Proof.
  intros N g p b Hg. unfold assigned. cbn [set_raw set_val st_val]. unfold upd.
  destruct (_ && _); [discriminate|]. now apply N.
Qed.

Lemma iset_clean nm v h h' : In nm plain_names -> v <> VNone -> clean h -> iset FO nm v h = (h', Ok tt) -> clean h'.
Proof.
  intros Hn Hv ((HI & HA) & N) E. assert (S := plain_fld nm Hn). unfold iset in E.
  rewrite (hset_scalar FO irows h nm (fld_of nm) v S HI Hv) in E. injection E as <-.
  split; [split; auto|]. cbn [h_st]. now apply clean_assigned.
Qed.

(** Assigning a list of plain fields: the last value given to a name stays. *)
Definition asg (l : list (string * pyval FO)) : list (hdr -> hdr * res unit) := map (fun p => iset FO (fst p) (snd p)) l.
Lemma asg_ok l : forall h, clean h -> forallb (fun p => existsb (String.eqb (fst p)) plain_names) l = true ->
  Forall (fun p => snd p <> VNone) l ->
  exists h', steps FO (asg l) h = (h', Ok tt) /\ clean h'
    /\ (forall nm, In nm plain_names -> st0 h' nm = match assoc nm (rev l) with Some v => SVal v | None => st0 h nm end)
    /\ (forall y p, In y (fs_fields ifs) -> (forall nm v, In (nm, v) l -> y <> fld_of nm) ->
          stored FO (h_st h') y p = stored FO (h_st h) y p).
Proof.
  induction l as [|[nm v] l IH] using rev_ind; intros h C HP HV.
  - exists h. cbn. auto.
  - rewrite forallb_app in HP. apply andb_true_iff in HP as [HP HP1]. cbn [forallb fst] in HP1. rewrite andb_true_r in HP1.
    apply existsb_exists in HP1 as (x & Hx & Ex). apply String.eqb_eq in Ex. subst x.
    apply Forall_app in HV as [HV HV1]. inversion HV1; subst. cbn in H1.
    destruct (IH h C HP HV) as (h1 & E1 & C1 & S1 & F1). unfold asg. rewrite map_app, steps_app. fold (asg l). rewrite E1.
    cbn [map steps fst snd]. destruct (iset_plain FO nm v h1 Hx (proj1 C1) H1) as (h2 & E2 & O2 & T1 & T2).
    rewrite E2. exists h2. split; [reflexivity|]. split; [eapply iset_clean; eauto|]. split.
    + intros nm' Hn'. rewrite rev_app_distr. cbn [rev app]. unfold assoc. cbn [find fst].
      destruct (String.eqb_spec nm' nm) as [->|Hne]; [exact T1|].
      rewrite T2; [apply S1; auto|eapply scalar_in; now apply plain_fld|].
      destruct (plain_fld nm Hx) as (L & _), (plain_fld nm' Hn') as (L' & _). eapply fld_ne; eauto.
    + intros y p Hy Hno. rewrite T2; auto; [apply F1; auto|]; intros; eapply Hno; apply in_or_app; eauto. right. left. reflexivity.
Qed.

Lemma bands_step_ok h n l : clean h -> bands_are FO h n ->
  Forall (fun p => In (fst (fst p)) band_names /\ (0 <= snd (fst p) < n)%Z /\ snd p <> VNone) l ->
  exists h', steps FO (map (fun p => iset_at FO (fst (fst p)) [snd (fst p)] (snd p)) l) h = (h', Ok tt) /\ clean h'
    /\ bands_are FO h' n
    /\ (forall y p, In y (fs_fields ifs) -> (forall nm, In nm band_names -> y <> fld_of nm) ->
          stored FO (h_st h') y p = stored FO (h_st h) y p).
Proof.
  revert h. induction l as [|[[nm b] v] l IH]; intros h C B HF.
  - exists h. cbn. auto.
  - inversion HF; subst. cbn [fst snd] in H1. destruct H1 as (Hn & Hb & Hv). cbn [map steps fst snd].
    destruct (iset_band FO nm h n b v Hn (proj1 C) B Hb Hv) as (h1 & E1 & O1 & T1 & T2).
    assert (C1 : clean h1).
    { split; auto. destruct C as ((HI & HA) & N). destruct (band_fld nm Hn) as (L & L1 & _ & _ & _ & L5).
      unfold iset_at in E1. destruct (set_plain FO ifs (h_st h) nm (fld_of nm) [b] (SVal v) L L5) as [(_ & _ & X)|(_ & e & X)];
        rewrite X in E1; injection E1 as <-; cbn [h_st]; [now apply clean_assigned|discriminate]. }
    rewrite E1.
    assert (NB : forall y, In y (fs_fields ifs) -> (forall nm, In nm band_names -> y <> fld_of nm) ->
                  forall p, stored FO (h_st h1) y p = stored FO (h_st h) y p) by (intros; apply T2; auto).
    assert (P : forall nm', lookup ifs nm' = Some (fld_of nm') -> ~ In nm' band_names ->
                 In (fld_of nm') (fs_fields ifs) /\ (forall nm, In nm band_names -> fld_of nm' <> fld_of nm)).
    { intros nm' L' Hn'. split; [eapply lookup_in; eauto|]. intros nm2 Hn2. destruct (band_fld nm2 Hn2) as (L2 & _).
      eapply fld_ne; eauto. intros ->. contradiction. }
    assert (P1 := P "nbands"%string (proj1 (plain_fld "nbands" ltac:(cbn; tauto))) ltac:(cbn; intuition discriminate)).
    assert (P2 := P "xbands"%string (proj1 xbands_fld) ltac:(cbn; intuition discriminate)).
    assert (B1 : bands_are FO h1 n).
    { destruct B as [(X & Y)|(X & Y & Z)]; [left|right]; rewrite ?(NB _ (proj1 P1) (proj2 P1)), ?(NB _ (proj1 P2) (proj2 P2)); auto. }
    destruct (IH h1 C1 B1 H2) as (h2 & E2 & C2 & B2 & F2). exists h2. split; [exact E2|]. split; [auto|]. split; [auto|].
    intros y p Hy Hno. rewrite F2 by auto. now apply NB.
Qed.

(** What the header of a new image says. *)
Record says (h : hdr) (m : gen_mode) (nrow ncol : Z) (d : dtype) (n : Z) : Prop := {
  sy_clean : clean h;
  sy_bands : bands_are FO h n;
  sy_rows : st0 h "nrows" = SVal (VInt nrow);
  sy_cols : st0 h "ncols" = SVal (VInt ncol);
  sy_nbpr : st0 h "nbpr" = SVal (VInt 1);
  sy_nbpc : st0 h "nbpc" = SVal (VInt (match m with GRowP => nrow | _ => 1 end));
  sy_nppbh : st0 h "nppbh" = SVal (VInt ncol);
  sy_nbpp : st0 h "nbpp" = SVal (VInt (fst (dtype_fields d)));
  sy_pv : st0 h "pvtype" = SVal (VStr (str (snd (dtype_fields d))));
  sy_ic : st0 h "ic" = SVal (VStr (str "NC"));
  sy_imode : st0 h "imode" = SVal (VStr (str (match m with GRowP => "P" | _ => "B" end)))
}.

Lemma steps_cons f l h : steps FO (f :: l) h = match f h with (h1, Ok _) => steps FO l h1 | r => r end.
Proof. reflexivity. Qed.

Lemma steps_one (f : hdr -> hdr * res unit) h : steps FO [f] h = match f h with (h1, Ok _) => (h1, Ok tt) | r => r end.
Proof. cbn. destruct (f h) as [h1 [[]|e]]; reflexivity. Qed.

Lemma fld_lookup nm : existsb (String.eqb nm) plain_names = true -> lookup ifs nm = Some (fld_of nm).
Proof.
  intro H. apply existsb_exists in H as (x & Hx & E). apply String.eqb_eq in E. subst x. apply plain_fld, Hx.
Qed.

Lemma other nm nm' : lookup ifs nm = Some (fld_of nm) -> lookup ifs nm' = Some (fld_of nm') -> nm <> nm' ->
  In (fld_of nm) (fs_fields ifs) /\ fld_of nm <> fld_of nm'.
Proof. intros L L' N. split; [eapply lookup_in; eauto|eapply fld_ne; eauto]. Qed.

Lemma clean_dtype h be d h' : clean h -> set_dtype FO (Np be d) h = (h', Ok tt) -> clean h'.
Proof.
  intros C E. unfold set_dtype in E. destruct (dtype_fields d) as [n p].
  change [iset FO "abpp" (VInt n); iset FO "nbpp" (VInt n); iset FO "pvtype" (VStr (str p))]
    with (asg [("abpp"%string, VInt n); ("nbpp"%string, VInt n); ("pvtype"%string, VStr (str p))]) in E.
  destruct (asg_ok [("abpp"%string, VInt n); ("nbpp"%string, VInt n); ("pvtype"%string, VStr (str p))] h C) as (h1 & E1 & C1 & _);
    [reflexivity|repeat constructor; discriminate|]. congruence.
Qed.

Lemma clean_bands h n h' : clean h -> set_number_band FO n h = (h', Ok tt) -> clean h'.
Proof.
  intros C E. unfold set_number_band in E. destruct (n <? 10)%Z.
  - eapply iset_clean; [| |exact C|exact E]; [cbn; tauto|discriminate].
  - rewrite steps_cons in E. destruct (iset_plain FO "nbands" (VInt 0) h) as (h1 & E1 & O1 & S1 & _); [cbn; tauto|apply C|discriminate|].
    rewrite E1, steps_one in E. destruct (iset_xbands FO h1 n O1 S1) as (h2 & E2 & O2 & _). rewrite E2 in E. injection E as <-.
    assert (C1 : clean h1) by (eapply iset_clean; [| |exact C|exact E1]; [cbn; tauto|discriminate]).
    split; auto. unfold iset, hset in E2. destruct xbands_fld as (XL & X1 & X2). rewrite XL in E2.
    destruct (set_plain FO ifs (h_st h1) "xbands" (fld_of "xbands") [] (SVal (VInt n)) XL) as [(_ & _ & X)|(_ & e & X)];
      [now rewrite X2|rewrite X in E2|rewrite X in E2]; injection E2 as <-; cbn [h_st]; [apply clean_assigned, C1|discriminate].
Qed.

Lemma new_image_ok m nrow ncol be d n a sec : (1 <= n)%Z -> marking FO sec ->
  exists h, new_image FO m nrow ncol (Np be d) n a sec = (h, Ok tt) /\ says h m nrow ncol d n.
Proof.
  intros Hn Hs. unfold new_image. set (h0 := {| h_st := init_state FO; h_attr := [] |}).
  assert (C0 : clean h0) by (split; [split; reflexivity|]; intros f k b _; discriminate).
  rewrite steps_cons. unfold set_default.
  set (A := [("iid1"%string, VStr (ia_iid1 a)); ("iid2"%string, VStr (ia_iid2 a)); ("idlvl"%string, VInt (ia_idlvl a));
          ("isclas"%string, VStr (str "U")); ("irep"%string, VStr (ia_irep a)); ("icat"%string, VStr (ia_icat a));
          ("encryp"%string, VInt 0); ("idatim"%string, VStr (ia_idatim a)); ("nrows"%string, VInt nrow);
          ("ncols"%string, VInt ncol); ("nbpr"%string, VInt 1); ("nbpc"%string, VInt 1); ("nppbh"%string, VInt ncol);
          ("nppbv"%string, VInt nrow)] : list (string * pyval FO)).
  match goal with |- context [steps FO (?l ++ band_steps FO n) h0] =>
    change l with (asg A ++ [set_dtype FO (Np be d); set_number_band FO n] ++
      asg [("ic"%string, VStr (str "NC")); ("nicom"%string, VInt 0)]) end.
  rewrite <- !app_assoc, steps_app.
  destruct (asg_ok A h0 C0) as (h1 & E1 & C1 & S1 & _); [reflexivity|unfold A; repeat constructor; discriminate|].
  rewrite E1, steps_app, steps_cons.
  destruct (set_dtype_ok FO h1 be d (proj1 C1)) as (h2 & E2 & O2 & _ & D2 & D3 & F2). rewrite E2, steps_one.
  assert (C2 := clean_dtype h1 be d h2 C1 E2).
  destruct (set_number_band_ok FO h2 n O2 Hn) as (h3 & E3 & O3 & B3 & F3). rewrite E3, steps_app.
  assert (C3 := clean_bands h2 n h3 C2 E3).
  destruct (asg_ok [("ic"%string, VStr (str "NC")); ("nicom"%string, VInt 0)] h3 C3) as (h4 & E4 & C4 & S4 & F4);
    [reflexivity|repeat constructor; discriminate|]. rewrite E4.
  assert (LP : forall nm, In nm plain_names -> lookup ifs nm = Some (fld_of nm)) by (intros nm Hm; apply plain_fld, Hm).
  assert (LX := proj1 xbands_fld).
  assert (PN : forall nm, existsb (String.eqb nm) plain_names = true -> In nm plain_names).
  { intros nm H. apply existsb_exists in H as (x & Hx & E). apply String.eqb_eq in E. now subst x. }
  assert (B4 : bands_are FO h4 n).
  { destruct B3 as [(X & Y)|(X & Y & Z)]; [left|right]; (split; [exact X|]).
    - rewrite (S4 "nbands"%string) by (cbn; tauto). exact Y.
    - split; [rewrite (S4 "nbands"%string) by (cbn; tauto); exact Y|].
      rewrite F4; [exact Z|eapply lookup_in; eauto|]. intros nm v [H|[H|[]]]; injection H as <- <-; eapply fld_ne; eauto; try discriminate; apply LP; cbn; tauto. }
  (* the band fields *)
  assert (BS : exists l, band_steps FO n = map (fun p => iset_at FO (fst (fst p)) [snd (fst p)] (snd p)) l
     /\ Forall (fun p => In (fst (fst p)) band_names /\ (0 <= snd (fst p) < n)%Z /\ snd p <> VNone) l).
  { exists (flat_map (fun b => [("irepband"%string, Z.of_nat b, VStr (str "M")); ("isubcat"%string, Z.of_nat b, VInt (Z.of_nat b + 1));
                           ("nluts"%string, Z.of_nat b, VInt 0)]) (seq 0 (Z.to_nat n))
            ++ [("irepband"%string, (n - 1)%Z, VStr (str "B")); ("irepband"%string, Z.quot n 2, VStr (str "G"));
                ("irepband"%string, 0%Z, VStr (str "R"))]). split.
    - unfold band_steps. rewrite map_app. f_equal. generalize (seq 0 (Z.to_nat n)) as l0. induction l0 as [|x l0 IH]; cbn [flat_map map app fst snd]; [reflexivity|].
      now rewrite IH.
    - apply Forall_app. split.
      + apply Forall_forall. intros p Hp. apply in_flat_map in Hp as (x & Hx & Hp). apply in_seq in Hx.
        cbn in Hp. destruct Hp as [<-|[<-|[<-|[]]]]; cbn [fst snd]; (split; [cbn; tauto|]); (split; [lia|discriminate]).
      + assert (0 <= Z.quot n 2 < n)%Z by (rewrite Z.quot_div_nonneg by lia; split; [apply Z.div_pos; lia|apply Z.div_lt_upper_bound; lia]).
        repeat (apply Forall_cons; [cbn [fst snd]; split; [unfold band_names; cbn [In]; tauto|split; [lia|discriminate]]|]). apply Forall_nil. }
  destruct BS as (lb & -> & HB). destruct (bands_step_ok h4 n lb C4 B4 HB) as (h5 & E5 & C5 & B5 & F5). rewrite E5.
  (* what the fields hold now *)
  assert (NBD : forall nm, In nm plain_names -> forall nm', In nm' band_names -> fld_of nm <> fld_of nm').
  { intros nm Hm nm' Hm'. destruct (band_fld nm' Hm') as (L' & _). eapply fld_ne; [apply LP, Hm|exact L'|].
    intros ->. cbn in Hm'. cbn in Hm. intuition (subst; discriminate). }
  assert (V5 : forall nm, In nm plain_names -> nm <> "nbands"%string -> nm <> "abpp"%string -> nm <> "nbpp"%string -> nm <> "pvtype"%string ->
             st0 h5 nm = match assoc nm (rev [("ic"%string, VStr (str "NC")); ("nicom"%string, VInt 0)]) with Some v => SVal v
                         | None => match assoc nm (rev A) with Some v => SVal v | None => st0 h0 nm end end).
  { intros nm Hm N1 N2 N3 N4. assert (I := lookup_in _ _ _ (LP nm Hm)).
    rewrite F5; [|exact I|intros; now apply NBD]. rewrite S4 by auto.
    destruct (assoc nm (rev _)); auto.
    rewrite F3, F2; auto; try (eapply fld_ne; eauto; apply LP; cbn; tauto).
    intro X. revert X. eapply fld_ne; eauto. intros ->. cbn in Hm. intuition discriminate. }
  assert (W5 : forall nm, nm = "nbpp"%string \/ nm = "pvtype"%string -> st0 h5 nm = st0 h2 nm).
  { intros nm Hm. assert (Hp : In nm plain_names) by (destruct Hm as [->| ->]; cbn; tauto).
    assert (I := lookup_in _ _ _ (LP nm Hp)). rewrite F5; [|exact I|intros; now apply NBD].
    rewrite S4 by auto. replace (assoc nm _) with (@None (pyval FO)) by (destruct Hm as [->| ->]; reflexivity).
    apply F3; auto; eapply fld_ne; eauto; try (apply LP; cbn; tauto); destruct Hm as [->| ->]; discriminate. }
  assert (S6 : says h5 GAll nrow ncol d n).
  { split; [exact C5|exact B5| | | | | | | | |].
    - apply (V5 "nrows"%string); [cbn; tauto|discriminate..].
    - apply (V5 "ncols"%string); [cbn; tauto|discriminate..].
    - apply (V5 "nbpr"%string); [cbn; tauto|discriminate..].
    - apply (V5 "nbpc"%string); [cbn; tauto|discriminate..].
    - apply (V5 "nppbh"%string); [cbn; tauto|discriminate..].
    - rewrite W5 by auto. exact D2.
    - rewrite W5 by auto. exact D3.
    - apply (V5 "ic"%string); [cbn; tauto|discriminate..].
    - rewrite (V5 "imode"%string); [|cbn; tauto|discriminate..]. exact (imode_default FO). }
  rewrite steps_cons.
  (* security *)
  destruct (sec_tables irows "is" ltac:(cbn; tauto)) as (_ & T1 & T2 & T3).
  destruct (sec_set_ok FO irows sec (sec_names "is") Hs T1 T2 h5) as (h6 & E6 & O6 & A6 & V6 & F6).
  { apply C5. } { apply C5. }
  { intros nm at0 f Hin HL. rewrite forallb_forall in T1. specialize (T1 _ Hin). unfold sec_field in T1. cbn [fst snd] in T1.
    rewrite HL in T1. apply andb_true_iff in T1 as [X Y]. apply andb_true_iff in X as [X _]. destruct (scalarb_ok _ _ X) as (f' & Sf).
    rewrite (hget_scalar FO irows h5 nm f' Sf). assert (f' = f) by (destruct Sf; congruence). subst f'.
    unfold conv_of, convert. destruct (stored FO (h_st h5) f []) as [v|bl] eqn:ES.
    - destruct (fd_ty (f_d f)) eqn:TY; destruct (is_number at0) eqn:NU; try discriminate Y.
      + destruct v; try (eexists; reflexivity). destruct (fd_optional (f_d f)); eexists; reflexivity.
      +
        assert (nm = "encryp"%string).
        { revert Hin HL. clear - NU. intros Hin HL. unfold sec_names in Hin. apply in_app_or in Hin as [Hin|[Hin|[]]]; [|congruence].
          apply in_map_iff in Hin as ([q b] & E & Hq). injection E as <- <-. cbn in Hq.
          repeat (destruct Hq as [Hq|Hq]; [injection Hq as <- <-; cbn in NU; try discriminate; vm_compute in HL; discriminate|]). destruct Hq. }
        subst nm. assert (f = fld_of "encryp") by (rewrite (LP "encryp"%string) in HL by (cbn; tauto); congruence). subst f.
        rewrite (V5 "encryp"%string) in ES; [|cbn; tauto|discriminate..]. cbn [assoc find rev app fst snd String.eqb Ascii.eqb Bool.eqb A] in ES. injection ES as <-. eexists; reflexivity.
    - destruct (fd_optional (f_d f) && is_blank (f_d f) bl); [eauto|]. exfalso.
      assert (I := lookup_in _ _ _ HL). destruct C5 as (_ & N5). unfold stored in ES.
      destruct (st_val FO (h_st h5) (f_id f) []) as [v|] eqn:EV; [|discriminate]. subst v. exact (N5 f [] bl I EV). }
  change (set_security FO irows h5 "is" sec) with (sec_set FO irows h5 (sec_names "is") sec). rewrite E6, steps_one.
  assert (K6 : forall nm, In nm (["nrows"; "ncols"; "nbpr"; "nbpc"; "nppbh"; "ic"; "imode"; "nbands"; "xbands"; "nbpp"; "pvtype"])%string ->
             st0 h6 nm = st0 h5 nm).
  { intros nm Hm. apply F6.
    - destruct (String.eqb_spec nm "xbands"); [subst; eapply lookup_in; eauto|]. eapply lookup_in. apply LP. cbn in Hm |- *. intuition congruence.
    - intros nm' a' Hin HL'. assert (nm' = nm).
      { assert (lookup ifs nm = Some (fld_of nm)).
        { destruct (String.eqb_spec nm "xbands"); [subst; exact LX|]. apply LP. cbn in Hm |- *. intuition congruence. }
        apply has_name_lookup in HL', H. congruence. }
      subst nm'. assert (X : existsb (fun p => String.eqb nm (fst p)) (sec_names "is") = true).
      { apply existsb_exists. exists (nm, a'). split; auto. apply String.eqb_refl. }
      clear - Hm X. cbn [In] in Hm. repeat (destruct Hm as [<-|Hm]; [vm_compute in X; discriminate|]). destruct Hm. }
  assert (C6 : clean h6).
  { split; [split; auto|]. clear - E6 C5 T1. revert E6 C5.
    assert (X : forall l h, forallb (sec_field irows) l = true -> no_literals FO ifs (h_st h) ->
       forall h' r, sec_set FO irows h l sec = (h', r) -> no_literals FO ifs (h_st h')).
    { induction l as [|[nm at0] l IH]; intros h HF N h' r E; cbn [sec_set] in E; [injection E as <- _; auto|].
      cbn [forallb] in HF. apply andb_true_iff in HF as [HF0 HF].
      destruct (hget FO irows h nm); [|destruct e; try (injection E as <- _; auto); eapply IH; eauto].
      destruct (hset FO irows h nm (sec at0)) as [h1 [u|e]] eqn:EH.
      - eapply IH; [exact HF| |exact E]. unfold hset in EH. unfold sec_field in HF0. cbn [fst] in HF0.
        destruct (lookup ifs nm) as [f|] eqn:L; [|injection EH as <- _; exact N].
        apply andb_true_iff in HF0 as [HF0 _]. apply andb_true_iff in HF0 as [HF0 _]. destruct (scalarb_ok _ _ HF0) as (f' & L' & _ & _ & _ & _ & D').
        destruct (set_plain FO ifs (h_st h) nm f [] (SVal (sec at0)) L) as [(_ & _ & X)|(_ & e' & X)]; [congruence|rewrite X in EH|rewrite X in EH];
          injection EH as <-; [now apply clean_assigned|discriminate].
      - injection E as <- _. unfold hset in EH. unfold sec_field in HF0. cbn [fst] in HF0.
        destruct (lookup ifs nm) as [f|] eqn:L; [|injection EH as <- _; exact N].
        apply andb_true_iff in HF0 as [HF0 _]. apply andb_true_iff in HF0 as [HF0 _]. destruct (scalarb_ok _ _ HF0) as (f' & L' & _ & _ & _ & _ & D').
        destruct (set_plain FO ifs (h_st h) nm f [] (SVal (sec at0)) L) as [(_ & _ & X)|(_ & e' & X)]; [congruence|rewrite X in EH|rewrite X in EH];
          injection EH as <-; [discriminate|exact N]. }
    intros E6 (_ & N). eapply X; eauto. }
  assert (S7 : says h6 GAll nrow ncol d n).
  { destruct S6. split; auto; try (rewrite K6 by (cbn; tauto); assumption).
    destruct sy_bands0 as [(X & Y)|(X & Y & Z)]; [left|right]; rewrite !K6 by (cbn; tauto); auto. }
  destruct m.
  - cbn [steps]. exists h6. auto.
  - cbn [steps]. exists h6. split; auto. destruct S7; now split.
  - set (R := [("nbpr"%string, VInt 1); ("nbpc"%string, VInt nrow); ("nppbh"%string, VInt ncol); ("nppbv"%string, VInt 1);
           ("imode"%string, VStr (str "P"))] : list (string * pyval FO)).
    match goal with |- context [steps FO ?l h6] => change l with (asg R) end.
    destruct (asg_ok R h6 C6) as (h7 & E7 & C7 & S8 & F8); [reflexivity|unfold R; repeat constructor; discriminate|].
    rewrite E7. exists h7. split; [reflexivity|]. destruct S7. split; auto; try (rewrite S8 by (cbn; tauto); try reflexivity; assumption).
    destruct sy_bands0 as [(X & Y)|(X & Y & Z)]; [left|right]; (split; [exact X|]).
    + rewrite (S8 "nbands"%string) by (cbn; tauto). exact Y.
    + split; [rewrite (S8 "nbands"%string) by (cbn; tauto); exact Y|]. rewrite F8; [exact Z|eapply lookup_in; eauto|].
      intros nm v Hin X1. revert X1. eapply fld_ne; eauto.
      * apply LP. cbn in Hin. cbn. intuition congruence.
      * intros <-. cbn in Hin. intuition discriminate.
Qed.
End New.
