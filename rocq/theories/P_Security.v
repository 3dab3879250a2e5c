(** Property C33: security markings. *)
From Verif Require Import Base BaseLemmas Engine Wf EngineLemmas Codec RoundTrip Rewrite Literal
  Positions Keys Deps Assign Update Spec Decimal DecimalLemmas DescsHdr Utf8 Tre TreLemmas P_Tre
  TrePlace TrePlaceLemmas Scalar Security.
From Coq Require Import ZifyBool ZifyNat ZifyN.
Open Scope list_scope.
Ltac Zify.zify_post_hook ::= idtac.

(** The six headers with the prefix their [security] property uses (nitf_file_header.py:82-88,
    nitf_image_subheader.py:95-101, nitf_graphic_subheader.py:55-61, nitf_text_subheader.py:52-58,
    nitf_des_subheader.py:43-49, nitf_res_subheader.py:42-48). *)
Definition sec_headers : list (list row * string) :=
  [(desc_NitfFileHeader, "fs"%string); (desc_NitfImageSubheader, "is"%string);
   (desc_NitfGraphicSubheader, "ss"%string); (desc_NitfTextSubheader, "ts"%string);
   (desc_NitfDesSubheader, "des"%string); (desc_NitfResSubheader, "re"%string)].

(** Attributes holding numbers; the others hold text. *)
Definition is_number (a : sattr) : bool :=
  match a with CopyNumber | NumberOfCopies | Encryption => true | _ => false end.

(** Values as documented: text that does not end in white space, and numbers. *)
Definition marking FO (s : security FO) : Prop :=
  forall a, if is_number a then exists z, s a = VInt z
            else exists t, s a = VStr t /\ rstrip_by ws_str t = t.

(** The header has a field for the attribute. *)
Definition has_attr (rows : list row) (prefix : string) (a : sattr) : Prop :=
  exists nm f, In (nm, a) (sec_names prefix) /\ lookup (mk_fs rows) nm = Some f.

(** What is needed of a table: each name is either absent or a plain field of the right type. *)
Definition sec_field (rows : list row) (p : string * sattr) : bool :=
  match lookup (mk_fs rows) (fst p) with
  | None => true
  | Some f => scalarb rows (fst p) && unreferencedb (mk_fs rows) f
      && match fd_ty (f_d f), is_number (snd p) with TStr, false | TInt, true => true | _, _ => false end
  end.

Lemma sec_tables : forall rows prefix, In (rows, prefix) sec_headers ->
  wf_rows rows = true /\ forallb (sec_field rows) (sec_names prefix) = true
  /\ NoDup (map fst (sec_names prefix)) /\ NoDup (map snd (sec_names prefix)).
Proof.
  intros rows prefix H.
  assert (N : NoDup (map snd (sec_names prefix))).
  { unfold sec_names. rewrite map_app, map_map. cbn.
    repeat (constructor; [cbn; intuition discriminate|]). constructor. }
  cbn in H. repeat (destruct H as [H|H]; [injection H as <- <-; (split; [vm_compute; reflexivity|]);
    (split; [vm_compute; reflexivity|]); (split; [|exact N]); apply nodup_names; vm_compute; reflexivity|]). destruct H.
Qed.

Lemma sattr_eqb_eq a b : sattr_eqb a b = true <-> a = b.
Proof. split; [destruct a, b; (reflexivity || discriminate)|intros ->; now destruct b]. Qed.

Section Sec.
Variable FO : FloatOps.
Variable rows : list row.

(** The value of a marking is unchanged by the conversion of the field. *)
Lemma marking_conv (s : security FO) a f : marking FO s ->
  match fd_ty (f_d f), is_number a with TStr, false | TInt, true => true | _, _ => false end = true ->
  s a <> VNone /\ conv_of FO (f_d f) (SVal (s a)) = Ok (s a).
Proof.
  intros HM HT. specialize (HM a). destruct (is_number a).
  - destruct HM as (z & ->). split; [discriminate|]. unfold conv_of, convert.
    destruct (fd_ty (f_d f)); try discriminate. reflexivity.
  - destruct HM as (t & -> & H). split; [discriminate|]. unfold conv_of, convert.
    destruct (fd_ty (f_d f)); try discriminate. cbn. now rewrite H.
Qed.

Lemma sec_set_ok (s : security FO) l : marking FO s -> forallb (sec_field rows) l = true -> NoDup (map fst l) ->
  forall h : hdr FO, st_impl FO (h_st h) = false -> h_attr h = [] ->
  (forall nm a f, In (nm, a) l -> lookup (mk_fs rows) nm = Some f -> exists v, hget FO rows h nm = Ok v) ->
  exists h', sec_set FO rows h l s = (h', Ok tt) /\ st_impl FO (h_st h') = false /\ h_attr h' = []
    /\ (forall nm a f, In (nm, a) l -> lookup (mk_fs rows) nm = Some f -> stored FO (h_st h') f [] = SVal (s a))
    /\ (forall f, In f (fs_fields (mk_fs rows)) -> (forall nm a, In (nm, a) l -> lookup (mk_fs rows) nm <> Some f) ->
          forall k, stored FO (h_st h') f k = stored FO (h_st h) f k).
Proof.
  intro HM. induction l as [|[nm a] l IH]; intros HF HN h HI HA HG.
  - exists h. cbn. repeat split; auto. intros ? ? ? [].
  - cbn [forallb] in HF. apply andb_true_iff in HF as [HF HFl]. cbn [map fst] in HN. apply NoDup_cons_iff in HN as [HN HNl].
    cbn [sec_set]. unfold sec_field in HF. cbn [fst snd] in HF.
    destruct (lookup (mk_fs rows) nm) as [f|] eqn:HL.
    + apply andb_true_iff in HF as [HS HT]. apply andb_true_iff in HS as [HS _]. destruct (scalarb_ok _ _ HS) as (f' & HS').
      assert (f' = f) by (destruct HS' as (E & _); congruence). subst f'.
      destruct (HG nm a f (or_introl eq_refl) HL) as (v0 & ->).
      destruct (marking_conv s a f HM HT) as [Hne _].
      rewrite (hset_scalar FO rows h nm f (s a)) by auto.
      set (h1 := {| h_st := assigned FO (h_st h) f [] (SVal (s a)); h_attr := h_attr h |}).
      assert (Hf := lookup_in _ _ _ HL).
      assert (NE : forall nm' a' f', In (nm', a') l -> lookup (mk_fs rows) nm' = Some f' -> f' <> f).
      { intros nm' a' f' Hin HL'. apply (lookup_ne rows nm' nm); auto. intros ->. apply HN.
        change nm with (fst (nm, a')). now apply in_map. }
      destruct (IH HFl HNl h1) as (h' & E & H1 & H2 & H3 & H4); auto.
      { intros nm' a' f' Hin HL'. destruct (HG nm' a' f' (or_intror Hin) HL') as (v' & HG'). exists v'. rewrite <- HG'.
        rewrite forallb_forall in HFl. specialize (HFl _ Hin). unfold sec_field in HFl. cbn [fst] in HFl. rewrite HL' in HFl.
        apply andb_true_iff in HFl as [HSc _]. apply andb_true_iff in HSc as [HSc _]. destruct (scalarb_ok _ _ HSc) as (f2 & HS2).
        rewrite !(hget_scalar FO rows _ nm' f2) by auto. cbn [h_st h1]. f_equal.
        destruct HS2 as (HL2 & _). apply (assigned_same FO rows); auto; [eapply lookup_in; eauto|].
        intros ->. apply (NE nm' a' f' Hin HL'). congruence. }
      exists h'. split; [exact E|]. split; [auto|]. split; [auto|]. split.
      * intros nm' a' f' [Heq|Hin] HL'; [|eapply H3; eauto]. injection Heq as <- <-.
        assert (f' = f) by congruence. subst f'. rewrite H4; auto.
        -- cbn [h_st h1]. apply assigned_self.
        -- intros nm' a' Hin HL''. exact (NE nm' a' f Hin HL'' eq_refl).
      * intros y Hy Hno k. rewrite H4; auto; [|intros ? ? Hin; eapply Hno; right; exact Hin].
        cbn [h_st h1]. apply (assigned_same FO rows); auto. intros ->. eapply Hno; [now left|exact HL].
    + unfold hget at 1. rewrite HL, HA. cbn [assoc find].
      destruct (IH HFl HNl h) as (h' & E & H1 & H2 & H3 & H4); auto.
      { intros nm' a' f' Hin. eapply HG. right. exact Hin. }
      exists h'. split; [exact E|]. split; [auto|]. split; [auto|]. split.
      * intros nm' a' f' [Heq|Hin] HL'; [injection Heq as <- <-; congruence|]. eapply H3; eauto.
      * intros y Hy Hno k. apply H4; auto. intros ? ? Hin. eapply Hno. right. exact Hin.
Qed.

Lemma sec_get_ok l (h : hdr FO) (vals : security FO) : h_attr h = [] -> NoDup (map snd l) ->
  (forall nm a f, In (nm, a) l -> lookup (mk_fs rows) nm = Some f -> hget FO rows h nm = Ok (vals a)) ->
  forall s, exists s', sec_get FO rows h l s = Ok s'
    /\ (forall a, (exists nm f, In (nm, a) l /\ lookup (mk_fs rows) nm = Some f) -> s' a = vals a)
    /\ (forall a, ~ (exists nm f, In (nm, a) l /\ lookup (mk_fs rows) nm = Some f) -> s' a = s a).
Proof.
  intro HA. induction l as [|[nm a] l IH]; intros HN HG s.
  - exists s. split; [reflexivity|]. split; [intros a (nm & f & [] & _)|auto].
  - cbn [map snd] in HN. apply NoDup_cons_iff in HN as [HN HNl]. cbn [sec_get].
    assert (HGl : forall nm' a' f', In (nm', a') l -> lookup (mk_fs rows) nm' = Some f' -> hget FO rows h nm' = Ok (vals a'))
      by (intros; eapply HG; [right|]; eauto).
    destruct (lookup (mk_fs rows) nm) as [f|] eqn:HL.
    + rewrite (HG nm a f (or_introl eq_refl) HL).
      destruct (IH HNl HGl (sec_put FO s a (vals a))) as (s' & E & H1 & H2). exists s'. split; [exact E|]. split.
      * intros b (nm' & f' & [Heq|Hin] & HL'); [|apply H1; eauto]. injection Heq as <- <-. rewrite H2.
        -- unfold sec_put. now rewrite (proj2 (sattr_eqb_eq a a) eq_refl).
        -- intros (nm' & f'' & Hin & _). apply HN. change a with (snd (nm', a)). now apply in_map.
      * intros b Hno. rewrite H2.
        -- unfold sec_put. destruct (sattr_eqb a b) eqn:Eab; auto. apply sattr_eqb_eq in Eab. subst b.
           exfalso. apply Hno. exists nm, f. split; [now left|auto].
        -- intros (nm' & f'' & Hin & HL'). apply Hno. exists nm', f''. split; [now right|auto].
    + unfold hget at 1. rewrite HL, HA. cbn [assoc find].
      destruct (IH HNl HGl s) as (s' & E & H1 & H2). exists s'. split; [exact E|]. split.
      * intros b (nm' & f' & [Heq|Hin] & HL'); [|apply H1; eauto]. injection Heq as <- <-. congruence.
      * intros b Hno. apply H2. intros (nm' & f'' & Hin & HL'). apply Hno. exists nm', f''. split; [now right|auto].
Qed.

End Sec.

(** The header's own security fields can be read. *)
Definition sec_readable FO rows prefix (h : hdr FO) : Prop :=
  exists s, get_security FO rows h prefix = Ok s.

Lemma readable_get FO rows (h : hdr FO) l : h_attr h = [] -> forall s s', sec_get FO rows h l s = Ok s' ->
  forall nm a f, In (nm, a) l -> lookup (mk_fs rows) nm = Some f -> forallb (sec_field rows) l = true ->
  exists v, hget FO rows h nm = Ok v.
Proof.
  intro HA. induction l as [|[n b] l IH]; intros s s' H nm a f Hin HL HF; [destruct Hin|]. cbn [sec_get] in H.
  cbn [forallb] in HF. apply andb_true_iff in HF as [HF0 HF].
  destruct Hin as [Heq|Hin].
  - injection Heq as -> ->. destruct (hget FO rows h nm) as [v|e] eqn:EV; [eauto|]. exfalso.
    unfold sec_field in HF0. cbn [fst snd] in HF0. rewrite HL in HF0. apply andb_true_iff in HF0 as [HS _]. apply andb_true_iff in HS as [HS _].
    destruct (scalarb_ok _ _ HS) as (f' & HS'). rewrite (hget_scalar FO rows h nm f' HS') in EV. unfold conv_of in EV.
    destruct (convert FO (f_d f') _); [discriminate|]. injection EV as <-. discriminate.
  - destruct (hget FO rows h n) as [v|e]; [eapply IH; eauto|]. destruct e; try discriminate. eapply IH; eauto.
Qed.

Lemma sec_round_trip FO rows names (h : hdr FO) (s s0 : security FO) :
  forallb (sec_field rows) names = true -> NoDup (map fst names) -> NoDup (map snd names) ->
  st_impl FO (h_st h) = false -> h_attr h = [] ->
  sec_get FO rows h names (sec_default FO) = Ok s0 -> marking FO s ->
  exists h' s', sec_set FO rows h names s = (h', Ok tt) /\ sec_get FO rows h' names (sec_default FO) = Ok s'
    /\ (forall a, (exists nm f, In (nm, a) names /\ lookup (mk_fs rows) nm = Some f) -> s' a = s a)
    /\ (forall a, ~ (exists nm f, In (nm, a) names /\ lookup (mk_fs rows) nm = Some f) -> s' a = sec_default FO a)
    /\ (forall nm f k, lookup (mk_fs rows) nm = Some f -> (forall a, ~ In (nm, a) names) ->
          get FO (mk_fs rows) (h_st h') nm k = get FO (mk_fs rows) (h_st h) nm k).
Proof.
  intros HF N1 N2 HI HA HR HM.
  destruct (sec_set_ok FO rows s names HM HF N1 h HI HA) as (h' & E & H1 & H2 & H3 & H4).
  { intros nm a f Hin HL. eapply readable_get; eauto. }
  destruct (sec_get_ok FO rows names h' s H2 N2) with (s := sec_default FO) as (s' & E' & G1 & G2).
  { intros nm a f Hin HL. rewrite forallb_forall in HF. specialize (HF _ Hin). unfold sec_field in HF. cbn [fst snd] in HF.
    rewrite HL in HF. apply andb_true_iff in HF as [HS HT]. apply andb_true_iff in HS as [HS _]. destruct (scalarb_ok _ _ HS) as (f' & HS').
    assert (f' = f) by (destruct HS' as (E1 & _); congruence). subst f'.
    rewrite (hget_scalar FO rows h' nm f HS'), (H3 nm a f Hin HL). now apply marking_conv. }
  exists h', s'. split; [exact E|]. split; [exact E'|]. split; [|split].
  - intros a (nm & f & Hin & HL). apply G1. eauto.
  - intros a Hno. apply G2. intros (nm & f & Hin & HL). apply Hno. exists nm, f. auto.
  - intros nm f k HL Hno. assert (Hf := lookup_in _ _ _ HL).
    assert (NS : forall y, In y (fs_fields (mk_fs rows)) -> y = f \/ reaches (mk_fs rows) f y ->
       forall nm' a, In (nm', a) names -> lookup (mk_fs rows) nm' <> Some y).
    { intros y Hy HC nm' a Hin HL'. destruct HC as [->|HC].
      - assert (nm' = nm) by (apply has_name_lookup in HL, HL'; congruence). subst nm'. exact (Hno a Hin).
      - rewrite forallb_forall in HF. specialize (HF _ Hin). unfold sec_field in HF. cbn [fst snd] in HF. rewrite HL' in HF.
        apply andb_true_iff in HF as [HF _]. apply andb_true_iff in HF as [_ HF]. apply unreferencedb_ok in HF.
        exact (unref_reaches rows y HF f Hf HC). }
    apply (get_same_reads FO rows _ _ nm f k HL).
    + exact (H4 f Hf (NS f Hf (or_introl eq_refl)) k).
    + intros y p HY. assert (Hy := reaches_in rows f y HY). exact (H4 y Hy (NS y Hy (or_intror HY)) p).
Qed.

Lemma get_security_eq FO rows (h : hdr FO) prefix :
  get_security FO rows h prefix = sec_get FO rows h (sec_names prefix) (sec_default FO).
Proof. unfold get_security. reflexivity. Qed.
Lemma set_security_eq FO rows (h : hdr FO) prefix s :
  set_security FO rows h prefix s = sec_set FO rows h (sec_names prefix) s.
Proof. unfold set_security. reflexivity. Qed.
Lemma has_attr_eq rows prefix a : has_attr rows prefix a <->
  exists nm f, In (nm, a) (sec_names prefix) /\ lookup (mk_fs rows) nm = Some f.
Proof. unfold has_attr. reflexivity. Qed.

(** C33: what is set is read back, for every attribute the header has; the others have their
    default; no other field of the header changes. *)
Theorem C33_round_trip FO rows prefix (h : hdr FO) (s : security FO) :
  In (rows, prefix) sec_headers -> st_impl FO (h_st h) = false -> h_attr h = [] ->
  sec_readable FO rows prefix h -> marking FO s ->
  exists h' s', set_security FO rows h prefix s = (h', Ok tt) /\ get_security FO rows h' prefix = Ok s'
    /\ (forall a, has_attr rows prefix a -> s' a = s a)
    /\ (forall a, ~ has_attr rows prefix a -> s' a = sec_default FO a)
    /\ (forall nm f k, lookup (mk_fs rows) nm = Some f -> (forall a, ~ In (nm, a) (sec_names prefix)) ->
          get FO (mk_fs rows) (h_st h') nm k = get FO (mk_fs rows) (h_st h) nm k).
Proof.
  intros HH HI HA (s0 & HR) HM. destruct (sec_tables rows prefix HH) as (_ & HF & N1 & N2).
  rewrite get_security_eq in HR.
  destruct (sec_round_trip FO rows (sec_names prefix) h s s0 HF N1 N2 HI HA HR HM) as (h' & s' & E1 & E2 & E3 & E4 & E5).
  exists h', s'. rewrite set_security_eq, get_security_eq. split; [exact E1|]. split; [exact E2|]. split; [|split; [|exact E5]].
  - intros a Ha. apply has_attr_eq in Ha. now apply E3.
  - intros a Ha. apply E4. intro H. apply Ha. now apply has_attr_eq.
Qed.

(** ** Comparing *)

(** Comparing gives an answer for markings, which is true exactly when all attributes other
    than the codewords and the encryption agree. *)
Theorem C33_compare_partial FO (s t : security FO) : marking FO s -> marking FO t ->
  exists b, sec_eq FO s t = Ok b
    /\ (b = true <-> forall a, a <> Codewords -> a <> Encryption -> s a = t a).
Proof.
  intros Hs Ht.
  assert (P : forall a, exists b, py_eqb FO (s a) (t a) = Ok b /\ (b = true <-> s a = t a)).
  { intro a. specialize (Hs a). specialize (Ht a). destruct (is_number a).
    - destruct Hs as (x & ->), Ht as (y & ->). cbn. exists (x =? y)%Z. split; auto. rewrite Z.eqb_eq. split; congruence.
    - destruct Hs as (x & -> & _), Ht as (y & -> & _). cbn. exists (list_eqb x y). split; auto.
      rewrite list_eqb_spec. split; congruence. }
  assert (L : forall l, exists b, all_eq FO l s t = Ok b /\ (b = true <-> forall a, In a l -> s a = t a)).
  { induction l as [|a l (b & E & IH)]; [exists true; cbn; split; auto; split; auto; intros _ a []|].
    cbn [all_eq]. destruct (P a) as (c & -> & HC). cbn [bind]. destruct c.
    - exists b. split; [exact E|]. rewrite IH. split; intros H a'; [intros [<-|Hin]; [now apply HC|auto]|intro; apply H; now right].
    - exists false. split; auto. split; [discriminate|]. intro H. apply HC, H. now left. }
  destruct (L sec_compared) as (b & E & H). exists b. split; [exact E|]. rewrite H. split.
  - intros HA a N1 N2. apply HA. destruct a; cbn; (contradiction || tauto).
  - intros HA a Ha. apply HA; intros ->; cbn in Ha; intuition discriminate.
Qed.

(** An equivalence on markings. *)
Theorem C33_equivalence FO (s t u : security FO) : marking FO s -> marking FO t -> marking FO u ->
  sec_eq FO s s = Ok true
  /\ (sec_eq FO s t = Ok true -> sec_eq FO t s = Ok true)
  /\ (sec_eq FO s t = Ok true -> sec_eq FO t u = Ok true -> sec_eq FO s u = Ok true).
Proof.
  intros Hs Ht Hu.
  assert (T : forall x y : security FO, marking FO x -> marking FO y ->
     (sec_eq FO x y = Ok true <-> forall a, a <> Codewords -> a <> Encryption -> x a = y a)).
  { intros x y Hx Hy. destruct (C33_compare_partial FO x y Hx Hy) as (b & -> & H). rewrite <- H. split; congruence. }
  rewrite !T by auto. split; [auto|]. split; [intros H a N1 N2; symmetry; auto|]. intros H1 H2 a N1 N2. now rewrite H1, H2 by auto.
Qed.

(** It does not distinguish every marking: codewords (and encryption) are not compared. *)
Theorem C33_distinguish_refuted FO : exists s t : security FO, marking FO s /\ marking FO t
  /\ s Codewords <> t Codewords /\ sec_eq FO s t = Ok true.
Proof.
  exists (sec_default FO), (sec_put FO (sec_default FO) Codewords (VStr (str "TK"))).
  split; [|split; [|split; [discriminate|reflexivity]]]; intros []; cbn; eauto.
Qed.

(** ** Examples *)

Definition ex_sec FO : security FO :=
  sec_put FO (sec_put FO (sec_put FO (sec_default FO) Classification (VStr (str "S")))
    ControlAndHandling (VStr (str "AB"))) CopyNumber (VInt 7).
Example ex_marking FO : marking FO (ex_sec FO).
Proof. intros []; cbn; eauto. Qed.

Lemma new_readable FO rows prefix : In (rows, prefix) sec_headers ->
  sec_readable FO rows prefix {| h_st := init_state FO; h_attr := [] |}.
Proof. intro H. cbn in H. repeat (destruct H as [H|H]; [injection H as <- <-; eexists; vm_compute; reflexivity|]). destruct H. Qed.

Definition seen FO (r : res (security FO)) : list (option (pyval FO)) :=
  match r with Ok s => map (fun a => Some (s a)) [Classification; ControlAndHandling; CopyNumber; Encryption] | Err _ => [] end.
Example ex_file_sec FO :
  seen FO (get_security FO desc_NitfFileHeader
    (fst (set_security FO desc_NitfFileHeader {| h_st := init_state FO; h_attr := [] |} "fs" (ex_sec FO))) "fs")
  = [Some (VStr (str "S")); Some (VStr (str "AB")); Some (VInt 7); Some (VInt 0)].
Proof. vm_compute. reflexivity. Qed.
(** A DES subheader has no copy number. *)
Example ex_des_sec FO :
  seen FO (get_security FO desc_NitfDesSubheader
    (fst (set_security FO desc_NitfDesSubheader {| h_st := init_state FO; h_attr := [] |} "des" (ex_sec FO))) "des")
  = [Some (VStr (str "S")); Some (VStr (str "AB")); Some (VInt 0); Some (VInt 0)].
Proof. vm_compute. reflexivity. Qed.
Example ex_diff FO : sec_eq FO (ex_sec FO) (sec_default FO) = Ok false.
Proof. vm_compute. reflexivity. Qed.

Print Assumptions C33_round_trip.
Print Assumptions C33_compare_partial.
Print Assumptions C33_equivalence.
Print Assumptions C33_distinguish_refuted.
