(** What writing a file leaves alone in the headers; files without literals. *)
From Verif Require Import Base BaseLemmas Engine Wf EngineLemmas Codec RoundTrip Rewrite Literal
  Positions Keys Deps Assign Update Spec Reach Decimal DecimalLemmas DescsHdr Utf8 Handles Tre TreLemmas P_RoundTrip P_Fields P_Tre
  TrePlace TrePlaceLemmas P_TrePlace Scalar Security P_Security Image ImageLemmas P_Image File FileLemmas P_File FileRead.
From Coq Require Import ZifyBool ZifyNat ZifyN.
Open Scope list_scope.
Ltac Zify.zify_post_hook ::= idtac.

(** The fields of a subheader that writing may change: lengths, overflow numbers and contents of
    the TRE areas, and the user subheader of a DES. *)
Definition rewritten (k : kind) : list string :=
  match k with
  | KImage => ["ixshdl"; "ixofl"; "ixshd"; "udidl"; "udofl"; "udid"]
  | KGraphic => ["sxshdl"; "sxshd"]
  | KText => ["txshdl"; "txsofl"; "txshd"]
  | KDes => ["desshl"; "desshf"]
  | KRes => []
  end%string.
(** Those of the file header. *)
Definition rewritten_file : list string :=
  ["xhdl"; "xhdlofl"; "xhd"; "udhdl"; "udhofl"; "udhd";
   "hl"; "fl"; "numi"; "nums"; "numt"; "numdes"; "numres"; "lish"; "li"; "lssh"; "ls"; "ltsh"; "lt"; "ldsh"; "ld"; "lresh"; "lre"]%string.

(** A field that is none of the named ones and whose presence, size and value depend on none. *)
Definition independent_of (rows : list row) (names : list string) (nm : string) : Prop :=
  ~ In nm names /\ forall f f' nm', lookup (mk_fs rows) nm = Some f -> In nm' names -> lookup (mk_fs rows) nm' = Some f' ->
    ~ reaches (mk_fs rows) f f'.

Section K.
Variable FO : FloatOps.
Notation st := (state FO).
Notation hdr := (hdr FO).
Notation seg := (seg FO).

(** [h'] has the same values as [h] in all fields not named. *)
Definition same_else (rows : list row) (names : list string) (h h' : hdr) : Prop :=
  forall y p, In y (fs_fields (mk_fs rows)) ->
    (forall nm f, In nm names -> lookup (mk_fs rows) nm = Some f -> y <> f) ->
    stored FO (h_st h') y p = stored FO (h_st h) y p.

Lemma se_refl rows names (h : hdr) : same_else rows names h h.
Proof. intros y p _ _. reflexivity. Qed.
Lemma se_trans rows names (a b c : hdr) : same_else rows names a b -> same_else rows names b c -> same_else rows names a c.
Proof. intros H1 H2 y p Hy Hn. rewrite (H2 y p Hy Hn). exact (H1 y p Hy Hn). Qed.

Lemma se_get rows names (h h' : hdr) nm key : same_else rows names h h' -> independent_of rows names nm ->
  get FO (mk_fs rows) (h_st h') nm key = get FO (mk_fs rows) (h_st h) nm key.
Proof.
  intros HS (N1 & N2). destruct (lookup (mk_fs rows) nm) as [f|] eqn:L.
  - apply (get_same_reads FO rows _ _ nm f key L).
    + apply HS; [exact (lookup_in _ _ _ L)|]. intros nm' f' Hn L' ->.
      apply N1. apply has_name_lookup in L, L'. rewrite L in L'. injection L' as ->. exact Hn.
    + intros y p Hy. apply HS; [now apply (reaches_in rows) in Hy|]. intros nm' f' Hn L' ->. exact (N2 f f' nm' eq_refl Hn L' Hy).
  - unfold get. rewrite L. reflexivity.
Qed.

(** A set of names closed under dependence. *)
Definition closedb (rows : list row) (names : list string) : bool :=
  forallb (fun nm => match lookup (mk_fs rows) nm with
                     | Some f => forallb (fun r => existsb (String.eqb (fst r)) names) (field_refs f) | None => false end) names.
Lemma closed_reaches rows names nm f y : closedb rows names = true -> In nm names -> lookup (mk_fs rows) nm = Some f ->
  reaches (mk_fs rows) f y -> exists nm', In nm' names /\ lookup (mk_fs rows) nm' = Some y.
Proof.
  intros HC Hn L HR. revert nm Hn L. unfold closedb in HC. rewrite forallb_forall in HC.
  assert (D : forall f z nm, In nm names -> lookup (mk_fs rows) nm = Some f -> reads_directly (mk_fs rows) f z ->
     exists nm', In nm' names /\ lookup (mk_fs rows) nm' = Some z).
  { intros f0 z nm Hn L (r & Hr & Hz). specialize (HC nm Hn). rewrite L in HC. rewrite forallb_forall in HC. specialize (HC r Hr).
    apply existsb_exists in HC as (x & Hx & E). apply String.eqb_eq in E. rewrite E in Hz. eauto. }
  induction HR as [f0 y HD|f0 z y HD _ IH]; intros nm Hn L.
  - exact (D f0 y nm Hn L HD).
  - destruct (D f0 _ nm Hn L HD) as (nm' & Hn' & L'). exact (IH nm' Hn' L').
Qed.
Definition apartb (a b : list string) : bool := forallb (fun x => negb (existsb (String.eqb x) b)) a.
Lemma apart_in a b x : apartb a b = true -> In x a -> ~ In x b.
Proof.
  intros HA Hx Hb. unfold apartb in HA. rewrite forallb_forall in HA. specialize (HA x Hx). apply negb_true_iff in HA.
  assert (T : existsb (String.eqb x) b = true) by (apply existsb_exists; exists x; split; [exact Hb|apply String.eqb_refl]). congruence.
Qed.
Lemma closed_independent rows names bad nm : closedb rows names = true -> apartb names bad = true -> In nm names ->
  independent_of rows bad nm.
Proof.
  intros HC HA Hn. split; [exact (apart_in _ _ _ HA Hn)|]. intros f f' nm' L Hn' L' HR.
  destruct (closed_reaches rows names nm f f' HC Hn L HR) as (x & Hx & Lx).
  apply has_name_lookup in Lx, L'. rewrite Lx in L'. injection L' as ->. exact (apart_in _ _ _ HA Hx Hn').
Qed.

(** ** Assignments that stay within the names *)

(** Assigning to [nm] changes fields among [names] only. *)
Definition withinb (rows : list row) (names : list string) (nm : string) : bool :=
  existsb (String.eqb nm) names && match lookup (mk_fs rows) nm with
    | Some f => forallb (fun r => existsb (String.eqb (fst r)) names
        && match lookup (mk_fs rows) (fst r) with Some g => match field_refs g with [] => true | _ => false end | None => true end) (field_refs f)
    | None => true end.
Lemma hset_within rows names (h h' : hdr) nm v r : withinb rows names nm = true -> hset FO rows h nm v = (h', r) -> same_else rows names h h'.
Proof.
  intros HW H y p Hy HN. unfold withinb in HW. apply andb_true_iff in HW as [W1 W2].
  apply existsb_exists in W1 as (x & Hx & E). apply String.eqb_eq in E. subst x.
  destruct (lookup (mk_fs rows) nm) as [f|] eqn:L.
  - apply (hset_stored FO rows h h' nm v r f y p L H Hy (HN nm f Hx L)). intros _ HR.
    rewrite forallb_forall in W2.
    assert (D : forall z, reads_directly (mk_fs rows) f z -> field_refs z = [] /\ exists nm', In nm' names /\ lookup (mk_fs rows) nm' = Some z).
    { intros z (q & Hq & Hz). specialize (W2 q Hq). apply andb_true_iff in W2 as [W2 W3]. rewrite Hz in W3.
      split; [destruct (field_refs z); [reflexivity|discriminate]|].
      apply existsb_exists in W2 as (x & Hx' & E). apply String.eqb_eq in E. rewrite E in Hz. eauto. }
    inversion HR as [HD|z HD HR']; subst.
    + destruct (D y HD) as (_ & nm' & Hn' & L'). exact (HN nm' y Hn' L' eq_refl).
    + destruct (D z HD) as (Z0 & _). inversion HR' as [(q & Hq & _)|w (q & Hq & _) _]; rewrite Z0 in Hq; destruct Hq.
  - unfold hset in H. rewrite L in H. injection H as <- _. reflexivity.
Qed.

(** [prepare] only assigns to the overflow number and the data of the areas. *)
Definition areas_within (rows : list row) (names : list string) (areas : list tarea) : Prop :=
  forall a, In a areas -> (forall (h h' : hdr) v r, hset FO rows h (ta_ofl a) v = (h', r) -> same_else rows names h h')
                       /\ (forall (h h' : hdr) v r, hset FO rows h (ta_data a) v = (h', r) -> same_else rows names h h').
Lemma store_within rows names areas : areas_within rows names areas -> forall heads (h h' : hdr) r,
  store_areas FO rows h areas heads = (h', r) -> same_else rows names h h'.
Proof.
  induction areas as [|a areas IH]; intros HA heads h h' r H; cbn [store_areas] in H.
  - injection H as <- _. apply se_refl.
  - destruct heads as [|b heads]; [injection H as <- _; apply se_refl|].
    destruct (hint FO rows h (ta_len a)) as [n|e]; [|injection H as <- _; apply se_refl].
    destruct (HA a (or_introl eq_refl)) as (A1 & A2).
    assert (HA' : areas_within rows names areas) by (intros x Hx; apply HA; now right).
    destruct (if (n >? 0)%Z then hset FO rows h (ta_ofl a) (VInt 0) else (h, Ok tt)) as [h1 r1] eqn:E1.
    assert (S1 : same_else rows names h h1).
    { destruct (n >? 0)%Z; [exact (A1 _ _ _ _ E1)|injection E1 as <- _; apply se_refl]. }
    destruct r1 as [u|e]; [|injection H as <- _; exact S1].
    destruct (match b with [] => (h1, Ok tt) | _ :: _ => hset FO rows h1 (ta_data a) (VBytes b) end) as [h2 r2] eqn:E2.
    assert (S2 : same_else rows names h1 h2).
    { destruct b; [injection E2 as <- _; apply se_refl|exact (A2 _ _ _ _ E2)]. }
    destruct r2 as [u'|e]; [|injection H as <- _; exact (se_trans _ _ _ _ _ S1 S2)].
    exact (se_trans _ _ _ _ _ S1 (se_trans _ _ _ _ _ S2 (IH HA' _ _ _ _ H))).
Qed.
Lemma prepare_within rows names areas idx (h h' : hdr) ts n o r : areas_within rows names areas ->
  prepare FO rows areas idx h ts n = (h', o, r) -> same_else rows names h h'.
Proof.
  intros HA H. unfold prepare in H.
  destruct (place FO ts (map (fun _ => []) areas) []) as [[heads des]|e]; [|injection H as <- _ _; apply se_refl].
  destruct (store_areas FO rows h areas heads) as [h1 r1] eqn:E1. assert (S1 := store_within rows names areas HA _ _ _ _ E1).
  destruct r1 as [u|e]; [|injection H as <- _ _; exact S1].
  destruct des as [|c des]; [injection H as <- _ _; exact S1|].
  destruct areas as [|a areas]; [injection H as <- _ _; exact S1|].
  destruct (hset FO rows h1 (ta_ofl a) (VInt (Z.of_nat (S n)))) as [h2 r2] eqn:E2. injection H as <- _ _.
  destruct (HA a (or_introl eq_refl)) as (A1 & _). exact (se_trans _ _ _ _ _ S1 (A1 _ _ _ _ E2)).
Qed.

Lemma sub_within k : areas_within (sub_rows k) (rewritten k) (sub_areas k).
Proof.
  intros a Ha. destruct k; cbn [sub_areas] in Ha; try (destruct Ha; fail).
  - destruct Ha as [<-|[<-|[]]]; (split; intros h h' v r; apply hset_within; vm_compute; reflexivity).
  - destruct Ha as [<-|[]]. split; intros h h' v r; [|apply hset_within; vm_compute; reflexivity].
    intro H. unfold hset in H. replace (lookup (mk_fs (sub_rows KGraphic)) (ta_ofl _)) with (@None field) in H by (vm_compute; reflexivity).
    injection H as <- _. exact (se_refl _ _ h).
  - destruct Ha as [<-|[]]; (split; intros h h' v r; apply hset_within; vm_compute; reflexivity).
Qed.
Lemma file_within : areas_within hrows rewritten_file file_areas.
Proof. intros a [<-|[<-|[]]]; (split; intros h h' v r; apply hset_within; vm_compute; reflexivity). Qed.

Lemma prepped_else k i l n l' ov : prepped FO k i l n l' ov -> Forall2 (fun s s' => same_else (sub_rows k) (rewritten k) (s_hdr FO s) (s_hdr FO s')) l l'.
Proof.
  induction 1 as [|i s l n h o ov l' ov' H1 _ _ IH]; [constructor|]. constructor; [|exact IH]. cbn [with_hdr s_hdr].
  destruct (has_tres k); [exact (prepare_within _ _ _ _ _ _ _ _ _ _ (sub_within k) H1)|]. destruct H1 as (-> & _). apply se_refl.
Qed.
Lemma put_ush_else k (s : seg) h : put_ush FO k s = Ok h -> same_else (sub_rows k) (rewritten k) (s_hdr FO s) h.
Proof.
  intro H. unfold put_ush in H. apply bind_ok_elim in H as (v & _ & H).
  destruct (hset FO (sub_rows k) (s_hdr FO s) (ush_name k) v) as [h2 [[]|e]] eqn:E; [|discriminate]. injection H as <-.
  destruct k; try (apply hset_within with (2 := E); vm_compute; reflexivity);
    (unfold hset in E; match type of E with context [lookup ?a ?b] => replace (lookup a b) with (@None field) in E by (vm_compute; reflexivity) end;
     injection E as <- ; exact (se_refl _ _ (s_hdr FO s))).
Qed.
Lemma wrote_else k l l' ps : wrote_all FO k l l' ps -> Forall2 (fun s s' => same_else (sub_rows k) (rewritten k) (s_hdr FO s) (s_hdr FO s')) l l'.
Proof.
  induction 1 as [|s l s' l' p ps (h & H & -> & _) _ IH]; constructor; [|exact IH]. cbn [with_hdr s_hdr]. exact (put_ush_else k s h H).
Qed.
Lemma Forall2_trans {A} (R : A -> A -> Prop) : (forall a b c, R a b -> R b c -> R a c) -> forall l m n, Forall2 R l m -> Forall2 R m n -> Forall2 R l n.
Proof.
  intros HT l m n H. revert n. induction H as [|a b l m H1 _ IH]; intros n Hn; inversion Hn; subst; constructor; eauto.
Qed.


(** ** What writing leaves alone *)

(** [s'] is [s] but for the fields that writing sets. *)
Definition kept (k : kind) (s s' : seg) : Prop :=
  same_but_header FO s s' /\ forall nm key, independent_of (sub_rows k) (rewritten k) nm ->
    get FO (mk_fs (sub_rows k)) (h_st (s_hdr FO s')) nm key = get FO (mk_fs (sub_rows k)) (h_st (s_hdr FO s)) nm key.

Lemma kept_both k l l' : Forall2 (same_but_header FO) l l' -> Forall2 (fun s s' => same_else (sub_rows k) (rewritten k) (s_hdr FO s) (s_hdr FO s')) l l' ->
  Forall2 (kept k) l l'.
Proof.
  induction 1 as [|s s' l l' H _ IH]; intro HE; inversion_clear HE as [|? ? ? ? E1 E2]; constructor; [|exact (IH E2)].
  split; [exact H|]. intros nm key HI. exact (se_get (sub_rows k) (rewritten k) _ _ nm key E1 HI).
Qed.

Theorem C27_keeps E f f' bytes : linked FO f -> file_write FO E f = Ok (f', bytes) ->
  nf_tres FO f' = nf_tres FO f
  /\ (forall k, k <> KDes -> Forall2 (kept k) (nf_segs FO f k) (nf_segs FO f' k))
  /\ without_overflow FO (kept KDes) (nf_segs FO f KDes) (nf_segs FO f' KDes)
  /\ (forall nm key, independent_of desc_NitfFileHeader rewritten_file nm ->
        get FO (mk_fs desc_NitfFileHeader) (h_st (nf_hdr FO f')) nm key = get FO (mk_fs desc_NitfFileHeader) (h_st (nf_hdr FO f)) nm key).
Proof.
  intros HL HW. destruct (C27_leaves_segments FO E f f' bytes HL HW) as (T & K & _ & _).
  destruct (file_write_ok FO E f f' bytes HL HW) as (h1 & g & g' & ps & hb & [WP WA _ _ _ _ _ _ _ WO _ WSg WD _ _ _ _]).
  destruct WP as (des0 & h0 & o & ov0 & ov1 & ov2 & ov3 & D0 & PF & O0 & P1 & P2 & P3 & G1 & G2 & _ & _ & HC).
  split; [exact T|]. split; [|split].
  - intros k Hk. apply kept_both; [exact (K k Hk)|]. rewrite (WSg k Hk).
    assert (TR := Forall2_trans (fun s s' : seg => same_else (sub_rows k) (rewritten k) (s_hdr FO s) (s_hdr FO s')) (fun a b c => se_trans _ _ _ _ _)).
    assert (W := wrote_else k _ _ _ (WA k)).
    destruct k.
    + exact (TR _ _ _ (prepped_else _ _ _ _ _ _ P1) W).
    + exact (TR _ _ _ (prepped_else _ _ _ _ _ _ P2) W).
    + exact (TR _ _ _ (prepped_else _ _ _ _ _ _ P3) W).
    + contradiction.
    + rewrite G2 in W. exact W.
  - apply (drop_without FO (kept KDes) _ des0 D0).
    destruct (prepped_linked _ _ _ _ _ _ _ P1) as (_ & _ & O1). destruct (prepped_linked _ _ _ _ _ _ _ P2) as (_ & _ & O2).
    destruct (prepped_linked _ _ _ _ _ _ _ P3) as (_ & _ & O3).
    assert (O0' : Forall (fun s => exists o, ov_is FO o s) ov0) by (clear - O0; induction O0; constructor; eauto).
    assert (OVS : Forall (fun s => exists o, ov_is FO o s) (ov0 ++ ov1 ++ ov2 ++ ov3)) by (repeat (apply Forall_app; split); assumption).
    assert (WDes := WA KDes). rewrite G1, <- !app_assoc in WDes.
    destruct (wrote_all_app _ _ _ _ _ _ WDes) as (dl' & ov' & pa & pb & E1 & E2 & WDa & WDb).
    assert (ED : nf_segs FO f' KDes = dl').
    { destruct WD as (ov2' & W1 & W2 & W3). destruct (drop_overflow_kept _ _ _ D0) as (_ & K0).
      assert (KA := wrote_all_desid _ _ _ _ _ WDa K0).
      assert (KB : Forall (fun s => is_overflow FO (s_hdr FO s) = Ok true) ov').
      { apply (wrote_all_desid _ _ _ _ _ WDb). eapply Forall_impl; [|exact OVS]. intros s (o' & _ & Ho & _). exact Ho. }
      assert (X := drop_overflow_split _ _ _ KA KB). assert (Y := drop_overflow_split _ _ _ W2 W3).
      rewrite <- E1 in X. rewrite <- W1, X in Y. now injection Y. }
    rewrite ED. apply kept_both; [exact (wrote_same FO KDes _ _ _ WDa)|exact (wrote_else KDes _ _ _ WDa)].
  - intros nm key HI. assert (S0 := prepare_within _ _ _ _ _ _ _ _ _ _ file_within PF).
    apply (se_get hrows rewritten_file (nf_hdr FO f) (nf_hdr FO f') nm key); [|exact HI].
    eapply se_trans; [exact S0|]. intros y p Hy HN.
    rewrite (WO y p Hy).
    + apply (HC y p Hy). intros k. apply (HN (count_name k)); [destruct k; cbn; tauto|]. apply (proj1 (proj1 (count_fld k))).
    + apply (HN "hl"%string); [cbn; tauto|]. apply (total_fld "hl" (or_introl eq_refl)).
    + apply (HN "fl"%string); [cbn; tauto|]. apply (total_fld "fl" (or_intror eq_refl)).
    + intros k b. apply (HN (size_name k b)); [destruct k, b; cbn; tauto|]. apply (lp_look _ _ _ (size_fld k b)).
Qed.
End K.

(** With [ex_c25_linked] and [ex_c25]: the hypotheses of [C27_keeps] hold of [ex_file], and these
    fields are among those left alone. *)
Example ex_c27_ftitle : independent_of desc_NitfFileHeader rewritten_file "ftitle".
Proof. apply (closed_independent _ ["ftitle"%string]); [vm_compute; reflexivity ..|now left]. Qed.
Example ex_c27_iid1 : independent_of (sub_rows KImage) (rewritten KImage) "iid1".
Proof. apply (closed_independent _ ["iid1"%string]); [vm_compute; reflexivity ..|now left]. Qed.
Example ex_c27_nbpp : independent_of (sub_rows KImage) (rewritten KImage) "nbpp".
Proof. apply (closed_independent _ ["nbpp"%string]); [vm_compute; reflexivity ..|now left]. Qed.

Print Assumptions C27_keeps.
