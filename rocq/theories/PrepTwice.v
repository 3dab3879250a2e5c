(** Placing the TREs of a header a second time. *)
From Verif Require Import Base BaseLemmas Engine Wf EngineLemmas Codec RoundTrip Rewrite Literal
  Positions Keys Deps Assign Update Ext Spec DescsHdr Utf8 Tre TreLemmas Handles TrePlace TrePlaceLemmas.
From Coq Require Import ZifyBool ZifyNat ZifyN.
Open Scope list_scope.
Ltac Zify.zify_post_hook ::= idtac.

(** The areas of a header as far as a second write is concerned: the overflow number of an area
    that is empty is the number 0 (it was never set, or set to 0). *)
Definition settled FO rows (areas : list tarea) (h : hdr FO) : Prop :=
  st_impl FO (h_st h) = false /\ forall a, In a areas ->
    exists n, get FO (mk_fs rows) (h_st h) (ta_len a) [] = Ok (VInt n) /\ (0 <= n)%Z
      /\ (n = 0%Z -> forall f, lookup (mk_fs rows) (ta_ofl a) = Some f -> stored FO (h_st h) f [] = SVal (VInt 0)).

Section Eqh.
Variable FO : FloatOps.
Variable rows : list row.
Let fs := mk_fs rows.
Notation st := (state FO).
Notation hdr := (hdr FO).

Definition eqh (h h' : hdr) : Prop := eqst FO rows (h_st h) (h_st h').
Lemma eqh_refl h : eqh h h.
Proof. apply eqst_refl. Qed.
Lemma eqh_sym h h' : eqh h h' -> eqh h' h.
Proof. apply eqst_sym. Qed.
Lemma eqh_trans a b c : eqh a b -> eqh b c -> eqh a c.
Proof. apply eqst_trans. Qed.

Definition declared (nm : string) : bool := match lookup fs nm with Some _ => true | None => false end.
Lemma hget_eq h h' nm : declared nm = true -> eqh h h' -> hget FO rows h nm = hget FO rows h' nm.
Proof.
  unfold declared, hget. fold fs. destruct (lookup fs nm); [|discriminate]. intros _ H. now apply eq_get.
Qed.
Lemma hint_eq h h' nm : declared nm = true -> eqh h h' -> hint FO rows h nm = hint FO rows h' nm.
Proof. intros D H. unfold hint. now rewrite (hget_eq h h' nm D H). Qed.
Lemma hset_eq h h' nm v : eqh h h' ->
  eqh (fst (hset FO rows h nm v)) (fst (hset FO rows h' nm v)) /\ snd (hset FO rows h nm v) = snd (hset FO rows h' nm v).
Proof.
  intro H. unfold hset. fold fs. destruct (lookup fs nm); [|split; [exact H|reflexivity]].
  assert (X := eq_set FO rows (h_st h) (h_st h') nm [] (SVal v) H). fold fs in X.
  destruct (set FO fs (h_st h) nm [] (SVal v)) as [s r], (set FO fs (h_st h') nm [] (SVal v)) as [s' r']. exact X.
Qed.

Lemma store_eq areas : forallb (fun a => declared (ta_len a)) areas = true -> forall heads h h', eqh h h' ->
  eqh (fst (store_areas FO rows h areas heads)) (fst (store_areas FO rows h' areas heads))
  /\ snd (store_areas FO rows h areas heads) = snd (store_areas FO rows h' areas heads).
Proof.
  induction areas as [|a areas IH]; intros HD heads h h' H; cbn [store_areas]; [split; [exact H|reflexivity]|].
  cbn [forallb] in HD. apply andb_true_iff in HD as [D1 D2].
  destruct heads as [|b heads]; [split; [exact H|reflexivity]|].
  rewrite (hint_eq h h' _ D1 H). destruct (hint FO rows h' (ta_len a)) as [n|e]; [|split; [exact H|reflexivity]].
  assert (X : eqh (fst (if (n >? 0)%Z then hset FO rows h (ta_ofl a) (VInt 0) else (h, Ok tt)))
                  (fst (if (n >? 0)%Z then hset FO rows h' (ta_ofl a) (VInt 0) else (h', Ok tt)))
           /\ snd (if (n >? 0)%Z then hset FO rows h (ta_ofl a) (VInt 0) else (h, Ok tt))
              = snd (if (n >? 0)%Z then hset FO rows h' (ta_ofl a) (VInt 0) else (h', Ok tt))).
  { destruct (n >? 0)%Z; [apply hset_eq; exact H|split; [exact H|reflexivity]]. }
  destruct (if (n >? 0)%Z then hset FO rows h (ta_ofl a) (VInt 0) else (h, Ok tt)) as [h1 r1].
  destruct (if (n >? 0)%Z then hset FO rows h' (ta_ofl a) (VInt 0) else (h', Ok tt)) as [h1' r1'].
  cbn [fst snd] in X. destruct X as (X1 & <-). destruct r1 as [u|e]; [|split; [exact X1|reflexivity]].
  assert (Y : eqh (fst (match b with [] => (h1, Ok tt) | _ :: _ => hset FO rows h1 (ta_data a) (VBytes b) end))
                  (fst (match b with [] => (h1', Ok tt) | _ :: _ => hset FO rows h1' (ta_data a) (VBytes b) end))
           /\ snd (match b with [] => (h1, Ok tt) | _ :: _ => hset FO rows h1 (ta_data a) (VBytes b) end)
              = snd (match b with [] => (h1', Ok tt) | _ :: _ => hset FO rows h1' (ta_data a) (VBytes b) end)).
  { destruct b; [split; [exact X1|reflexivity]|apply hset_eq; exact X1]. }
  destruct (match b with [] => (h1, Ok tt) | _ :: _ => hset FO rows h1 (ta_data a) (VBytes b) end) as [h2 r2].
  destruct (match b with [] => (h1', Ok tt) | _ :: _ => hset FO rows h1' (ta_data a) (VBytes b) end) as [h2' r2'].
  cbn [fst snd] in Y. destruct Y as (Y1 & <-). destruct r2 as [u'|e]; [|split; [exact Y1|reflexivity]].
  exact (IH D2 heads h2 h2' Y1).
Qed.

Lemma prepare_eq areas idx h h' ts n : forallb (fun a => declared (ta_len a)) areas = true -> eqh h h' ->
  exists h1 h1' o r, prepare FO rows areas idx h ts n = (h1, o, r) /\ prepare FO rows areas idx h' ts n = (h1', o, r) /\ eqh h1 h1'.
Proof.
  intros HD H. unfold prepare. destruct (place FO ts (map (fun _ => []) areas) []) as [[heads des]|e]; [|do 4 eexists; split; [reflexivity|]; split; [reflexivity|exact H]].
  assert (X := store_eq areas HD heads h h' H).
  destruct (store_areas FO rows h areas heads) as [h1 r1], (store_areas FO rows h' areas heads) as [h1' r1'].
  cbn [fst snd] in X. destruct X as (X1 & <-).
  destruct r1 as [u|e]; [|do 4 eexists; split; [reflexivity|]; split; [reflexivity|exact X1]].
  destruct des as [|c des]; [do 4 eexists; split; [reflexivity|]; split; [reflexivity|exact X1]|].
  destruct areas as [|a areas]; [do 4 eexists; split; [reflexivity|]; split; [reflexivity|exact X1]|].
  assert (Y := hset_eq h1 h1' (ta_ofl a) (VInt (Z.of_nat (S n))) X1).
  destruct (hset FO rows h1 (ta_ofl a) (VInt (Z.of_nat (S n)))) as [h2 r2], (hset FO rows h1' (ta_ofl a) (VInt (Z.of_nat (S n)))) as [h2' r2'].
  cbn [fst snd] in Y. destruct Y as (Y1 & <-). do 4 eexists. split; [reflexivity|]. split; [reflexivity|exact Y1].
Qed.

(** ** Areas, with the overflow number possibly under a wrong name *)

Definition twin (a a' : tarea) : Prop :=
  ta_len a = ta_len a' /\ ta_data a = ta_data a' /\ (ta_ofl a = ta_ofl a' \/ lookup fs (ta_ofl a) = None).

Hypothesis Hwf : wf_rows rows = true.

Section One.
Variables a a' : tarea.
Variables lf of df : field.
Hypothesis A : afields rows a' lf of df.
Hypothesis T : twin a a'.

Lemma tw_len : lookup fs (ta_len a) = Some lf.
Proof. destruct T as (-> & _). apply A. Qed.
Lemma tw_data : lookup fs (ta_data a) = Some df.
Proof. destruct T as (_ & -> & _). apply A. Qed.
Lemma tw_ofl f : lookup fs (ta_ofl a) = Some f -> f = of.
Proof.
  destruct T as (_ & _ & [E|E]); rewrite E; [|discriminate]. intro L. assert (X := af_ofl _ _ _ _ _ A). unfold fs in L. congruence.
Qed.
Lemma tw_get_len (s : st) n : get FO fs s (ta_len a) [] = Ok (VInt n) -> get FO fs s (ta_len a') [] = Ok (VInt n).
Proof. destruct T as (-> & _). auto. Qed.

Lemma tw_set_ofl h n z : st_impl FO (h_st h) = false -> get FO fs (h_st h) (ta_len a) [] = Ok (VInt n) -> n <> 0%Z ->
  exists h1, hset FO rows h (ta_ofl a) (VInt z) = (h1, Ok tt)
    /\ (lookup fs (ta_ofl a) = Some of /\ h_st h1 = assigned FO (h_st h) of [] (SVal (VInt z))
        \/ lookup fs (ta_ofl a) = None /\ h_st h1 = h_st h).
Proof.
  intros HI HL Hn. unfold hset. fold fs. destruct T as (T1 & T2 & [E|E]).
  - rewrite E. assert (X := af_ofl _ _ _ _ _ A). unfold fs. rewrite X.
    rewrite (set_ofl FO rows a' lf of df A Hwf (h_st h) n z HI (tw_get_len _ _ HL) Hn).
    eexists. split; [reflexivity|]. left. split; reflexivity.
  - rewrite E. eexists. split; [reflexivity|]. right. split; reflexivity.
Qed.
Lemma tw_set_data h b : st_impl FO (h_st h) = false ->
  exists h1, hset FO rows h (ta_data a) (VBytes b) = (h1, Ok tt) /\ h_st h1 = with_data FO lf df (h_st h) b.
Proof.
  intro HI. unfold hset. fold fs. rewrite tw_data. destruct T as (_ & E & _). rewrite E.
  unfold fs. rewrite (set_data FO rows a' lf of df A (h_st h) b HI). eexists. split; reflexivity.
Qed.
Lemma tw_in : In lf (fs_fields fs) /\ In of (fs_fields fs) /\ In df (fs_fields fs).
Proof. destruct A. repeat split; eapply lookup_in; eauto. Qed.

(** After one pass: what the fields of the area hold if [b] went there. *)
Definition fixed_at (s : st) (b : list N) : Prop :=
  (b <> [] -> stored FO s df [] = SVal (VBytes b) /\ stored FO s lf [] = SVal (VInt (Z.of_nat (List.length b) + 3)))
  /\ forall f, lookup fs (ta_ofl a) = Some f -> stored FO s f [] = SVal (VInt 0).

Lemma get_len_stored (s : st) z : stored FO s lf [] = SVal (VInt z) -> get FO fs s (ta_len a) [] = Ok (VInt z).
Proof.
  intro H. destruct T as (-> & _). unfold fs. rewrite (get_len FO rows a' lf of df A), H. reflexivity.
Qed.
Lemma get_len_eq (s t : st) : stored FO s lf [] = stored FO t lf [] -> get FO fs s (ta_len a) [] = get FO fs t (ta_len a) [].
Proof. intro H. destruct T as (-> & _). unfold fs. now rewrite !(get_len FO rows a' lf of df A), H. Qed.

Definition step1 (h : hdr) (n : Z) (b : list N) : hdr * res unit :=
  let '(h1, r1) := if (n >? 0)%Z then hset FO rows h (ta_ofl a) (VInt 0) else (h, Ok tt) in
  match r1 with
  | Err e => (h1, Err e)
  | Ok _ => match b with [] => (h1, Ok tt) | _ => hset FO rows h1 (ta_data a) (VBytes b) end
  end.

Lemma step1_first h n b : st_impl FO (h_st h) = false -> get FO fs (h_st h) (ta_len a) [] = Ok (VInt n) -> (0 <= n)%Z ->
  (n = 0%Z -> forall f, lookup fs (ta_ofl a) = Some f -> stored FO (h_st h) f [] = SVal (VInt 0)) ->
  exists h', step1 h n b = (h', Ok tt) /\ st_impl FO (h_st h') = false /\ fixed_at (h_st h') b
    /\ (exists m, get FO fs (h_st h') (ta_len a) [] = Ok (VInt m) /\ (0 <= m)%Z)
    /\ (forall y p, In y (fs_fields fs) -> y <> lf -> y <> df -> (forall f, lookup fs (ta_ofl a) = Some f -> y <> f) -> stored FO (h_st h') y p = stored FO (h_st h) y p).
Proof.
  intros HI HL Hn H0. destruct tw_in as (I1 & I2 & I3).
  destruct (afields_ne rows a' lf of df A) as (N1 & N2 & N3).
  assert (S1 : exists h1, (if (n >? 0)%Z then hset FO rows h (ta_ofl a) (VInt 0) else (h, Ok tt)) = (h1, Ok tt)
     /\ st_impl FO (h_st h1) = false /\ (forall f, lookup fs (ta_ofl a) = Some f -> stored FO (h_st h1) f [] = SVal (VInt 0))
     /\ (forall y p, In y (fs_fields fs) -> (forall f, lookup fs (ta_ofl a) = Some f -> y <> f) -> stored FO (h_st h1) y p = stored FO (h_st h) y p)).
  { destruct (n >? 0)%Z eqn:En.
    - destruct (tw_set_ofl h n 0 HI HL) as (h1 & E1 & [(L & E2)|(L & E2)]); [lia| |]; exists h1; (split; [exact E1|]); rewrite E2.
      + split; [exact HI|]. split.
        * intros f Hf. assert (f = of) by congruence. subst f. apply assigned_self.
        * intros y p Hy Hne. apply (assigned_same FO rows); auto.
      + split; [exact HI|]. split; [congruence|auto].
    - exists h. split; [reflexivity|]. split; [exact HI|]. split; [apply H0; lia|auto]. }
  destruct S1 as (h1 & E1 & HI1 & O1 & F1). unfold step1. rewrite E1.
  destruct b as [|b0 bs] eqn:Eb.
  - exists h1. split; [reflexivity|]. split; [exact HI1|]. split; [split; [congruence|exact O1]|]. split.
    + exists n. split; [|exact Hn]. rewrite <- HL. apply get_len_eq. apply F1; [exact I1|].
      intros f Hf. rewrite (tw_ofl f Hf). auto.
    + intros y p Hy _ _ Hne. now apply F1.
  - rewrite <- Eb. assert (Hb : b <> []) by (rewrite Eb; discriminate). clear Eb b0 bs.
    destruct (tw_set_data h1 b HI1) as (h2 & E2 & E3). exists h2.
    split; [exact E2|]. rewrite E3.
    assert (V : (if (Z.of_nat (List.length b) =? 0)%Z then 0 else Z.of_nat (List.length b) + 3)%Z = (Z.of_nat (List.length b) + 3)%Z).
    { destruct b; [congruence|]. cbn [List.length]. replace (_ =? 0)%Z with false by lia. reflexivity. }
    split; [exact HI1|]. split; [split|split].
    + intros _. unfold with_data. split; [|now rewrite assigned_self, V].
      rewrite (assigned_same FO rows); auto. apply assigned_self.
    + intros f Hf. rewrite <- (O1 f Hf). rewrite (tw_ofl f Hf). unfold with_data. now rewrite !(assigned_same FO rows) by auto.
    + exists (Z.of_nat (List.length b) + 3)%Z. split; [|lia]. apply get_len_stored. unfold with_data. now rewrite assigned_self, V.
    + intros y p Hy Ny1 Ny2 Ny3. unfold with_data. rewrite !(assigned_same FO rows) by auto. now apply F1.
Qed.

Lemma step1_again h n b : st_impl FO (h_st h) = false -> get FO fs (h_st h) (ta_len a) [] = Ok (VInt n) -> (0 <= n)%Z -> fixed_at (h_st h) b ->
  exists h', step1 h n b = (h', Ok tt) /\ eqh h' h.
Proof.
  intros HI HL Hn (Fb & Fo). destruct tw_in as (I1 & I2 & I3).
  assert (S1 : exists h1, (if (n >? 0)%Z then hset FO rows h (ta_ofl a) (VInt 0) else (h, Ok tt)) = (h1, Ok tt) /\ eqh h1 h).
  { destruct (n >? 0)%Z eqn:En.
    - destruct (tw_set_ofl h n 0 HI HL) as (h1 & E1 & [(L & E2)|(L & E2)]); [lia| |]; exists h1; (split; [exact E1|]); unfold eqh; rewrite E2.
      + apply eq_reassigned; [exact I2|now apply Fo].
      + apply eqst_refl.
    - exists h. split; [reflexivity|apply eqh_refl]. }
  destruct S1 as (h1 & E1 & Q1). unfold step1. rewrite E1.
  destruct b as [|b0 bs] eqn:Eb; [exists h1; split; [reflexivity|exact Q1]|].
  rewrite <- Eb in *. assert (Hb : b <> []) by (rewrite Eb; discriminate). clear Eb b0 bs.
  destruct (Fb Hb) as (F1 & F2).
  destruct (tw_set_data h1 b) as (h2 & E2 & E3); [rewrite (proj1 Q1); exact HI|]. exists h2. split; [exact E2|].
  unfold eqh. rewrite E3. unfold with_data.
  eapply eqst_trans; [apply eq_assigned; [exact I1|apply eq_assigned; [exact I3|exact Q1]]|].
  eapply eqst_trans; [apply eq_assigned; [exact I1|apply eq_reassigned; [exact I3|exact F1]]|].
  apply eq_reassigned; [exact I1|]. rewrite F2. do 2 f_equal. destruct b; [congruence|]. cbn [List.length].
  now replace (_ =? 0)%Z with false by lia.
Qed.
End One.

Lemma store_step a areas b heads h n : get FO fs (h_st h) (ta_len a) [] = Ok (VInt n) -> declared (ta_len a) = true ->
  store_areas FO rows h (a :: areas) (b :: heads) =
  match step1 a h n b with (h2, Ok _) => store_areas FO rows h2 areas heads | (h2, Err e) => (h2, Err e) end.
Proof.
  intros HL HD. cbn [store_areas]. unfold hint, hget. unfold declared in HD. fold fs. destruct (lookup fs (ta_len a)); [|discriminate].
  rewrite HL. cbn [bind]. unfold step1.
  destruct (if (n >? 0)%Z then hset FO rows h (ta_ofl a) (VInt 0) else (h, Ok tt)) as [h1 [[]|e]]; [|reflexivity].
  destruct (match b with [] => (h1, Ok tt) | _ :: _ => hset FO rows h1 (ta_data a) (VBytes b) end) as [h2 [[]|e]]; reflexivity.
Qed.

(** ** All areas *)

Definition fixed (s : st) (a : tarea) (b : list N) : Prop :=
  forall lf df, lookup fs (ta_len a) = Some lf -> lookup fs (ta_data a) = Some df -> fixed_at a lf df s b.
Definition has_len_val (s : st) (a : tarea) : Prop := exists m, get FO fs s (ta_len a) [] = Ok (VInt m) /\ (0 <= m)%Z.
Definition outside (areas : list tarea) (y : field) : Prop :=
  forall a nm f, In a areas -> In nm (area_names a) -> lookup fs nm = Some f -> y <> f.

Lemma fixed_same (s s' : st) a a' lf of df b : afields rows a' lf of df -> twin a a' ->
  (forall y p, In y (fs_fields fs) -> (y = lf \/ y = df \/ lookup fs (ta_ofl a) = Some y) -> stored FO s' y p = stored FO s y p) ->
  fixed s a b -> fixed s' a b.
Proof.
  intros A T HS H lf0 df0 L0 D0. assert (lf0 = lf) by (rewrite (tw_len a a' lf of df A T) in L0; congruence).
  assert (df0 = df) by (rewrite (tw_data a a' lf of df A T) in D0; congruence). subst lf0 df0.
  destruct (tw_in a' lf of df A) as (I1 & I2 & I3). destruct (H lf df L0 D0) as (F1 & F2). split.
  - intro Hb. rewrite !HS by auto. exact (F1 Hb).
  - intros f Hf. rewrite HS; [exact (F2 f Hf)|eapply lookup_in; eauto|auto].
Qed.

Lemma store_first : forall areas areas' heads h, Forall2 twin areas areas' -> Forall (area_ok rows) areas' -> NoDup (flat_map area_names areas') ->
  List.length heads = List.length areas -> settled FO rows areas h ->
  exists h', store_areas FO rows h areas heads = (h', Ok tt) /\ st_impl FO (h_st h') = false
    /\ Forall2 (fixed (h_st h')) areas heads /\ (forall a, In a areas -> has_len_val (h_st h') a)
    /\ (forall y p, In y (fs_fields fs) -> outside areas y -> stored FO (h_st h') y p = stored FO (h_st h) y p).
Proof.
  induction areas as [|a areas IH]; intros areas' heads h HT HA ND HLen (HI & HS).
  - destruct heads; [|discriminate]. exists h. repeat split; auto. intros a [].
  - destruct heads as [|b heads]; [discriminate|]. inversion HT as [|? a' ? as' T TT]; subst. inversion_clear HA as [|? ? Ha HA'].
    destruct (area_fields rows a' Ha) as (lf & of & df & A).
    assert (ND' : NoDup (flat_map area_names as')).
    { cbn [flat_map] in ND. clear - ND. induction (area_names a'); auto. cbn in ND. inversion_clear ND. auto. }
    assert (DC : declared (ta_len a) = true) by (unfold declared; rewrite (tw_len a a' lf of df A T); reflexivity).
    destruct (HS a (or_introl eq_refl)) as (n & Hn & Hn0 & Hz).
    destruct (step1_first a a' lf of df A T h n b HI Hn Hn0 Hz) as (h1 & E1 & HI1 & FX & LV & FR).
    rewrite (store_step a areas b heads h n Hn DC), E1.
    (* the names of the other areas *)
    assert (Apart : forall x nm f nm0 f0, In x areas -> In nm (area_names x) -> lookup fs nm = Some f ->
        In nm0 (area_names a) -> lookup fs nm0 = Some f0 -> f <> f0).
    { intros x nm f nm0 f0 Hx Hnm HL Hnm0 HL0 ->.
      assert (R : forall c c' nm f, twin c c' -> In nm (area_names c) -> lookup fs nm = Some f -> In nm (area_names c')).
      { intros c c' nm1 f1 (t1 & t2 & t3) Hin HLk. unfold area_names in *. destruct Hin as [<-|[<-|[<-|[]]]].
        - left. congruence.
        - destruct t3 as [t3|t3]; [right; left; congruence|congruence].
        - right. right. left. congruence. }
      assert (exists x', In x' as' /\ twin x x') as (x' & Hx' & Tx).
      { clear - TT Hx. induction TT as [|u v us vs H _ IHu]; [destruct Hx|]. destruct Hx as [->|Hx]; [exists v; split; [now left|exact H]|].
        destruct (IHu Hx) as (x' & ? & ?). exists x'. split; [now right|assumption]. }
      apply (area_field_apart rows a' as' f0 nm0 ND (R a a' nm0 f0 T Hnm0 HL0) HL0).
      exists x', nm. split; [exact Hx'|]. split; [exact (R x x' nm f0 Tx Hnm HL)|exact HL]. }
    assert (Keep : forall x nm f p, In x areas -> In nm (area_names x) -> lookup fs nm = Some f -> stored FO (h_st h1) f p = stored FO (h_st h) f p).
    { intros x nm f p Hx Hnm HL. apply FR; [eapply lookup_in; eauto| | |].
      - apply (Apart x nm f (ta_len a) lf Hx Hnm HL); [cbn; tauto|exact (tw_len a a' lf of df A T)].
      - apply (Apart x nm f (ta_data a) df Hx Hnm HL); [cbn; tauto|exact (tw_data a a' lf of df A T)].
      - intros f0 Hf0. apply (Apart x nm f (ta_ofl a) f0 Hx Hnm HL); [cbn; tauto|exact Hf0]. }
    assert (Tw : forall x, In x areas -> exists x' lf of df, afields rows x' lf of df /\ twin x x').
    { intros x Hx. clear - TT Hx HA'. induction TT as [|u v us vs H _ IHu]; [destruct Hx|]. inversion_clear HA' as [|? ? V1 V2].
      destruct Hx as [->|Hx]; [|exact (IHu V2 Hx)]. destruct (area_fields rows v V1) as (l & o & d & Q). eauto 7. }
    assert (HS1 : settled FO rows areas h1).
    { split; [exact HI1|]. intros x Hx. destruct (HS x (or_intror Hx)) as (m & Hm & Hm0 & Hmz).
      destruct (Tw x Hx) as (x' & lx & ox & dx & Ax & Tx). exists m. split; [|split; [exact Hm0|]].
      - rewrite <- Hm. apply (get_len_eq x x' lx ox dx Ax Tx). apply (Keep x (ta_len x) lx [] Hx); [cbn; tauto|exact (tw_len x x' lx ox dx Ax Tx)].
      - intros Hz0 f Hf. rewrite (Keep x (ta_ofl x) f [] Hx); [exact (Hmz Hz0 f Hf)|cbn; tauto|exact Hf]. }
    destruct (IH as' heads h1 TT HA' ND' ltac:(cbn in HLen; lia) HS1) as (h' & E' & HI' & FX' & LV' & FR').
    exists h'. split; [exact E'|]. split; [exact HI'|].
    assert (K2 : forall y p nm, In nm (area_names a) -> lookup fs nm = Some y -> stored FO (h_st h') y p = stored FO (h_st h1) y p).
    { intros y p nm Hnm HL. apply FR'; [eapply lookup_in; eauto|]. intros x nm' f Hx Hnm' HL' ->. exact (Apart x nm' f nm f Hx Hnm' HL' Hnm HL eq_refl). }
    split; [|split].
    + constructor; [|exact FX'].
      apply (fixed_same (h_st h1) (h_st h') a a' lf of df b A T).
      * intros y p Hy [->|[->|HL]].
        -- apply (K2 lf p (ta_len a)); [cbn; tauto|exact (tw_len a a' lf of df A T)].
        -- apply (K2 df p (ta_data a)); [cbn; tauto|exact (tw_data a a' lf of df A T)].
        -- apply (K2 y p (ta_ofl a)); [cbn; tauto|exact HL].
      * intros l0 d0 L0 D0. assert (l0 = lf) by (rewrite (tw_len a a' lf of df A T) in L0; congruence).
        assert (d0 = df) by (rewrite (tw_data a a' lf of df A T) in D0; congruence). subst. exact FX.
    + intros x [<-|Hx]; [|exact (LV' x Hx)]. destruct LV as (m & M1 & M2). exists m. split; [|exact M2]. rewrite <- M1.
      apply (get_len_eq a a' lf of df A T). apply (K2 lf [] (ta_len a)); [cbn; tauto|exact (tw_len a a' lf of df A T)].
    + intros y p Hy HO. rewrite FR'; [|exact Hy|intros x nm f Hx; apply HO; now right].
      apply FR; [exact Hy| | |].
      * apply (HO a (ta_len a)); [now left|cbn; tauto|exact (tw_len a a' lf of df A T)].
      * apply (HO a (ta_data a)); [now left|cbn; tauto|exact (tw_data a a' lf of df A T)].
      * intros f Hf. apply (HO a (ta_ofl a)); [now left|cbn; tauto|exact Hf].
Qed.

Lemma store_again : forall areas areas' heads h, Forall2 twin areas areas' -> Forall (area_ok rows) areas' ->
  st_impl FO (h_st h) = false -> Forall2 (fixed (h_st h)) areas heads -> (forall a, In a areas -> has_len_val (h_st h) a) ->
  exists h', store_areas FO rows h areas heads = (h', Ok tt) /\ eqh h' h.
Proof.
  intros areas areas' heads h HT HA HI HF. revert areas' HT HA. induction HF as [|a b areas heads FX _ IH]; intros areas' HT HA HV.
  - exists h. split; [reflexivity|apply eqh_refl].
  - inversion HT as [|? a' ? as' T TT]; subst. inversion_clear HA as [|? ? Ha HA'].
    destruct (area_fields rows a' Ha) as (lf & of & df & A).
    assert (DC : declared (ta_len a) = true) by (unfold declared; rewrite (tw_len a a' lf of df A T); reflexivity).
    destruct (HV a (or_introl eq_refl)) as (n & Hn & Hn0).
    destruct (step1_again a a' lf of df A T h n b HI Hn Hn0 (FX lf df (tw_len a a' lf of df A T) (tw_data a a' lf of df A T))) as (h1 & E1 & Q1).
    rewrite (store_step a areas b heads h n Hn DC), E1.
    destruct (IH as' TT HA' (fun x Hx => HV x (or_intror Hx))) as (h' & E' & Q').
    assert (DA : forallb (fun a => declared (ta_len a)) areas = true).
    { clear - TT HA'. induction TT as [|u v us vs H _ IHu]; [reflexivity|]. inversion_clear HA' as [|? ? V1 V2].
      cbn [forallb]. rewrite (IHu V2), andb_true_r. destruct (area_fields rows v V1) as (l & o & d & Q).
      unfold declared. now rewrite (tw_len u v l o d Q H). }
    assert (X := store_eq areas DA heads h1 h Q1). rewrite E' in X. destruct (store_areas FO rows h1 areas heads) as [h2 r2].
    cbn [fst snd] in X. destruct X as (X1 & ->). exists h2. split; [reflexivity|]. exact (eqh_trans _ _ _ X1 Q').
Qed.

(** How the areas are left behind: [heads] in the areas, [des] in an overflow segment after [n]
    others. *)
Definition placed (areas : list tarea) (heads : list (list N)) (des : list N) (n : nat) (s : st) : Prop :=
  st_impl FO s = false /\ (forall a, In a areas -> has_len_val s a)
  /\ match des, areas with
     | [], _ => Forall2 (fixed s) areas heads
     | _, [] => False
     | _, a :: _ => match lookup fs (ta_ofl a) with
                    | None => Forall2 (fixed s) areas heads
                    | Some f => stored FO s f [] = SVal (VInt (Z.of_nat (S n))) /\ get FO fs s (ta_len a) [] <> Ok (VInt 0)
                                /\ Forall2 (fixed (assigned FO s f [] (SVal (VInt 0)))) areas heads
                    end
     end.

Lemma F2_cons_inv {A B} (R : A -> B -> Prop) a l m : Forall2 R (a :: l) m -> exists b m', m = b :: m' /\ R a b /\ Forall2 R l m'.
Proof. intro H. inversion_clear H. eauto. Qed.

Section Twins.
Variables areas areas' : list tarea.
Hypothesis HT : Forall2 twin areas areas'.
Hypothesis HA : Forall (area_ok rows) areas'.

Lemma twins_in a : In a areas -> exists a' lf of df, In a' areas' /\ afields rows a' lf of df /\ twin a a'.
Proof.
  intro Ha. assert (X := HT). clear - X HA Ha. induction X as [|u v us vs H _ IHu]; [destruct Ha|]. inversion_clear HA as [|? ? V1 V2].
  destruct Ha as [->|Ha].
  - destruct (area_fields rows v V1) as (l & o & d & Q). exists v, l, o, d. split; [now left|]. split; [exact Q|exact H].
  - destruct (IHu V2 Ha) as (a' & l & o & d & X1 & X2 & X3). exists a', l, o, d. split; [now right|]. split; assumption.
Qed.
Lemma twins_declared : forallb (fun a => declared (ta_len a)) areas = true.
Proof.
  apply forallb_forall. intros a Ha. destruct (twins_in a Ha) as (a' & l & o & d & _ & Q & T).
  unfold declared. now rewrite (tw_len a a' l o d Q T).
Qed.

(** The values in the area fields decide. *)
Lemma fixed_all (s s' : st) heads : (forall y p a nm, In a areas -> In nm (area_names a) -> lookup fs nm = Some y -> stored FO s' y p = stored FO s y p) ->
  Forall2 (fixed s) areas heads -> Forall2 (fixed s') areas heads.
Proof.
  intros HS HF.
  assert (X : forall a b, In a areas -> fixed s a b -> fixed s' a b).
  { intros a b Ha. destruct (twins_in a Ha) as (a' & l & o & d & _ & Q & T). apply (fixed_same s s' a a' l o d b Q T).
    intros y p Hy [->|[->|HL]].
    - apply (HS l p a (ta_len a) Ha); [cbn; tauto|exact (tw_len a a' l o d Q T)].
    - apply (HS d p a (ta_data a) Ha); [cbn; tauto|exact (tw_data a a' l o d Q T)].
    - apply (HS y p a (ta_ofl a) Ha); [cbn; tauto|exact HL]. }
  revert X. clear - HF. induction HF as [|a b as0 bs H _ IH]; intro X; constructor; [apply X; [now left|exact H]|].
  apply IH. intros x y Hx. apply X. now right.
Qed.
Lemma lens_same (s s' : st) : (forall y p a nm, In a areas -> In nm (area_names a) -> lookup fs nm = Some y -> stored FO s' y p = stored FO s y p) ->
  forall a, In a areas -> get FO fs s' (ta_len a) [] = get FO fs s (ta_len a) [].
Proof.
  intros HS a Ha. destruct (twins_in a Ha) as (a' & l & o & d & _ & Q & T). apply (get_len_eq a a' l o d Q T).
  apply (HS l [] a (ta_len a) Ha); [cbn; tauto|exact (tw_len a a' l o d Q T)].
Qed.
Lemma placed_same heads des n (s s' : st) : st_impl FO s' = st_impl FO s ->
  (forall y p a nm, In a areas -> In nm (area_names a) -> lookup fs nm = Some y -> stored FO s' y p = stored FO s y p) ->
  placed areas heads des n s -> placed areas heads des n s'.
Proof.
  intros HI HS (P1 & P2 & P3). split; [congruence|]. assert (LS := lens_same s s' HS). split.
  - intros a Ha. destruct (P2 a Ha) as (m & M1 & M2). exists m. split; [rewrite LS by exact Ha; exact M1|exact M2].
  - assert (FA : Forall2 (fixed s) areas heads -> Forall2 (fixed s') areas heads) by (apply fixed_all; exact HS).
    destruct des as [|c des]; [exact (FA P3)|]. remember areas as ar eqn:EA. destruct ar as [|a ar]; [exact P3|].
    destruct (lookup fs (ta_ofl a)) as [f|] eqn:L; [|exact (FA P3)]. destruct P3 as (Q1 & Q2 & Q3).
    split; [rewrite <- Q1; apply (HS f [] a (ta_ofl a)); [now left|cbn; tauto|exact L]|].
    split; [rewrite LS by (now left); exact Q2|]. rewrite EA in *.
    apply (fixed_all (assigned FO s f [] (SVal (VInt 0)))); [|exact Q3].
    intros y p x nm Hx Hn Hy. assert (Hf := lookup_in _ _ _ L). assert (Hyi := lookup_in _ _ _ Hy).
    unfold stored, assigned. cbn [st_val set_raw set_val].
    destruct (Nat.eq_dec (f_id f) (f_id y)) as [E|E]; [destruct (list_eq_dec Z.eq_dec [] p) as [E2|E2]|].
    + subst p. rewrite E, !upd_eq. reflexivity.
    + rewrite !upd_neq by auto. exact (HS y p x nm Hx Hn Hy).
    + rewrite !upd_neq by auto. exact (HS y p x nm Hx Hn Hy).
Qed.

Lemma prepare_placed idx h ts n heads des : place FO ts (map (fun _ => []) areas) [] = Ok (heads, des) -> placed areas heads des n (h_st h) ->
  exists h', prepare FO rows areas idx h ts n
     = (h', match des, areas with
            | [], _ | _, [] => None
            | _, a :: _ => Some {| ov_oflw := map upper_char (str (ta_data a)); ov_item := (idx + 1)%Z; ov_data := des |}
            end, Ok tt) /\ eqh h' h.
Proof.
  intros HP (HI & LV & PL). unfold prepare. rewrite HP.
  assert (DA := twins_declared).
  assert (ST : forall h1, eqh h1 h -> Forall2 (fixed (h_st h)) areas heads -> exists h', store_areas FO rows h1 areas heads = (h', Ok tt) /\ eqh h' h).
  { intros h1 Q FX. destruct (store_again areas areas' heads h HT HA HI FX LV) as (h2 & E2 & Q2).
    assert (X := store_eq areas DA heads h1 h Q). rewrite E2 in X.
    destruct (store_areas FO rows h1 areas heads) as [v1 q1]. cbn [fst snd] in X. destruct X as (X1 & ->).
    exists v1. split; [reflexivity|exact (eqh_trans _ _ _ X1 Q2)]. }
  destruct des as [|c des].
  - destruct (ST h (eqh_refl h) PL) as (h2 & E2 & Q2). rewrite E2. exists h2. destruct areas; (split; [reflexivity|exact Q2]).
  - assert (HTa := HT). assert (HAa := HA). assert (TWI := twins_in). remember areas as ar eqn:EA. destruct ar as [|a ar]; [destruct PL|].
    apply F2_cons_inv in HTa as (a' & as' & E1 & T & TT). rewrite E1 in HAa. inversion_clear HAa as [|? ? Ha HA'].
    destruct (area_fields rows a' Ha) as (lf & of & df & A).
    destruct (LV a (or_introl eq_refl)) as (m & M1 & M2).
    destruct (tw_in a' lf of df A) as (I1 & I2 & I3). destruct (afields_ne rows a' lf of df A) as (N1 & N2 & N3).
    assert (DC : declared (ta_len a) = true) by (unfold declared; rewrite (tw_len a a' lf of df A T); reflexivity).
    destruct (lookup fs (ta_ofl a)) as [f|] eqn:L.
    + assert (f = of) by exact (tw_ofl a a' lf of df A T f L). subst f. destruct PL as (P1 & P2 & FX).
      assert (Hm : m <> 0%Z) by (intros ->; contradiction).
      (* the state with the number at 0 *)
      set (hz := {| h_st := assigned FO (h_st h) of [] (SVal (VInt 0)); h_attr := h_attr h |}).
      assert (LVz : forall x, In x (a :: ar) -> has_len_val (h_st hz) x).
      { intros x Hx. destruct (LV x Hx) as (q & Q1 & Q0). exists q. split; [|exact Q0]. rewrite <- Q1.
        destruct (TWI x Hx) as (x' & lx & ox & dx & _ & Ax & Tx). apply (get_len_eq x x' lx ox dx Ax Tx).
        destruct (tw_in x' lx ox dx Ax) as (J1 & _). apply (assigned_same FO rows); auto.
        intros ->. assert (U := af_lend _ _ _ _ _ Ax). rewrite (af_ofld _ _ _ _ _ A) in U. discriminate. }
      assert (HIz : st_impl FO (h_st hz) = false) by exact HI.
      destruct heads as [|b heads]; [inversion FX|].
      destruct (store_again (a :: ar) areas' (b :: heads) hz) as (h2 & E2 & Q2); [exact HT|exact HA|exact HIz|exact FX|exact LVz|].
      assert (Mz : get FO fs (h_st hz) (ta_len a) [] = Ok (VInt m)).
      { rewrite <- M1. apply (get_len_eq a a' lf of df A T). apply (assigned_same FO rows); auto. }
      assert (S3 : exists hs, store_areas FO rows h (a :: ar) (b :: heads) = (hs, Ok tt) /\ eqh hs hz).
      { rewrite (store_step a ar b heads h m M1 DC). rewrite (store_step a ar b heads hz m Mz DC) in E2. unfold step1 in *.
        replace (m >? 0)%Z with true in * by lia.
        destruct (tw_set_ofl a a' lf of df A T h m 0 HI M1 Hm) as (hx & Ex & [(_ & Sx)|(L' & _)]); [|congruence].
        destruct (tw_set_ofl a a' lf of df A T hz m 0 HIz Mz Hm) as (hy & Ey & [(_ & Sy)|(L' & _)]); [|congruence].
        rewrite Ex. rewrite Ey in E2.
        assert (Qy : eqh hx hy).
        { unfold eqh. rewrite Sx, Sy. apply eqst_sym. apply eq_overwritten. exact I2. }
        assert (W : eqh (fst (match b with [] => (hx, Ok tt) | _ :: _ => hset FO rows hx (ta_data a) (VBytes b) end))
                        (fst (match b with [] => (hy, Ok tt) | _ :: _ => hset FO rows hy (ta_data a) (VBytes b) end))
                 /\ snd (match b with [] => (hx, Ok tt) | _ :: _ => hset FO rows hx (ta_data a) (VBytes b) end)
                   = snd (match b with [] => (hy, Ok tt) | _ :: _ => hset FO rows hy (ta_data a) (VBytes b) end)).
        { destruct b; [split; [exact Qy|reflexivity]|apply hset_eq; exact Qy]. }
        destruct (match b with [] => (hx, Ok tt) | _ :: _ => hset FO rows hx (ta_data a) (VBytes b) end) as [u1 r1].
        destruct (match b with [] => (hy, Ok tt) | _ :: _ => hset FO rows hy (ta_data a) (VBytes b) end) as [u2 r2].
        cbn [fst snd] in W. destruct W as (W1 & ->). destruct r2 as [[]|e]; [|discriminate].
        assert (DA' : forallb (fun a => declared (ta_len a)) ar = true) by (cbn [forallb] in DA; now apply andb_true_iff in DA).
        assert (X := store_eq ar DA' heads u1 u2 W1). rewrite E2 in X.
        destruct (store_areas FO rows u1 ar heads) as [v1 q1]. cbn [fst snd] in X. destruct X as (X1 & ->).
        exists v1. split; [reflexivity|]. exact (eqh_trans _ _ _ X1 Q2). }
      destruct S3 as (hs & Es & Qs). rewrite Es.
      assert (Y := hset_eq hs hz (ta_ofl a) (VInt (Z.of_nat (S n))) Qs).
      destruct (tw_set_ofl a a' lf of df A T hz m (Z.of_nat (S n)) HIz Mz Hm) as (hw & Ew & [(_ & Sw)|(L' & _)]); [|congruence].
      rewrite Ew in Y. destruct (hset FO rows hs (ta_ofl a) (VInt (Z.of_nat (S n)))) as [y ry]. cbn [fst snd] in Y. destruct Y as (Y1 & ->).
      exists y. split; [reflexivity|]. eapply eqh_trans; [exact Y1|]. unfold eqh. rewrite Sw.
      eapply eqst_trans; [apply eq_overwritten; exact I2|]. apply eq_reassigned; [exact I2|exact P1].
    + destruct (ST h (eqh_refl h) PL) as (h2 & E2 & Q2). rewrite E2.
      unfold hset. fold fs. rewrite L. eexists. split; [reflexivity|exact Q2].
Qed.

Hypothesis ND : NoDup (flat_map area_names areas').

(** One preparation leaves the areas placed. *)
Lemma prepare_places idx h ts n h' o : settled FO rows areas h -> prepare FO rows areas idx h ts n = (h', o, Ok tt) ->
  exists heads des, place FO ts (map (fun _ => []) areas) [] = Ok (heads, des) /\ placed areas heads des n (h_st h')
    /\ o = (match des, areas with
            | [], _ | _, [] => None
            | _, a :: _ => Some {| ov_oflw := map upper_char (str (ta_data a)); ov_item := (idx + 1)%Z; ov_data := des |}
            end) /\ settled FO rows areas h'.
Proof.
  intros HS H. unfold prepare in *.
  destruct (place FO ts (map (fun _ => []) areas) []) as [[heads des]|e] eqn:HP; [|discriminate].
  exists heads, des. split; [reflexivity|].
  assert (HLen : List.length heads = List.length areas).
  { replace (map (fun _ : tarea => @nil N) areas) with (repeat (@nil N) (List.length areas)) in HP
      by (clear; induction areas; cbn; congruence).
    destruct (place_start _ _ _ _ _ HP) as (ps & _ & _ & P & _). exact P. }
  destruct (store_first areas areas' heads h HT HA ND HLen HS) as (h1 & E1 & HI1 & FX & LV & FR).
  rewrite E1 in H.
  assert (ST : settled FO rows areas h1).
  { split; [exact HI1|]. intros a Ha. destruct (LV a Ha) as (m & M1 & M2). exists m. split; [exact M1|]. split; [exact M2|].
    intros _ f Hf. assert (exists b, fixed (h_st h1) a b) as (b & Hb).
    { clear - FX Ha. induction FX as [|x y xs ys H _ IHf]; [destruct Ha|]. destruct Ha as [->|Ha]; eauto. }
    destruct (twins_in a Ha) as (a' & lf & of & df & _ & A & T).
    exact (proj2 (Hb lf df (tw_len a a' lf of df A T) (tw_data a a' lf of df A T)) f Hf). }
  destruct des as [|c des].
  - injection H as <- <-. split; [split; [exact HI1|split; [exact LV|exact FX]]|]. split; [destruct areas; reflexivity|exact ST].
  - assert (HTa := HT). assert (HAa := HA). assert (NDa := ND). assert (TWI := twins_in). assert (FXA := fixed_all). remember areas as ar eqn:EA. destruct ar as [|a ar]; [discriminate|].
    apply F2_cons_inv in HTa as (a' & as' & E2 & T & TT). rewrite E2 in HAa, NDa. inversion_clear HAa as [|? ? Ha HA'].
    destruct (area_fields rows a' Ha) as (lf & of & df & A).
    destruct (hset FO rows h1 (ta_ofl a) (VInt (Z.of_nat (S n)))) as [h3 r3] eqn:E3. injection H as <- <- ->.
    destruct (LV a (or_introl eq_refl)) as (m & M1 & M2).
    destruct (tw_in a' lf of df A) as (I1 & I2 & I3). destruct (afields_ne rows a' lf of df A) as (N1 & N2 & N3).
    (* what the overflow number did *)
    assert (C : lookup fs (ta_ofl a) = Some of /\ m <> 0%Z /\ h_st h3 = assigned FO (h_st h1) of [] (SVal (VInt (Z.of_nat (S n))))
                \/ lookup fs (ta_ofl a) = None /\ h_st h3 = h_st h1).
    { destruct (Z.eq_dec m 0) as [->|Hm].
      - destruct T as (T1 & T2 & [T3|T3]).
        + exfalso. unfold hset in E3. rewrite T3 in E3. assert (L := af_ofl _ _ _ _ _ A). rewrite L in E3.
          destruct (set_ofl_empty FO rows a' lf of df A Hwf (h_st h1) (Z.of_nat (S n))) as (e & Ee);
            [rewrite <- T1; exact M1|]. rewrite Ee in E3. discriminate.
        + right. split; [exact T3|]. unfold hset in E3. unfold fs in T3. rewrite T3 in E3. injection E3 as <-. reflexivity.
      - destruct (tw_set_ofl a a' lf of df A T h1 m (Z.of_nat (S n)) HI1 M1 Hm) as (h4 & E4 & [(L & E5)|(L & E5)]);
          rewrite E4 in E3; injection E3 as <-; [left|right]; auto. }
    assert (LQ : forall x, In x (a :: ar) -> get FO fs (h_st h3) (ta_len x) [] = get FO fs (h_st h1) (ta_len x) []).
    { intros x Hx. destruct C as [(L & Hm & ES)|(L & ES)]; [|now rewrite ES].
      destruct (TWI x Hx) as (x' & lx & ox & dx & _ & Ax & Tx). apply (get_len_eq x x' lx ox dx Ax Tx).
      destruct (tw_in x' lx ox dx Ax) as (J1 & _). rewrite ES. apply (assigned_same FO rows); auto.
      intros ->. assert (U := af_lend _ _ _ _ _ Ax). rewrite (af_ofld _ _ _ _ _ A) in U. discriminate. }
    assert (HI3 : st_impl FO (h_st h3) = false) by (destruct C as [(_ & _ & ES)|(_ & ES)]; rewrite ES; exact HI1).
    split; [|split; [reflexivity|]].
    + split; [exact HI3|]. split.
      { intros x Hx. unfold has_len_val. rewrite (LQ x Hx). exact (LV x Hx). }
      destruct C as [(L & Hm & ES)|(L & ES)]; rewrite L; [|rewrite ES; exact FX].
      split; [rewrite ES; apply assigned_self|]. split; [rewrite (LQ a (or_introl eq_refl)), M1; congruence|].
      assert (OZ : stored FO (h_st h1) of [] = SVal (VInt 0)).
      { apply F2_cons_inv in FX as (b & hs & _ & F1 & _).
        exact (proj2 (F1 lf df (tw_len a a' lf of df A T) (tw_data a a' lf of df A T)) of L). }
      apply (FXA (h_st h1)); [|exact FX]. intros y p x nm Hx Hn Hy. rewrite ES.
      assert (Hyi := lookup_in _ _ _ Hy).
      rewrite (proj2 (eq_overwritten FO rows (h_st h1) of [] (SVal (VInt (Z.of_nat (S n)))) (SVal (VInt 0)) I2) y p Hyi).
      apply (proj2 (eq_reassigned FO rows (h_st h1) of [] (SVal (VInt 0)) I2 OZ) y p Hyi).
    + destruct C as [(L & Hm & ES)|(L & ES)]; [|unfold settled; rewrite ES; exact ST].
      split; [exact HI3|]. intros x Hx. destruct (proj2 ST x Hx) as (q & Q1 & Q0 & Qz). exists q.
      split; [fold fs; rewrite (LQ x Hx); exact Q1|]. split; [exact Q0|]. intros Hq f Hf. rewrite ES.
      destruct Hx as [<-|Hx]; [exfalso; fold fs in Q1; rewrite M1 in Q1; injection Q1 as ->; contradiction|].
      assert (exists x', In x' as' /\ twin x x') as (x' & Hx' & Tx).
      { clear - TT Hx. induction TT as [|u v us vs H _ IHu]; [destruct Hx|]. destruct Hx as [->|Hx]; [exists v; split; [now left|exact H]|].
        destruct (IHu Hx) as (x' & ? & ?). exists x'. split; [now right|assumption]. }
      rewrite (assigned_same FO rows); [exact (Qz Hq f Hf)|exact I2|eapply lookup_in; exact Hf|]. intros ->.
      assert (LO : lookup fs (ta_ofl a') = Some of) by exact (af_ofl _ _ _ _ _ A).
      apply (area_field_apart rows a' as' of (ta_ofl a') NDa ltac:(cbn; tauto) LO).
      destruct Tx as (_ & _ & [Tx|Tx]); [|unfold fs in Tx; congruence].
      exists x', (ta_ofl x'). split; [exact Hx'|]. split; [cbn; tauto|]. rewrite <- Tx. exact Hf.
Qed.
End Twins.
End Eqh.
