(** Placement of TREs in headers and overflow segments (C22, C23, C24). *)
From Verif Require Import Base BaseLemmas Engine Wf EngineLemmas Codec RoundTrip Rewrite Decimal DecimalLemmas
  DecimalFit Spec Reach TextSpec Assign Deps Utf8 Tre TreLemmas Ex P_RoundTrip P_Tre TrePlace TrePlaceLemmas
  DescsHdr.
From Coq Require Import ZifyBool ZifyNat ZifyN Permutation.
Open Scope list_scope.
Ltac Zify.zify_post_hook ::= idtac.

(** The file header and the image and text subheaders have areas of the standard form. *)
Lemma nodup_check (l : list string) : (if List.list_eq_dec String.string_dec (nodup String.string_dec l) l then true else false) = true -> NoDup l.
Proof. destruct (List.list_eq_dec _ _) as [E|]; [|discriminate]. intros _. rewrite <- E. apply NoDup_nodup. Qed.

Theorem areas_shipped : areas_ok desc_NitfFileHeader file_areas
  /\ areas_ok desc_NitfImageSubheader image_areas /\ areas_ok desc_NitfTextSubheader text_areas.
Proof.
  split; [|split]; (split; [vm_compute; reflexivity|split; [|apply nodup_check; vm_compute; reflexivity]]);
    repeat (apply Forall_cons; [repeat split; eexists; vm_compute; reflexivity|]); apply Forall_nil.
Qed.

(** No place for TREs is forgotten: every field of these headers holding bytes whose number another
    field gives is one of the areas, and that other field is its length field. *)
Theorem areas_complete rows areas :
  In (rows, areas) [(desc_NitfFileHeader, file_areas); (desc_NitfImageSubheader, image_areas);
                    (desc_NitfGraphicSubheader, graphic_areas); (desc_NitfTextSubheader, text_areas)] ->
  forall d, In (RField d) rows -> fd_ty d = TData KBytes ->
  exists a, In a areas /\ fd_name d = Some (ta_data a) /\ fd_size d = SzExpr (EFld (ta_len a) 0).
Proof.
  intros H d Hd T.
  repeat (destruct H as [H|H]; [injection H as <- <-; repeat (destruct Hd as [Hd|Hd];
    [try discriminate Hd; injection Hd as <-; first [discriminate T | eexists; split; [left; reflexivity|split; reflexivity] | eexists; split; [right; left; reflexivity|split; reflexivity]]|]); destruct Hd|]).
  destruct H.
Qed.

(** ** C22 *)

(** Everything that preparation leaves behind: [ps] says in which area each record is, and
    number [length areas] stands for the overflow segment. *)
Theorem C22_placement FO rows areas idx (h : hdr FO) ts ndes h' ov :
  areas_ok rows areas -> sound_header FO rows areas h ->
  prepare FO rows areas idx h ts ndes = (h', ov, Ok tt) ->
  exists ps,
    records FO ts (map snd ps) /\ first_fit (List.length areas) ps
    /\ (forall i a, nth_error areas i = Some a ->
          (Z.of_nat (List.length (part ps i)) + 3 < 99999)%Z
          /\ (part ps i <> [] ->
                get FO (mk_fs rows) (h_st h') (ta_data a) [] = Ok (VBytes (part ps i))
                /\ get FO (mk_fs rows) (h_st h') (ta_len a) [] = Ok (VInt (Z.of_nat (List.length (part ps i)) + 3)))
          /\ (part ps i = [] ->
                get FO (mk_fs rows) (h_st h') (ta_data a) [] = get FO (mk_fs rows) (h_st h) (ta_data a) []
                /\ get FO (mk_fs rows) (h_st h') (ta_len a) [] = get FO (mk_fs rows) (h_st h) (ta_len a) []))
    /\ (ov = None <-> forall p, In p ps -> (fst p < List.length areas)%nat)
    /\ (forall o, ov = Some o -> ov_data o = part ps (List.length areas) /\ ov_item o = (idx + 1)%Z
          /\ exists a, nth_error areas 0 = Some a /\ ov_oflw o = map upper_char (str (ta_data a))
               /\ get FO (mk_fs rows) (h_st h') (ta_ofl a) [] = Ok (VInt (Z.of_nat (S ndes)))).
Proof.
  intros (Hwf & HA & ND) HS H.
  assert (HR : exists rs, records FO ts rs).
  { unfold prepare in H. destruct (place FO ts (map (fun _ => []) areas) []) as [[heads des]|] eqn:HP; [|discriminate].
    replace (map (fun _ : tarea => @nil N) areas) with (repeat (@nil N) (List.length areas)) in HP
      by (clear; induction areas; cbn; congruence).
    destruct (place_start _ _ _ _ _ HP) as (ps & P & _). eauto. }
  destruct HR as (rs & HR).
  destruct (prepare_ok FO rows Hwf areas HA ND idx h ts ndes rs HS HR) as (ps & E & HF & [(h1 & ov1 & H1 & P)|(h1 & ov1 & e & H1 & _)]);
    rewrite H1 in H; [|discriminate].
  injection H as <- <-. subst rs. exists ps. split; [exact HR|]. split; [exact HF|].
  assert (HN := records_nonempty FO ts ps HR).
  destruct P as (_ & _ & _ & P & _ & PO). split; [|split].
  - intros i a Hi. split.
    { pose proof (first_fit_bound (List.length areas) ps i HF) as HB.
      assert (i < List.length areas)%nat by (apply nth_error_Some; congruence). specialize (HB ltac:(lia)). lia. }
    destruct (P i a Hi) as [X _]. destruct (part ps i); destruct X as [X1 X2]; (split; [|]); intro K; try congruence; auto.
  - destruct ov1 as [o|].
    + split; [discriminate|]. intro K. destruct PO as (_ & PO & _). exfalso. apply PO.
      apply part_nil; auto. intros p Hp. specialize (K p Hp). lia.
    + split; auto. intros _ p Hp. pose proof (first_fit_number _ _ _ HF Hp).
      assert (fst p <> List.length areas) by (apply (proj1 (part_nil ps _ HN) PO p Hp)). lia.
  - intros o ->. destruct PO as (D & _ & a & A1 & A2 & A3 & A4 & _). split; [exact D|]. split; [exact A2|]. eauto.
Qed.

(** Preparation fails only when a TRE cannot be written, or something overflows while the
    first area is, and stays, empty. *)
Theorem C22_outcome FO rows areas idx (h : hdr FO) ts ndes :
  areas_ok rows areas -> sound_header FO rows areas h ->
  (exists h' ov, prepare FO rows areas idx h ts ndes = (h', ov, Ok tt))
  \/ (exists t e, In t ts /\ tre_write FO t = Err e /\ prepare FO rows areas idx h ts ndes = (h, None, Err e))
  \/ (exists ps, records FO ts (map snd ps) /\ first_fit (List.length areas) ps
        /\ part ps (List.length areas) <> []
        /\ (areas = [] \/ exists a, nth_error areas 0 = Some a /\ part ps 0 = []
              /\ get FO (mk_fs rows) (h_st h) (ta_len a) [] = Ok (VInt 0))).
Proof.
  intros (Hwf & HA & ND) HS.
  assert (D : (exists rs, records FO ts rs) \/ (exists t e, In t ts /\ tre_write FO t = Err e
    /\ forall heads des, place FO ts heads des = Err e)).
  { clear. induction ts as [|t ts IH]; [left; exists []; constructor|].
    destruct (tre_write FO t) as [r|e] eqn:E.
    - destruct IH as [(rs & H)|(t' & e & H1 & H2 & H3)].
      + left. exists (r :: rs). constructor; auto.
      + right. exists t', e. split; [now right|]. split; auto. intros heads des. cbn [place]. rewrite E. cbn [bind].
        destruct (put r heads); auto.
    - right. exists t, e. split; [now left|]. split; auto. intros heads des. cbn [place]. now rewrite E. }
  destruct D as [(rs & HR)|(t & e & H1 & H2 & H3)].
  - destruct (prepare_ok FO rows Hwf areas HA ND idx h ts ndes rs HS HR) as (ps & E & HF & [(h1 & ov1 & H1 & _)|(h1 & ov1 & e & H1 & H2)]);
      [left; eauto|]. right. right. subst rs. exists ps. tauto.
  - right. left. exists t, e. split; auto. split; auto. unfold prepare. now rewrite H3.
Qed.

(** Fields that are not part of an area, and do not depend on one, keep their values. *)
Theorem C22_frame FO rows areas idx (h : hdr FO) ts ndes h' ov nm f k :
  areas_ok rows areas -> sound_header FO rows areas h ->
  prepare FO rows areas idx h ts ndes = (h', ov, Ok tt) ->
  lookup (mk_fs rows) nm = Some f ->
  (forall a nm', In a areas -> In nm' (area_names a) -> nm' <> nm /\
     forall f', lookup (mk_fs rows) nm' = Some f' -> ~ reaches (mk_fs rows) f f') ->
  get FO (mk_fs rows) (h_st h') nm k = get FO (mk_fs rows) (h_st h) nm k.
Proof.
  intros (Hwf & HA & ND) HS H HL HN.
  assert (HR : exists rs, records FO ts rs).
  { unfold prepare in H. destruct (place FO ts (map (fun _ => []) areas) []) as [[heads des]|] eqn:HP; [|discriminate].
    replace (map (fun _ : tarea => @nil N) areas) with (repeat (@nil N) (List.length areas)) in HP
      by (clear; induction areas; cbn; congruence).
    destruct (place_start _ _ _ _ _ HP) as (ps & P & _). eauto. }
  destruct HR as (rs & HR).
  destruct (prepare_ok FO rows Hwf areas HA ND idx h ts ndes rs HS HR) as (ps & E & HF & [(h1 & ov1 & H1 & P)|(h1 & ov1 & e & H1 & _)]);
    rewrite H1 in H; [|discriminate].
  injection H as <- <-. destruct P as (_ & _ & F & _).
  assert (NA : forall y, In y (fs_fields (mk_fs rows)) -> (y = f \/ reaches (mk_fs rows) f y) -> ~ area_field rows areas y).
  { intros y Hy Hc (a & nm' & Ha & Hnm & HL'). destruct (HN a nm' Ha Hnm) as [N1 N2].
    destruct Hc as [->|Hc].
    - apply has_name_lookup in HL, HL'. congruence.
    - exact (N2 y HL' Hc). }
  apply (get_same_reads FO rows _ _ nm f k HL).
  - apply F; [eapply lookup_in; eauto|]. apply NA; auto. eapply lookup_in; eauto.
  - intros y p Hy. assert (In y (fs_fields (mk_fs rows))) by now apply (reaches_in rows) in Hy.
    apply F; auto.
Qed.

(** A TRE that overflows while the first area is empty cannot be placed: its body has at least
    99985 bytes, which a record allows (nitf_tre.py:202, 231). *)
Theorem C22_overflow_refuted FO : exists (t : tre FO) h,
  is_ok (tre_write FO t) = true /\ areas_ok desc_NitfImageSubheader image_areas
  /\ sound_header FO desc_NitfImageSubheader image_areas h
  /\ is_ok (snd (prepare FO desc_NitfImageSubheader image_areas 0 h [t] 0)) = false.
Proof.
  exists (TUnk (str "BIGTRE") (repeat 65%N (Z.to_nat 99990))), {| h_st := init_state FO; h_attr := [] |}.
  split; [vm_compute; reflexivity|]. split; [apply areas_shipped|]. split; [|vm_compute; reflexivity].
  split; [reflexivity|]. intros a [<-|[<-|[]]]; exists 0%Z; (split; [lia|vm_compute; reflexivity]).
Qed.

(** ** C23, C24: reading back *)

(** The TREs with number [i]. *)
Definition sel {X} (qs : list (nat * X)) (i : nat) : list X := map snd (filter (fun q => Nat.eqb (fst q) i) qs).

Lemma sel_records FO (qs : list (nat * tre FO)) ps i :
  Forall2 (fun q p => fst q = fst p /\ tre_write FO (snd q) = Ok (snd p)) qs ps ->
  write_all FO (sel qs i) = Ok (part ps i).
Proof.
  induction 1 as [|[a t] [b r] qs ps [E1 E2] _ IH]; [reflexivity|]. cbn in E1, E2. subst b.
  rewrite part_cons. unfold sel in *. cbn [filter fst]. destruct (Nat.eqb a i); cbn [map snd]; [|exact IH].
  cbn [write_all]. rewrite E2. cbn [bind]. now rewrite IH.
Qed.

Lemma numbered FO (ts : list (tre FO)) (ps : list (nat * list N)) : records FO ts (map snd ps) ->
  exists qs : list (nat * tre FO), map snd qs = ts /\ Forall2 (fun q p => fst q = fst p /\ tre_write FO (snd q) = Ok (snd p)) qs ps.
Proof.
  revert ts. induction ps as [|[i r] ps IH]; intros ts H; cbn in H; inversion_clear H as [|t ? ts' ? Ht H'].
  - exists []. auto.
  - destruct (IH _ H') as (qs & E & F). exists ((i, t) :: qs). cbn. split; [congruence|]. constructor; auto.
Qed.

Lemma sel_all {X} (qs : list (nat * X)) n : (forall q, In q qs -> fst q <= n)%nat ->
  Permutation (map snd qs) (sel qs n ++ List.concat (map (sel qs) (seq 0 n))).
Proof.
  intro H.
  assert (K : forall k, Permutation (map snd (filter (fun q => (fst q <? k)%nat) qs)) (List.concat (map (sel qs) (seq 0 k)))).
  { induction k as [|k IH].
    - cbn. replace (filter _ qs) with (@nil (nat * X)); [apply Permutation_refl|]. clear. induction qs; auto.
    - rewrite seq_S, map_app, concat_app. cbn [map List.concat]. rewrite app_nil_r, Nat.add_0_l.
      rewrite <- IH. unfold sel. rewrite <- map_app. apply Permutation_map. clear.
      induction qs as [|[j x] qs IH]; cbn [filter fst]; [constructor|].
      destruct (j <? S k)%nat eqn:E1, (j <? k)%nat eqn:E2, (Nat.eqb j k) eqn:E3; try (exfalso; lia); cbn [app]; auto.
      apply Permutation_cons_app. exact IH. }
  specialize (K n). rewrite <- K. unfold sel. rewrite <- map_app. apply Permutation_map. clear K.
  induction qs as [|[j x] qs IH]; cbn [filter fst]; [constructor|].
  specialize (IH (fun q Hq => H q (or_intror Hq))). specialize (H (j, x) (or_introl eq_refl)). cbn in H.
  destruct (j <? n)%nat eqn:E1, (Nat.eqb j n) eqn:E2; try (exfalso; lia); cbn [app]; auto.
  apply Permutation_cons_app. exact IH.
Qed.

Lemma sel_first {X} (qs : list (nat * X)) i : (forall q, In q qs -> fst q = i) ->
  sel qs i = map snd qs /\ forall j, j <> i -> sel qs j = [].
Proof.
  intro H. unfold sel. induction qs as [|[k x] qs IH]; [auto|].
  destruct IH as [IH1 IH2].
  - intros q Hq. apply H. now right.
  - specialize (H (k, x) (or_introl eq_refl)). cbn in H. subst k. cbn [filter fst]. rewrite Nat.eqb_refl. cbn.
    rewrite IH1. split; auto. intros j Hj. replace (Nat.eqb i j) with false by (symmetry; now apply Nat.eqb_neq; auto). auto.
Qed.

(** Everything is in area 0 if it fits there. *)
Lemma first_fit_all n ps : (0 < n)%nat -> first_fit n ps ->
  (Z.of_nat (List.length (List.concat (map snd ps))) < 99996)%Z ->
  (forall p, In p ps -> fst p = 0%nat) /\ part ps 0 = List.concat (map snd ps).
Proof.
  intro Hn. induction 1 as [|ps i r HF IH Hi Hno Hroom]; [split; [intros p []|reflexivity]|].
  rewrite map_app, concat_app. cbn [map List.concat snd]. rewrite app_nil_r, app_length. intro HL.
  destruct IH as [IH1 IH2]; [lia|]. destruct i as [|i].
  - split; [|rewrite part_snoc; cbn; now rewrite IH2].
    intros p Hp. apply in_app_or in Hp as [Hp|[<-|[]]]; auto.
  - exfalso. apply (Hno 0%nat ltac:(lia)). unfold room. rewrite IH2. lia.
Qed.

(** What reading one area gives. *)
Definition area_reads FO rows reg (h : hdr FO) des a (ts : list (tre FO)) : Prop :=
  (hint FO rows h (ta_len a) = Ok 0%Z /\ ts = [])
  \/ exists n i b t1 t2, hint FO rows h (ta_len a) = Ok n /\ (n > 0)%Z /\ hint FO rows h (ta_ofl a) = Ok i
       /\ ((i = 0%Z /\ t1 = []) \/ ((i > 0)%Z /\ exists d, nth_error des (Z.to_nat (i - 1)) = Some (Ok d) /\ read_tre_data FO reg d = Ok t1))
       /\ hget FO rows h (ta_data a) = Ok (VBytes b) /\ read_tre_data FO reg b = Ok t2 /\ ts = t1 ++ t2.

Lemma read_areas_all FO rows reg (h : hdr FO) des areas tss : Forall2 (area_reads FO rows reg h des) areas tss ->
  read_areas FO rows reg h des areas = Ok (List.concat tss).
Proof.
  induction 1 as [|a ts areas tss Ha _ IH]; [reflexivity|]. cbn [read_areas List.concat].
  destruct Ha as [(E & ->)|(n & i & b & t1 & t2 & E1 & Hn & E2 & E3 & E4 & E5 & ->)].
  - rewrite E. cbn [bind]. replace (0 >? 0)%Z with false by reflexivity. cbn [bind]. now rewrite IH.
  - rewrite E1. cbn [bind]. replace (n >? 0)%Z with true by lia. rewrite E2. cbn [bind].
    destruct E3 as [(-> & ->)|(Hi & d & E3 & E3')].
    + replace (0 >? 0)%Z with false by reflexivity. cbn [bind]. rewrite E4. cbn [bind]. rewrite E5. cbn [bind].
      now rewrite IH.
    + replace (i >? 0)%Z with true by lia. rewrite E3. cbn [bind]. rewrite E3'. cbn [bind]. rewrite E4. cbn [bind].
      rewrite E5. cbn [bind]. now rewrite IH.
Qed.

Lemma Forall2_concat {X Y} (R : X -> Y -> Prop) xs ys : Forall2 (Forall2 R) xs ys ->
  Forall2 R (List.concat xs) (List.concat ys).
Proof. induction 1; cbn; auto. apply Forall2_app; auto. Qed.

Lemma sel_in {X} (qs : list (nat * X)) i x : In x (sel qs i) -> In x (map snd qs).
Proof.
  unfold sel. intro H. apply in_map_iff in H as (q & <- & H). apply filter_In in H as [H _]. now apply in_map.
Qed.

(** The overflow segment in the list of DES. *)
Definition appended (ov : option over) : list (res (list N)) :=
  match ov with Some o => [Ok (ov_data o)] | None => [] end.

(** No stale overflow number: the area has content, or shows 0 once it gets content. *)
Definition no_stale FO rows (h : hdr FO) (a : tarea) : Prop :=
  (exists n, (n > 0)%Z /\ get FO (mk_fs rows) (h_st h) (ta_len a) [] = Ok (VInt n)) \/ quiet FO rows (h_st h) a.

(** No stale content: every area either gets new content or was empty. *)
Definition refilled FO rows areas (h : hdr FO) (ts : list (tre FO)) : Prop :=
  forall ps i a, records FO ts (map snd ps) -> first_fit (List.length areas) ps -> nth_error areas i = Some a ->
    part ps i <> [] \/ get FO (mk_fs rows) (h_st h) (ta_len a) [] = Ok (VInt 0).

Lemma hget_area FO rows (h : hdr FO) nm d : declares rows nm d -> hget FO rows h nm = get FO (mk_fs rows) (h_st h) nm [].
Proof. intros (i & H). unfold hget. now rewrite H. Qed.

Lemma read_back FO rows areas idx (h : hdr FO) ts dl more h' ov reg :
  FloatLaws FO -> areas_ok rows areas -> sound_header FO rows areas h ->
  (forall a, In a areas -> no_stale FO rows h a) -> refilled FO rows areas h ts ->
  Forall (recognised FO reg) ts ->
  prepare FO rows areas idx h ts (List.length dl) = (h', ov, Ok tt) ->
  exists ts' ts1, read_areas FO rows reg h' (dl ++ appended ov ++ more) areas = Ok ts1
    /\ Permutation ts ts' /\ Forall2 (same_tre FO) ts' ts1
    /\ (forall rs, records FO ts rs -> (Z.of_nat (List.length (List.concat rs)) < 99996)%Z -> areas <> [] -> ts' = ts).
Proof.
  intros laws (Hwf & HA & ND) HS HQ HU HC H.
  assert (HR : exists rs, records FO ts rs).
  { unfold prepare in H. destruct (place FO ts (map (fun _ => []) areas) []) as [[heads des]|] eqn:HP; [|discriminate].
    replace (map (fun _ : tarea => @nil N) areas) with (repeat (@nil N) (List.length areas)) in HP
      by (clear; induction areas; cbn; congruence).
    destruct (place_start _ _ _ _ _ HP) as (ps & P & _). eauto. }
  destruct HR as (rs & HR).
  destruct (prepare_ok FO rows Hwf areas HA ND idx h ts (List.length dl) rs HS HR) as (ps & E & HF & [(h1 & ov1 & H1 & P)|(h1 & ov1 & e & H1 & _)]);
    rewrite H1 in H; [|discriminate].
  injection H as <- <-. subst rs. clear H1. destruct P as (_ & _ & _ & P & _ & PO).
  specialize (fun i a => HU ps i a HR HF).
  destruct (numbered FO ts ps HR) as (qs & Eqs & HN). destruct HS as [_ HSL].
  assert (HNE := records_nonempty FO ts ps HR).
  assert (RD : forall i, exists t, read_tre_data FO reg (part ps i) = Ok t /\ Forall2 (same_tre FO) (sel qs i) t).
  { intro i. apply (C20_stream FO reg (sel qs i) (part ps i) laws).
    - rewrite Forall_forall in *. intros t Ht. apply HC. apply sel_in in Ht. congruence.
    - now apply sel_records. }
  assert (SN : forall i, part ps i = [] -> sel qs i = []).
  { intros i Hi. destruct (RD i) as (t & Rt & F2). rewrite Hi in Rt. cbv in Rt. injection Rt as <-. now inversion F2. }
  (* what each area gives *)
  set (n := List.length areas) in *.
  set (want := fun i => if Nat.eqb i 0 then sel qs n ++ sel qs 0 else sel qs i).
  assert (AR : forall i a, nth_error areas i = Some a ->
     exists t, area_reads FO rows reg h1 (dl ++ appended ov1 ++ more) a t /\ Forall2 (same_tre FO) (want i) t).
  { intros i a Hi. assert (Ha : In a areas) by (eapply nth_error_In; eauto).
    assert (OKa : area_ok rows a) by (rewrite Forall_forall in HA; auto). destruct OKa as (D1 & D2 & D3).
    destruct (P i a Hi) as [X Y]. destruct (HSL a Ha) as (m & Hm0 & Hm).
    destruct (part ps i) as [|b0 b1] eqn:EP.
    - destruct (HU i a Hi) as [|HZ]; [congruence|]. exists []. destruct X as [X _].
      split; [left; split; auto; unfold hint; rewrite (hget_area FO rows h1 _ _ D1), X, HZ; reflexivity|].
      unfold want. destruct (Nat.eqb i 0) eqn:Ei; [|rewrite (SN i EP); constructor].
      apply Nat.eqb_eq in Ei. subst i. rewrite (SN 0%nat EP), app_nil_r.
      destruct ov1 as [o|]; [|rewrite (SN n PO); constructor].
      exfalso. destruct PO as (_ & _ & a0 & A1 & _ & _ & _ & n' & A2 & A3). assert (a0 = a) by congruence. subst a0.
      unfold len_is in A2. congruence.
    - assert (Hne : b0 :: b1 <> []) by discriminate. rewrite <- EP in *. assert (XX : len_is FO rows (h_st h1) a (Z.of_nat (List.length (part ps i)) + 3) /\
         get FO (mk_fs rows) (h_st h1) (ta_data a) [] = Ok (VBytes (part ps i))) by (destruct (part ps i); [congruence|exact X]).
      clear X. destruct XX as [X1 X2]. destruct (RD i) as (t2 & R2 & F2).
      assert (Hlen : (0 < List.length (part ps i))%nat) by (destruct (part ps i); [congruence|cbn; lia]).
      assert (YY : i <> 0%nat \/ ov1 = None -> get FO (mk_fs rows) (h_st h1) (ta_ofl a) [] = Ok (VInt 0)).
      { intro Hov. apply (Y m _ Hm X1); [lia| |exact Hov]. destruct (HQ a Ha) as [(m' & Hm' & HQ')|HQ'].
        - left. unfold len_is in Hm. assert (m = m') by congruence. lia.
        - right. split; [congruence|exact HQ']. }
      destruct (Nat.eq_dec i 0) as [->|Ni].
      + destruct ov1 as [o|].
        * destruct PO as (PD & _ & a0 & A1 & _ & _ & A4 & _). assert (a0 = a) by congruence. subst a0.
          destruct (RD n) as (t1 & R1 & F1). exists (t1 ++ t2). split; [right|].
          -- do 5 eexists. unfold hint. rewrite (hget_area FO rows h1 _ _ D1), (hget_area FO rows h1 _ _ D2), (hget_area FO rows h1 _ _ D3).
             unfold len_is in X1. rewrite X1, A4, X2. cbn [bind]. split; [reflexivity|]. split; [lia|]. split; [reflexivity|].
             split; [right; split; [lia|]; exists (ov_data o); split; [|rewrite PD; exact R1]|].
             ++ replace (Z.to_nat (Z.of_nat (S (List.length dl)) - 1)) with (List.length dl) by lia.
                rewrite nth_error_app2, Nat.sub_diag by lia. reflexivity.
             ++ split; [reflexivity|]. split; [exact R2|reflexivity].
          -- unfold want. cbn [Nat.eqb]. apply Forall2_app; auto.
        * exists t2. split; [right|].
          -- do 5 eexists. unfold hint. rewrite (hget_area FO rows h1 _ _ D1), (hget_area FO rows h1 _ _ D2), (hget_area FO rows h1 _ _ D3).
             rewrite YY by auto.
             unfold len_is in X1. rewrite X1, X2. cbn [bind]. split; [reflexivity|]. split; [lia|]. split; [reflexivity|].
             split; [left; split; reflexivity|]. split; [reflexivity|]. split; [exact R2|reflexivity].
          -- unfold want. cbn [Nat.eqb]. rewrite (SN n PO). exact F2.
      + exists t2. split; [right|].
        * do 5 eexists. unfold hint. rewrite (hget_area FO rows h1 _ _ D1), (hget_area FO rows h1 _ _ D2), (hget_area FO rows h1 _ _ D3).
          rewrite YY by auto.
          unfold len_is in X1. rewrite X1, X2. cbn [bind]. split; [reflexivity|]. split; [lia|]. split; [reflexivity|].
          split; [left; split; reflexivity|]. split; [reflexivity|]. split; [exact R2|reflexivity].
        * unfold want. replace (Nat.eqb i 0) with false by (symmetry; now apply Nat.eqb_neq). exact F2. }
  assert (ALL : exists tss, Forall2 (area_reads FO rows reg h1 (dl ++ appended ov1 ++ more)) areas tss
     /\ Forall2 (Forall2 (same_tre FO)) (map want (seq 0 n)) tss).
  { assert (G : forall l k, (forall i a, nth_error l i = Some a -> nth_error areas (k + i) = Some a) ->
       exists tss, Forall2 (area_reads FO rows reg h1 (dl ++ appended ov1 ++ more)) l tss
         /\ Forall2 (Forall2 (same_tre FO)) (map want (seq k (List.length l))) tss).
    { induction l as [|a l IH]; intros k Hk; [exists []; cbn; auto|].
      destruct (AR (k + 0)%nat a (Hk 0%nat a eq_refl)) as (t & T1 & T2). rewrite Nat.add_0_r in T2.
      destruct (IH (S k)) as (tss & T3 & T4).
      { intros i a' Hi. replace (S k + i)%nat with (k + S i)%nat by lia. now apply Hk. }
      exists (t :: tss). cbn [List.length seq map]. split; constructor; auto. }
    apply (G areas 0%nat). auto. }
  destruct ALL as (tss & T1 & T2).
  exists (List.concat (map want (seq 0 n))), (List.concat tss).
  split; [now apply read_areas_all|]. 
  assert (EQ : areas <> [] -> List.concat (map want (seq 0 n)) = sel qs n ++ List.concat (map (sel qs) (seq 0 n))).
  { intro HNA. unfold n. destruct areas as [|a0 areas']; [congruence|]. cbn [List.length seq map List.concat].
    replace (map want (seq 1 (List.length areas'))) with (map (sel qs) (seq 1 (List.length areas'))).
    - unfold want at 1. cbn [Nat.eqb]. rewrite <- app_assoc. reflexivity.
    - apply map_ext_in. intros i Hi. apply in_seq in Hi. unfold want. replace (Nat.eqb i 0) with false by (symmetry; apply Nat.eqb_neq; lia).
      reflexivity. }
  assert (HLE : forall q, In q qs -> (fst q <= n)%nat).
  { intros q Hq. clear - HN HF Hq. induction HN as [|q' p' qs ps [E1 _] HN IH] in HF, Hq |- *; [destruct Hq|].
    assert (G : forall p, In p (p' :: ps) -> (fst p <= n)%nat) by (intros p Hp; eapply first_fit_number; eauto).
    assert (G' : forall q, In q (q' :: qs) -> exists p, In p (p' :: ps) /\ fst q = fst p).
    { clear - HN E1. intros q [<-|Hq]; [exists p'; split; [now left|exact E1]|].
      induction HN as [|a b qs ps [E _] _ IH]; [destruct Hq|]. destruct Hq as [<-|Hq].
      - exists b. split; [right; now left|exact E].
      - destruct (IH Hq) as (p & [->|Hp] & Ep); [exists p; split; [now left|exact Ep]|exists p; split; [right; now right|exact Ep]]. }
    destruct (G' q Hq) as (p & Hp & ->). auto. }
  split; [|split].
  - destruct areas as [|a0 areas'] eqn:EA.
    + assert (part ps 0 = []).
      { destruct ov1 as [o|]; [|exact PO]. destruct PO as (_ & _ & a & Ha & _). discriminate. }
      specialize (SN 0%nat H). assert (HE : forall q, In q qs -> fst q = 0%nat) by (intros q Hq; specialize (HLE q Hq); cbn in HLE; unfold n in HLE; cbn in HLE; lia).
      destruct (sel_first qs 0 HE) as [S1 _]. rewrite SN in S1. subst ts. rewrite <- S1. cbn. constructor.
    + rewrite <- EA in *. rewrite EQ by (rewrite EA; discriminate). subst ts. now apply sel_all.
  - now apply Forall2_concat.
  - intros rs HR' HT HNA. rewrite EQ by assumption.
    assert (rs = map snd ps).
    { clear - HR HR'. unfold records in *. revert HR'. generalize dependent (map snd ps). intros l HR HR'. revert rs HR'.
      induction HR; intros rs HR'; inversion HR'; subst; auto. f_equal; [congruence|auto]. }
    subst rs. assert (0 < n)%nat by (unfold n; destruct areas; [congruence|cbn; lia]).
    destruct (first_fit_all n ps H HF HT) as [FF _].
    assert (HE : forall q, In q qs -> fst q = 0%nat).
    { clear - HN FF. induction HN as [|a b qs ps [E _] _ IH]; intros q Hq; [destruct Hq|]. destruct Hq as [<-|Hq].
      - rewrite E. apply FF. now left.
      - apply IH; auto. intros p Hp. apply FF. now right. }
    destruct (sel_first qs 0 HE) as [S1 S2]. rewrite (S2 n) by lia. cbn [app].
    destruct n as [|n']; [lia|]. cbn [seq map List.concat]. rewrite S1.
    replace (List.concat (map (sel qs) (seq 1 n'))) with (@nil (tre FO)); [rewrite app_nil_r; exact Eqs|].
    symmetry. clear - S2. assert (G : forall k, (0 < k)%nat -> forall m, List.concat (map (sel qs) (seq k m)) = []).
    { intros k Hk m. revert k Hk. induction m as [|m IH]; intros k Hk; cbn; auto. rewrite S2 by lia. cbn. apply IH. lia. }
    apply G. lia.
Qed.

(** All areas empty, as in a new header. *)
Definition empty_areas FO rows areas (h : hdr FO) : Prop :=
  st_impl FO (h_st h) = false /\ forall a, In a areas ->
    get FO (mk_fs rows) (h_st h) (ta_len a) [] = Ok (VInt 0) /\ quiet FO rows (h_st h) a.

Lemma empty_sound FO rows areas (h : hdr FO) : empty_areas FO rows areas h ->
  sound_header FO rows areas h /\ (forall a, In a areas -> no_stale FO rows h a)
  /\ forall ts, refilled FO rows areas h ts.
Proof.
  intros [HI H]. split; [|split].
  - split; auto. intros a Ha. exists 0%Z. split; [lia|]. now apply H.
  - intros a Ha. right. now apply H.
  - intros ts ps i a _ _ Hi. right. apply H. eapply nth_error_In; eauto.
Qed.

Theorem C23_read_back FO rows areas idx (h : hdr FO) ts dl more h' ov reg :
  FloatLaws FO -> areas_ok rows areas -> empty_areas FO rows areas h -> Forall (recognised FO reg) ts ->
  prepare FO rows areas idx h ts (List.length dl) = (h', ov, Ok tt) ->
  exists ts' ts1, read_areas FO rows reg h' (dl ++ appended ov ++ more) areas = Ok ts1
    /\ Permutation ts ts' /\ Forall2 (same_tre FO) ts' ts1
    /\ (forall rs, records FO ts rs -> (Z.of_nat (List.length (List.concat rs)) < 99996)%Z -> areas <> [] -> ts' = ts).
Proof.
  intros laws HA HE HC H. destruct (empty_sound FO rows areas h HE) as (HS & HQ & HU).
  exact (read_back FO rows areas idx h ts dl more h' ov reg laws HA HS HQ (HU ts) HC H).
Qed.

(** The graphic subheader: reading back fails, because the overflow field is looked up under
    another name than the header has (nitf_segment.py:287, nitf_graphic_subheader.py:46). *)
Theorem C23_graphic_refuted FO : exists t : tre FO,
  recognised FO [] t /\
  let rows := desc_NitfGraphicSubheader in
  let '(h', ov, r) := prepare FO rows graphic_areas 0 {| h_st := init_state FO; h_attr := [] |} [t] 0 in
  r = Ok tt /\ ov = None /\ read_areas FO rows [] h' [] graphic_areas = Err EAttr
  (* also after writing the header and reading it into a new one *)
  /\ match (do b <- write FO (mk_fs rows) (h_st h'); read FO (mk_fs rows) false (init_state FO) b) with
     | Ok (s, rest) => rest = [] /\ read_areas FO rows [] {| h_st := s; h_attr := [] |} [] graphic_areas = Err EAttr
     | Err _ => False
     end.
Proof.
  exists (TUnk (str "ABCDEF") (str "xy")). split.
  - split; [apply plain_check; reflexivity|]. intros c s ((_ & l1 & l2 & H & _) & _). destruct l1; discriminate.
  - vm_compute. auto 6.
Qed.

(** ** C24 *)

(** Headers after any history of preparations, starting from one with empty areas. *)
Inductive history FO rows areas : hdr FO -> Prop :=
| hist_new h : empty_areas FO rows areas h -> history FO rows areas h
| hist_write h ts idx ndes h' ov : history FO rows areas h ->
    prepare FO rows areas idx h ts ndes = (h', ov, Ok tt) -> history FO rows areas h'.

Lemma history_ok FO rows areas (h : hdr FO) : areas_ok rows areas -> history FO rows areas h ->
  sound_header FO rows areas h /\ forall a, In a areas -> no_stale FO rows h a.
Proof.
  intros HOK. induction 1 as [h HE|h ts idx ndes h' ov _ [HS HQ] H].
  - destruct (empty_sound _ _ _ _ HE) as (? & ? & _). auto.
  - destruct HOK as (Hwf & HA & ND).
    assert (HR : exists rs, records FO ts rs).
    { unfold prepare in H. destruct (place FO ts (map (fun _ => []) areas) []) as [[heads des]|] eqn:HP; [|discriminate].
      replace (map (fun _ : tarea => @nil N) areas) with (repeat (@nil N) (List.length areas)) in HP
        by (clear; induction areas; cbn; congruence).
      destruct (place_start _ _ _ _ _ HP) as (ps & P & _). eauto. }
    destruct HR as (rs & HR).
    destruct (prepare_ok FO rows Hwf areas HA ND idx h ts ndes rs HS HR) as (ps & E & HF & [(h1 & ov1 & H1 & P)|(h1 & ov1 & e & H1 & _)]);
      rewrite H1 in H; [|discriminate].
    injection H as <- <-. clear H1. destruct P as (_ & PI & _ & P & PQ & PO). destruct HS as [HI HL].
    assert (K : forall a, In a areas -> exists n, (0 <= n)%Z /\ len_is FO rows (h_st h1) a n
       /\ (n = 0%Z -> quiet FO rows (h_st h1) a)).
    { intros a Ha. destruct (In_nth_error _ _ Ha) as (i & Hi). destruct (P i a Hi) as [X _].
      destruct (HL a Ha) as (n & Hn0 & Hn). unfold len_is in *. destruct (part ps i) as [|b0 b1] eqn:EP.
      - exists n. destruct X as [X _]. split; auto. split; [congruence|]. intros ->.
        apply (PQ i a Hi Hn EP). destruct (HQ a Ha) as [(m & Hm & Em)|]; auto. exfalso. assert (m = 0%Z) by congruence. lia.
      - exists (Z.of_nat (List.length (b0 :: b1)) + 3)%Z. split; [lia|]. split; [apply X|]. lia. }
    split.
    + split; auto. intros a Ha. destruct (K a Ha) as (n & ? & ? & _). eauto.
    + intros a Ha. destruct (K a Ha) as (n & Hn & HLn & Hq). destruct (Z.eq_dec n 0) as [->|].
      * right. auto.
      * left. exists n. split; [lia|exact HLn].
Qed.

(** After any history, the TREs read back are the ones of the current list, provided every
    area that has content gets new content. *)
Theorem C24_current_partial FO rows areas idx (h : hdr FO) ts dl more h' ov reg :
  FloatLaws FO -> areas_ok rows areas -> history FO rows areas h -> refilled FO rows areas h ts ->
  Forall (recognised FO reg) ts ->
  prepare FO rows areas idx h ts (List.length dl) = (h', ov, Ok tt) ->
  exists ts' ts1, read_areas FO rows reg h' (dl ++ appended ov ++ more) areas = Ok ts1
    /\ Permutation ts ts' /\ Forall2 (same_tre FO) ts' ts1.
Proof.
  intros laws HA HH HU HC H. destruct (history_ok FO rows areas h HA HH) as [HS HQ].
  destruct (read_back FO rows areas idx h ts dl more h' ov reg laws HA HS HQ HU HC H) as (ts' & ts1 & H1 & H2 & H3 & _).
  eauto.
Qed.

(** Otherwise a removed TRE stays (nitf_tre.py:215): an image with one TRE, written, the TRE
    removed, written again. *)
Theorem C24_removed_refuted FO : exists t : tre FO,
  recognised FO [] t /\
  let rows := desc_NitfImageSubheader in
  let '(h1, _, r1) := prepare FO rows image_areas 0 {| h_st := init_state FO; h_attr := [] |} [t] 0 in
  let '(h2, _, r2) := prepare FO rows image_areas 0 h1 [] 0 in
  r1 = Ok tt /\ r2 = Ok tt /\ read_areas FO rows [] h2 [] image_areas = Ok [t].
Proof.
  exists (TUnk (str "ABCDEF") (str "xy")). split.
  - split; [apply plain_check; reflexivity|]. intros c s ((_ & l1 & l2 & H & _) & _). destruct l1; discriminate.
  - vm_compute. auto.
Qed.

(** An overflow number left from before shows up again when an emptied area gets content
    (nitf_tre.py:210-216 clears it only if the area has content): the area is emptied by
    assigning no data, and the TRE written next cannot be read. *)
Theorem C24_pointer_refuted FO : exists (t : tre FO) s,
  recognised FO [] t /\
  let rows := desc_NitfImageSubheader in
  (* the history of [s]: data, overflow number 1, data removed *)
  s = fst (set FO (mk_fs rows) (fst (set FO (mk_fs rows) (fst (set FO (mk_fs rows) (init_state FO) "ixshd" [] (SVal (VBytes (str "x")))))
        "ixofl" [] (SVal (VInt 1)))) "ixshd" [] (SVal (VBytes [])))
  /\ get FO (mk_fs rows) s "ixshdl" [] = Ok (VInt 0)
  /\ let '(h1, ov, r1) := prepare FO rows image_areas 0 {| h_st := s; h_attr := [] |} [t] 0 in
     r1 = Ok tt /\ ov = None /\ read_areas FO rows [] h1 [] image_areas = Err EIndex.
Proof.
  exists (TUnk (str "ABCDEF") (str "xy")). eexists. split.
  - split; [apply plain_check; reflexivity|]. intros c s ((_ & l1 & l2 & H & _) & _). destruct l1; discriminate.
  - cbv zeta. split; [reflexivity|]. vm_compute. auto.
Qed.

(** ** Examples *)

(** A new header has empty areas. *)
Lemma new_header_empty FO rows areas : areas_ok rows areas ->
  empty_areas FO rows areas {| h_st := init_state FO; h_attr := [] |}.
Proof.
  intros (Hwf & HA & _). split; [reflexivity|]. intros a Ha. rewrite Forall_forall in HA.
  destruct (area_fields rows a (HA a Ha)) as (lf & of & df & A). cbn [h_st].
  assert (HD : forall f d, f_d f = d -> stored FO (init_state FO) f [] = SVal (default_val FO d)).
  { intros f d <-. reflexivity. }
  split.
  - rewrite (get_len FO rows a lf of df A), (HD _ _ (af_lend _ _ _ _ _ A)). reflexivity.
  - intros b s' Hb H. rewrite (set_data FO rows a lf of df A) in H by reflexivity. injection H as <-.
    assert (K : get FO (mk_fs rows) (with_data FO lf df (init_state FO) b) (ta_len a) [] = Ok (VInt (Z.of_nat (List.length b) + 3))).
    { rewrite (get_len FO rows a lf of df A). unfold with_data. rewrite assigned_self. unfold conv_of, convert. cbn.
      destruct b; [congruence|]. cbn [List.length]. replace (_ =? 0)%Z with false by lia. reflexivity. }
    rewrite (get_ofl FO rows a lf of df A Hwf _ _ K). replace (_ =? 0)%Z with false by lia.
    destruct (afields_ne rows a lf of df A) as (N1 & N2 & N3). unfold with_data.
    assert (I1 := lookup_in _ _ _ (af_len _ _ _ _ _ A)). assert (I2 := lookup_in _ _ _ (af_ofl _ _ _ _ _ A)).
    assert (I3 := lookup_in _ _ _ (af_dat _ _ _ _ _ A)).
    rewrite !(stored_assigned_ne FO rows) by auto. rewrite (HD _ _ (af_ofld _ _ _ _ _ A)). reflexivity.
Qed.

(** An image with five TREs: the first three do not fit together, so two go to the second
    area; a fourth fits neither and overflows, the last one is small and goes first again. *)
Definition ex_big (FO : FloatOps) (c : N) (n : Z) : tre FO := TUnk (str "BIGTRE") (repeat c (Z.to_nat n)).
Definition ex_five FO : list (tre FO) :=
  [ex_big FO 65 60000; ex_big FO 66 60000; ex_big FO 67 39000; ex_big FO 68 50000; TUnk (str "SMALL") (str "s")].
Lemma ex_five_recognised FO : Forall (recognised FO []) (ex_five FO).
Proof.
  repeat (apply Forall_cons; [split; [apply plain_check; reflexivity|intros c s ((_ & l1 & l2 & H & _) & _); destruct l1; discriminate]|]).
  apply Forall_nil.
Qed.

Definition ex_prep FO := prepare FO desc_NitfImageSubheader image_areas 4 {| h_st := init_state FO; h_attr := [] |} (ex_five FO) 2.
Definition short (r : res (pyval DecF)) : option (Z * list N) :=
  match r with Ok (VBytes b) => Some (Z.of_nat (List.length b), firstn 14 b) | Ok (VInt z) => Some (z, []) | _ => None end.
Example ex_c22 : (let '(h, ov, r) := ex_prep DecF in
   (is_ok r, map (fun nm => short (get DecF (mk_fs desc_NitfImageSubheader) (h_st h) nm [])) ["ixshdl"; "ixofl"; "ixshd"; "udidl"; "udofl"; "udid"],
    option_map (fun o => (ov_oflw o, ov_item o, Z.of_nat (List.length (ov_data o)))) ov))
  = (true, [Some (99037, []); Some (3, []); Some (99034, str "BIGTRE60000AAA"); Some (60014, []); Some (0, []); Some (60011, str "BIGTRE60000BBB")],
     Some (str "IXSHD", 5, 50011))%Z.
Proof. vm_compute. reflexivity. Qed.

(** A file with one small TRE: it goes into the extended header, not the user defined one. *)
Example ex_c22_file : (let '(h, ov, r) := prepare DecF desc_NitfFileHeader file_areas 0 {| h_st := init_state DecF; h_attr := [] |} [TUnk (str "SMALL") (str "s")] 0 in
   (is_ok r, map (fun nm => short (get DecF (mk_fs desc_NitfFileHeader) (h_st h) nm [])) ["xhdl"; "xhdlofl"; "xhd"; "udhdl"]%string,
    match ov with None => true | _ => false end))
  = (true, [Some (15%Z, []); Some (0%Z, []); Some (12%Z, str "SMALL 00001s"); Some (0%Z, [])], true).
Proof. vm_compute. reflexivity. Qed.

(** Attributes of a header that are not fields: the last value given is the one there. *)
Theorem C22_attribute FO rows (h : hdr FO) nm v : lookup (mk_fs rows) nm = None ->
  hget FO rows (fst (hset FO rows h nm v)) nm = Ok v
  /\ (forall nm', nm' <> nm -> hget FO rows (fst (hset FO rows h nm v)) nm' = hget FO rows h nm')
  /\ forall nm' w, hget FO rows (fst (hset FO rows (fst (hset FO rows h nm w)) nm v)) nm' = hget FO rows (fst (hset FO rows h nm v)) nm'.
Proof.
  intro L. unfold hset. rewrite L. cbn [fst h_st h_attr]. unfold hget. cbn [h_st h_attr]. split; [|split].
  - rewrite L. unfold assoc. cbn [find fst]. now rewrite String.eqb_refl.
  - intros nm' Hn. unfold assoc. cbn [find fst]. now rewrite (proj2 (String.eqb_neq nm' nm) Hn).
  - intros nm' w. unfold assoc. cbn [find fst]. now destruct (String.eqb nm' nm).
Qed.
(** The overflow number of graphics is one: a second preparation replaces it. *)
Example ex_c22_attribute :
  let rows := desc_NitfGraphicSubheader in
  let h := fst (hset DecF rows (fst (hset DecF rows {| h_st := init_state DecF; h_attr := [] |} "sxsofl" (VInt 3))) "sxsofl" (VInt 4)) in
  lookup (mk_fs rows) "sxsofl" = None /\ short (hget DecF rows h "sxsofl") = Some (4%Z, []).
Proof. vm_compute. split; reflexivity. Qed.

Definition tags (r : res (list (tre DecF))) : list (list N) := match r with Ok ts => map (tre_tag DecF) ts | Err _ => [] end.
Example ex_c23 : (let '(h, ov, r) := ex_prep DecF in
   tags (read_areas DecF desc_NitfImageSubheader [] h ([Err EAttr; Err EAttr] ++ appended ov) image_areas))
  = [str "BIGTRE"; str "BIGTRE"; str "BIGTRE"; str "SMALL"; str "BIGTRE"].
Proof. vm_compute. reflexivity. Qed.

(** The hypotheses of C23 hold of it. *)
Example ex_c23_hyp : areas_ok desc_NitfImageSubheader image_areas
  /\ empty_areas DecF desc_NitfImageSubheader image_areas {| h_st := init_state DecF; h_attr := [] |}
  /\ Forall (recognised DecF []) (ex_five DecF) /\ is_ok (snd (ex_prep DecF)) = true.
Proof.
  pose proof areas_shipped as (_ & HA & _). split; [exact HA|]. split; [exact (new_header_empty DecF _ _ HA)|].
  split; [exact (ex_five_recognised DecF)|]. vm_compute. reflexivity.
Qed.

(** A second preparation of the same header with fewer TREs that still use both areas. *)
Example ex_c24 : (let '(h, ov, r) := ex_prep DecF in
   let '(h1, ov1, r1) := prepare DecF desc_NitfImageSubheader image_areas 4 h [ex_big DecF 65 60000; ex_big DecF 66 60000] 2 in
   (is_ok r1, match ov1 with None => true | _ => false end,
    tags (read_areas DecF desc_NitfImageSubheader [] h1 [] image_areas)))
  = (true, true, [str "BIGTRE"; str "BIGTRE"]).
Proof. vm_compute. reflexivity. Qed.

Print Assumptions C22_placement.
Print Assumptions C22_outcome.
Print Assumptions C22_frame.
Print Assumptions C22_attribute.
Print Assumptions C22_overflow_refuted.
Print Assumptions C23_read_back.
Print Assumptions C23_graphic_refuted.
Print Assumptions C24_current_partial.
Print Assumptions C24_removed_refuted.
Print Assumptions C24_pointer_refuted.
Print Assumptions areas_complete.
