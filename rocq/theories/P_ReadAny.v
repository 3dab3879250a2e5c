(** C57: what a structure shows after it has read a record depends on the bytes of the record
    only, not on what the structure held before (nitf_field.py:345-360, 631-635, 916-933). *)
From Verif Require Import Base BaseLemmas Engine Wf EngineLemmas Codec RoundTrip Rewrite Literal
  Positions Keys Deps Assign Update Spec Decimal Ex.
From Coq Require Import ZifyBool ZifyNat ZifyN.
Open Scope list_scope.

Section Two.
Variable FO : FloatOps.
Variable rows : list row.
Let fs := mk_fs rows.
Variable lit : bool.
Notation state := (state FO).

Let Hinj : forall y y', In y (fs_fields fs) -> In y' (fs_fields fs) -> f_id y = f_id y' -> y = y'.
Proof. apply mk_fs_id_inj. Qed.

(** Two structures hold the same at the positions [V], except where nothing is kept (reserved
    areas) or the condition makes the field absent. *)
Definition alike (V : list pos) (s t : state) : Prop :=
  forall y p, In (y, p) V -> fd_name (f_d y) = None
    \/ check_condition FO (G FO fs s) fs y p = Ok false \/ slot FO s y p = slot FO t y p.

Lemma check_condition_fuel n m s y p b c :
  check_condition FO (getf FO n fs s) fs y p = Ok b ->
  check_condition FO (getf FO m fs s) fs y p = Ok c -> b = c.
Proof.
  intros H1 H2.
  assert (A : forall n b, (n <= Nat.max n m)%nat -> check_condition FO (getf FO n fs s) fs y p = Ok b ->
    check_condition FO (getf FO (Nat.max n m) fs s) fs y p = Ok b).
  { intros n' b' Hle. apply check_condition_agree. intros nm d f v _ _. now apply getf_mono. }
  assert (A' : forall b, check_condition FO (getf FO m fs s) fs y p = Ok b ->
    check_condition FO (getf FO (Nat.max n m) fs s) fs y p = Ok b).
  { intros b'. apply check_condition_agree. intros nm d f v _ _. apply getf_mono. lia. }
  apply A in H1; [|lia]. apply A' in H2. congruence.
Qed.

Lemma alike_getf V s t : closed fs V -> alike V s t -> forall n y p v,
  In (y, p) V -> getf FO n fs s y p = Ok v -> getf FO n fs t y p = Ok v.
Proof.
  intros HC HS n. induction n as [|n IH]; intros y p v HV H; [discriminate|].
  change (get_pub FO (getf FO n fs s) fs s y p = Ok v) in H.
  change (get_pub FO (getf FO n fs t) fs t y p = Ok v).
  destruct (HC _ _ HV) as (Hlen & Hown & Hsh).
  eapply get_pub_agree; [| | |exact H].
  - eapply refs_in_agree; [|exact Hown]. eauto.
  - eapply refs_in_agree_rl; [|exact Hsh]. eauto.
  - intros Hn Hc _ w. destruct (HS y p HV) as [E|[E|E]]; [contradiction| |].
    + assert (true = false) by (eapply (check_condition_fuel n (fuel fs)); eauto). discriminate.
    + apply (f_equal fst) in E. cbn [slot fst] in E. rewrite E. auto.
Qed.

Lemma alike_agree V s t p d rs : closed fs V -> alike V s t -> Forall (ref_in fs V p d) rs ->
  refs_agree FO (G FO fs s) (G FO fs t) fs p rs.
Proof.
  intros HC HS HR. eapply refs_in_agree; [|exact HR]. intros y q v HV _. now apply (alike_getf V s t).
Qed.

Lemma alike_cond V s t y p b : closed fs V -> alike V s t -> In (y, p) V ->
  check_condition FO (G FO fs s) fs y p = Ok b -> check_condition FO (G FO fs t) fs y p = Ok b.
Proof.
  intros HC HS HV. destruct (HC _ _ HV) as (_ & Hown & _). destruct (own_split _ _ Hown) as (Rc & _).
  apply check_condition_agree. exact (alike_agree V s t _ _ _ HC HS Rc).
Qed.

Lemma alike_sym V s t : closed fs V -> alike V s t -> alike V t s.
Proof.
  intros HC HS y p HV. destruct (HS y p HV) as [E|[E|E]]; auto.
  right. left. eapply alike_cond; eauto.
Qed.

(** What is alike stays alike while both structures keep what they hold there. *)
Lemma alike_kept V s t s' t' : closed fs V -> alike V s t -> same_on FO V s s' -> same_on FO V t t' ->
  alike V s' t'.
Proof.
  intros HC HS H1 H2 y p HV. destruct (HS y p HV) as [E|[E|E]]; auto.
  - right. left. destruct (HC _ _ HV) as (_ & Hown & _). destruct (own_split _ _ Hown) as (Rc & _).
    eapply check_condition_agree; [|exact E]. exact (same_agree FO rows V s s' _ _ _ HC H1 Rc).
  - right. right. now rewrite <- (H1 y p HV), <- (H2 y p HV).
Qed.

(** The positions [q] visits, in [s'], in [t'] and in whatever keeps what they hold. *)
Definition visits (V : list pos) (s' t' : state) (q : state -> res (list pos)) : Prop :=
  exists ps, incl ps V /\ (forall u, same_on FO V s' u -> q u = Ok ps)
    /\ (forall u, same_on FO V t' u -> q u = Ok ps).

Definition item_two (it : item) : Prop :=
  forall env path k V s t inp s' rest,
  incl env (fs_fields fs) -> env_in env k V -> List.length k = List.length path ->
  Forall (fun y => (depth y <= List.length k)%nat) env ->
  item_ok fs env (List.length path) it = true -> placed path it ->
  incl (item_fields it) (fs_fields fs) -> NoDup (item_fields it) ->
  closed fs V -> all_fields rows V -> fresh V k (item_fields it) -> alike V s t ->
  read_item FO fs lit k it (s, inp) = Ok (s', rest) ->
  exists V' t', read_item FO fs lit k it (t, inp) = Ok (t', rest)
    /\ closed fs V' /\ all_fields rows V' /\ grows V V' k (item_fields it)
    /\ frame FO rows k (item_fields it) s s' /\ frame FO rows k (item_fields it) t t'
    /\ (forall f, it = IField f -> In (f, k) V') /\ alike V' s' t'
    /\ visits V' s' t' (fun u => positions_item FO fs u k it).

Lemma set_frame f k (s : state) b v : In f (fs_fields fs) ->
  frame FO rows k [f] s (set_val FO (set_raw FO s (f_id f) k (Some b)) (f_id f) k v).
Proof.
  intros Hin y p Hy Hn.
  assert (Hne : f_id f <> f_id y \/ k <> p); [|unfold slot, stored; cbn [st_val st_raw set_val set_raw]; now rewrite !upd_neq].
  destruct (Nat.eq_dec (f_id f) (f_id y)) as [Ei|Ei]; auto. right. intro Ek.
  apply Hn. apply Hinj in Ei; auto. rewrite <- Ei, <- Ek. split; [now left|]. exists []. now rewrite app_nil_r.
Qed.

Lemma field_two f : item_two (IField f).
Proof.
  intros env path k V s t inp s' rest Hi HV HL Hd Hok Hpl Hf Hnd HC HA HF HS HR.
  cbn [item_ok] in Hok.
  assert (Hin : In f (fs_fields fs)) by (apply Hf; now left).
  assert (HP := refs_own rows env (List.length path) k V f Hi HV HL Hok). fold fs in HP.
  assert (HC' : closed fs ((f, k) :: V)) by now apply closed_cons.
  destruct HP as (Hlen & Hown & Hsh). destruct (own_split _ _ Hown) as (Rc & Rs & Rv).
  assert (HA' : all_fields rows ((f, k) :: V)).
  { intros y p [E|H]; [injection E as <- <-; exact Hin|eapply HA; eauto]. }
  assert (HG : grows V ((f, k) :: V) k [f]).
  { split; [now apply incl_tl, incl_refl|]. intros y p [E|H]; auto. injection E as <- <-.
    right. split; [now left|]. exists []. now rewrite app_nil_r. }
  assert (HVis : forall s' t', visits ((f, k) :: V) s' t' (fun u => positions_item FO fs u k (IField f))).
  { intros. exists [(f, k)]. split; [intros ? [<-|[]]; now left|]. split; reflexivity. }
  assert (Hid : forall u, frame FO rows k [f] u u) by (intros u y p _ _; reflexivity).
  assert (Hag : refs_agree FO (G FO fs s) (G FO fs t) fs k (opt_refs (fd_cond (f_d f))))
    by exact (alike_agree V s t _ _ _ HC HS Rc).
  assert (Has : refs_agree FO (G FO fs s) (G FO fs t) fs k (size_refs (fd_size (f_d f))))
    by exact (alike_agree V s t _ _ _ HC HS Rs).
  cbn [read_item item_fields] in *. unfold read_field in HR |- *.
  apply bind_ok_elim in HR as (c & Hc & HR).
  assert (Hct := check_condition_agree _ _ _ _ _ _ _ Hag Hc). rewrite Hct. cbn [bind].
  assert (HI' : forall f', IField f = IField f' -> In (f', k) ((f, k) :: V))
    by (intros f' E'; injection E' as <-; now left).
  destruct c; cbn [negb] in *.
  - apply bind_ok_elim in HR as (sz & Hsz & HR).
    rewrite (fsize_agree _ _ _ _ _ _ _ Has Hsz). cbn [bind].
    destruct ((sz <? 0)%Z || (Z.of_nat (List.length inp) <? sz)%Z) eqn:E; [discriminate HR|].
    set (b := firstn (Z.to_nat sz) inp) in *.
    destruct (fd_name (f_d f)) as [nm|] eqn:N.
    + apply bind_ok_elim in HR as (v & Hv & HR). rewrite Hv. cbn [bind]. injection HR as <- <-.
      set (s' := set_val FO (set_raw FO s (f_id f) k (Some b)) (f_id f) k v).
      set (t' := set_val FO (set_raw FO t (f_id f) k (Some b)) (f_id f) k v).
      assert (F1 : frame FO rows k [f] s s') by now apply set_frame.
      assert (F2 : frame FO rows k [f] t t') by now apply set_frame.
      exists ((f, k) :: V), t'. split; [reflexivity|]. repeat (split; [assumption|]). split; [|apply HVis].
      intros y p [Ey|Hy].
      * injection Ey as <- <-. right. right. unfold slot, stored, s', t'.
        cbn [st_val st_raw set_val set_raw]. now rewrite !upd_eq.
      * revert y p Hy. apply (alike_kept V s t); auto; eapply fresh_frame; eauto.
    + injection HR as <- <-. exists ((f, k) :: V), t. split; [reflexivity|].
      split; [exact HC'|]. split; [exact HA'|]. split; [exact HG|]. split; [apply Hid|]. split; [apply Hid|].
      split; [exact HI'|]. split; [|apply HVis].
      intros y p [Ey|Hy]; [injection Ey as <- <-; auto|now apply HS].
  - injection HR as <- <-. exists ((f, k) :: V), t. split; [reflexivity|].
    split; [exact HC'|]. split; [exact HA'|]. split; [exact HG|]. split; [apply Hid|]. split; [apply Hid|].
    split; [exact HI'|]. split; [|apply HVis].
    intros y p [Ey|Hy]; [injection Ey as <- <-; auto|now apply HS].
Qed.

Definition items_two_for (its : list item) : Prop :=
  forall env path k V s t inp s' rest,
  incl env (fs_fields fs) -> env_in env k V -> List.length k = List.length path ->
  Forall (fun y => (depth y <= List.length k)%nat) env ->
  items_ok fs env (List.length path) its = true -> Forall (placed path) its ->
  incl (flat_map item_fields its) (fs_fields fs) -> NoDup (flat_map item_fields its) ->
  closed fs V -> all_fields rows V -> fresh V k (flat_map item_fields its) -> alike V s t ->
  read_items FO fs lit k its (s, inp) = Ok (s', rest) ->
  exists V' t', read_items FO fs lit k its (t, inp) = Ok (t', rest)
    /\ closed fs V' /\ all_fields rows V' /\ grows V V' k (flat_map item_fields its)
    /\ frame FO rows k (flat_map item_fields its) s s' /\ frame FO rows k (flat_map item_fields its) t t'
    /\ alike V' s' t' /\ visits V' s' t' (fun u => positions_items FO fs u k its).

Lemma visits_seq V2 V3 s2 s3 t2 t3 q1 q2 : incl V2 V3 -> same_on FO V2 s2 s3 -> same_on FO V2 t2 t3 ->
  visits V2 s2 t2 q1 -> visits V3 s3 t3 q2 ->
  visits V3 s3 t3 (fun u => do x <- q1 u; do y <- q2 u; Ok (x ++ y)).
Proof.
  intros HI HS HT (p1 & I1 & A1 & B1) (p2 & I2 & A2 & B2). exists (p1 ++ p2).
  split; [apply incl_app; [eapply incl_tran; eauto|exact I2]|]. split; intros u Hu.
  - rewrite A1, (A2 u Hu); [reflexivity|]. eapply same_on_trans; [exact HS|]. eapply same_on_incl; eauto.
  - rewrite B1, (B2 u Hu); [reflexivity|]. eapply same_on_trans; [exact HT|]. eapply same_on_incl; eauto.
Qed.

Lemma visits_nil V s t q : (forall u, q u = Ok []) -> visits V s t q.
Proof. intro H. exists []. split; [intros ? []|]. auto. Qed.

Lemma items_two its : Forall item_two its -> items_two_for its.
Proof.
  induction 1 as [|it its Hit _ IH];
    intros env path k V s t inp s' rest Hi HV HL Hd Hok Hpl Hf Hnd HC HA HF HS HR.
  - cbn in HR. injection HR as <- <-. exists V, t. split; [reflexivity|].
    split; [exact HC|]. split; [exact HA|].
    split; [split; [apply incl_refl|auto]|]. split; [intros y p _ _; reflexivity|].
    split; [intros y p _ _; reflexivity|]. split; [exact HS|]. apply visits_nil; reflexivity.
  - unfold read_items in HR |- *. cbn [fold_res] in HR |- *.
    apply bind_ok_elim in HR as ([s2 r2] & HR1 & HR2).
    cbn [items_ok] in Hok. apply andb_true_iff in Hok as [Hok1 Hok2].
    inversion Hpl as [|? ? Hp1 Hp2]; subst. cbn [flat_map] in Hf, Hnd, HF |- *.
    apply incl_app_inv in Hf as [Hf1 Hf2]. apply NoDup_app_inv in Hnd as (Hnd1 & Hnd2 & Hdis).
    destruct (Hit env path k V s t inp s2 r2) as (V2 & t2 & E1 & C2 & A2 & G2 & F2 & F2' & N2 & S2 & W2); auto.
    { intros f p Hfi. apply HF. apply in_or_app; auto. }
    assert (HV2 : env_in (env_after env it) k V2).
    { intros z Hz. destruct it as [f|]; cbn in Hz; [|now apply G2, HV].
      apply in_app_or in Hz as [Hz|[<-|[]]]; [now apply G2, HV|].
      cbn [placed] in Hp1. unfold depth. rewrite Hp1, <- HL, firstn_all. now apply N2. }
    assert (HF2 : fresh V2 k (flat_map item_fields its)).
    { intros f p Hfi Hpre HVi. destruct (proj2 G2 f p HVi) as [Hv|[Hv _]].
      - eapply HF; eauto. apply in_or_app; auto.
      - eapply Hdis; eauto. }
    destruct (IH (env_after env it) path k V2 s2 t2 r2 s' rest)
      as (V3 & t3 & E2 & C3 & A3 & G3 & F3 & F3' & S3 & W3); auto.
    { destruct it as [f|]; cbn; auto. apply incl_app; auto. }
    { destruct it as [f|]; cbn; auto. apply Forall_app. split; auto. constructor; auto.
      cbn [placed] in Hp1. unfold depth. rewrite Hp1. lia. }
    exists V3, t3. rewrite E1. cbn [bind]. split; [exact E2|].
    split; [exact C3|]. split; [exact A3|]. split; [eapply grows_trans; eauto|].
    split; [eapply frame_trans; eauto|]. split; [eapply frame_trans; eauto|]. split; [exact S3|].
    eapply (visits_seq V2 V3 s2 s' t2 t3 (fun u => positions_item FO fs u k it)
                (fun u => positions_items FO fs u k its)); eauto.
    + apply G3. + eapply fresh_frame; eauto. + eapply fresh_frame; eauto.
Qed.

Lemma loop_two its : items_two_for its ->
  forall idx env path k V s t inp s' rest, NoDup idx ->
  incl env (fs_fields fs) -> env_in env k V -> S (List.length k) = List.length path ->
  Forall (fun y => (depth y <= List.length k)%nat) env ->
  items_ok fs env (List.length path) its = true -> Forall (placed path) its ->
  incl (flat_map item_fields its) (fs_fields fs) -> NoDup (flat_map item_fields its) ->
  closed fs V -> all_fields rows V ->
  (forall i, In i idx -> fresh V (k ++ [i]) (flat_map item_fields its)) -> alike V s t ->
  fold_res (fun i p => read_items FO fs lit (k ++ [i]) its p) idx (s, inp) = Ok (s', rest) ->
  exists V' t', fold_res (fun i p => read_items FO fs lit (k ++ [i]) its p) idx (t, inp) = Ok (t', rest)
    /\ closed fs V' /\ all_fields rows V'
    /\ grows V V' k (flat_map item_fields its)
    /\ (forall y p, In y (fs_fields fs) ->
          ~ (In y (flat_map item_fields its) /\ exists i, In i idx /\ pre (k ++ [i]) p) ->
          slot FO s y p = slot FO s' y p)
    /\ (forall y p, In y (fs_fields fs) ->
          ~ (In y (flat_map item_fields its) /\ exists i, In i idx /\ pre (k ++ [i]) p) ->
          slot FO t y p = slot FO t' y p)
    /\ alike V' s' t'
    /\ visits V' s' t' (fun u => concat_map_res (fun i => positions_items FO fs u (k ++ [i]) its) idx).
Proof.
  intros Hits idx. induction idx as [|i idx IH];
    intros env path k V s t inp s' rest Hni Hi HV HL Hd Hok Hpl Hf Hnd HC HA HF HS HR.
  - cbn in HR. injection HR as <- <-. exists V, t.
    split; [reflexivity|]. split; [exact HC|]. split; [exact HA|].
    split; [split; [apply incl_refl|auto]|]. split; [intros y p _ _; reflexivity|].
    split; [intros y p _ _; reflexivity|]. split; [exact HS|]. apply visits_nil; reflexivity.
  - cbn [fold_res] in HR |- *. apply bind_ok_elim in HR as ([s2 r2] & HR1 & HR2).
    inversion Hni as [|? ? Hni1 Hni2]; subst.
    destruct (Hits env path (k ++ [i]) V s t inp s2 r2) as (V2 & t2 & E1 & C2 & A2 & G2 & F2 & F2' & S2 & W2); auto.
    { now apply env_in_ext. }
    { rewrite app_length. cbn [List.length]. lia. }
    { eapply Forall_impl; [|exact Hd]. intros z Hz. cbn beta in Hz |- *. rewrite app_length.
      cbn [List.length]. lia. }
    { apply HF. now left. }
    destruct (IH env path k V2 s2 t2 r2 s' rest) as (V3 & t3 & E2 & C3 & A3 & G3 & F3 & F3' & S3 & W3); auto.
    { eapply env_in_incl; [|exact HV]. apply G2. }
    { intros j Hj f p Hfi Hpre HVi. destruct (proj2 G2 f p HVi) as [Hv|[_ Hv]].
      - eapply (HF j); eauto. now right.
      - assert (i = j) by (eapply pre_inj; eauto). subst. auto. }
    assert (Hkeep : forall a b, (forall y p, In y (fs_fields fs) ->
          ~ (In y (flat_map item_fields its) /\ exists i, In i idx /\ pre (k ++ [i]) p) ->
          slot FO a y p = slot FO b y p) -> same_on FO V2 a b).
    { intros a b Hab y p HVi. apply Hab; [now apply A2 in HVi|]. intros [A (j & B & B')].
      destruct (proj2 G2 y p HVi) as [Hv|[_ Hv]].
      - eapply (HF j); eauto. now right.
      - assert (i = j) by (eapply pre_inj; eauto). subst. auto. }
    assert (Hfr : forall a b c, frame FO rows (k ++ [i]) (flat_map item_fields its) a b ->
       (forall y p, In y (fs_fields fs) ->
          ~ (In y (flat_map item_fields its) /\ exists i, In i idx /\ pre (k ++ [i]) p) ->
          slot FO b y p = slot FO c y p) ->
       (forall y p, In y (fs_fields fs) ->
          ~ (In y (flat_map item_fields its) /\ exists j, In j (i :: idx) /\ pre (k ++ [j]) p) ->
          slot FO a y p = slot FO c y p)).
    { intros a b c Fa Fb y p Hy Hn. rewrite (Fa y p Hy), (Fb y p Hy); auto.
      * intros [A (j & B & B')]. apply Hn. split; auto. exists j. cbn. auto.
      * intros [A B]. apply Hn. split; auto. exists i. cbn. auto. }
    exists V3, t3. rewrite E1. cbn [bind]. split; [exact E2|].
    split; [exact C3|]. split; [exact A3|]. split; [|split; [|split; [|split]]].
    + split; [eapply incl_tran; [apply G2|apply G3]|]. intros y p H.
      destruct (proj2 G3 y p H) as [H2|]; auto. destruct (proj2 G2 y p H2) as [|[A B]]; auto.
      right. split; auto. eapply pre_ext; eauto.
    + eapply Hfr; eauto.
    + eapply Hfr; eauto.
    + exact S3.
    + eapply (visits_seq V2 V3 s2 s' t2 t3 (fun t => positions_items FO fs t (k ++ [i]) its)
        (fun t => concat_map_res (fun i => positions_items FO fs t (k ++ [i]) its) idx)); eauto.
      apply G3.
Qed.

Lemma all_item_two it : item_two it.
Proof.
  induction it as [f|sh its IH] using item_ind'; [apply field_two|].
  intros env path k V s t inp s' rest Hi HV HL Hd Hok Hpl Hf Hnd HC HA HF HS HR.
  rewrite item_ok_loop in Hok. apply andb_true_iff in Hok as [Hr Hok].
  rewrite read_item_loop in HR |- *. cbn [fst] in HR |- *. apply bind_ok_elim in HR as (n & Hn & HR).
  apply placed_loop in Hpl. cbn [item_fields] in *.
  assert (Hrin := refs_ok_in fs env k (List.length path) V (expr_refs sh) Hinj Hi HV Hr).
  destruct (loop_two its (items_two its IH) (zrange n) env (path ++ [sh]) k V s t inp s' rest)
    as (V' & t' & E & C' & A' & G' & F' & F'' & S' & ps & I' & W1 & W2); auto.
  { apply NoDup_zrange. }
  { rewrite app_length. cbn [List.length]. lia. }
  { rewrite app_length. cbn [List.length].
    now replace (List.length path + 1)%nat with (S (List.length path)) by lia. }
  { intros i _ f p Hfi Hpre. apply HF; auto. eapply pre_ext; eauto. }
  assert (Hfr : forall a b, (forall y p, In y (fs_fields fs) ->
          ~ (In y (flat_map item_fields its) /\ exists i, In i (zrange n) /\ pre (k ++ [i]) p) ->
          slot FO a y p = slot FO b y p) -> frame FO rows k (flat_map item_fields its) a b).
  { intros a b Hab y p Hy Hno. apply Hab; auto. intros [A (i & _ & B)]. apply Hno. split; auto.
    eapply pre_ext; eauto. }
  assert (Hnt : eval_shape FO (G FO fs t) fs k sh = Ok n)
    by (eapply eval_shape_agree; [|exact Hn]; exact (alike_agree V s t _ _ _ HC HS Hrin)).
  exists V', t'. rewrite Hnt. cbn [bind]. split; [exact E|].
  split; [exact C'|]. split; [exact A'|]. split; [exact G'|]. split; [auto|]. split; [auto|].
  split; [intros f Ef; discriminate Ef|]. split; [exact S'|].
  exists ps. split; [exact I'|].
  split; intros u Hu; rewrite positions_item_loop.
  - assert (En : eval_shape FO (G FO fs u) fs k sh = Ok n).
    { eapply eval_shape_agree; [|exact Hn]. eapply same_agree; [exact HC| |exact Hrin].
      eapply same_on_trans; [eapply fresh_frame; eauto|]. eapply same_on_incl; [|exact Hu]. apply G'. }
    rewrite En. cbn [bind]. now apply W1.
  - assert (En : eval_shape FO (G FO fs u) fs k sh = Ok n).
    { eapply eval_shape_agree; [|exact Hnt]. eapply same_agree; [exact HC| |exact Hrin].
      eapply same_on_trans; [eapply fresh_frame; eauto|]. eapply same_on_incl; [|exact Hu]. apply G'. }
    rewrite En. cbn [bind]. now apply W2.
Qed.

(** Both runs of [read] on the same bytes. *)
Lemma read_two s t inp s' rest : wf_rows rows = true -> read FO fs lit s inp = Ok (s', rest) ->
  exists V t' ps, read FO fs lit t inp = Ok (t', rest) /\ closed fs V /\ all_fields rows V /\ alike V s' t'
    /\ incl ps V /\ positions FO fs s' = Ok ps /\ positions FO fs t' = Ok ps.
Proof.
  intros Hwf HR.
  destruct (items_two (fs_items fs)) with (env := @nil field) (path := @nil expr) (k := @nil Z)
    (V := @nil pos) (s := s) (t := t) (inp := inp) (s' := s') (rest := rest)
    as (V & t' & E & C & A & _ & _ & _ & S' & ps & I & P1 & P2); auto.
  - apply Forall_forall. intros it _. apply all_item_two.
  - intros y [].
  - intros y [].
  - apply mk_fs_placed.
  - apply incl_refl.
  - apply (NoDup_map_inv f_id). exact (mk_fs_nodup rows).
  - intros y p [].
  - intros y p [].
  - intros f p _ _ [].
  - intros y p [].
  - exists V, t', ps. split; [exact E|]. split; [exact C|]. split; [exact A|]. split; [exact S'|].
    split; [exact I|]. split; [apply P1|apply P2]; intros y p _; reflexivity.
Qed.

Lemma alike_bytes V s t y p b : closed fs V -> all_fields rows V -> alike V s t ->
  reserved_clean FO fs s -> reserved_clean FO fs t -> In (y, p) V ->
  check_condition FO (G FO fs s) fs y p = Ok true ->
  field_bytes FO (G FO fs s) fs s y p = Ok b -> field_bytes FO (G FO fs t) fs t y p = Ok b.
Proof.
  intros HC HA HS Rs Rt HV Hc HB. destruct (HC _ _ HV) as (_ & Hown & Hsh).
  assert (Hin := HA y p HV). fold fs in Hin.
  assert (HR := alike_agree V s t _ _ _ HC HS Hown).
  assert (HRs : refs_agree FO (G FO fs s) (G FO fs t) fs (removelast p) (shape_refs y)).
  { eapply refs_in_agree_rl; [|exact Hsh]. intros z q v Hz _. now apply (alike_getf V s t). }
  assert (Hbase : forall v, get_base FO (G FO fs s) fs s y p = Ok v -> get_base FO (G FO fs t) fs t y p = Ok v).
  { intros v. apply get_base_agree; auto. intros Hn _ _.
    destruct (HS y p HV) as [E|[E|E]]; [contradiction|congruence|].
    apply (f_equal fst) in E. cbn [slot fst] in E. now rewrite E. }
  assert (Hsz : forall n, fsize_of FO (G FO fs s) fs y p = Ok n -> fsize_of FO (G FO fs t) fs y p = Ok n).
  { intro n. apply fsize_agree. unfold own_refs in HR. apply refs_agree_app in HR as [_ HR2].
    now apply refs_agree_app in HR2 as [HR2 _]. }
  assert (HV' : (exists v w, stored FO s y p = SVal v /\ stored FO t y p = SVal w)
                \/ stored FO s y p = stored FO t y p).
  { destruct (HS y p HV) as [E|[E|E]]; [|congruence|right; now apply (f_equal fst) in E].
    left. destruct (reserved_stored FO rows s y p Rs Hin E) as (v & Hv).
    destruct (reserved_stored FO rows t y p Rt Hin E) as (w & Hw). eauto. }
  destruct HV' as [(v & w & Ev & Ew)|E].
  - rewrite (field_bytes_val FO _ _ _ _ _ _ Ev) in HB. rewrite (field_bytes_val FO _ _ _ _ _ _ Ew).
    apply bind_ok_elim in HB as (n & Hn & HB). apply bind_ok_elim in HB as (x & Hx & HB).
    rewrite (Hsz n Hn). cbn [bind]. rewrite (Hbase x Hx). exact HB.
  - unfold field_bytes in *. rewrite <- E. apply bind_ok_elim in HB as (n & Hn & HB).
    rewrite (Hsz n Hn). cbn [bind]. destruct (stored FO s y p); [|exact HB].
    apply bind_ok_elim in HB as (x & Hx & HB). rewrite (Hbase x Hx). exact HB.
Qed.

Lemma alike_write V s t ps out : closed fs V -> all_fields rows V -> alike V s t ->
  reserved_clean FO fs s -> reserved_clean FO fs t -> incl ps V ->
  positions FO fs s = Ok ps -> positions FO fs t = Ok ps ->
  write FO fs s = Ok out -> write FO fs t = Ok out.
Proof.
  intros HC HA HS Rs Rt HI Ps Pt HW. apply write_blocks in HW as (ps' & bs & Hp & HF & ->).
  rewrite Ps in Hp. injection Hp as <-. apply (blocks_write FO fs t ps bs Pt). clear Ps Pt.
  induction HF as [|[y p] b ps bs Hb HF IH]; constructor.
  - assert (HV : In (y, p) V) by (apply HI; now left).
    unfold block in *. cbn [fst snd] in *. destruct Hb as [[H1 H2]|(H1 & H2 & H3)].
    + left. split; auto. eapply alike_cond; eauto.
    + right. split; [eapply alike_cond; eauto|]. split.
      * destruct (HC _ _ HV) as (_ & Hown & _). destruct (own_split _ _ Hown) as (_ & Ro & _).
        eapply fsize_agree; [|exact H2]. exact (alike_agree V s t _ _ _ HC HS Ro).
      * eapply alike_bytes; eauto.
  - apply IH. intros x Hx. apply HI. now right.
Qed.

End Two.

(** Nothing a structure held before reading a record can be told from it afterwards: reading
    succeeds from one start exactly as from any other, the same fields are there, each shows the
    same value and keeps the same bytes, and the same bytes are written. *)
Theorem C57_shows FO rows lit (s t s' : state FO) inp rest :
  wf_rows rows = true -> read FO (mk_fs rows) lit s inp = Ok (s', rest) ->
  exists t', read FO (mk_fs rows) lit t inp = Ok (t', rest)
  /\ (forall f k, In f (fs_fields (mk_fs rows)) ->
        (valid_index FO (mk_fs rows) s' f k <-> valid_index FO (mk_fs rows) t' f k))
  /\ (forall nm f k v, lookup (mk_fs rows) nm = Some f -> valid_index FO (mk_fs rows) s' f k ->
        (get FO (mk_fs rows) s' nm k = Ok v <-> get FO (mk_fs rows) t' nm k = Ok v))
  /\ (forall nm f k, lookup (mk_fs rows) nm = Some f -> valid_index FO (mk_fs rows) s' f k ->
        cond_is FO (mk_fs rows) s' f k true ->
        raw_bytes FO (mk_fs rows) s' nm k = raw_bytes FO (mk_fs rows) t' nm k)
  /\ (reserved_clean FO (mk_fs rows) s -> reserved_clean FO (mk_fs rows) t ->
        forall out, write FO (mk_fs rows) s' = Ok out <-> write FO (mk_fs rows) t' = Ok out).
Proof.
  intros Hwf HR. destruct (read_two FO rows lit s t inp s' rest Hwf HR) as (V & t' & ps & HT & HC & HA & HS & HI & Ps & Pt).
  set (fs := mk_fs rows) in *. exists t'. split; [exact HT|].
  assert (HS' := alike_sym FO rows V s' t' HC HS).
  assert (Hlk : forall nm f, lookup fs nm = Some f -> In f (fs_fields fs)) by (intros; eapply lookup_in; eauto).
  split; [|split; [|split]].
  - intros f k Hf. assert (K1 := positions_keys FO rows s' ps f Ps Hf).
    assert (K2 := positions_keys FO rows t' ps f Pt Hf).
    rewrite <- (valid_key FO fs s' f _ k K1), <- (valid_key FO fs t' f _ k K2). reflexivity.
  - intros nm f k v Hl Hv.
    assert (HV : In (f, k) V) by exact (HI _ (valid_in_positions FO rows s' ps f k Ps (Hlk nm f Hl) Hv)).
    unfold get. rewrite Hl. destruct (key_shape_ok f k); [|split; intro H; discriminate H].
    change (fget FO fs s' f k) with (getf FO (S (fuel fs)) fs s' f k).
    change (fget FO fs t' f k) with (getf FO (S (fuel fs)) fs t' f k).
    split; intro H.
    + exact (alike_getf FO rows V s' t' HC HS _ _ _ _ HV H).
    + exact (alike_getf FO rows V t' s' HC HS' _ _ _ _ HV H).
  - intros nm f k Hl Hv Hc. assert (HV : In (f, k) V) by exact (HI _ (valid_in_positions FO rows s' ps f k Ps (Hlk nm f Hl) Hv)).
    apply cond_is_check in Hc. unfold raw_bytes. rewrite Hl.
    destruct (HS f k HV) as [E|[E|E]].
    + exfalso. rewrite (lookup_name fs nm f Hl) in E. discriminate E.
    + fold fs in E. rewrite Hc in E. discriminate E.
    + assert (E1 := f_equal fst E). assert (E2 := f_equal snd E). cbn [slot fst snd] in E1, E2. rewrite <- E2.
      destruct (read_block_at FO rows lit s inp s' rest Hwf HR) as (used & _ & HB).
      destruct (HB f k (Hlk nm f Hl) Hv) as (b & _ & _ & Hrb). cbn [fst snd] in Hrb.
      destruct Hrb as (_ & Hraw); [now apply cond_is_check|rewrite (lookup_name fs nm f Hl); discriminate|].
      rewrite Hraw. reflexivity.
  - intros Rs Rt out.
    assert (Rs' := reserved_clean_read FO rows lit s inp s' rest Rs HR).
    assert (Rt' := reserved_clean_read FO rows lit t inp t' rest Rt HT).
    split; [apply (alike_write FO rows V s' t' ps out)|apply (alike_write FO rows V t' s' ps out)]; auto.
Qed.

(** A record refused from one start is refused from every start. *)
Theorem C57_refuses FO rows lit (s t : state FO) inp : wf_rows rows = true ->
  (exists e, read FO (mk_fs rows) lit s inp = Err e) <-> (exists e, read FO (mk_fs rows) lit t inp = Err e).
Proof.
  intro Hwf.
  assert (A : forall a b, (exists e, read FO (mk_fs rows) lit a inp = Err e) ->
                          exists e, read FO (mk_fs rows) lit b inp = Err e).
  { intros a b (e & E). destruct (read FO (mk_fs rows) lit b inp) as [[b' r]|e'] eqn:Eb; [|eauto].
    destruct (C57_shows FO rows lit b a b' inp r Hwf Eb) as (a' & Ea & _). rewrite E in Ea. discriminate Ea. }
  split; apply A.
Qed.

(** A structure used for one record after another shows each as a new structure would. *)
Corollary C57_fresh FO rows lit (s s1 s2 : state FO) inp1 inp2 rest1 rest2 : wf_rows rows = true ->
  read FO (mk_fs rows) lit s inp1 = Ok (s1, rest1) ->
  read FO (mk_fs rows) lit s1 inp2 = Ok (s2, rest2) ->
  exists n, read FO (mk_fs rows) lit (init_state FO) inp2 = Ok (n, rest2)
  /\ forall nm f k v, lookup (mk_fs rows) nm = Some f -> valid_index FO (mk_fs rows) n f k ->
       (get FO (mk_fs rows) s2 nm k = Ok v <-> get FO (mk_fs rows) n nm k = Ok v).
Proof.
  intros Hwf _ H2. destruct (C57_shows FO rows lit s1 (init_state FO) s2 inp2 rest2 Hwf H2) as (n & Hn & Hv & Hg & _).
  exists n. split; [exact Hn|]. intros nm f k v Hl Hi. apply (Hg nm f k v Hl). apply Hv; auto. eapply lookup_in; eauto.
Qed.

(** Two things do tell of an earlier record: the bytes kept for a field that is absent from the
    new one (get_raw_bytes looks for kept bytes before anything else, nitf_field.py:241-247), and
    a leading index the new record does not have (C10: only the last index is checked). *)
Definition flag_rows : list row :=
  [RField (ex_field "n" 1 TInt);
   RField (Build_fdesc (Some "x"%string) (SzInt 2) TStr FrNone DfNone
             (Some (ECmp CGt (EFld "n" 0) (EInt 0))) false 32%N false None 0 false);
   RLoop (EFld "n" 0) [RLoop (EInt 1) [RField (ex_field "y" 1 TInt)]]].
Definition flag_read (s : state DecF) (inp : list N) : state DecF :=
  match read DecF (mk_fs flag_rows) false s inp with Ok (s', _) => s' | Err _ => s end.
Theorem C57_raw_refuted : exists rows (s t s' t' : state DecF) inp nm f b e,
  wf_rows rows = true /\ read DecF (mk_fs rows) false s inp = Ok (s', [])
  /\ read DecF (mk_fs rows) false t inp = Ok (t', [])
  /\ lookup (mk_fs rows) nm = Some f /\ valid_index DecF (mk_fs rows) s' f []
  /\ raw_bytes DecF (mk_fs rows) s' nm [] = Err e /\ raw_bytes DecF (mk_fs rows) t' nm [] = Ok b.
Proof.
  set (s := init_state DecF). set (t := flag_read s (str "2ab57")).
  assert (HL : exists f, lookup (mk_fs flag_rows) "x" = Some f /\ f_loops f = []) by (eexists; split; reflexivity).
  destruct HL as (f & HL & Hlo).
  assert (HRs : match read DecF (mk_fs flag_rows) false s (str "0") with Ok (_, []) => true | _ => false end = true)
    by (vm_compute; reflexivity).
  assert (HRt : match read DecF (mk_fs flag_rows) false t (str "0") with Ok (_, []) => true | _ => false end = true)
    by (vm_compute; reflexivity).
  assert (Hs : raw_bytes DecF (mk_fs flag_rows) (flag_read s (str "0")) "x" [] = Err ERuntime) by (vm_compute; reflexivity).
  assert (Ht : raw_bytes DecF (mk_fs flag_rows) (flag_read t (str "0")) "x" [] = Ok (str "ab")) by (vm_compute; reflexivity).
  exists flag_rows, s, t, (flag_read s (str "0")), (flag_read t (str "0")), (str "0"), "x"%string, f, (str "ab"), ERuntime.
  split; [vm_compute; reflexivity|].
  split; [unfold flag_read; destruct (read DecF (mk_fs flag_rows) false s (str "0")) as [[s' [|]]|]; auto; discriminate HRs|].
  split; [unfold flag_read; destruct (read DecF (mk_fs flag_rows) false t (str "0")) as [[t' [|]]|]; auto; discriminate HRt|].
  split; [exact HL|]. split; [split; [rewrite Hlo; reflexivity|rewrite Hlo; intros j Hj; cbn in Hj; lia]|].
  split; [exact Hs|exact Ht].
Qed.
(** The second: a record of one line read after one of two lines still shows the second. *)
Example ex_c57_beyond :
  let t := flag_read (init_state DecF) (str "2ab57") in
  see (get DecF (mk_fs flag_rows) (flag_read t (str "1cd8")) "y" [1; 0]%Z) = SeeInt 7
  /\ see (get DecF (mk_fs flag_rows) (flag_read (init_state DecF) (str "1cd8")) "y" [1; 0]%Z) = SeeInt 0
  /\ see (get DecF (mk_fs flag_rows) (flag_read t (str "1cd8")) "y" [0; 0]%Z) = SeeInt 8.
Proof. vm_compute. auto. Qed.

(** The example structure, full of values, reads a smaller record: nested loops shrink, a field
    goes away, and every field shows what a new structure shows. *)
Definition small_record : list N :=
  str "zz    01-071+1.5000ab0123   00004" ++ [9; 0; 0; 1; 0]%N.
Definition ex_dirty : state DecF :=
  match read DecF ex_fs false ex_st small_record with Ok (s, _) => s | Err _ => ex_st end.
Definition ex_clean : state DecF :=
  match read DecF ex_fs false (init_state DecF) small_record with Ok (s, _) => s | Err _ => ex_st end.
Example ex_c57 :
  match read DecF ex_fs false ex_st small_record with Ok (_, r) => r | Err _ => [1%N] end = []
  /\ ex_get ex_st "c" [] = SeeStr (str "yes") /\ ex_get ex_dirty "c" [] = SeeNone
  /\ ex_get ex_dirty "a" [0%Z] = SeeInt (-7) /\ ex_get ex_st "a" [1%Z] = SeeInt (-1)
  /\ ex_get ex_dirty "a" [1%Z] = SeeErr EIndex /\ ex_get ex_clean "a" [1%Z] = SeeErr EIndex
  /\ ex_get ex_dirty "flag" [0; 0]%Z = SeeStr (str "ab") /\ ex_get ex_dirty "data" [] = SeeByt [9%N]
  /\ write DecF ex_fs ex_dirty = write DecF ex_fs ex_clean.
Proof. vm_compute. repeat split. Qed.

Print Assumptions C57_shows.
Print Assumptions C57_refuses.
Print Assumptions C57_fresh.
Print Assumptions C57_raw_refuted.
