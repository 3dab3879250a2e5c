(** Reading arbitrary bytes and writing the result: the positions visited by [read] are those
    visited by a later [write]. *)
From Verif Require Import Base BaseLemmas Engine Wf EngineLemmas Codec RoundTrip Rewrite.
From Coq Require Import ZifyBool ZifyNat ZifyN FinFun.
Open Scope list_scope.

Section PosDef.
Variable FO : FloatOps.
Variable fs : fstruct.
Variable s : state FO.

(** Positions of an item in table order: one per field object and index, loops unrolled
    (nitf_field.py:602-608). *)
Fixpoint positions_item (lead : list Z) (it : item) : res (list pos) :=
  match it with
  | IField f => Ok [(f, lead)]
  | ILoop sh its =>
      do n <- eval_shape FO (G FO fs s) fs lead sh;
      concat_map_res (fun i =>
        (fix go its := match its with
                       | [] => Ok []
                       | it :: its' => do x <- positions_item (lead ++ [i]) it;
                                       do y <- go its'; Ok (x ++ y)
                       end) its) (zrange n)
  end.
Definition positions_items (lead : list Z) (its : list item) : res (list pos) :=
  concat_map_res (positions_item lead) its.
Definition positions : res (list pos) := positions_items [] (fs_items fs).

Lemma positions_item_loop lead sh its :
  positions_item lead (ILoop sh its) =
  do n <- eval_shape FO (G FO fs s) fs lead sh;
  concat_map_res (fun i => positions_items (lead ++ [i]) its) (zrange n).
Proof.
  cbn [positions_item]. destruct (eval_shape FO (G FO fs s) fs lead sh) as [n|]; auto. cbn [bind].
  apply concat_map_res_ext. intros i _. unfold positions_items.
  induction its as [|it its IH]; cbn [concat_map_res]; auto. now rewrite IH.
Qed.

End PosDef.

Section ReadWrite.
Variable FO : FloatOps.
Variable rows : list row.
Let fs := mk_fs rows.
Variable lit : bool.

Let Hinj : forall y y', In y (fs_fields fs) -> In y' (fs_fields fs) -> f_id y = f_id y' -> y = y'.
Proof. apply mk_fs_id_inj. Qed.

(** What a field object holds at an index: the value and the raw bytes. *)
Definition slot (s : state FO) (y : field) (p : list Z) : sval FO * option (list N) :=
  (stored FO s y p, st_raw FO s (f_id y) p).

Definition same_on (V : list pos) (s t : state FO) : Prop :=
  forall y p, In (y, p) V -> slot s y p = slot t y p.

Lemma same_getf V s t : closed fs V -> same_on V s t -> forall n y p v,
  In (y, p) V -> getf FO n fs s y p = Ok v -> getf FO n fs t y p = Ok v.
Proof.
  intros HC HS n. induction n as [|n IH]; intros y p v HV H; [discriminate|].
  change (get_pub FO (getf FO n fs s) fs s y p = Ok v) in H.
  change (get_pub FO (getf FO n fs t) fs t y p = Ok v).
  destruct (HC _ _ HV) as (Hlen & Hown & Hsh).
  eapply get_pub_agree; [| | |exact H].
  - eapply refs_in_agree; [|exact Hown]. eauto.
  - eapply refs_in_agree_rl; [|exact Hsh]. eauto.
  - intros _ _ _ w. assert (E := f_equal fst (HS y p HV)). cbn [slot fst] in E. rewrite E. auto.
Qed.

Lemma same_agree V s t p d rs : closed fs V -> same_on V s t -> Forall (ref_in fs V p d) rs ->
  refs_agree FO (G FO fs s) (G FO fs t) fs p rs.
Proof.
  intros HC HS HR. eapply refs_in_agree; [|exact HR]. intros y q v HV _. now apply (same_getf V s t).
Qed.

Definition pre (k p : list Z) : Prop := exists q, p = k ++ q.

Definition fresh (V : list pos) (k : list Z) (fl : list field) : Prop :=
  forall f p, In f fl -> pre k p -> ~ In (f, p) V.

(** What is known of a block that was read, in any later state [t] keeping what was read. *)
Definition chunk_info (t : state FO) (c : chunk) : Prop :=
  In (ch_field c) (fs_fields fs)
  /\ check_condition FO (G FO fs t) fs (ch_field c) (ch_key c) = Ok true
  /\ fsize_of FO (G FO fs t) fs (ch_field c) (ch_key c) = Ok (Z.of_nat (List.length (ch_bytes c)))
  /\ (fd_name (f_d (ch_field c)) <> None -> exists sv,
        parse_field FO (f_d (ch_field c)) lit (ch_bytes c) = Ok sv
        /\ stored FO t (ch_field c) (ch_key c) = sv
        /\ st_raw FO t (f_id (ch_field c)) (ch_key c) = Some (ch_bytes c))
  /\ (fd_name (f_d (ch_field c)) = None ->
        fd_ty (f_d (ch_field c)) = TStr /\ fd_frmt (f_d (ch_field c)) = FrNone).

Definition rebyte (h : chunk -> list N) (c : chunk) : chunk :=
  {| ch_field := ch_field c; ch_key := ch_key c; ch_bytes := h c |}.

(** The chunks [cs] are the present ones of the positions [ps], in order. *)
Inductive blocks_at (t : state FO) : list pos -> list chunk -> Prop :=
| ba_nil : blocks_at t [] []
| ba_absent f k ps cs : check_condition FO (G FO fs t) fs f k = Ok false ->
    blocks_at t ps cs -> blocks_at t ((f, k) :: ps) cs
| ba_present f k b ps cs : check_condition FO (G FO fs t) fs f k = Ok true ->
    blocks_at t ps cs ->
    blocks_at t ((f, k) :: ps) ({| ch_field := f; ch_key := k; ch_bytes := b |} :: cs).

Lemma blocks_at_app t p1 c1 p2 c2 : blocks_at t p1 c1 -> blocks_at t p2 c2 ->
  blocks_at t (p1 ++ p2) (c1 ++ c2).
Proof.
  intro H1. induction H1; intro H2; cbn [app]; auto; [apply ba_absent|apply ba_present]; auto.
Qed.

(** Every state keeping [s'] on [V] writes blocks at the same positions. *)
Definition rewrites (V : list pos) (s' : state FO) (cs : list chunk)
    (w : state FO -> res (list chunk)) (q : state FO -> res (list pos)) : Prop :=
  forall t, same_on V s' t -> Forall (chunk_info t) cs /\
    (forall h, (forall c, In c cs ->
                 field_bytes FO (G FO fs t) fs t (ch_field c) (ch_key c) = Ok (h c)) ->
      w t = Ok (map (rebyte h) cs))
    /\ exists ps, q t = Ok ps /\ blocks_at t ps cs.

Definition frame (k : list Z) (fl : list field) (s s' : state FO) : Prop :=
  forall y p, In y (fs_fields fs) -> ~ (In y fl /\ pre k p) -> slot s y p = slot s' y p.

Definition grows (V V' : list pos) (k : list Z) (fl : list field) : Prop :=
  incl V V' /\ forall y p, In (y, p) V' -> In (y, p) V \/ (In y fl /\ pre k p).

Definition all_fields (V : list pos) : Prop := forall y p, In (y, p) V -> In y (fs_fields fs).

Lemma fresh_frame V k fl s s' : all_fields V -> fresh V k fl -> frame k fl s s' -> same_on V s s'.
Proof.
  intros HA HF HFr y p HV. apply HFr; [now apply HA in HV|]. intros [H1 H2]. eapply HF; eauto.
Qed.

Definition item_rw (it : item) : Prop :=
  forall env path k V s inp s' rest,
  incl env (fs_fields fs) -> env_in env k V -> List.length k = List.length path ->
  Forall (fun y => (depth y <= List.length k)%nat) env ->
  item_ok fs env (List.length path) it = true -> placed path it ->
  incl (item_fields it) (fs_fields fs) -> NoDup (item_fields it) ->
  closed fs V -> all_fields V -> fresh V k (item_fields it) ->
  read_item FO fs lit k it (s, inp) = Ok (s', rest) ->
  exists V' cs, inp = chunks_bytes cs ++ rest /\ closed fs V' /\ all_fields V'
    /\ grows V V' k (item_fields it) /\ frame k (item_fields it) s s'
    /\ (forall f, it = IField f -> In (f, k) V')
    /\ rewrites V' s' cs (fun t => write_item FO fs t k it) (fun t => positions_item FO fs t k it).

Lemma same_on_trans V s1 s2 s3 : same_on V s1 s2 -> same_on V s2 s3 -> same_on V s1 s3.
Proof. intros H1 H2 y p HV. rewrite (H1 y p HV). auto. Qed.

Lemma same_on_incl V V' s t : incl V V' -> same_on V' s t -> same_on V s t.
Proof. intros H HS y p HV. apply HS. auto. Qed.

Lemma frame_trans k fl1 fl2 s1 s2 s3 :
  frame k fl1 s1 s2 -> frame k fl2 s2 s3 -> frame k (fl1 ++ fl2) s1 s3.
Proof.
  intros H1 H2 y p Hy Hn. rewrite (H1 y p Hy), (H2 y p Hy); auto.
  - intros [A B]. apply Hn. split; auto. apply in_or_app; auto.
  - intros [A B]. apply Hn. split; auto. apply in_or_app; auto.
Qed.

Lemma field_rw f : item_rw (IField f).
Proof.
  intros env path k V s inp s' rest Hi HV HL Hd Hok Hpl Hf Hnd HC HA HF HR.
  cbn [item_ok] in Hok.
  assert (Hin : In f (fs_fields fs)) by (apply Hf; now left).
  assert (HP := refs_own rows env (List.length path) k V f Hi HV HL Hok). fold fs in HP.
  apply field_ok_elim in Hok as (_ & _ & _ & _ & Hres).
  assert (HnV : ~ In (f, k) V).
  { apply HF; [now left|]. exists []. now rewrite app_nil_r. }
  assert (HC' : closed fs ((f, k) :: V)) by now apply closed_cons.
  destruct HP as (Hlen & Hown & Hsh). destruct (own_split _ _ Hown) as (Rc & Rs & Rv).
  assert (HA' : all_fields ((f, k) :: V)).
  { intros y p [E|H]; [injection E as <- <-; exact Hin|eapply HA; eauto]. }
  assert (HG : grows V ((f, k) :: V) k [f]).
  { split; [now apply incl_tl, incl_refl|]. intros y p [E|H]; auto. injection E as <- <-.
    right. split; [now left|]. exists []. now rewrite app_nil_r. }
  cbn [read_item item_fields] in *. unfold read_field in HR.
  apply bind_ok_elim in HR as (c & Hc & HR). destruct c; cbn [negb] in HR.
  - apply bind_ok_elim in HR as (sz & Hsz & HR).
    destruct ((sz <? 0)%Z || (Z.of_nat (List.length inp) <? sz)%Z) eqn:E; [discriminate|].
    set (b := firstn (Z.to_nat sz) inp) in *.
    assert (Hb : Z.of_nat (List.length b) = sz) by (unfold b; rewrite firstn_length; lia).
    assert (Hfr : frame k [f] s s').
    { intros y p Hy Hn. destruct (fd_name (f_d f)) eqn:N; [|congruence].
      apply bind_ok_elim in HR as (v & Hv & HR). injection HR as <- _.
      assert (Hne : f_id f <> f_id y \/ k <> p); [|unfold slot, stored; cbn [st_val st_raw set_val set_raw]; now rewrite !upd_neq].
      destruct (Nat.eq_dec (f_id f) (f_id y)) as [Ei|Ei]; auto. right. intro Ek.
      apply Hn. apply Hinj in Ei; auto. rewrite <- Ei, <- Ek. split; [now left|]. exists []. now rewrite app_nil_r. }
    assert (Hst : fd_name (f_d f) <> None -> exists sv, parse_field FO (f_d f) lit b = Ok sv
                    /\ slot s' f k = (sv, Some b)).
    { intro Hn. destruct (fd_name (f_d f)) eqn:N; [|contradiction].
      apply bind_ok_elim in HR as (v & Hv & HR). injection HR as <- _. exists v. split; auto.
      unfold slot, stored. cbn [st_val st_raw set_val set_raw]. now rewrite !upd_eq. }
    assert (Hrest : rest = skipn (Z.to_nat sz) inp).
    { destruct (fd_name (f_d f)); [|congruence]. apply bind_ok_elim in HR as (v & _ & HR).
      injection HR as _ <-. reflexivity. }
    exists ((f, k) :: V), [{| ch_field := f; ch_key := k; ch_bytes := b |}].
    split; [|split; [exact HC'|split; [exact HA'|split; [exact HG|split; [exact Hfr|split]]]]].
    + cbn [chunks_bytes flat_map ch_bytes]. rewrite app_nil_r, Hrest. unfold b.
      symmetry. apply firstn_skipn.
    + intros f' E'. injection E' as <-. now left.
    + intros t Ht.
      assert (HsV : same_on V s t).
      { eapply same_on_trans; [eapply fresh_frame; eauto|].
        eapply same_on_incl; [|exact Ht]. now apply incl_tl, incl_refl. }
      assert (Hct : check_condition FO (G FO fs t) fs f k = Ok true)
        by (eapply check_condition_agree; [|exact Hc]; exact (same_agree V s t _ _ _ HC HsV Rc)).
      assert (Hszt : fsize_of FO (G FO fs t) fs f k = Ok sz)
        by (eapply fsize_agree; [|exact Hsz]; exact (same_agree V s t _ _ _ HC HsV Rs)).
      split; [|split].
      * constructor; auto. unfold chunk_info. cbn [ch_field ch_key ch_bytes].
        rewrite <- Hb in Hszt.
        split; [exact Hin|]. split; [exact Hct|]. split; [exact Hszt|]. split; [|exact Hres].
        intro Hn. destruct (Hst Hn) as (sv & A & B). exists sv. split; [exact A|].
        rewrite (Ht f k (or_introl eq_refl)) in B. unfold slot in B. injection B as B1 B2. auto.
      * intros h Hh. cbn [write_item]. unfold write_field. rewrite Hct. cbn [bind negb].
        specialize (Hh _ (or_introl eq_refl)). cbn [ch_field ch_key] in Hh. rewrite Hh. reflexivity.
      * exists [(f, k)]. split; [reflexivity|]. apply ba_present; auto. constructor.
  - injection HR as <- <-. exists ((f, k) :: V), [].
    split; [|split; [exact HC'|split; [exact HA'|split; [exact HG|split; [|split]]]]].
    + reflexivity.
    + intros y p _ _. reflexivity.
    + intros f' E'. injection E' as <-. now left.
    + intros t Ht.
      assert (Hct : check_condition FO (G FO fs t) fs f k = Ok false).
      { eapply check_condition_agree; [|exact Hc]. eapply same_agree; [exact HC| |exact Rc].
        eapply same_on_incl; [|exact Ht]. now apply incl_tl, incl_refl. }
      split; [constructor|]. split.
      * intros h _. cbn [write_item]. unfold write_field. now rewrite Hct.
      * exists [(f, k)]. split; [reflexivity|]. apply ba_absent; auto. constructor.
Qed.

Lemma grows_trans V1 V2 V3 k fl1 fl2 :
  grows V1 V2 k fl1 -> grows V2 V3 k fl2 -> grows V1 V3 k (fl1 ++ fl2).
Proof.
  intros [I1 G1] [I2 G2]. split; [eapply incl_tran; eauto|]. intros y p H.
  destruct (G2 y p H) as [H2|[A B]]; [|right; split; auto; apply in_or_app; auto].
  destruct (G1 y p H2) as [H1|[A B]]; auto. right; split; auto; apply in_or_app; auto.
Qed.

Lemma rewrites_seq V2 V3 s2 s3 cs1 cs2 w1 w2 q1 q2 :
  incl V2 V3 -> same_on V2 s2 s3 ->
  rewrites V2 s2 cs1 w1 q1 -> rewrites V3 s3 cs2 w2 q2 ->
  rewrites V3 s3 (cs1 ++ cs2) (fun t => do x <- w1 t; do y <- w2 t; Ok (x ++ y))
    (fun t => do x <- q1 t; do y <- q2 t; Ok (x ++ y)).
Proof.
  intros HI HS H1 H2 t Ht.
  destruct (H1 t) as (A1 & B1 & ps1 & Q1 & Z1). { eapply same_on_trans; [exact HS|]. eapply same_on_incl; eauto. }
  destruct (H2 t Ht) as (A2 & B2 & ps2 & Q2 & Z2). split; [apply Forall_app; auto|]. split.
  - intros h Hh. rewrite (B1 h), (B2 h); try (intros; apply Hh, in_or_app; auto).
    cbn [bind]. now rewrite map_app.
  - exists (ps1 ++ ps2). rewrite Q1, Q2. split; [reflexivity|]. now apply blocks_at_app.
Qed.

Lemma rewrites_nil V s w q : (forall t, w t = Ok []) -> (forall t, q t = Ok []) ->
  rewrites V s [] w q.
Proof.
  intros H H' t _. split; [constructor|]. split; [intros h _; apply H|].
  exists []. split; [apply H'|constructor].
Qed.

Definition items_rw_for (its : list item) : Prop :=
  forall env path k V s inp s' rest,
  incl env (fs_fields fs) -> env_in env k V -> List.length k = List.length path ->
  Forall (fun y => (depth y <= List.length k)%nat) env ->
  items_ok fs env (List.length path) its = true -> Forall (placed path) its ->
  incl (flat_map item_fields its) (fs_fields fs) -> NoDup (flat_map item_fields its) ->
  closed fs V -> all_fields V -> fresh V k (flat_map item_fields its) ->
  read_items FO fs lit k its (s, inp) = Ok (s', rest) ->
  exists V' cs, inp = chunks_bytes cs ++ rest /\ closed fs V' /\ all_fields V'
    /\ grows V V' k (flat_map item_fields its) /\ frame k (flat_map item_fields its) s s'
    /\ rewrites V' s' cs (fun t => write_items FO fs t k its) (fun t => positions_items FO fs t k its).

Lemma NoDup_app_inv {A} (a b : list A) : NoDup (a ++ b) ->
  NoDup a /\ NoDup b /\ (forall x, In x a -> ~ In x b).
Proof.
  induction a as [|x a IH]; cbn; intro H.
  - repeat split; auto. constructor.
  - inversion H as [|? ? Hn Hd]; subst. destruct (IH Hd) as (A1 & A2 & A3). repeat split; auto.
    + constructor; auto. intro Hx. apply Hn, in_or_app; auto.
    + intros y [<-|Hy]; auto. intro Hb. apply Hn, in_or_app; auto.
Qed.

Lemma items_rw its : Forall item_rw its -> items_rw_for its.
Proof.
  induction 1 as [|it its Hit _ IH]; intros env path k V s inp s' rest Hi HV HL Hd Hok Hpl Hf Hnd HC HA HF HR.
  - cbn in HR. injection HR as <- <-. exists V, [].
    split; [reflexivity|]. split; [exact HC|]. split; [exact HA|].
    split; [split; [apply incl_refl|auto]|]. split; [intros y p _ _; reflexivity|].
    apply rewrites_nil; reflexivity.
  - unfold read_items in HR. cbn [fold_res] in HR. apply bind_ok_elim in HR as ([s2 r2] & HR1 & HR2).
    cbn [items_ok] in Hok. apply andb_true_iff in Hok as [Hok1 Hok2].
    inversion Hpl as [|? ? Hp1 Hp2]; subst. cbn [flat_map] in Hf, Hnd, HF |- *.
    apply incl_app_inv in Hf as [Hf1 Hf2]. apply NoDup_app_inv in Hnd as (Hnd1 & Hnd2 & Hdis).
    destruct (Hit env path k V s inp s2 r2) as (V2 & cs1 & E1 & C2 & A2 & G2 & F2 & N2 & W2); auto.
    { intros f p Hfi. apply HF. apply in_or_app; auto. }
    assert (HV2 : env_in (env_after env it) k V2).
    { intros z Hz. destruct it as [f|]; cbn in Hz; [|now apply G2, HV].
      apply in_app_or in Hz as [Hz|[<-|[]]]; [now apply G2, HV|].
      cbn [placed] in Hp1. unfold depth. rewrite Hp1, <- HL, firstn_all. now apply N2. }
    assert (HF2 : fresh V2 k (flat_map item_fields its)).
    { intros f p Hfi Hpre HVi. destruct (proj2 G2 f p HVi) as [Hv|[Hv _]].
      - eapply HF; eauto. apply in_or_app; auto.
      - eapply Hdis; eauto. }
    destruct (IH (env_after env it) path k V2 s2 r2 s' rest)
      as (V3 & cs2 & E2 & C3 & A3 & G3 & F3 & W3); auto.
    { destruct it as [f|]; cbn; auto. apply incl_app; auto. }
    { destruct it as [f|]; cbn; auto. apply Forall_app. split; auto. constructor; auto.
      cbn [placed] in Hp1. unfold depth. rewrite Hp1. lia. }
    exists V3, (cs1 ++ cs2). split; [|split; [exact C3|split; [exact A3|split; [|split]]]].
    + rewrite chunks_bytes_app, <- app_assoc, <- E2. exact E1.
    + eapply grows_trans; eauto.
    + eapply frame_trans; eauto.
    + eapply (rewrites_seq V2 V3 s2 s' cs1 cs2 (fun t => write_item FO fs t k it)
                (fun t => write_items FO fs t k its) (fun t => positions_item FO fs t k it)
                (fun t => positions_items FO fs t k its)); eauto.
      * apply G3. * eapply fresh_frame; eauto.
Qed.

Lemma pre_ext k i p : pre (k ++ [i]) p -> pre k p.
Proof. intros (q & ->). exists (i :: q). now rewrite <- app_assoc. Qed.

Lemma pre_inj k i j p : pre (k ++ [i]) p -> pre (k ++ [j]) p -> i = j.
Proof.
  intros (q & ->) (q' & E). rewrite <- !app_assoc in E. apply app_inv_head in E. now injection E.
Qed.

Lemma loop_rw its : items_rw_for its ->
  forall idx env path k V s inp s' rest, NoDup idx ->
  incl env (fs_fields fs) -> env_in env k V -> S (List.length k) = List.length path ->
  Forall (fun y => (depth y <= List.length k)%nat) env ->
  items_ok fs env (List.length path) its = true -> Forall (placed path) its ->
  incl (flat_map item_fields its) (fs_fields fs) -> NoDup (flat_map item_fields its) ->
  closed fs V -> all_fields V ->
  (forall i, In i idx -> fresh V (k ++ [i]) (flat_map item_fields its)) ->
  fold_res (fun i p => read_items FO fs lit (k ++ [i]) its p) idx (s, inp) = Ok (s', rest) ->
  exists V' cs, inp = chunks_bytes cs ++ rest /\ closed fs V' /\ all_fields V'
    /\ grows V V' k (flat_map item_fields its)
    /\ (forall y p, In y (fs_fields fs) ->
          ~ (In y (flat_map item_fields its) /\ exists i, In i idx /\ pre (k ++ [i]) p) ->
          slot s y p = slot s' y p)
    /\ rewrites V' s' cs
         (fun t => concat_map_res (fun i => write_items FO fs t (k ++ [i]) its) idx)
         (fun t => concat_map_res (fun i => positions_items FO fs t (k ++ [i]) its) idx).
Proof.
  intros Hits idx. induction idx as [|i idx IH];
    intros env path k V s inp s' rest Hni Hi HV HL Hd Hok Hpl Hf Hnd HC HA HF HR.
  - cbn in HR. injection HR as <- <-. exists V, [].
    split; [reflexivity|]. split; [exact HC|]. split; [exact HA|].
    split; [split; [apply incl_refl|auto]|]. split; [intros y p _ _; reflexivity|].
    apply rewrites_nil; reflexivity.
  - cbn [fold_res] in HR. apply bind_ok_elim in HR as ([s2 r2] & HR1 & HR2).
    inversion Hni as [|? ? Hni1 Hni2]; subst.
    destruct (Hits env path (k ++ [i]) V s inp s2 r2) as (V2 & cs1 & E1 & C2 & A2 & G2 & F2 & W2); auto.
    { now apply env_in_ext. }
    { rewrite app_length. cbn [List.length]. lia. }
    { eapply Forall_impl; [|exact Hd]. intros z Hz. cbn beta in Hz |- *. rewrite app_length.
      cbn [List.length]. lia. }
    { apply HF. now left. }
    destruct (IH env path k V2 s2 r2 s' rest) as (V3 & cs2 & E2 & C3 & A3 & G3 & F3 & W3); auto.
    { eapply env_in_incl; [|exact HV]. apply G2. }
    { intros j Hj f p Hfi Hpre HVi. destruct (proj2 G2 f p HVi) as [Hv|[_ Hv]].
      - eapply (HF j); eauto. now right.
      - assert (i = j) by (eapply pre_inj; eauto). subst. auto. }
    exists V3, (cs1 ++ cs2). split; [|split; [exact C3|split; [exact A3|split; [|split]]]].
    + rewrite chunks_bytes_app, <- app_assoc, <- E2. exact E1.
    + split; [eapply incl_tran; [apply G2|apply G3]|]. intros y p H.
      destruct (proj2 G3 y p H) as [H2|]; auto. destruct (proj2 G2 y p H2) as [|[A B]]; auto.
      right. split; auto. eapply pre_ext; eauto.
    + intros y p Hy Hn. rewrite (F2 y p Hy), (F3 y p Hy); auto.
      * intros [A (j & B & B')]. apply Hn. split; auto. exists j. cbn. auto.
      * intros [A B]. apply Hn. split; auto. exists i. cbn. auto.
    + eapply (rewrites_seq V2 V3 s2 s' cs1 cs2 (fun t => write_items FO fs t (k ++ [i]) its)
        (fun t => concat_map_res (fun i => write_items FO fs t (k ++ [i]) its) idx)
        (fun t => positions_items FO fs t (k ++ [i]) its)
        (fun t => concat_map_res (fun i => positions_items FO fs t (k ++ [i]) its) idx)); eauto.
      * apply G3.
      * intros y p HVi. apply F3; [now apply A2 in HVi|]. intros [A (j & B & B')].
        destruct (proj2 G2 y p HVi) as [Hv|[_ Hv]].
        -- eapply (HF j); eauto. now right.
        -- assert (i = j) by (eapply pre_inj; eauto). subst. auto.
Qed.

Lemma NoDup_zrange n : NoDup (zrange n).
Proof.
  unfold zrange. apply FinFun.Injective_map_NoDup; [|apply seq_NoDup].
  intros a b. apply Nat2Z.inj.
Qed.

Lemma all_item_rw it : item_rw it.
Proof.
  induction it as [f|sh its IH] using item_ind'; [apply field_rw|].
  intros env path k V s inp s' rest Hi HV HL Hd Hok Hpl Hf Hnd HC HA HF HR.
  rewrite item_ok_loop in Hok. apply andb_true_iff in Hok as [Hr Hok].
  rewrite read_item_loop in HR. cbn [fst] in HR. apply bind_ok_elim in HR as (n & Hn & HR).
  apply placed_loop in Hpl. cbn [item_fields] in *.
  destruct (loop_rw its (items_rw its IH) (zrange n) env (path ++ [sh]) k V s inp s' rest)
    as (V' & cs & E & C' & A' & G' & F' & W'); auto.
  { apply NoDup_zrange. }
  { rewrite app_length. cbn [List.length]. lia. }
  { rewrite app_length. cbn [List.length].
    now replace (List.length path + 1)%nat with (S (List.length path)) by lia. }
  { intros i _ f p Hfi Hpre. apply HF; auto. eapply pre_ext; eauto. }
  assert (Hfr : frame k (flat_map item_fields its) s s').
  { intros y p Hy Hno. apply F'; auto. intros [A (i & _ & B)]. apply Hno. split; auto.
    eapply pre_ext; eauto. }
  exists V', cs. split; [exact E|split; [exact C'|split; [exact A'|split; [exact G'|split; [exact Hfr|split]]]]].
  - intros f Ef. discriminate.
  - intros t Ht. destruct (W' t Ht) as (B1 & B2 & ps & Q & Z). split; auto.
    assert (En : eval_shape FO (G FO fs t) fs k sh = Ok n).
    { eapply eval_shape_agree; [|exact Hn].
      eapply same_agree; [exact HC| |exact (refs_ok_in fs env k (List.length path) V (expr_refs sh) Hinj Hi HV Hr)].
      eapply same_on_trans; [eapply fresh_frame; eauto|]. eapply same_on_incl; [|exact Ht]. apply G'. }
    split.
    + intros h Hh. rewrite write_item_loop, En. cbn [bind]. now apply B2.
    + exists ps. rewrite positions_item_loop, En. auto.
Qed.

(** Main lemma: what was read is the concatenation of blocks; a structure keeping the values
    read writes blocks at the same positions. *)
Theorem read_then_write s inp s' rest :
  wf_rows rows = true -> read FO fs lit s inp = Ok (s', rest) ->
  exists cs, inp = chunks_bytes cs ++ rest /\ Forall (chunk_info s') cs
    /\ (forall h, (forall c, In c cs ->
                   field_bytes FO (G FO fs s') fs s' (ch_field c) (ch_key c) = Ok (h c)) ->
        write_chunks FO fs s' = Ok (map (rebyte h) cs))
    /\ exists ps, positions FO fs s' = Ok ps /\ blocks_at s' ps cs.
Proof.
  intros Hwf HR.
  destruct (items_rw (fs_items fs)) with (env := @nil field) (path := @nil expr) (k := @nil Z)
    (V := @nil pos) (s := s) (inp := inp) (s' := s') (rest := rest)
    as (V & cs & E & _ & _ & _ & _ & W); auto.
  - apply Forall_forall. intros it _. apply all_item_rw.
  - intros y [].
  - intros y [].
  - apply mk_fs_placed.
  - apply incl_refl.
  - apply (NoDup_map_inv f_id). exact (mk_fs_nodup rows).
  - intros y p [].
  - intros y p [].
  - intros f p _ _ [].
  - exists cs. destruct (W s') as (A & B & C); [intros y p _; reflexivity|]. auto.
Qed.

End ReadWrite.

(** Literal mode: bytes consumed come back, reserved areas blanked. *)
Definition blank_reserved (c : chunk) : list N :=
  match fd_name (f_d (ch_field c)) with
  | Some _ => ch_bytes c
  | None => spaces (List.length (ch_bytes c))
  end.

Theorem literal_write FO rows s inp s' rest :
  wf_rows rows = true -> reserved_clean FO (mk_fs rows) s ->
  read FO (mk_fs rows) true s inp = Ok (s', rest) ->
  exists cs, inp = chunks_bytes cs ++ rest
    /\ Forall (chunk_info FO rows true s') cs
    /\ (exists ps, positions FO (mk_fs rows) s' = Ok ps /\ blocks_at FO rows s' ps cs)
    /\ write FO (mk_fs rows) s' = Ok (flat_map blank_reserved cs).
Proof.
  intros Hwf HC HR. destruct (read_then_write FO rows true s inp s' rest Hwf HR) as (cs & E & HI & HW & HP).
  assert (HC' := reserved_clean_read FO rows true s inp s' rest HC HR).
  exists cs. split; auto. split; auto. split; auto. unfold write. rewrite (HW blank_reserved).
  - cbn [bind]. f_equal. unfold chunks_bytes. rewrite flat_map_concat_map, map_map.
    now rewrite <- flat_map_concat_map.
  - intros c Hin. rewrite Forall_forall in HI. destruct (HI c Hin) as (Hf & Hc & Hsz & Hst & Hres).
    unfold blank_reserved. destruct (fd_name (f_d (ch_field c))) eqn:N.
    + destruct Hst as (sv & Hp & Hs & _); [congruence|]. injection Hp as <-.
      unfold field_bytes. rewrite Hsz. cbn [bind]. rewrite Hs, ljust_full by lia.
      unfold has_len. now rewrite Z.eqb_refl.
    + destruct (reserved_stored FO rows s' (ch_field c) (ch_key c) HC' Hf N) as (v & Hv).
      rewrite (field_bytes_val FO _ _ _ _ _ _ Hv), Hsz. cbn [bind]. unfold get_base. rewrite N.
      cbn [bind]. destruct (Hres eq_refl) as (T & F). unfold value_bytes, format_val. rewrite T, F.
      cbn [conv_str]. unfold ljust. cbn [app List.length].
      rewrite Nat2Z.id, Nat.sub_0_r.
      assert (HL : has_len (spaces (List.length (ch_bytes c))) (Z.of_nat (List.length (ch_bytes c))) = true).
      { unfold has_len, spaces. rewrite repeat_length. apply Z.eqb_refl. }
      destruct (fd_optional (f_d (ch_field c))); cbn [bind]; rewrite HL;
        (unfold encode_latin1, all_bytes; now rewrite forallb_spaces by reflexivity).
Qed.
