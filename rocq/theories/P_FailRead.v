(** What a failed read leaves in the structure and of the file. *)
From Verif Require Import Base BaseLemmas Engine Wf EngineLemmas Codec RoundTrip Rewrite Literal Positions Spec OpenFile FailRead Decimal Ex.
From Coq Require Import ZifyBool ZifyNat ZifyN FinFun.
Open Scope list_scope.

Section Cut.
Variable FO : FloatOps.
Variable rows : list row.
Let fs := mk_fs rows.
Variable lit : bool.
Notation state := (state FO).
Notation slot := (slot FO).
Notation same_on := (same_on FO).
Notation frame := (frame FO rows).
Notation all_fields := (all_fields rows).
Notation chunk_info := (chunk_info FO rows lit).
Notation blocks_at := (blocks_at FO rows).

Let Hinj : forall y y', In y (fs_fields fs) -> In y' (fs_fields fs) -> f_id y = f_id y' -> y = y'.
Proof. apply mk_fs_id_inj. Qed.

(** What taking a block does to the structure. *)
Definition take (s : state) (c : chunk) : state :=
  match fd_name (f_d (ch_field c)) with
  | None => s
  | Some _ => match parse_field FO (f_d (ch_field c)) lit (ch_bytes c) with
              | Ok v => set_val FO (set_raw FO s (f_id (ch_field c)) (ch_key c) (Some (ch_bytes c))) (f_id (ch_field c)) (ch_key c) v
              | Err _ => s
              end
  end.

(** The partial reader [pr] started in [s] takes exactly the blocks [cs], and stops at the first one
    that is cut short or cannot be converted. *)
Definition cut (pr : state * list N -> (state * list N) * res unit) (s : state) (cs : list chunk) (s' : state) : Prop :=
  s' = fold_left take cs s
  /\ (forall x, pr (s, chunks_bytes cs ++ x) = ((s', x), Ok tt))
  /\ forall c1 c c2, cs = c1 ++ c :: c2 ->
      (forall n, (n < List.length (ch_bytes c))%nat ->
         pr (s, chunks_bytes c1 ++ firstn n (ch_bytes c)) = ((fold_left take c1 s, []), Err ERuntime))
      /\ (forall b x e, List.length b = List.length (ch_bytes c) -> fd_name (f_d (ch_field c)) <> None ->
            parse_field FO (f_d (ch_field c)) lit b = Err e ->
            pr (s, chunks_bytes c1 ++ b ++ x)
            = ((set_raw FO (fold_left take c1 s) (f_id (ch_field c)) (ch_key c) (Some b), x), Err e)).

Lemma cut_nil s : cut (fun p => (p, Ok tt)) s [] s.
Proof.
  split; [reflexivity|]. split; [reflexivity|]. intros c1 c c2 E. destruct c1; discriminate E.
Qed.

Lemma cut_seq p1 p2 s cs1 s2 cs2 s3 : cut p1 s cs1 s2 -> cut p2 s2 cs2 s3 ->
  cut (fun p => match p1 p with (p', Ok _) => p2 p' | (p', Err e) => (p', Err e) end) s (cs1 ++ cs2) s3.
Proof.
  intros (A1 & B1 & C1) (A2 & B2 & C2). split; [now rewrite fold_left_app, <- A1|]. split.
  - intro x. rewrite chunks_bytes_app, <- app_assoc, B1. apply B2.
  - intros c1 c c2 E. symmetry in E. apply app_eq_app in E as (l & [[E1 E2]|[E1 E2]]).
    + destruct (C2 l c c2 E2) as (P & Q). subst c1. rewrite fold_left_app, <- A1, chunks_bytes_app.
      split; intros; rewrite <- app_assoc, B1; auto.
    + destruct l as [|c' l].
      * cbn in E2. rewrite app_nil_r in E1. subst c1.
        destruct (C2 [] c c2 (eq_sym E2)) as (P & Q). rewrite <- A1. cbn in P, Q.
        split; intros; rewrite B1; auto.
      * cbn in E2. injection E2 as <- E2. destruct (C1 c1 c l E1) as (P & Q).
        split; [intros n Hn; now rewrite P|intros b x e Hb Hn He; now rewrite (Q b x e)].
Qed.

Lemma cut_present f k s s' b sz :
  check_condition FO (G FO fs s) fs f k = Ok true -> fsize_of FO (G FO fs s) fs f k = Ok sz ->
  Z.of_nat (List.length b) = sz ->
  match fd_name (f_d f) with
  | None => s' = s
  | Some _ => exists v, parse_field FO (f_d f) lit b = Ok v
                /\ s' = set_val FO (set_raw FO s (f_id f) k (Some b)) (f_id f) k v
  end ->
  cut (pread_item FO fs lit k (IField f)) s [{| ch_field := f; ch_key := k; ch_bytes := b |}] s'.
Proof.
  intros Hc Hsz Hb Hs.
  assert (Hread : forall b' x, List.length b' = List.length b ->
            pread_item FO fs lit k (IField f) (s, b' ++ x) =
            match fd_name (f_d f) with
            | None => ((s, x), Ok tt)
            | Some _ => let s1 := set_raw FO s (f_id f) k (Some b') in
                match parse_field FO (f_d f) lit b' with
                | Err e => ((s1, x), Err e)
                | Ok v => ((set_val FO s1 (f_id f) k v, x), Ok tt)
                end
            end).
  { intros b' x Hl. cbn [pread_item]. unfold pread_field. rewrite Hc, Hsz.
    destruct (sz <? 0)%Z eqn:E; [lia|].
    assert (En : Z.to_nat sz = List.length b') by lia. rewrite En, firstn_app, skipn_app, Nat.sub_diag, firstn_all, skipn_all.
    cbn [firstn skipn app]. rewrite app_nil_r.
    destruct (Z.of_nat (List.length b') =? sz)%Z eqn:E2; [reflexivity|lia]. }
  split; [|split].
  - cbn [fold_left]. unfold take. cbn [ch_field ch_key ch_bytes]. destruct (fd_name (f_d f)); [|exact Hs].
    destruct Hs as (v & -> & ->). reflexivity.
  - intro x. cbn [chunks_bytes flat_map ch_bytes]. rewrite app_nil_r, (Hread b x eq_refl).
    destruct (fd_name (f_d f)); [|now rewrite Hs]. destruct Hs as (v & -> & ->). reflexivity.
  - intros c1 c c2 E. destruct c1 as [|c0 c1].
    2:{ injection E as _ E. destruct c1; discriminate E. }
    cbn [app] in E. injection E as <- _. cbn [ch_field ch_key ch_bytes chunks_bytes flat_map fold_left app]. split.
    + intros n Hn. cbn [pread_item]. unfold pread_field. rewrite Hc, Hsz.
      destruct (sz <? 0)%Z eqn:E; [lia|].
      rewrite (firstn_all2 (n := Z.to_nat sz)) by (rewrite firstn_length; lia).
      rewrite (skipn_all2 (n := Z.to_nat sz)) by (rewrite firstn_length; lia).
      destruct (Z.of_nat (List.length (firstn n b)) =? sz)%Z eqn:E2; [|reflexivity].
      rewrite firstn_length in E2. lia.
    + intros b' x e Hl Hn He. rewrite (Hread b' x Hl). destruct (fd_name (f_d f)); [|contradiction].
      cbn zeta. now rewrite He.
Qed.

Lemma cut_absent f k s : check_condition FO (G FO fs s) fs f k = Ok false ->
  cut (pread_item FO fs lit k (IField f)) s [] s.
Proof.
  intro Hc. split; [reflexivity|]. split; [|intros c1 c c2 E; destruct c1; discriminate E].
  intro x. cbn [pread_item chunks_bytes flat_map app]. unfold pread_field. now rewrite Hc.
Qed.

Lemma each_ext {A W} (f g : A -> W -> W * res unit) l : (forall a w, f a w = g a w) ->
  forall w, each f l w = each g l w.
Proof.
  intros H. induction l as [|a l IH]; intro w; cbn [each]; auto. rewrite H.
  destruct (g a w) as [w' [u|e]]; auto.
Qed.

Lemma pread_item_loop k sh its p :
  pread_item FO fs lit k (ILoop sh its) p =
  match eval_shape FO (G FO fs (fst p)) fs k sh with
  | Err e => (p, Err e)
  | Ok n => each (fun i => each (pread_item FO fs lit (k ++ [i])) its) (zrange n) p
  end.
Proof.
  cbn [pread_item]. destruct (eval_shape FO (G FO fs (fst p)) fs k sh) as [n|e]; auto.
  apply each_ext. intros i. induction its as [|it its IH]; intro w; cbn [each]; auto.
  destruct (pread_item FO fs lit (k ++ [i]) it w) as [w' [u|e]]; auto.
Qed.

Lemma cut_loop k sh its n s cs s' :
  eval_shape FO (G FO fs s) fs k sh = Ok n ->
  cut (each (fun i => each (pread_item FO fs lit (k ++ [i])) its) (zrange n)) s cs s' ->
  cut (pread_item FO fs lit k (ILoop sh its)) s cs s'.
Proof.
  intros Hn (A & B & C). split; [exact A|]. split.
  - intro x. rewrite pread_item_loop. cbn [fst]. rewrite Hn. apply B.
  - intros c1 c c2 E. destruct (C c1 c c2 E) as (P & Q).
    split; intros; rewrite pread_item_loop; cbn [fst]; rewrite Hn; auto.
Qed.

Definition visits (V : list pos) (s' : state) (cs : list chunk) (q : state -> res (list pos)) : Prop :=
  forall t, same_on V s' t -> Forall (chunk_info t) cs /\ exists ps, q t = Ok ps /\ blocks_at t ps cs.

Definition item_cut (it : item) : Prop :=
  forall env path k V s inp s' rest,
  incl env (fs_fields fs) -> env_in env k V -> List.length k = List.length path ->
  Forall (fun y => (depth y <= List.length k)%nat) env ->
  item_ok fs env (List.length path) it = true -> placed path it ->
  incl (item_fields it) (fs_fields fs) -> NoDup (item_fields it) ->
  closed fs V -> all_fields V -> fresh V k (item_fields it) ->
  read_item FO fs lit k it (s, inp) = Ok (s', rest) ->
  exists V' cs, inp = chunks_bytes cs ++ rest /\ closed fs V' /\ all_fields V'
    /\ grows V V' k (item_fields it) /\ frame k (item_fields it) s s'
    /\ (forall f, it = IField f -> In (f, k) V')
    /\ visits V' s' cs (fun t => positions_item FO fs t k it)
    /\ cut (pread_item FO fs lit k it) s cs s'.

Lemma field_cut f : item_cut (IField f).
Proof.
  intros env path k V s inp s' rest Hi HV HL Hd Hok Hpl Hf Hnd HC HA HF HR.
  cbn [item_ok] in Hok.
  assert (Hin : In f (fs_fields fs)) by (apply Hf; now left).
  assert (HP := refs_own rows env (List.length path) k V f Hi HV HL Hok). fold fs in HP.
  apply field_ok_elim in Hok as (_ & _ & _ & _ & Hres).
  assert (HnV : ~ In (f, k) V).
  { apply HF; [now left|]. exists []. now rewrite app_nil_r. }
  assert (HC' : closed fs ((f, k) :: V)) by now apply closed_cons.
  destruct HP as (Hlen & Hown & Hsh). destruct (own_split _ _ Hown) as (Rc & Rs & Rv).
  assert (HA' : all_fields ((f, k) :: V)).
  { intros y p [E|H]; [injection E as <- <-; exact Hin|eapply HA; eauto]. }
  assert (HG : grows V ((f, k) :: V) k [f]).
  { split; [now apply incl_tl, incl_refl|]. intros y p [E|H]; auto. injection E as <- <-.
    right. split; [now left|]. exists []. now rewrite app_nil_r. }
  cbn [read_item item_fields] in *. unfold read_field in HR.
  apply bind_ok_elim in HR as (c & Hc & HR). destruct c; cbn [negb] in HR.
  - apply bind_ok_elim in HR as (sz & Hsz & HR).
    destruct ((sz <? 0)%Z || (Z.of_nat (List.length inp) <? sz)%Z) eqn:E; [discriminate|].
    set (b := firstn (Z.to_nat sz) inp) in *.
    assert (Hb : Z.of_nat (List.length b) = sz) by (unfold b; rewrite firstn_length; lia).
    assert (Hfr : frame k [f] s s').
    { intros y p Hy Hn. destruct (fd_name (f_d f)) eqn:N; [|congruence].
      apply bind_ok_elim in HR as (v & Hv & HR). injection HR as <- _.
      assert (Hne : f_id f <> f_id y \/ k <> p); [|unfold slot, stored; cbn [st_val st_raw set_val set_raw]; now rewrite !upd_neq].
      destruct (Nat.eq_dec (f_id f) (f_id y)) as [Ei|Ei]; auto. right. intro Ek.
      apply Hn. apply Hinj in Ei; auto. rewrite <- Ei, <- Ek. split; [now left|]. exists []. now rewrite app_nil_r. }
    assert (Hst : fd_name (f_d f) <> None -> exists sv, parse_field FO (f_d f) lit b = Ok sv
                    /\ slot s' f k = (sv, Some b)).
    { intro Hn. destruct (fd_name (f_d f)) eqn:N; [|contradiction].
      apply bind_ok_elim in HR as (v & Hv & HR). injection HR as <- _. exists v. split; auto.
      unfold slot, stored. cbn [st_val st_raw set_val set_raw]. now rewrite !upd_eq. }
    assert (Hrest : rest = skipn (Z.to_nat sz) inp).
    { destruct (fd_name (f_d f)); [|congruence]. apply bind_ok_elim in HR as (v & _ & HR).
      injection HR as _ <-. reflexivity. }
    exists ((f, k) :: V), [{| ch_field := f; ch_key := k; ch_bytes := b |}].
    split; [|split; [exact HC'|split; [exact HA'|split; [exact HG|split; [exact Hfr|split; [|split]]]]]].
    + cbn [chunks_bytes flat_map ch_bytes]. rewrite app_nil_r, Hrest. unfold b.
      symmetry. apply firstn_skipn.
    + intros f' E'. injection E' as <-. now left.
    + intros t Ht.
      assert (HsV : same_on V s t).
      { eapply same_on_trans; [eapply fresh_frame; eauto|].
        eapply same_on_incl; [|exact Ht]. now apply incl_tl, incl_refl. }
      assert (Hct : check_condition FO (G FO fs t) fs f k = Ok true)
        by (eapply check_condition_agree; [|exact Hc]; exact (same_agree FO rows V s t _ _ _ HC HsV Rc)).
      assert (Hszt : fsize_of FO (G FO fs t) fs f k = Ok sz)
        by (eapply fsize_agree; [|exact Hsz]; exact (same_agree FO rows V s t _ _ _ HC HsV Rs)).
      split.
      * constructor; auto. unfold chunk_info. cbn [ch_field ch_key ch_bytes].
        rewrite <- Hb in Hszt.
        split; [exact Hin|]. split; [exact Hct|]. split; [exact Hszt|]. split; [|exact Hres].
        intro Hn. destruct (Hst Hn) as (sv & A & B). exists sv. split; [exact A|].
        rewrite (Ht f k (or_introl eq_refl)) in B. unfold slot in B. injection B as B1 B2. auto.
      * exists [(f, k)]. split; [reflexivity|]. apply ba_present; auto. constructor.
    + apply cut_present with (sz := sz); auto.
      destruct (fd_name (f_d f)); [|congruence].
      apply bind_ok_elim in HR as (v & Hv & HR). injection HR as <- _. exists v. auto.
  - injection HR as <- <-. exists ((f, k) :: V), [].
    split; [|split; [exact HC'|split; [exact HA'|split; [exact HG|split; [|split; [|split]]]]]].
    + reflexivity.
    + intros y p _ _. reflexivity.
    + intros f' E'. injection E' as <-. now left.
    + intros t Ht.
      assert (Hct : check_condition FO (G FO fs t) fs f k = Ok false).
      { eapply check_condition_agree; [|exact Hc]. eapply same_agree; [exact HC| |exact Rc].
        eapply same_on_incl; [|exact Ht]. now apply incl_tl, incl_refl. }
      split; [constructor|].
      exists [(f, k)]. split; [reflexivity|]. apply ba_absent; auto. constructor.
    + now apply cut_absent.
Qed.

Lemma visits_seq V2 V3 s2 s3 cs1 cs2 q1 q2 :
  incl V2 V3 -> same_on V2 s2 s3 -> visits V2 s2 cs1 q1 -> visits V3 s3 cs2 q2 ->
  visits V3 s3 (cs1 ++ cs2) (fun t => do x <- q1 t; do y <- q2 t; Ok (x ++ y)).
Proof.
  intros HI HS H1 H2 t Ht.
  destruct (H1 t) as (A1 & ps1 & Q1 & Z1). { eapply same_on_trans; [exact HS|]. eapply same_on_incl; eauto. }
  destruct (H2 t Ht) as (A2 & ps2 & Q2 & Z2). split; [apply Forall_app; auto|].
  exists (ps1 ++ ps2). rewrite Q1, Q2. split; [reflexivity|]. now apply blocks_at_app.
Qed.

Lemma visits_nil V s q : (forall t, q t = Ok []) -> visits V s [] q.
Proof. intros H' t _. split; [constructor|]. exists []. split; [apply H'|constructor]. Qed.

Definition items_cut_for (its : list item) : Prop :=
  forall env path k V s inp s' rest,
  incl env (fs_fields fs) -> env_in env k V -> List.length k = List.length path ->
  Forall (fun y => (depth y <= List.length k)%nat) env ->
  items_ok fs env (List.length path) its = true -> Forall (placed path) its ->
  incl (flat_map item_fields its) (fs_fields fs) -> NoDup (flat_map item_fields its) ->
  closed fs V -> all_fields V -> fresh V k (flat_map item_fields its) ->
  read_items FO fs lit k its (s, inp) = Ok (s', rest) ->
  exists V' cs, inp = chunks_bytes cs ++ rest /\ closed fs V' /\ all_fields V'
    /\ grows V V' k (flat_map item_fields its) /\ frame k (flat_map item_fields its) s s'
    /\ visits V' s' cs (fun t => positions_items FO fs t k its)
    /\ cut (each (pread_item FO fs lit k) its) s cs s'.

Lemma items_cut its : Forall item_cut its -> items_cut_for its.
Proof.
  induction 1 as [|it its Hit _ IH]; intros env path k V s inp s' rest Hi HV HL Hd Hok Hpl Hf Hnd HC HA HF HR.
  - cbn in HR. injection HR as <- <-. exists V, [].
    split; [reflexivity|]. split; [exact HC|]. split; [exact HA|].
    split; [split; [apply incl_refl|auto]|]. split; [intros y p _ _; reflexivity|].
    split; [apply visits_nil; reflexivity|apply cut_nil].
  - unfold read_items in HR. cbn [fold_res] in HR. apply bind_ok_elim in HR as ([s2 r2] & HR1 & HR2).
    cbn [items_ok] in Hok. apply andb_true_iff in Hok as [Hok1 Hok2].
    inversion Hpl as [|? ? Hp1 Hp2]; subst. cbn [flat_map] in Hf, Hnd, HF |- *.
    apply incl_app_inv in Hf as [Hf1 Hf2]. apply NoDup_app_inv in Hnd as (Hnd1 & Hnd2 & Hdis).
    destruct (Hit env path k V s inp s2 r2) as (V2 & cs1 & E1 & C2 & A2 & G2 & F2 & N2 & W2 & K2); auto.
    { intros f p Hfi. apply HF. apply in_or_app; auto. }
    assert (HV2 : env_in (env_after env it) k V2).
    { intros z Hz. destruct it as [f|]; cbn in Hz; [|now apply G2, HV].
      apply in_app_or in Hz as [Hz|[<-|[]]]; [now apply G2, HV|].
      cbn [placed] in Hp1. unfold depth. rewrite Hp1, <- HL, firstn_all. now apply N2. }
    assert (HF2 : fresh V2 k (flat_map item_fields its)).
    { intros f p Hfi Hpre HVi. destruct (proj2 G2 f p HVi) as [Hv|[Hv _]].
      - eapply HF; eauto. apply in_or_app; auto.
      - eapply Hdis; eauto. }
    destruct (IH (env_after env it) path k V2 s2 r2 s' rest)
      as (V3 & cs2 & E2 & C3 & A3 & G3 & F3 & W3 & K3); auto.
    { destruct it as [f|]; cbn; auto. apply incl_app; auto. }
    { destruct it as [f|]; cbn; auto. apply Forall_app. split; auto. constructor; auto.
      cbn [placed] in Hp1. unfold depth. rewrite Hp1. lia. }
    exists V3, (cs1 ++ cs2). split; [|split; [exact C3|split; [exact A3|split; [|split; [|split]]]]].
    + rewrite chunks_bytes_app, <- app_assoc, <- E2. exact E1.
    + eapply grows_trans; eauto.
    + eapply frame_trans; eauto.
    + eapply (visits_seq V2 V3 s2 s' cs1 cs2 (fun t => positions_item FO fs t k it)
                (fun t => positions_items FO fs t k its)); eauto.
      * apply G3. * eapply fresh_frame; eauto.
    + exact (cut_seq _ _ _ _ _ _ _ K2 K3).
Qed.

Lemma loop_cut its : items_cut_for its ->
  forall idx env path k V s inp s' rest, NoDup idx ->
  incl env (fs_fields fs) -> env_in env k V -> S (List.length k) = List.length path ->
  Forall (fun y => (depth y <= List.length k)%nat) env ->
  items_ok fs env (List.length path) its = true -> Forall (placed path) its ->
  incl (flat_map item_fields its) (fs_fields fs) -> NoDup (flat_map item_fields its) ->
  closed fs V -> all_fields V ->
  (forall i, In i idx -> fresh V (k ++ [i]) (flat_map item_fields its)) ->
  fold_res (fun i p => read_items FO fs lit (k ++ [i]) its p) idx (s, inp) = Ok (s', rest) ->
  exists V' cs, inp = chunks_bytes cs ++ rest /\ closed fs V' /\ all_fields V'
    /\ grows V V' k (flat_map item_fields its)
    /\ (forall y p, In y (fs_fields fs) ->
          ~ (In y (flat_map item_fields its) /\ exists i, In i idx /\ pre (k ++ [i]) p) ->
          slot s y p = slot s' y p)
    /\ visits V' s' cs
         (fun t => concat_map_res (fun i => positions_items FO fs t (k ++ [i]) its) idx)
    /\ cut (each (fun i => each (pread_item FO fs lit (k ++ [i])) its) idx) s cs s'.
Proof.
  intros Hits idx. induction idx as [|i idx IH];
    intros env path k V s inp s' rest Hni Hi HV HL Hd Hok Hpl Hf Hnd HC HA HF HR.
  - cbn in HR. injection HR as <- <-. exists V, [].
    split; [reflexivity|]. split; [exact HC|]. split; [exact HA|].
    split; [split; [apply incl_refl|auto]|]. split; [intros y p _ _; reflexivity|].
    split; [apply visits_nil; reflexivity|apply cut_nil].
  - cbn [fold_res] in HR. apply bind_ok_elim in HR as ([s2 r2] & HR1 & HR2).
    inversion Hni as [|? ? Hni1 Hni2]; subst.
    destruct (Hits env path (k ++ [i]) V s inp s2 r2) as (V2 & cs1 & E1 & C2 & A2 & G2 & F2 & W2 & K2); auto.
    { now apply env_in_ext. }
    { rewrite app_length. cbn [List.length]. lia. }
    { eapply Forall_impl; [|exact Hd]. intros z Hz. cbn beta in Hz |- *. rewrite app_length.
      cbn [List.length]. lia. }
    { apply HF. now left. }
    destruct (IH env path k V2 s2 r2 s' rest) as (V3 & cs2 & E2 & C3 & A3 & G3 & F3 & W3 & K3); auto.
    { eapply env_in_incl; [|exact HV]. apply G2. }
    { intros j Hj f p Hfi Hpre HVi. destruct (proj2 G2 f p HVi) as [Hv|[_ Hv]].
      - eapply (HF j); eauto. now right.
      - assert (i = j) by (eapply pre_inj; eauto). subst. auto. }
    exists V3, (cs1 ++ cs2). split; [|split; [exact C3|split; [exact A3|split; [|split; [|split]]]]].
    + rewrite chunks_bytes_app, <- app_assoc, <- E2. exact E1.
    + split; [eapply incl_tran; [apply G2|apply G3]|]. intros y p H.
      destruct (proj2 G3 y p H) as [H2|]; auto. destruct (proj2 G2 y p H2) as [|[A B]]; auto.
      right. split; auto. eapply pre_ext; eauto.
    + intros y p Hy Hn. rewrite (F2 y p Hy), (F3 y p Hy); auto.
      * intros [A (j & B & B')]. apply Hn. split; auto. exists j. cbn. auto.
      * intros [A B]. apply Hn. split; auto. exists i. cbn. auto.
    + eapply (visits_seq V2 V3 s2 s' cs1 cs2
        (fun t => positions_items FO fs t (k ++ [i]) its)
        (fun t => concat_map_res (fun i => positions_items FO fs t (k ++ [i]) its) idx)); eauto.
      * apply G3.
      * intros y p HVi. apply F3; [now apply A2 in HVi|]. intros [A (j & B & B')].
        destruct (proj2 G2 y p HVi) as [Hv|[_ Hv]].
        -- eapply (HF j); eauto. now right.
        -- assert (i = j) by (eapply pre_inj; eauto). subst. auto.
    + exact (cut_seq _ _ _ _ _ _ _ K2 K3).
Qed.

Lemma all_item_cut it : item_cut it.
Proof.
  induction it as [f|sh its IH] using item_ind'; [apply field_cut|].
  intros env path k V s inp s' rest Hi HV HL Hd Hok Hpl Hf Hnd HC HA HF HR.
  rewrite item_ok_loop in Hok. apply andb_true_iff in Hok as [Hr Hok].
  rewrite read_item_loop in HR. cbn [fst] in HR. apply bind_ok_elim in HR as (n & Hn & HR).
  apply placed_loop in Hpl. cbn [item_fields] in *.
  destruct (loop_cut its (items_cut its IH) (zrange n) env (path ++ [sh]) k V s inp s' rest)
    as (V' & cs & E & C' & A' & G' & F' & W' & K'); auto.
  { apply NoDup_zrange. }
  { rewrite app_length. cbn [List.length]. lia. }
  { rewrite app_length. cbn [List.length].
    now replace (List.length path + 1)%nat with (S (List.length path)) by lia. }
  { intros i _ f p Hfi Hpre. apply HF; auto. eapply pre_ext; eauto. }
  assert (Hfr : frame k (flat_map item_fields its) s s').
  { intros y p Hy Hno. apply F'; auto. intros [A (i & _ & B)]. apply Hno. split; auto.
    eapply pre_ext; eauto. }
  exists V', cs. split; [exact E|split; [exact C'|split; [exact A'|split; [exact G'|split; [exact Hfr|split; [|split]]]]]].
  - intros f Ef. discriminate.
  - intros t Ht. destruct (W' t Ht) as (B1 & ps & Q & Z). split; auto.
    assert (En : eval_shape FO (G FO fs t) fs k sh = Ok n).
    { eapply eval_shape_agree; [|exact Hn].
      eapply same_agree; [exact HC| |exact (refs_ok_in fs env k (List.length path) V (expr_refs sh) Hinj Hi HV Hr)].
      eapply same_on_trans; [eapply fresh_frame; eauto|]. eapply same_on_incl; [|exact Ht]. apply G'. }
    exists ps. rewrite positions_item_loop, En. auto.
  - now apply cut_loop with (n := n).
Qed.


Lemma read_cut s inp s' rest :
  wf_rows rows = true -> read FO fs lit s inp = Ok (s', rest) ->
  exists cs ps, inp = chunks_bytes cs ++ rest /\ Forall (chunk_info s') cs
    /\ positions FO fs s' = Ok ps /\ blocks_at s' ps cs
    /\ cut (fun p => each (pread_item FO fs lit []) (fs_items fs) p) s cs s'.
Proof.
  intros Hwf HR.
  destruct (items_cut (fs_items fs)) with (env := @nil field) (path := @nil expr) (k := @nil Z)
    (V := @nil pos) (s := s) (inp := inp) (s' := s') (rest := rest)
    as (V & cs & E & _ & _ & _ & _ & W & K); auto.
  - apply Forall_forall. intros it _. apply all_item_cut.
  - intros y [].
  - intros y [].
  - apply mk_fs_placed.
  - apply incl_refl.
  - apply (NoDup_map_inv f_id). exact (mk_fs_nodup rows).
  - intros y p [].
  - intros y p [].
  - intros f p _ _ [].
  - destruct (W s') as (A & ps & B & C); [intros y p _; reflexivity|]. exists cs, ps. auto.
Qed.

End Cut.

Section Left.
Variable FO : FloatOps.
Variable rows : list row.
Let fs := mk_fs rows.
Notation state := (state FO).

Definition where_ (c : chunk) : field * list Z := (ch_field c, ch_key c).

Lemma take_other lit (s : state) c y p : In y (fs_fields fs) -> In (ch_field c) (fs_fields fs) ->
  (y, p) <> where_ c -> slot FO (take FO lit s c) y p = slot FO s y p.
Proof.
  intros Hy Hc Hne. unfold take. destruct (fd_name (f_d (ch_field c))); auto.
  destruct (parse_field FO (f_d (ch_field c)) lit (ch_bytes c)) as [v|]; auto.
  assert (H : f_id (ch_field c) <> f_id y \/ ch_key c <> p).
  { destruct (Nat.eq_dec (f_id (ch_field c)) (f_id y)) as [E|E]; auto. right. intros <-.
    apply (mk_fs_id_inj rows) in E; auto. apply Hne. unfold where_. now rewrite E. }
  unfold slot, stored. cbn [st_val st_raw set_val set_raw]. now rewrite !upd_neq.
Qed.

Lemma takes_other lit cs : forall (s : state) y p, In y (fs_fields fs) ->
  Forall (fun c => In (ch_field c) (fs_fields fs)) cs -> ~ In (y, p) (map where_ cs) ->
  slot FO (fold_left (take FO lit) cs s) y p = slot FO s y p.
Proof.
  induction cs as [|c cs IH]; intros s y p Hy HF Hn; cbn [fold_left]; auto.
  inversion HF as [|? ? H1 H2]; subst. cbn [map In] in Hn. rewrite IH by auto.
  apply take_other; auto.
Qed.

Lemma blocks_incl (t : state) ps cs : blocks_at FO rows t ps cs -> incl (map where_ cs) ps.
Proof.
  induction 1 as [|f k ps cs _ _ IH|f k b ps cs _ _ IH]; cbn [map].
  - apply incl_refl.
  - now apply incl_tl.
  - intros x [<-|H]; [now left|right; auto].
Qed.

Lemma blocks_split (t : state) c1 : forall ps c c2, blocks_at FO rows t ps (c1 ++ c :: c2) ->
  exists p1 p2, ps = p1 ++ where_ c :: p2 /\ blocks_at FO rows t p1 c1 /\ blocks_at FO rows t p2 c2
    /\ check_condition FO (G FO fs t) fs (ch_field c) (ch_key c) = Ok true.
Proof.
  intros ps c c2 H. remember (c1 ++ c :: c2) as cs eqn:E. revert c1 E.
  induction H as [|f k ps cs Hc H IH|f k b ps cs Hc H IH]; intros c1 E.
  - destruct c1; discriminate E.
  - destruct (IH c1 E) as (p1 & p2 & -> & A & B & C). exists ((f, k) :: p1), p2. repeat split; auto.
    now apply ba_absent.
  - destruct c1 as [|c0 c1]; cbn [app] in E; injection E as <- E.
    + subst cs. exists [], ps. repeat split; auto. constructor.
    + destruct (IH c1 E) as (p1 & p2 & -> & A & B & C). exists ((f, k) :: p1), p2. repeat split; auto.
      now apply ba_present.
Qed.

Lemma chunk_split cs : forall n, (n < List.length (chunks_bytes cs))%nat ->
  exists c1 c c2 m, cs = c1 ++ c :: c2 /\ n = (List.length (chunks_bytes c1) + m)%nat /\ (m < List.length (ch_bytes c))%nat.
Proof.
  induction cs as [|c cs IH]; intros n Hn; [cbn in Hn; lia|].
  change (chunks_bytes (c :: cs)) with (ch_bytes c ++ chunks_bytes cs) in Hn. rewrite app_length in Hn.
  destruct (Nat.ltb_spec n (List.length (ch_bytes c))) as [H|H].
  - exists [], c, cs, n. repeat split; auto.
  - destruct (IH (n - List.length (ch_bytes c))%nat) as (c1 & c' & c2 & m & -> & E & L); [lia|].
    exists (c :: c1), c', c2, m. repeat split; auto.
    change (chunks_bytes (c :: c1)) with (ch_bytes c ++ chunks_bytes c1). rewrite app_length. lia.
Qed.

(** Read up to the positions [p1], the structure holds there what the whole record gives, and
    elsewhere what it held before. *)
Definition read_upto (s s2 s' : state) (p1 : list (field * list Z)) : Prop :=
  (forall y p, In (y, p) p1 -> slot FO s' y p = slot FO s2 y p)
  /\ (forall y p, In y (fs_fields fs) -> ~ In (y, p) p1 -> slot FO s' y p = slot FO s y p).

(** The record [used] consists of the blocks [b1] of the positions [p1], the block [b] of [f] at [k]
    and the blocks of the remaining positions. *)
Definition blocks_of (s2 : state) (used : list N) (p1 : list (field * list Z)) (b1 : list (list N)) (f : field) (k : list Z) (b : list N) : Prop :=
  exists p2 b2, unrolled_all FO fs s2 (fs_items fs) [] (p1 ++ (f, k) :: p2)
    /\ Forall2 (block_is FO fs s2) p1 b1 /\ block_is FO fs s2 (f, k) b /\ Forall2 (block_is FO fs s2) p2 b2
    /\ used = List.concat b1 ++ b ++ List.concat b2.

Lemma stops lit s used s2 rest cs ps c1 c c2 :
  read FO fs lit s (used ++ rest) = Ok (s2, rest) -> used = chunks_bytes cs ->
  Forall (chunk_info FO rows lit s2) cs -> positions FO fs s2 = Ok ps -> blocks_at FO rows s2 ps cs ->
  s2 = fold_left (take FO lit) cs s -> cs = c1 ++ c :: c2 ->
  exists p1 b1, blocks_of s2 used p1 b1 (ch_field c) (ch_key c) (ch_bytes c) /\ chunks_bytes c1 = List.concat b1
    /\ read_upto s s2 (fold_left (take FO lit) c1 s) p1 /\ ~ In (where_ c) p1
    /\ (forall y p, In (y, p) p1 -> In y (fs_fields fs)).
Proof.
  intros HR Hu HI HP HB Hs ->.
  assert (Hnd := positions_nodup FO rows s2 ps HP).
  assert (Hin : forall y p, In (y, p) ps -> In y (fs_fields fs)) by (intros y p; apply (positions_in_fields FO rows s2 ps y p HP)).
  destruct (blocks_split s2 c1 ps c c2 HB) as (p1 & p2 & -> & B1 & B2 & Hc).
  apply Forall_app in HI as (I1 & I2). inversion I2 as [|? ? Ic I2']; subst x l.
  destruct (blocks_at_read FO rows lit s2 p1 c1 B1 I1) as (b1 & F1 & E1).
  destruct (blocks_at_read FO rows lit s2 p2 c2 B2 I2') as (b2 & F2 & E2).
  exists p1, b1. split; [|split; [exact E1|split; [split|split]]].
  - exists p2, b2. split; [now apply positions_unrolled_all|].
    split; [eapply Forall2_impl; [|exact F1]; intros ? ? H; exact (proj1 H)|]. split; [|split].
    + destruct Ic as (_ & H1 & H2 & _). right. split; [now apply cond_is_check|now apply size_is_fsize].
    + eapply Forall2_impl; [|exact F2]; intros ? ? H; exact (proj1 H).
    + rewrite Hu, chunks_bytes_app, E1. change (chunks_bytes (c :: c2)) with (ch_bytes c ++ chunks_bytes c2). now rewrite E2.
  - intros y p Hy. rewrite Hs, fold_left_app. symmetry. apply takes_other.
    + apply (Hin y p). apply in_or_app; auto.
    + eapply Forall_impl; [|exact I2]. intros a Ha. exact (proj1 Ha).
    + intro H. apply NoDup_app_inv in Hnd as (_ & _ & Hd). apply (Hd (y, p) Hy).
      cbn [map] in H. destruct H as [<-|H]; [now left|right]. now apply (blocks_incl _ _ _ B2).
  - intros y p Hy Hn. apply takes_other; auto.
    + eapply Forall_impl; [|exact I1]. intros a Ha. exact (proj1 Ha).
    + intro H. apply Hn. now apply (blocks_incl _ _ _ B1).
  - intro H. apply NoDup_app_inv in Hnd as (_ & _ & Hd). apply (Hd _ H). now left.
  - intros y p H. apply (Hin y p). apply in_or_app; auto.
Qed.

(** A record cut short: the fields whose blocks are complete are read, nothing else is touched, the
    file is at its end, and the error is the one of a short read. *)
Theorem C70_truncated lit s used rest s2 n :
  wf_rows rows = true -> read FO fs lit s (used ++ rest) = Ok (s2, rest) -> (n < List.length used)%nat ->
  exists s' p1 b1 f k b,
    pread FO fs lit s (firstn n used) = ((s', []), Err ERuntime)
    /\ blocks_of s2 used p1 b1 f k b
    /\ (List.length (List.concat b1) <= n < List.length (List.concat b1) + List.length b)%nat
    /\ read_upto s s2 s' p1.
Proof.
  intros Hwf HR Hn. destruct (read_cut FO rows lit s _ s2 rest Hwf HR) as (cs & ps & E & HI & HP & HB & Hs & _ & HK).
  apply app_inv_tail in E. rewrite E in Hn.
  destruct (chunk_split cs n Hn) as (c1 & c & c2 & m & Ecs & En & Hm).
  destruct (stops lit s used s2 rest cs ps c1 c c2 HR E HI HP HB Hs Ecs) as (p1 & b1 & A & B & C & _).
  destruct (HK c1 c c2 Ecs) as (K & _). specialize (K m Hm).
  exists (fold_left (take FO lit) c1 s), p1, b1, (ch_field c), (ch_key c), (ch_bytes c).
  split; [|split; [exact A|split; [rewrite <- B; lia|exact C]]].
  unfold pread. rewrite <- K. do 2 f_equal. rewrite E, Ecs, chunks_bytes_app, En, firstn_app_2.
  f_equal. change (chunks_bytes (c :: c2)) with (ch_bytes c ++ chunks_bytes c2).
  rewrite firstn_app. replace (m - List.length (ch_bytes c))%nat with 0%nat by lia. cbn [firstn]. apply app_nil_r.
Qed.

(** A block that cannot be converted: the field keeps its value but has the new raw bytes; fields
    before it are read, those behind it are not touched; the file is behind the block. *)
Theorem C70_unconvertible lit s used rest s2 f k :
  wf_rows rows = true -> read FO fs lit s (used ++ rest) = Ok (s2, rest) ->
  In f (fs_fields fs) -> fd_name (f_d f) <> None -> valid_index FO fs s2 f k -> cond_is FO fs s2 f k true ->
  exists p1 b1 b, blocks_of s2 used p1 b1 f k b
    /\ forall b' x e, List.length b' = List.length b -> parse_field FO (f_d f) lit b' = Err e ->
       exists s', pread FO fs lit s (List.concat b1 ++ b' ++ x) = ((s', x), Err e)
         /\ stored FO s' f k = stored FO s f k /\ st_raw FO s' (f_id f) k = Some b'
         /\ (forall y p, In (y, p) p1 -> slot FO s' y p = slot FO s2 y p)
         /\ (forall y p, In y (fs_fields fs) -> ~ In (y, p) p1 -> (y, p) <> (f, k) -> slot FO s' y p = slot FO s y p).
Proof.
  intros Hwf HR Hf Hnm Hv Hc. destruct (read_cut FO rows lit s _ s2 rest Hwf HR) as (cs & ps & E & HI & HP & HB & Hs & _ & HK).
  apply app_inv_tail in E.
  assert (Hin := valid_in_positions FO rows s2 ps f k HP Hf Hv).
  assert (Hcs : exists c, In c cs /\ where_ c = (f, k)).
  { apply cond_is_check in Hc. clear - HB Hin Hc.
    induction HB as [|f' k' ps cs Hc' _ IH|f' k' b ps cs Hc' _ IH]; [destruct Hin| |].
    - destruct Hin as [H|H]; [|auto]. injection H as -> ->. fold fs in Hc'. congruence.
    - destruct Hin as [H|H]; [|destruct (IH H) as (c & A & B); exists c; split; [now right|exact B]].
      eexists. split; [now left|]. exact H. }
  destruct Hcs as (c & Hcin & Ew). unfold where_ in Ew. injection Ew as <- <-.
  apply in_split in Hcin as (c1 & c2 & Ecs).
  destruct (stops lit s used s2 rest cs ps c1 c c2 HR E HI HP HB Hs Ecs) as (p1 & b1 & A & B & (C1 & C2) & D & HF).
  exists p1, b1, (ch_bytes c). split; [exact A|]. intros b' x e Hl He.
  destruct (HK c1 c c2 Ecs) as (_ & K). specialize (K b' x e Hl Hnm He).
  exists (set_raw FO (fold_left (take FO lit) c1 s) (f_id (ch_field c)) (ch_key c) (Some b')).
  assert (Hraw : forall y p, In y (fs_fields fs) -> (y, p) <> where_ c ->
            slot FO (set_raw FO (fold_left (take FO lit) c1 s) (f_id (ch_field c)) (ch_key c) (Some b')) y p
            = slot FO (fold_left (take FO lit) c1 s) y p).
  { intros y p Hy Hne. assert (H : f_id (ch_field c) <> f_id y \/ ch_key c <> p).
    { destruct (Nat.eq_dec (f_id (ch_field c)) (f_id y)) as [Ei|Ei]; auto. right. intros <-.
      apply (mk_fs_id_inj rows) in Ei; auto. apply Hne. unfold where_. now rewrite Ei. }
    unfold slot, stored. cbn [st_val st_raw set_raw]. now rewrite !upd_neq. }
  split; [unfold pread; rewrite <- B; exact K|].
  split. { specialize (C2 _ _ Hf D). unfold slot in C2. injection C2 as C2 _. exact C2. }
  split; [cbn [st_raw set_raw]; now rewrite upd_eq|]. split.
  - intros y p Hy. rewrite Hraw; [now apply C1| |intros H; apply D; now rewrite <- H].
    now apply (HF y p).
  - intros y p Hy Hn Hne. rewrite Hraw; auto.
Qed.
(** With no failure the read is the one of Engine.v; if one fails, so does the other, with the same
    error. *)
Lemma pread_field_read lit f k p :
  read_field FO fs lit f k p = match pread_field FO fs lit f k p with (p', Ok _) => Ok p' | (_, Err e) => Err e end.
Proof.
  destruct p as [s inp]. unfold read_field, pread_field.
  destruct (check_condition FO (G FO fs s) fs f k) as [[|]|e]; cbn [bind negb]; auto.
  destruct (fsize_of FO (G FO fs s) fs f k) as [sz|e]; cbn [bind]; auto.
  destruct (sz <? 0)%Z eqn:E; cbn [orb].
  - destruct (Z.of_nat (List.length (firstn (List.length inp) inp)) =? sz)%Z eqn:E2; [lia|reflexivity].
  - rewrite firstn_length. destruct (Z.of_nat (List.length inp) <? sz)%Z eqn:E1.
    + destruct (Z.of_nat (Nat.min (Z.to_nat sz) (List.length inp)) =? sz)%Z eqn:E2; [lia|reflexivity].
    + destruct (Z.of_nat (Nat.min (Z.to_nat sz) (List.length inp)) =? sz)%Z eqn:E2; [cbn [negb]|lia].
      destruct (fd_name (f_d f)); auto. cbn zeta.
      destruct (parse_field FO (f_d f) lit (firstn (Z.to_nat sz) inp)); reflexivity.
Qed.

Lemma each_fold {A W} (g : A -> W -> W * res unit) (h : A -> W -> res W) l :
  (forall a, In a l -> forall w, h a w = match g a w with (w', Ok _) => Ok w' | (_, Err e) => Err e end) ->
  forall w, fold_res h l w = match each g l w with (w', Ok _) => Ok w' | (_, Err e) => Err e end.
Proof.
  induction l as [|a l IH]; intros H w; cbn [fold_res each]; auto.
  rewrite (H a (or_introl eq_refl) w). destruct (g a w) as [w' [u|e]]; cbn [bind]; auto.
  apply IH. intros b Hb. apply H. now right.
Qed.

Lemma pread_item_read lit it : forall k p,
  read_item FO fs lit k it p = match pread_item FO fs lit k it p with (p', Ok _) => Ok p' | (_, Err e) => Err e end.
Proof.
  induction it as [f|sh its IH] using item_ind'; intros k p; [apply pread_field_read|].
  rewrite read_item_loop. unfold fs. rewrite pread_item_loop. fold fs.
  destruct (eval_shape FO (G FO fs (fst p)) fs k sh) as [n|e]; cbn [bind]; auto.
  apply each_fold. intros i _ w. unfold read_items. apply each_fold. intros it Hit w'.
  rewrite Forall_forall in IH. now apply IH.
Qed.

Theorem C70_agrees lit s inp :
  (forall s' rest, pread FO fs lit s inp = ((s', rest), Ok tt) <-> read FO fs lit s inp = Ok (s', rest))
  /\ forall e, (exists p, pread FO fs lit s inp = (p, Err e)) <-> read FO fs lit s inp = Err e.
Proof.
  assert (H : read FO fs lit s inp = match pread FO fs lit s inp with (p, Ok _) => Ok p | (_, Err e) => Err e end).
  { unfold read, pread, read_items. apply each_fold. intros it _ p. apply pread_item_read. }
  rewrite H. destruct (pread FO fs lit s inp) as [[s1 r1] [[]|e1]]; split.
  - intros s' rest. split; intro E; [congruence|]. assert (E' : (s1, r1) = (s', rest)) by congruence. now rewrite E'.
  - intros e. split; [intros (p & E); discriminate E|intro E; discriminate E].
  - intros s' rest. split; intro E; discriminate E.
  - intros e. split; [intros (p & E); congruence|intro E; exists (s1, r1); congruence].
Qed.

(** Whatever happens, reading only changes values and raw bytes, and takes bytes from the front of
    the input. *)
Definition keeps (p q : state * list N) : Prop :=
  st_loc FO (fst p) = st_loc FO (fst q) /\ exists u, snd p = u ++ snd q.

Lemma keeps_refl p : keeps p p.
Proof. split; [reflexivity|]. exists []. reflexivity. Qed.
Lemma keeps_trans p q r : keeps p q -> keeps q r -> keeps p r.
Proof. intros (A & u & B) (C & v & D). split; [congruence|]. exists (u ++ v). now rewrite <- app_assoc, <- D. Qed.

Lemma each_keeps {A} (g : A -> state * list N -> (state * list N) * res unit) l :
  (forall a, In a l -> forall p, keeps p (fst (g a p))) -> forall p, keeps p (fst (each g l p)).
Proof.
  induction l as [|a l IH]; intros H p; cbn [each]; [apply keeps_refl|].
  assert (Ha := H a (or_introl eq_refl) p). destruct (g a p) as [p' [u|e]]; cbn [fst] in *; auto.
  eapply keeps_trans; [exact Ha|]. apply IH. intros b Hb. apply H. now right.
Qed.

Lemma pread_item_keeps lit it : forall k p, keeps p (fst (pread_item FO fs lit k it p)).
Proof.
  induction it as [f|sh its IH] using item_ind'; intros k p.
  - destruct p as [s inp]. cbn [pread_item]. unfold pread_field.
    destruct (check_condition FO (G FO fs s) fs f k) as [[|]|e]; try apply keeps_refl.
    destruct (fsize_of FO (G FO fs s) fs f k) as [sz|e]; try apply keeps_refl. cbn zeta.
    set (n := if (sz <? 0)%Z then List.length inp else Z.to_nat sz).
    assert (Hu : exists u, inp = u ++ skipn n inp) by (exists (firstn n inp); symmetry; apply firstn_skipn).
    destruct (negb _); [split; [reflexivity|exact Hu]|].
    destruct (fd_name (f_d f)); [|split; [reflexivity|exact Hu]].
    destruct (parse_field FO (f_d f) lit (firstn n inp)); split; try reflexivity; exact Hu.
  - unfold fs. rewrite pread_item_loop. fold fs.
    destruct (eval_shape FO (G FO fs (fst p)) fs k sh) as [n|e]; [|apply keeps_refl].
    apply each_keeps. intros i _ w. apply each_keeps. intros it Hit w'. rewrite Forall_forall in IH. now apply IH.
Qed.

Theorem C70_anyway lit s inp s' rest r : pread FO fs lit s inp = ((s', rest), r) ->
  st_loc FO s' = st_loc FO s /\ exists used, inp = used ++ rest.
Proof.
  intro E. assert (H := each_keeps (pread_item FO fs lit []) (fs_items fs) (fun it _ => pread_item_keeps lit it []) (s, inp)).
  fold (pread FO fs lit s inp) in H. rewrite E in H. destruct H as (A & B). cbn [fst snd] in *. split; [now symmetry|exact B].
Qed.

(** A delayed read that fails raises once; later accesses show the structure as the failed read left
    it. *)
Theorem C70_once lit s inp s' rest e nm k : pread FO fs lit s inp = ((s', rest), Err e) ->
  exists d, pget FO fs {| p_st := s; p_due := Some (lit, inp) |} nm k = (d, Err e)
    /\ forall nm' k', pget FO fs d nm' k' = (d, get FO fs s' nm' k').
Proof.
  intro E. unfold pget at 1. cbn [p_due p_st]. rewrite E. eexists. split; [reflexivity|]. reflexivity.
Qed.

End Left.

(** Cut inside the second round of the loop: what came before is there. *)

Definition ex_cut := pread DecF ex_fs false (init_state DecF) (firstn 26 ex_bytes).
Example C70_case :
  snd ex_cut = Err ERuntime /\ snd (fst ex_cut) = []
  /\ map (fun q => see (get DecF ex_fs (fst (fst ex_cut)) (fst q) (snd q)))
       [("id"%string, []); ("n"%string, []); ("a"%string, [0%Z]); ("b"%string, [0%Z; 0%Z]); ("a"%string, [1%Z]); ("m"%string, [1%Z]); ("b"%string, [1%Z; 0%Z]); ("has"%string, [])]
     = [SeeStr (str "abc"); SeeInt 2; SeeInt 12; SeeDec true 31416 (-4); SeeInt (-1); SeeInt 2; SeeDec false 0 0; SeeInt 0].
Proof. split; [|split]; vm_compute; reflexivity. Qed.
Definition ex_bad := pread DecF ex_fs false (init_state DecF) (str "abc   02012" ++ str "x-3.1416--").
Example C70_bad_case :
  snd ex_bad = Err ERuntime /\ snd (fst ex_bad) = str "-3.1416--"
  /\ map (fun q => see (get DecF ex_fs (fst (fst ex_bad)) (fst q) (snd q)))
       [("id"%string, []); ("n"%string, []); ("a"%string, [0%Z]); ("m"%string, [0%Z]); ("a"%string, [1%Z])]
     = [SeeStr (str "abc"); SeeInt 2; SeeInt 12; SeeInt 0; SeeInt 0]
  /\ st_raw DecF (fst (fst ex_bad)) (f_id (ex_f "m")) [0%Z] = Some (str "x").
Proof. split; [|split; [|split]]; vm_compute; reflexivity. Qed.

Lemma as_triple {A B C} (x : (A * B) * C) c : snd x = c -> x = ((fst (fst x), snd (fst x)), c).
Proof. destruct x as [[u v] w]. cbn. now intros ->. Qed.
Lemma ex_cut_eq : exists s' rest, pread DecF (mk_fs ex_rows) false (init_state DecF) (firstn 26 ex_bytes) = ((s', rest), Err ERuntime)
  /\ see (get DecF (mk_fs ex_rows) s' "n" []) = SeeInt 2 /\ see (get DecF (mk_fs ex_rows) s' "has" []) = SeeInt 0.
Proof.
  do 2 eexists. split; [apply as_triple; vm_compute; reflexivity|]. split; vm_compute; reflexivity.
Qed.

(** A failed read does not leave the structure as it was. *)
Theorem C70_unchanged_refuted : exists rows s inp s' rest e, pread DecF (mk_fs rows) false s inp = ((s', rest), Err e)
  /\ see (get DecF (mk_fs rows) s "n" []) = SeeInt 0 /\ see (get DecF (mk_fs rows) s' "n" []) = SeeInt 2.
Proof.
  destruct ex_cut_eq as (s' & rest & E & H & _). exists ex_rows, (init_state DecF), (firstn 26 ex_bytes), s', rest, ERuntime.
  split; [exact E|]. split; [vm_compute; reflexivity|exact H].
Qed.

(** After a failed delayed read an access shows a value that is not in the file. *)
Theorem C70_silent_refuted : exists rows inp d,
  read DecF (mk_fs rows) false (init_state DecF) (firstn 26 inp) = Err ERuntime
  /\ pget DecF (mk_fs rows) {| p_st := init_state DecF; p_due := Some (false, firstn 26 inp) |} "has" [] = (d, Err ERuntime)
  /\ see (snd (pget DecF (mk_fs rows) d "has" [])) = SeeInt 0
  /\ exists s rest, read DecF (mk_fs rows) false (init_state DecF) inp = Ok (s, rest) /\ see (get DecF (mk_fs rows) s "has" []) = SeeInt 1.
Proof.
  destruct ex_cut_eq as (s' & rest' & E' & _ & Hh).
  destruct (C70_once DecF ex_rows false _ _ _ _ _ "has"%string [] E') as (d & H1 & H2).
  exists ex_rows, ex_bytes, d. split; [|split; [exact H1|split]].
  - apply (proj2 (C70_agrees DecF ex_rows false (init_state DecF) (firstn 26 ex_bytes))). eexists. exact E'.
  - rewrite H2. exact Hh.
  - exists ex_read, []. split; [|vm_compute; reflexivity].
    unfold ex_read. change (mk_fs ex_rows) with ex_fs.
    assert (R : match read DecF ex_fs false (init_state DecF) ex_bytes with Ok (_, r) => Some r | Err _ => None end = Some []) by (vm_compute; reflexivity).
    destruct (read DecF ex_fs false (init_state DecF) ex_bytes) as [[a b]|e]; [|discriminate R]. injection R as ->. reflexivity.
Qed.

Print Assumptions C70_truncated.
Print Assumptions C70_unconvertible.
Print Assumptions C70_agrees.
Print Assumptions C70_anyway.
Print Assumptions C70_once.
Print Assumptions C70_unchanged_refuted.
Print Assumptions C70_silent_refuted.
