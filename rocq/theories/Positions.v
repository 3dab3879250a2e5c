(** The positions (field object, index) visited by a structure, as a flat list, and facts about
    the order and uniqueness of positions and indices. *)
From Verif Require Import Base BaseLemmas Engine Wf EngineLemmas Codec RoundTrip Rewrite Literal.
From Coq Require Import ZifyBool ZifyNat ZifyN Sorted.
Open Scope list_scope.

(** ** Small list facts *)

Lemma concat_map_res_app {A B} (h : A -> res (list B)) l1 l2 r :
  concat_map_res h (l1 ++ l2) = Ok r <->
  exists r1 r2, concat_map_res h l1 = Ok r1 /\ concat_map_res h l2 = Ok r2 /\ r = r1 ++ r2.
Proof.
  revert r. induction l1 as [|a l1 IH]; intro r; cbn [concat_map_res app].
  - split.
    + intro H. exists [], r. auto.
    + intros (r1 & r2 & H1 & H2 & ->). injection H1 as <-. exact H2.
  - split.
    + intro H. apply bind_ok_elim in H as (x & Hx & H). apply bind_ok_elim in H as (y & Hy & H).
      injection H as <-. apply IH in Hy as (r1 & r2 & H1 & H2 & ->).
      exists (x ++ r1), r2. rewrite Hx, H1. cbn [bind]. rewrite app_assoc. auto.
    + intros (r1 & r2 & H1 & H2 & ->). apply bind_ok_elim in H1 as (x & Hx & H1).
      apply bind_ok_elim in H1 as (y & Hy & H1). injection H1 as <-. rewrite Hx. cbn [bind].
      assert (E : concat_map_res h (l1 ++ l2) = Ok (y ++ r2)) by (apply IH; eauto).
      rewrite E. cbn [bind]. now rewrite app_assoc.
Qed.

Lemma concat_map_res_cons_iff {A B} (h : A -> res (list B)) a l r :
  concat_map_res h (a :: l) = Ok r <->
  exists x y, h a = Ok x /\ concat_map_res h l = Ok y /\ r = x ++ y.
Proof.
  split.
  - apply concat_map_res_ok_cons.
  - intros (x & y & Hx & Hy & ->). cbn [concat_map_res]. now rewrite Hx, Hy.
Qed.

(** [concat_map_res] with a body that itself enumerates positions and processes them. *)
Lemma concat_map_res_bind {A B C} (h : A -> res (list B)) (w : B -> res (list C))
    (hw : A -> res (list C)) l r :
  (forall a, In a l -> forall x, hw a = Ok x <-> exists y, h a = Ok y /\ concat_map_res w y = Ok x) ->
  (concat_map_res hw l = Ok r <-> exists y, concat_map_res h l = Ok y /\ concat_map_res w y = Ok r).
Proof.
  revert r. induction l as [|a l IH]; intros r H.
  - cbn. split; [intro E; exists []; auto|]. intros (y & E & E'). now injection E as <-.
  - rewrite concat_map_res_cons_iff. split.
    + intros (x & z & Hx & Hz & ->). apply H in Hx as (y1 & A1 & A2); [|now left].
      apply IH in Hz as (y2 & B1 & B2); [|intros; apply H; now right].
      exists (y1 ++ y2). split; [apply concat_map_res_cons_iff; eauto 10|].
      apply concat_map_res_app. eauto 10.
    + intros (y & Hy & Hw). apply concat_map_res_cons_iff in Hy as (y1 & y2 & A1 & B1 & ->).
      apply concat_map_res_app in Hw as (r1 & r2 & A2 & B2 & ->).
      exists r1, r2. repeat split.
      * apply H; [now left|]. eauto.
      * apply IH; [intros; apply H; now right|]. eauto.
Qed.

Section Positions.
Variable FO : FloatOps.
Variable fs : fstruct.
Variable s : state FO.

Local Notation positions_item := (Literal.positions_item FO fs s).
Local Notation positions_items := (Literal.positions_items FO fs s).
Local Notation positions := (Literal.positions FO fs s).

(** Writing is writing the present positions one after the other. *)
Lemma write_item_positions it : forall lead cs,
  write_item FO fs s lead it = Ok cs <->
  exists ps, positions_item lead it = Ok ps
    /\ concat_map_res (fun p => write_field FO fs s (fst p) (snd p)) ps = Ok cs.
Proof.
  induction it as [f|sh its IH] using item_ind'; intros lead cs.
  - cbn [write_item positions_item]. split.
    + intro H. exists [(f, lead)]. split; auto. apply concat_map_res_cons_iff.
      exists cs, []. cbn. rewrite app_nil_r. auto.
    + intros (ps & E & H). injection E as <-. apply concat_map_res_cons_iff in H as (x & y & Hx & Hy & ->).
      injection Hy as <-. cbn in Hx. now rewrite app_nil_r.
  - rewrite write_item_loop, positions_item_loop.
    destruct (eval_shape FO (G FO fs s) fs lead sh) as [n|e]; cbn [bind];
      [|split; [discriminate|intros (ps & E & _); discriminate]].
    apply concat_map_res_bind. intros i _ x. unfold write_items, positions_items.
    apply concat_map_res_bind. intros it Hit y. rewrite Forall_forall in IH. now apply IH.
Qed.

Lemma write_chunks_positions cs :
  write_chunks FO fs s = Ok cs <->
  exists ps, positions = Ok ps
    /\ concat_map_res (fun p => write_field FO fs s (fst p) (snd p)) ps = Ok cs.
Proof.
  unfold write_chunks, positions, write_items, positions_items.
  apply concat_map_res_bind. intros it _ x. apply write_item_positions.
Qed.

(** Every position belongs to a field of the item and extends the leading index. *)
Lemma positions_item_in it : forall lead ps y p,
  positions_item lead it = Ok ps -> In (y, p) ps -> In y (item_fields it) /\ pre lead p.
Proof.
  induction it as [f|sh its IH] using item_ind'; intros lead ps y p H Hin.
  - injection H as <-. destruct Hin as [E|[]]. injection E as <- <-. split; [now left|].
    exists []. now rewrite app_nil_r.
  - rewrite positions_item_loop in H. apply bind_ok_elim in H as (n & _ & H).
    destruct (concat_map_res_in _ _ _ _ H Hin) as (i & ra & _ & Hra & Hin1).
    unfold positions_items in Hra. destruct (concat_map_res_in _ _ _ _ Hra Hin1) as (it & rb & Hit & Hrb & Hin2).
    rewrite Forall_forall in IH. destruct (IH it Hit _ _ _ _ Hrb Hin2) as (A & B). split.
    + cbn [item_fields]. apply in_flat_map. eauto.
    + eapply pre_ext; eauto.
Qed.

Lemma NoDup_app_intro {A} (a b : list A) :
  NoDup a -> NoDup b -> (forall x, In x a -> ~ In x b) -> NoDup (a ++ b).
Proof.
  induction a as [|x a IH]; cbn; intros H1 H2 H3; auto. inversion H1; subst. constructor.
  - intro H. apply in_app_or in H as [H|H]; auto. eapply H3; eauto.
  - apply IH; auto.
Qed.

Lemma concat_map_res_nodup {A B} (h : A -> res (list B)) l r :
  NoDup l -> concat_map_res h l = Ok r ->
  (forall a x, In a l -> h a = Ok x -> NoDup x) ->
  (forall a b x y z, In a l -> In b l -> h a = Ok x -> h b = Ok y -> In z x -> In z y -> a = b) ->
  NoDup r.
Proof.
  revert r. induction l as [|a l IH]; intros r Hl H H1 H2.
  - injection H as <-. constructor.
  - apply concat_map_res_ok_cons in H as (x & y & Hx & Hy & ->). inversion Hl as [|? ? Hn Hd]; subst.
    apply NoDup_app_intro.
    + eapply H1; eauto. now left.
    + eapply IH; eauto; intros; [eapply H1; eauto; now right|].
      eapply H2; eauto; now right.
    + intros z Hz Hz'. destruct (concat_map_res_in _ _ _ _ Hy Hz') as (b & rb & Hb & Hrb & Hzb).
      assert (a = b) by (eapply H2 with (z := z); eauto; [now left|now right]). subst. auto.
Qed.

Lemma concat_map_res_nodup_items lead its ps :
  NoDup (flat_map item_fields its) ->
  (forall it, In it its -> forall lead ps, NoDup (item_fields it) ->
     positions_item lead it = Ok ps -> NoDup ps) ->
  positions_items lead its = Ok ps -> NoDup ps.
Proof.
  revert ps. induction its as [|it its IH]; intros ps Hnd Hit H.
  - injection H as <-. constructor.
  - unfold positions_items in H. apply concat_map_res_ok_cons in H as (x & y & Hx & Hy & ->).
    cbn [flat_map] in Hnd. apply NoDup_app_inv in Hnd as (H1 & H2 & H3).
    apply NoDup_app_intro.
    + eapply Hit; eauto. now left.
    + eapply IH; eauto. intros; eapply Hit; eauto. now right.
    + intros [f p] Hz Hz'.
      destruct (positions_item_in _ _ _ _ _ Hx Hz) as (A & _).
      destruct (concat_map_res_in _ _ _ _ Hy Hz') as (it' & rb & Hi & Hrb & Hzb).
      destruct (positions_item_in _ _ _ _ _ Hrb Hzb) as (B & _).
      eapply H3; eauto. apply in_flat_map. eauto.
Qed.

Lemma positions_item_nodup it : forall lead ps, NoDup (item_fields it) ->
  positions_item lead it = Ok ps -> NoDup ps.
Proof.
  induction it as [f|sh its IH] using item_ind'; intros lead ps Hnd H.
  - injection H as <-. constructor; [intros []|constructor].
  - rewrite positions_item_loop in H. apply bind_ok_elim in H as (n & _ & H). cbn [item_fields] in Hnd.
    eapply concat_map_res_nodup; [apply NoDup_zrange|exact H| |].
    + intros i x _ Hx. rewrite Forall_forall in IH.
      exact (concat_map_res_nodup_items (lead ++ [i]) its x Hnd IH Hx).
    + intros i j x y [f p] _ _ Hx Hy Hz Hz'.
      unfold positions_items in *.
      destruct (concat_map_res_in _ _ _ _ Hx Hz) as (it & rb & Hi & Hrb & Hzb).
      destruct (concat_map_res_in _ _ _ _ Hy Hz') as (it' & rb' & Hi' & Hrb' & Hzb').
      destruct (positions_item_in _ _ _ _ _ Hrb Hzb) as (_ & P1).
      destruct (positions_item_in _ _ _ _ _ Hrb' Hzb') as (_ & P2).
      eapply pre_inj; eauto.
Qed.

(** The positions of one field object are its indices, in order. *)
Definition of_field (f : field) (ps : list pos) : list (list Z) :=
  map snd (filter (fun p => Nat.eqb (f_id (fst p)) (f_id f)) ps).

Lemma of_field_app f a b : of_field f (a ++ b) = of_field f a ++ of_field f b.
Proof. unfold of_field. now rewrite filter_app, map_app. Qed.

Lemma of_field_other f ps : (forall y p, In (y, p) ps -> f_id y <> f_id f) -> of_field f ps = [].
Proof.
  induction ps as [|[y p] ps IH]; intro H; auto. unfold of_field in *. cbn [filter].
  destruct (Nat.eqb (f_id (fst (y, p))) (f_id f)) eqn:E.
  - apply Nat.eqb_eq in E. exfalso. eapply (H y p); [now left|exact E].
  - apply IH. intros; apply H with p0; now right.
Qed.

Lemma positions_items_field its f (path : list expr) lead ps :
  NoDup (map f_id (flat_map item_fields its)) -> In f (flat_map item_fields its) ->
  (forall it, In it its -> In f (item_fields it) -> forall ps, positions_item lead it = Ok ps ->
     keys_from FO fs s lead (skipn (List.length path) (f_loops f)) = Ok (of_field f ps)) ->
  positions_items lead its = Ok ps ->
  keys_from FO fs s lead (skipn (List.length path) (f_loops f)) = Ok (of_field f ps).
Proof.
  revert ps. induction its as [|it its IH]; intros ps Hnd Hin Hit H; [destruct Hin|].
  unfold positions_items in H. apply concat_map_res_ok_cons in H as (x & y & Hx & Hy & ->).
  cbn [flat_map] in Hnd, Hin. rewrite map_app in Hnd. apply NoDup_app_inv in Hnd as (H1 & H2 & H3).
  rewrite of_field_app. apply in_app_or in Hin as [Hin|Hin].
  - rewrite (of_field_other f y), app_nil_r; [apply (Hit it); auto; now left|].
    intros z p Hz E. destruct (concat_map_res_in _ _ _ _ Hy Hz) as (it' & rb & Hi & Hrb & Hzb).
    destruct (positions_item_in _ _ _ _ _ Hrb Hzb) as (B & _).
    apply (H3 (f_id f)); [now apply in_map|]. rewrite <- E. apply in_map. apply in_flat_map. eauto.
  - rewrite (of_field_other f x).
    + cbn [app]. apply IH; auto. intros; eapply Hit; eauto. now right.
    + intros z p Hz E. destruct (positions_item_in _ _ _ _ _ Hx Hz) as (B & _).
      apply (H3 (f_id z)); [now apply in_map|]. rewrite E. now apply in_map.
Qed.

Lemma positions_item_field it : forall path lead ps f, placed path it ->
  NoDup (map f_id (item_fields it)) -> In f (item_fields it) ->
  positions_item lead it = Ok ps ->
  keys_from FO fs s lead (skipn (List.length path) (f_loops f)) = Ok (of_field f ps).
Proof.
  induction it as [f0|sh its IH] using item_ind'; intros path lead ps f Hpl Hnd Hin H.
  - injection H as <-. destruct Hin as [->|[]]. cbn [placed] in Hpl. rewrite Hpl, skipn_all.
    unfold of_field. cbn [filter fst]. now rewrite Nat.eqb_refl.
  - destruct (placed_loops path (ILoop sh its) f Hpl Hin) as (r0 & E0).
    apply placed_loop in Hpl. cbn [item_fields] in Hin, Hnd.
    assert (exists r, f_loops f = (path ++ [sh]) ++ r) as (r & E).
    { apply in_flat_map in Hin as (it & Hit & Hin).
      rewrite Forall_forall in Hpl. eapply placed_loops; eauto. }
    assert (E1 : skipn (List.length path) (f_loops f) = sh :: r).
    { rewrite E, <- app_assoc, skipn_app, skipn_all, Nat.sub_diag. reflexivity. }
    assert (E2 : skipn (List.length (path ++ [sh])) (f_loops f) = r).
    { rewrite E, skipn_app, skipn_all, Nat.sub_diag. reflexivity. }
    rewrite E1. cbn [keys_from]. rewrite positions_item_loop in H.
    apply bind_ok_elim in H as (n & Hn & H). rewrite Hn. cbn [bind].
    revert ps H. induction (zrange n) as [|i idx IHx]; intros ps H.
    + injection H as <-. reflexivity.
    + apply concat_map_res_ok_cons in H as (x & y & Hx & Hy & ->).
      rewrite of_field_app. cbn [concat_map_res]. rewrite (IHx _ Hy).
      rewrite <- E2. rewrite (positions_items_field its f (path ++ [sh]) (lead ++ [i]) x); auto.
      intros it Hit Hfi ps' Hps. rewrite Forall_forall in IH, Hpl.
      eapply IH; eauto. 
      assert (Hsub : forall l, In it l -> NoDup (map f_id (flat_map item_fields l)) ->
                               NoDup (map f_id (item_fields it))).
      { induction l as [|z l IHl]; cbn [flat_map In]; [tauto|]. rewrite map_app.
        intros Hz Hd. apply NoDup_app_inv in Hd as (D1 & D2 & _). destruct Hz as [->|Hz]; auto. }
      eapply Hsub; eauto.
Qed.

End Positions.

(** For a constructed structure. *)
Lemma positions_nodup FO rows s ps : positions FO (mk_fs rows) s = Ok ps -> NoDup ps.
Proof.
  intro H. eapply (concat_map_res_nodup_items FO (mk_fs rows) s [] (fs_items (mk_fs rows))); [| |exact H].
  - apply (NoDup_map_inv f_id). exact (mk_fs_nodup rows).
  - intros it _ lead q Hd Hq. eapply positions_item_nodup; eauto.
Qed.

Lemma positions_keys FO rows s ps f : positions FO (mk_fs rows) s = Ok ps ->
  In f (fs_fields (mk_fs rows)) -> field_keys FO (mk_fs rows) s f = Ok (of_field f ps).
Proof.
  intros H Hin. unfold field_keys.
  assert (HP := mk_fs_placed rows). assert (HN := mk_fs_nodup rows).
  apply (positions_items_field FO (mk_fs rows) s (fs_items (mk_fs rows)) f [] [] ps); auto.
  intros it Hit Hfi ps' Hps. rewrite Forall_forall in HP.
  apply (positions_item_field FO (mk_fs rows) s it [] [] ps' f); auto.
  assert (Hsub : forall l, In it l -> NoDup (map f_id (flat_map item_fields l)) ->
                               NoDup (map f_id (item_fields it))).
  { induction l as [|z l IHl]; cbn [flat_map In]; [tauto|]. rewrite map_app.
    intros Hz Hd. apply NoDup_app_inv in Hd as (D1 & D2 & _). destruct Hz as [->|Hz]; auto. }
  eapply Hsub; eauto.
Qed.

Lemma positions_in_fields FO rows s ps y p : positions FO (mk_fs rows) s = Ok ps -> In (y, p) ps ->
  In y (fs_fields (mk_fs rows)).
Proof.
  intros H Hin. destruct (concat_map_res_in _ _ _ _ H Hin) as (it & rb & Hi & Hrb & Hzb).
  destruct (positions_item_in _ _ _ _ _ _ _ _ Hrb Hzb) as (B & _).
  unfold mk_fs. cbn [fs_fields]. apply in_flat_map. exists it. split; auto.
Qed.

Lemma in_positions FO rows s ps f ks k : positions FO (mk_fs rows) s = Ok ps ->
  In f (fs_fields (mk_fs rows)) -> field_keys FO (mk_fs rows) s f = Ok ks -> In k ks -> In (f, k) ps.
Proof.
  intros H Hin Hk Hi. rewrite (positions_keys _ _ _ _ _ H Hin) in Hk. injection Hk as <-.
  unfold of_field in Hi. apply in_map_iff in Hi as ([y q] & E & Hi). cbn in E. subst q.
  apply filter_In in Hi as [Hi E]. apply Nat.eqb_eq in E. cbn in E.
  assert (y = f) by (apply (mk_fs_id_inj rows); auto; eapply positions_in_fields; eauto). now subst.
Qed.

(** ** C02: blocks of declared size in table order *)

(** [b] is the block of position [p]: nothing when its condition is false, else the formatted
    value, exactly as long as the declared size. *)
Definition block FO fs (s : state FO) (p : pos) (b : list N) : Prop :=
  (check_condition FO (G FO fs s) fs (fst p) (snd p) = Ok false /\ b = [])
  \/ (check_condition FO (G FO fs s) fs (fst p) (snd p) = Ok true
      /\ fsize_of FO (G FO fs s) fs (fst p) (snd p) = Ok (Z.of_nat (List.length b))
      /\ field_bytes FO (G FO fs s) fs s (fst p) (snd p) = Ok b).

Lemma write_field_block FO fs s p cs : write_field FO fs s (fst p) (snd p) = Ok cs ->
  block FO fs s p (chunks_bytes cs).
Proof.
  unfold write_field. intro H. apply bind_ok_elim in H as (c & Hc & H). destruct c; cbn [negb] in H.
  - apply bind_ok_elim in H as (b & Hb & H). injection H as <-. right.
    cbn [chunks_bytes flat_map ch_bytes]. rewrite app_nil_r.
    destruct (field_bytes_fsize _ _ _ _ _ _ _ Hb) as (sz & Hsz).
    assert (HL := field_bytes_len _ _ _ _ _ _ _ _ Hsz Hb). now rewrite HL.
  - injection H as <-. left. auto.
Qed.

Theorem write_blocks FO fs s b : write FO fs s = Ok b ->
  exists ps bs, positions FO fs s = Ok ps /\ Forall2 (block FO fs s) ps bs /\ b = List.concat bs.
Proof.
  unfold write. intro H. apply bind_ok_elim in H as (cs & H & E). injection E as <-.
  apply write_chunks_positions in H as (ps & Hp & H).
  assert (Hgen : forall ps cs,
    concat_map_res (fun p => write_field FO fs s (fst p) (snd p)) ps = Ok cs ->
    exists bs, Forall2 (block FO fs s) ps bs /\ chunks_bytes cs = List.concat bs).
  { clear. induction ps as [|p ps IH]; intros cs H.
    - injection H as <-. exists []. split; [constructor|reflexivity].
    - apply concat_map_res_ok_cons in H as (x & y & Hx & Hy & ->).
      destruct (IH _ Hy) as (bs & A & B). exists (chunks_bytes x :: bs). split.
      + constructor; auto. now apply write_field_block.
      + rewrite chunks_bytes_app, B. reflexivity. }
  destruct (Hgen ps cs H) as (bs & A & B). exists ps, bs. auto.
Qed.

(** Conversely, blocks that exist are written. *)
Theorem blocks_write FO fs s ps bs : positions FO fs s = Ok ps -> Forall2 (block FO fs s) ps bs ->
  write FO fs s = Ok (List.concat bs).
Proof.
  intros Hp HF. unfold write.
  assert (Hgen : exists cs, concat_map_res (fun p => write_field FO fs s (fst p) (snd p)) ps = Ok cs
                            /\ chunks_bytes cs = List.concat bs).
  { clear Hp. induction HF as [|p b ps bs Hb HF IH].
    - exists []. split; reflexivity.
    - destruct IH as (cs & A & B).
      assert (exists x, write_field FO fs s (fst p) (snd p) = Ok x /\ chunks_bytes x = b) as (x & Hx & Ex).
      { unfold write_field. destruct Hb as [[H1 ->]|(H1 & H2 & H3)]; rewrite H1; cbn [bind negb].
        - exists []. auto.
        - rewrite H3. cbn [bind]. eexists. split; [reflexivity|].
          cbn [chunks_bytes flat_map ch_bytes]. apply app_nil_r. }
      exists (x ++ cs). cbn [concat_map_res]. rewrite Hx, A. cbn [bind List.concat].
      now rewrite chunks_bytes_app, Ex, B. }
  destruct Hgen as (cs & A & B).
  assert (W : write_chunks FO fs s = Ok cs) by (apply write_chunks_positions; eauto).
  rewrite W. cbn [bind]. now rewrite B.
Qed.
