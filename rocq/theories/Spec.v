(** Vocabulary of the property statements: when a field is there, how long it is, which
    indices exist.  Written from the documentation of FieldStruct (nitf_field.py:682-786),
    not from the functions of the model, and related to them here. *)
From Verif Require Import Base BaseLemmas Engine Wf EngineLemmas Codec RoundTrip Rewrite Literal
  Positions Keys Deps Assign Update.
From Coq Require Import ZifyBool ZifyNat ZifyN Sorted.
Open Scope list_scope.

Section Spec.
Variable FO : FloatOps.
Variable fs : fstruct.
Notation state := (state FO).

(** The condition of field [f] at index [k] evaluates to something that counts as [b]. *)
Definition cond_is (s : state) (f : field) (k : list Z) (b : bool) : Prop :=
  match fd_cond (f_d f) with
  | None => b = true
  | Some e => exists v, eval FO (G FO fs s) fs k e = Ok v /\ truthy FO v = b
  end.

(** Declared size: the number or expression of the table, less the offset unless it is 0. *)
Definition size_is (s : state) (f : field) (k : list Z) (n : Z) : Prop :=
  exists raw,
    match fd_size (f_d f) with
    | SzInt z => raw = z
    | SzExpr e => exists v, eval FO (G FO fs s) fs k e = Ok v /\ as_Z FO v = Ok raw
    end
    /\ (raw = 0%Z /\ n = 0%Z \/ raw <> 0%Z /\ n = (raw - fd_size_offset (f_d f))%Z).

(** The count of a loop whose enclosing indices are [lead]. *)
Definition count_is (s : state) (lead : list Z) (e : expr) (n : Z) : Prop :=
  (eval FO (G FO fs s) fs lead e = Ok VNone /\ n = 0%Z)
  \/ exists v, eval FO (G FO fs s) fs lead e = Ok v /\ as_Z FO v = Ok n.

(** [k] is an index of field [f]: one component per loop, each within its count. *)
Definition valid_index (s : state) (f : field) (k : list Z) : Prop :=
  List.length k = List.length (f_loops f) /\
  forall j, (j < List.length (f_loops f))%nat ->
    exists n, count_is s (firstn j k) (nth j (f_loops f) (EInt 0)) n /\ (0 <= nth j k 0 < n)%Z.

Lemma cond_is_check s f k b : cond_is s f k b <-> check_condition FO (G FO fs s) fs f k = Ok b.
Proof.
  unfold cond_is, check_condition. destruct (fd_cond (f_d f)) as [e|].
  - split.
    + intros (v & -> & <-). reflexivity.
    + intro H. apply bind_ok_elim in H as (v & H & E). injection E as <-. eauto.
  - split; congruence.
Qed.

Lemma size_is_fsize s f k n : size_is s f k n <-> fsize_of FO (G FO fs s) fs f k = Ok n.
Proof.
  unfold size_is, fsize_of. destruct (fd_size (f_d f)) as [z|e]; cbn [bind].
  - split.
    + intros (raw & -> & [[-> ->]|[H ->]]); [reflexivity|]. now replace (z =? 0)%Z with false by lia.
    + intro H. injection H as <-. exists z. split; auto. destruct (z =? 0)%Z eqn:E; [left|right]; lia.
  - split.
    + intros (raw & (v & -> & E) & H). cbn [bind]. rewrite E. cbn [bind].
      destruct H as [[-> ->]|[H ->]]; [reflexivity|]. now replace (raw =? 0)%Z with false by lia.
    + intro H. apply bind_ok_elim in H as (raw & H & E). apply bind_ok_elim in H as (v & Hv & Hr).
      injection E as <-. exists raw. split; eauto. destruct (raw =? 0)%Z eqn:E; [left|right]; lia.
Qed.

Lemma count_is_shape s lead e n : count_is s lead e n <-> eval_shape FO (G FO fs s) fs lead e = Ok n.
Proof.
  unfold count_is, eval_shape. destruct (eval FO (G FO fs s) fs lead e) as [v|x]; cbn [bind].
  - split.
    + intros [[E ->]|(w & E & H)]; injection E as ->; [reflexivity|]. destruct w; auto. discriminate.
    + intro H. destruct v; eauto. left. split; congruence.
  - split; [|discriminate]. intros [[E _]|(w & E & _)]; discriminate.
Qed.

Lemma valid_index_shape s f k : valid_index s f k <-> in_shape FO fs s (f_loops f) k.
Proof.
  unfold valid_index, in_shape. split; intros (H1 & H2); split; auto; intros j Hj;
    destruct (H2 j Hj) as (n & A & B); exists n; split; auto; now apply count_is_shape.
Qed.

Lemma valid_key s f ks k : field_keys FO fs s f = Ok ks -> (In k ks <-> valid_index s f k).
Proof. intro H. rewrite valid_index_shape. now apply field_keys_in. Qed.

Lemma valid_check s f k : valid_index s f k -> check_index FO (G FO fs s) fs f k = Ok tt.
Proof. rewrite valid_index_shape. apply in_shape_check. Qed.

(** What stops an assignment of [v] to field [f] at index [k] (nitf_field.py:282-301). *)
Definition last_in_range (s : state) (f : field) (k : list Z) : Prop :=
  f_loops f = [] \/ (List.length k = List.length (f_loops f) /\
    exists n, count_is s (removelast k) (last (f_loops f) (EInt 0)) n /\ (0 <= last k 0 < n)%Z).
Definition assignable (s : state) (f : field) (k : list Z) (v : sval FO) : Prop :=
  fd_name (f_d f) <> None /\ last_in_range s f k /\ cond_is s f k true
  /\ fd_hard (f_d f) = false /\ fd_value (f_d f) = None /\ st_impl FO s = false
  /\ (v = SVal VNone -> fd_optional (f_d f) = true).

Lemma last_in_range_check s f k : last_in_range s f k <-> check_index FO (G FO fs s) fs f k = Ok tt.
Proof.
  rewrite check_index_spec. unfold last_in_range, depth. split; (intros [H|(H1 & n & H2 & H3)]; [now left|right]);
    (split; [exact H1|exists n; split; [now apply count_is_shape|exact H3]]).
Qed.

Lemma assignable_may s f k v : assignable s f k v <-> may_assign FO fs s f k v.
Proof. unfold assignable, may_assign. rewrite last_in_range_check, cond_is_check. tauto. Qed.

(** [s'] is [s] with the value [v] stored in field [f] at [k] and nothing else changed
    (the bytes read for that slot are forgotten). *)
Definition only_changed (s s' : state) (f : field) (k : list Z) (v : sval FO) : Prop :=
  st_val FO s' (f_id f) k = Some v /\ st_raw FO s' (f_id f) k = None
  /\ (forall i p, (i <> f_id f \/ p <> k) ->
        st_val FO s' i p = st_val FO s i p /\ st_raw FO s' i p = st_raw FO s i p)
  /\ st_loc FO s' = st_loc FO s /\ st_impl FO s' = st_impl FO s.

Lemma only_changed_assigned s f k v : only_changed s (assigned FO s f k v) f k v.
Proof.
  unfold only_changed, assigned. cbn [set_raw set_val st_val st_raw st_loc st_impl].
  split; [apply upd_eq|]. split; [apply upd_eq|]. split; [|split; reflexivity].
  intros i p H. rewrite !upd_neq; auto; destruct H; auto.
Qed.

(** One block per position: empty when the field is not there, else of the declared size. *)
Definition block_is (s : state) (p : field * list Z) (b : list N) : Prop :=
  (cond_is s (fst p) (snd p) false /\ b = [])
  \/ (cond_is s (fst p) (snd p) true /\ size_is s (fst p) (snd p) (Z.of_nat (List.length b))).

(** [ps] lists the positions of a table in order, loops unrolled. *)
Inductive unrolled (s : state) : list Z -> item -> list (field * list Z) -> Prop :=
| un_field lead f : unrolled s lead (IField f) [(f, lead)]
| un_loop lead sh its n pss :
    count_is s lead sh n ->
    Forall2 (unrolled_all s its) (map (fun i => lead ++ [i]) (zrange n)) pss ->
    unrolled s lead (ILoop sh its) (List.concat pss)
with unrolled_all (s : state) : list item -> list Z -> list (field * list Z) -> Prop :=
| un_nil lead : unrolled_all s [] lead []
| un_cons lead it its a b : unrolled s lead it a -> unrolled_all s its lead b ->
    unrolled_all s (it :: its) lead (a ++ b).

Lemma concat_map_res_forall2 {A B} (f : A -> res (list B)) l r : concat_map_res f l = Ok r ->
  exists rs, Forall2 (fun a x => f a = Ok x) l rs /\ r = List.concat rs.
Proof.
  revert r. induction l as [|a l IH]; intros r H.
  - injection H as <-. exists []. split; constructor.
  - apply concat_map_res_ok_cons in H as (x & y & Hx & Hy & ->). destruct (IH _ Hy) as (rs & A1 & ->).
    exists (x :: rs). split; [constructor; auto|reflexivity].
Qed.

Lemma positions_unrolled s : forall it lead ps, positions_item FO fs s lead it = Ok ps -> unrolled s lead it ps.
Proof.
  fix IH 1. intros [f|sh its] lead ps H.
  - injection H as <-. constructor.
  - cbn [positions_item] in H. apply bind_ok_elim in H as (n & Hn & H).
    apply concat_map_res_forall2 in H as (rs & HF & ->). econstructor; [apply count_is_shape; exact Hn|].
    clear Hn. revert HF. generalize (zrange n). intros l HF. induction HF as [|i x l rs Hx HF IHF]; [constructor|].
    cbn [map]. constructor; [|exact IHF]. clear -IH Hx. revert x Hx.
    induction its as [|it its IHi]; intros x Hx; [injection Hx as <-; constructor|].
    apply bind_ok_elim in Hx as (a & Ha & Hx). apply bind_ok_elim in Hx as (b & Hb & Hx). injection Hx as <-.
    constructor; [apply IH; exact Ha|apply IHi; exact Hb].
Qed.

Lemma positions_unrolled_all s ps : positions FO fs s = Ok ps -> unrolled_all s (fs_items fs) [] ps.
Proof.
  unfold positions, positions_items. revert ps. induction (fs_items fs) as [|it its IH]; intros ps H.
  - injection H as <-. constructor.
  - apply concat_map_res_ok_cons in H as (x & y & Hx & Hy & ->).
    constructor; [now apply positions_unrolled|now apply IH].
Qed.

(** In the bytes [out] of the structure [s], the block of field [f] at index [k] is [b]: [out]
    is the blocks before it, [b], and the blocks after it. *)
Definition block_at (s : state) (out : list N) (f : field) (k : list Z) (b : list N) : Prop :=
  exists p1 p2 b1 b2, unrolled_all s (fs_items fs) [] (p1 ++ (f, k) :: p2)
    /\ Forall2 (block_is s) p1 b1 /\ Forall2 (block_is s) p2 b2
    /\ out = List.concat b1 ++ b ++ List.concat b2.

Lemma block_block_is s p b : block FO fs s p b -> block_is s p b.
Proof.
  intros [[H1 H2]|(H1 & H2 & _)]; [left|right]; (split; [now apply cond_is_check|]); auto.
  now apply size_is_fsize.
Qed.

End Spec.

Lemma Forall2_split {A B} (R : A -> B -> Prop) l1 a l2 r : Forall2 R (l1 ++ a :: l2) r ->
  exists r1 b r2, r = r1 ++ b :: r2 /\ Forall2 R l1 r1 /\ R a b /\ Forall2 R l2 r2.
Proof.
  intro H. apply Forall2_app_inv_l in H as (r1 & r2 & H1 & H2 & ->).
  inversion H2 as [|? b ? r2' Hb H3]; subst. eauto 8.
Qed.

Lemma Forall2_impl {A B} (R Q : A -> B -> Prop) l r : (forall a b, R a b -> Q a b) ->
  Forall2 R l r -> Forall2 Q l r.
Proof. intros H HF. induction HF; constructor; auto. Qed.

Section Blocks.
Variable FO : FloatOps.
Variable rows : list row.
Let fs := mk_fs rows.

Lemma valid_in_positions (s : state FO) ps f k : positions FO fs s = Ok ps -> In f (fs_fields fs) ->
  valid_index FO fs s f k -> In (f, k) ps.
Proof.
  intros HP Hf Hv. assert (HK := positions_keys FO rows s ps f HP Hf).
  apply (in_positions FO rows s ps f _ k HP Hf HK). now apply (valid_key FO fs s f _ k HK).
Qed.

(** What [write] puts at a valid index. *)
Lemma write_block_at (s : state FO) out f k : write FO fs s = Ok out -> In f (fs_fields fs) ->
  valid_index FO fs s f k ->
  exists b, block_at FO fs s out f k b /\ block FO fs s (f, k) b.
Proof.
  intros HW Hf Hv. apply write_blocks in HW as (ps & bs & HP & HF & ->).
  assert (Hin := valid_in_positions s ps f k HP Hf Hv). apply in_split in Hin as (p1 & p2 & ->).
  apply Forall2_split in HF as (b1 & b & b2 & -> & F1 & Fb & F2).
  exists b. split; [|exact Fb]. exists p1, p2, b1, b2. split; [now apply positions_unrolled_all|].
  split; [eapply Forall2_impl; [|exact F1]; apply block_block_is|].
  split; [eapply Forall2_impl; [|exact F2]; apply block_block_is|].
  now rewrite concat_app.
Qed.

(** A block read: present or not, of the declared size, and what was stored for it. *)
Definition read_block (lit : bool) (s : state FO) (p : field * list Z) (b : list N) : Prop :=
  block_is FO fs s p b /\
  (cond_is FO fs s (fst p) (snd p) true -> fd_name (f_d (fst p)) <> None ->
     parse_field FO (f_d (fst p)) lit b = Ok (stored FO s (fst p) (snd p))
     /\ st_raw FO s (f_id (fst p)) (snd p) = Some b).

Lemma blocks_at_read lit s ps cs : blocks_at FO rows s ps cs ->
  Forall (chunk_info FO rows lit s) cs ->
  exists bs, Forall2 (read_block lit s) ps bs /\ chunks_bytes cs = List.concat bs.
Proof.
  induction 1 as [|f k ps cs Hc _ IH|f k b ps cs Hc _ IH]; intro HI.
  - exists []. split; [constructor|reflexivity].
  - destruct (IH HI) as (bs & A & B). exists ([] :: bs). split; [|exact B]. constructor; auto.
    split; [left; split; [now apply cond_is_check|reflexivity]|].
    intro Ht. apply cond_is_check in Ht. cbn [fst snd] in Ht. fold fs in Hc. congruence.
  - inversion HI as [|? ? Hb HI']; subst. destruct (IH HI') as (bs & A & B).
    exists (b :: bs). split; [|cbn [chunks_bytes flat_map ch_bytes List.concat]; f_equal; exact B].
    constructor; auto. destruct Hb as (_ & H1 & H2 & H3 & _). cbn [ch_field ch_key ch_bytes] in *.
    split; [right; split; [now apply cond_is_check|now apply size_is_fsize]|].
    intros _ Hn. cbn [fst snd] in *. destruct (H3 Hn) as (sv & P1 & P2 & P3). now subst sv.
Qed.

Lemma read_blocks lit s inp s' rest : wf_rows rows = true ->
  read FO fs lit s inp = Ok (s', rest) ->
  exists ps bs, positions FO fs s' = Ok ps /\ Forall2 (read_block lit s') ps bs
    /\ inp = List.concat bs ++ rest.
Proof.
  intros Hwf HR. destruct (read_then_write FO rows lit s inp s' rest Hwf HR) as (cs & -> & HI & _ & ps & HP & HB).
  destruct (blocks_at_read lit s' ps cs HB HI) as (bs & A & ->). eauto.
Qed.

Lemma read_block_at lit s inp s' rest : wf_rows rows = true ->
  read FO fs lit s inp = Ok (s', rest) ->
  exists used, inp = used ++ rest /\
    forall f k, In f (fs_fields fs) -> valid_index FO fs s' f k ->
      exists b, block_at FO fs s' used f k b /\ read_block lit s' (f, k) b.
Proof.
  intros Hwf HR. destruct (read_blocks lit s inp s' rest Hwf HR) as (ps & bs & HP & HF & ->).
  exists (List.concat bs). split; [reflexivity|]. intros f k Hf Hv.
  assert (Hin := valid_in_positions s' ps f k HP Hf Hv). apply in_split in Hin as (p1 & p2 & ->).
  apply Forall2_split in HF as (b1 & b & b2 & -> & F1 & Fb & F2).
  exists b. split; [|exact Fb]. exists p1, p2, b1, b2. split; [now apply positions_unrolled_all|].
  split; [eapply Forall2_impl; [|exact F1]; intros ? ? H; exact (proj1 H)|].
  split; [eapply Forall2_impl; [|exact F2]; intros ? ? H; exact (proj1 H)|].
  now rewrite concat_app.
Qed.

End Blocks.

(** ** Frame: which values a field depends on *)

Section FrameSeq.
Variable FO : FloatOps.
Variable rows : list row.
Let fs := mk_fs rows.

(** States agreeing on everything [f] reads, directly or not, give [f] the same surroundings. *)
Lemma reads_only (s t : state FO) :
  forall n f, (forall y p, reaches fs f y -> stored FO s y p = stored FO t y p) ->
  refs_eq FO (getf FO n fs s) (getf FO n fs t) fs (field_refs f).
Proof.
  induction n as [|n IH]; intros f H r y Hr HL p; [reflexivity|].
  change (get_pub FO (getf FO n fs s) fs s y p = get_pub FO (getf FO n fs t) fs t y p).
  assert (Hrd : reads_directly fs f y) by (exists r; auto).
  apply get_pub_ext.
  - apply IH. intros z q Hz. apply H. eapply reach_more; eauto.
  - apply H. now apply reach_one.
Qed.

Lemma get_same_reads (s t : state FO) nm f k : lookup fs nm = Some f ->
  stored FO s f k = stored FO t f k ->
  (forall y p, reaches fs f y -> stored FO s y p = stored FO t y p) ->
  get FO fs s nm k = get FO fs t nm k.
Proof.
  intros HL H1 H2. unfold get. rewrite HL. destruct (key_shape_ok f k); auto. unfold fget.
  apply get_pub_ext; auto. now apply reads_only.
Qed.

(** A sequence of assignments, successful or not, none of which aims at the field or at
    anything it depends on, leaves its value alone. *)
Lemma assign_all_frame nm f k ops (s : state FO) : lookup fs nm = Some f ->
  (forall op, In op ops -> ~ aims_at FO rows f k op) ->
  (forall op y p, In op ops -> reaches fs f y -> ~ aims_at FO rows y p op) ->
  get FO fs (assign_all FO rows s ops) nm k = get FO fs s nm k.
Proof.
  intros HL H1 H2. apply (get_same_reads _ _ nm f k HL).
  - unfold stored. destruct (assign_all_untouched FO rows f k ops s (lookup_in _ _ _ HL) H1) as [-> _]. reflexivity.
  - intros y p Hy. unfold stored.
    destruct (assign_all_untouched FO rows y p ops s) as [-> _]; auto.
    now apply (reaches_in rows) in Hy.
Qed.

End FrameSeq.
