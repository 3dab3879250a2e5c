(** Property C56: image data written again, read into memory, changed in place, copied. *)
From Verif Require Import Base BaseLemmas Engine Wf EngineLemmas Codec RoundTrip Rewrite Literal Spec DescsHdr Tre TrePlace
  Security P_Security P_RoundTrip Image ImageLemmas ImageNew P_Image ImageCopy Decimal DecimalLemmas.
From Coq Require Import ZifyBool ZifyNat ZifyN.
Open Scope list_scope.
Ltac Zify.zify_post_hook ::= idtac.

(** ** Writing again *)
Lemma copy_loop_all buf file : (0 < buf)%Z -> forall fuel pos left, (left <= Z.of_nat fuel)%Z ->
  copy_loop fuel buf file pos left = firstn (Z.to_nat left) (skipn pos file).
Proof.
  intro HB. induction fuel as [|fuel IH]; intros pos left HF; cbn [copy_loop].
  - now replace (Z.to_nat left) with 0%nat by lia.
  - destruct (left >? 0)%Z eqn:E; [|now replace (Z.to_nat left) with 0%nat by lia].
    rewrite IH by lia. unfold fread. destruct (left <? buf)%Z eqn:E2.
    + replace (Z.to_nat (left - buf)) with 0%nat by lia. cbn [firstn]. apply app_nil_r.
    + set (l := skipn pos file) in *.
      assert (X : skipn (pos + List.length (firstn (Z.to_nat buf) l)) file = skipn (List.length (firstn (Z.to_nat buf) l)) l).
      { unfold l. rewrite Nat.add_comm. generalize (List.length (firstn (Z.to_nat buf) (skipn pos file))). intro n. clear.
        revert file. induction pos as [|pos IHp]; intros file; [now rewrite Nat.add_0_r|]. rewrite Nat.add_succ_r.
        destruct file; cbn [skipn]; [now rewrite skipn_nil|apply IHp]. }
      rewrite X. clear X. generalize l. clear l. intro l.
      replace (Z.to_nat left) with (Z.to_nat buf + Z.to_nat (left - buf))%nat by lia.
      generalize (Z.to_nat buf) as n, (Z.to_nat (left - buf)) as k. clear. intros n k. revert l.
      induction n as [|n IHn]; intros l; [reflexivity|]. destruct l as [|x l]; cbn [firstn Nat.add List.length skipn app].
      * destruct k; reflexivity.
      * f_equal. apply IHn.
Qed.

Section C56.
Variable FO : FloatOps.
Notation hdr := (hdr FO).

Lemma in_offset nb nr nc b r c isz : (0 <= b < nb)%Z -> (0 <= r < nr)%Z -> (0 <= c < nc)%Z -> (1 <= isz)%Z ->
  (0 <= b * (nr * nc * isz) + r * (nc * isz) + c * isz /\ b * (nr * nc * isz) + r * (nc * isz) + c * isz + isz <= nb * nr * nc * isz)%Z
  /\ (0 <= b * isz + r * (nb * nc * isz) + c * (nb * isz) /\ b * isz + r * (nb * nc * isz) + c * (nb * isz) + isz <= nb * nr * nc * isz)%Z.
Proof.
  intros Hb Hr Hc Hi.
  assert (P1 := position_range GAll nb nr nc (b, r, c) ltac:(cbn; tauto)). cbn [position] in P1.
  assert (P2 := position_range GRowP nb nr nc (b, r, c) ltac:(cbn; tauto)). cbn [position] in P2.
  replace (b * (nr * nc * isz) + r * (nc * isz) + c * isz)%Z with (isz * ((b * nr + r) * nc + c))%Z by ring.
  replace (b * isz + r * (nb * nc * isz) + c * (nb * isz))%Z with (isz * ((r * nc + c) * nb + b))%Z by ring.
  generalize dependent ((b * nr + r) * nc + c)%Z. generalize dependent ((r * nc + c) * nb + b)%Z. generalize (nb * nr * nc)%Z. intros. nia.
Qed.

Lemma isz_pos d : (1 <= itemsize d)%Z.
Proof. destruct d; cbn; lia. Qed.

Lemma sub_list {A} (file : list A) s n o k : (o + k <= n)%nat ->
  firstn k (skipn (s + o) file) = firstn k (skipn o (firstn n (skipn s file))).
Proof.
  intro H. replace (skipn (s + o) file) with (skipn o (skipn s file)).
  - rewrite skipn_firstn_comm, firstn_firstn. f_equal. lia.
  - revert file. induction s as [|s IH]; intro file; [reflexivity|]. destruct file; cbn [skipn Nat.add]; [now rewrite !skipn_nil|apply IH].
Qed.

(** An image that was read, written again anywhere in another file, has exactly its bytes; with
    the same subheader the reader takes it and shows the same pixels. *)
Theorem C56_again (h h' : hdr) file pos a p pre post : np_read FO h file (Z.of_nat pos) = Ok (Some (a, p)) ->
  np_plan FO h' = np_plan FO h -> dims FO h' = dims FO h ->
  let data := copy_bytes file pos (mp_size a) in
  data = firstn (Z.to_nat (mp_size a)) (skipn pos file) /\ Z.of_nat (List.length data) = mp_size a
  /\ exists a', np_read FO h' (pre ++ data ++ post) (Z.of_nat (List.length pre)) = Ok (Some (a', Z.of_nat (List.length (pre ++ data))))
     /\ mp_dims a' = mp_dims a /\ mp_dt a' = mp_dt a
     /\ forall b r c, (let '(nb, nr, nc) := mp_dims a in in_image nb nr nc (b, r, c)) ->
          mp_item (pre ++ data ++ post) a' b r c = mp_item file a b r c.
Proof.
  intros HR HP HD data. unfold np_read in HR. apply bind_ok in HR as ([[il d]|] & P & HR); [|discriminate HR].
  apply bind_ok in HR as (m & M & HR). injection HR as -> <-.
  unfold np_map in M. apply bind_ok in M as ([[nb nr] nc] & D & M).
  destruct (_ || _) eqn:NG in M; [discriminate M|]. destruct (_ <? _)%Z eqn:L in M; [destruct il; discriminate M|]. injection M as <-.
  set (m := {| mp_dims := (nb, nr, nc); mp_strides := if il then (itemsize d, nb * nc * itemsize d, nb * itemsize d)%Z else (nr * nc * itemsize d, nc * itemsize d, itemsize d)%Z; mp_off := Z.of_nat pos; mp_dt := d |}) in *.
  assert (SZ : mp_size m = (nb * nr * nc * itemsize d)%Z) by reflexivity.
  assert (HI := isz_pos d).
  assert (S0 : (0 <= mp_size m)%Z) by (rewrite SZ; assert (0 <= nb * nr * nc)%Z by (assert (0 <= nb * nr)%Z by nia; nia); nia).
  assert (DE : data = firstn (Z.to_nat (mp_size m)) (skipn pos file)) by (unfold data, copy_bytes; apply copy_loop_all; lia).
  assert (DL : Z.of_nat (List.length data) = mp_size m) by (rewrite DE, firstn_length, skipn_length; lia).
  split; [exact DE|]. split; [exact DL|].
  unfold np_read. rewrite HP, P. cbn [bind]. unfold np_map. rewrite HD, D. cbn [bind]. rewrite NG.
  eexists. rewrite !app_length. unfold mp_size at 1. cbn [mp_dims mp_dt].
  replace (_ <? _)%Z with false by lia. cbn [bind]. split.
  { do 3 f_equal. unfold mp_size at 1. cbn [mp_dims mp_dt]. rewrite SZ in DL. lia. }
  cbn [mp_dims mp_dt]. split; [reflexivity|]. split; [reflexivity|]. intros b r c IN.
  destruct IN as (IB & IR & IC). destruct (in_offset nb nr nc b r c (itemsize d) IB IR IC HI) as [O1 O2].
  unfold mp_item. cbn [mp_strides mp_off mp_dt m]. rewrite SZ in *.
  assert (G : forall o, (0 <= o)%Z -> (o + itemsize d <= nb * nr * nc * itemsize d)%Z ->
     firstn (Z.to_nat (itemsize d)) (skipn (Z.to_nat (Z.of_nat (List.length pre) + o)) (pre ++ data ++ post))
     = firstn (Z.to_nat (itemsize d)) (skipn (Z.to_nat (Z.of_nat pos + o)) file)).
  { intros o H1 H2. replace (Z.to_nat (Z.of_nat pos + o)) with (pos + Z.to_nat o)%nat by lia.
    rewrite (sub_list file pos (Z.to_nat (nb * nr * nc * itemsize d))) by lia. rewrite <- DE.
    replace (Z.to_nat (Z.of_nat (List.length pre) + o)) with (List.length pre + Z.to_nat o)%nat by lia.
    rewrite skipn_app, skipn_all2 by lia. cbn [app].
    replace (List.length pre + Z.to_nat o - List.length pre)%nat with (Z.to_nat o) by lia.
    rewrite skipn_app, firstn_app. rewrite skipn_length.
    replace (Z.to_nat (itemsize d) - (List.length data - Z.to_nat o))%nat with 0%nat by lia. cbn [firstn]. apply app_nil_r. }
  destruct il; rewrite <- !Z.add_assoc; apply G; lia.
Qed.

(** ** Reading into memory *)

(** Whatever can be read as a map of the file can be read into memory, to the same position and
    with the same pixels. *)
Theorem C56_memory (h : hdr) file pos a p : np_read FO h file (Z.of_nat pos) = Ok (Some (a, p)) ->
  exists m, np_read_mem FO h file (Z.of_nat pos) = Ok (Some (m, p))
    /\ im_dims m = mp_dims a /\ im_dt m = mp_dt a
    /\ forall b r c, (let '(nb, nr, nc) := mp_dims a in in_image nb nr nc (b, r, c)) ->
         im_item m b r c = Some (mp_item file a b r c).
Proof.
  intro HR. unfold np_read in HR. apply bind_ok in HR as ([[il d]|] & P & HR); [|discriminate HR].
  apply bind_ok in HR as (m & M & HR). injection HR as -> <-.
  unfold np_map in M. apply bind_ok in M as ([[nb nr] nc] & D & M).
  destruct (_ || _) eqn:NG in M; [discriminate M|]. destruct (_ <? _)%Z eqn:L in M; [destruct il; discriminate M|]. injection M as <-.
  unfold np_read_mem. rewrite P. cbn [bind]. rewrite D. cbn [bind]. rewrite NG.
  unfold mp_size in L. cbn [mp_dims mp_dt] in L. assert (HI := isz_pos d). set (isz := itemsize d) in *.
  assert (N0 : (0 <= nb * nr * nc)%Z) by (assert (0 <= nb * nr)%Z by nia; nia).
  assert (G : Z.min (nr * nc * nb) ((Z.of_nat (List.length file) - Z.of_nat pos) / isz) = (nb * nr * nc)%Z).
  { replace (nr * nc * nb)%Z with (nb * nr * nc)%Z by ring. apply Z.min_l. apply Z.div_le_lower_bound; [lia|]. nia. }
  rewrite G. set (bytes := fread file (Z.to_nat (Z.of_nat pos)) (nb * nr * nc * isz)).
  assert (BE : bytes = firstn (Z.to_nat (nb * nr * nc * isz)) (skipn pos file)) by (unfold bytes, fread; now rewrite Nat2Z.id).
  assert (S0 : (0 <= nb * nr * nc * isz)%Z) by nia.
  assert (BL : Z.of_nat (List.length bytes) = (nb * nr * nc * isz)%Z) by (rewrite BE, firstn_length, skipn_length; lia).
  clearbody bytes.
  assert (K : forall o, (0 <= o)%Z -> (o + isz <= nb * nr * nc * isz)%Z ->
     (if (o + isz <=? Z.of_nat (List.length bytes))%Z then Some (firstn (Z.to_nat isz) (skipn (Z.to_nat o) bytes)) else None)
     = Some (firstn (Z.to_nat isz) (skipn (Z.to_nat (Z.of_nat pos + o)) file))).
  { intros o H1 H2. replace (_ <=? _)%Z with true by lia. f_equal.
    replace (Z.to_nat (Z.of_nat pos + o)) with (pos + Z.to_nat o)%nat by lia.
    rewrite (sub_list file pos (Z.to_nat (nb * nr * nc * isz))) by lia. now rewrite BE. }
  destruct il.
  - eexists. split; [unfold mp_size; cbn [mp_dims mp_dt]; fold isz; do 3 f_equal; lia|]. cbn [im_dims im_dt mp_dims mp_dt].
    split; [reflexivity|]. split; [reflexivity|]. intros b r c (IB & IR & IC).
    destruct (in_offset nb nr nc b r c isz IB IR IC HI) as [_ [O1 O2]].
    unfold im_item, mp_item. cbn [im_strides im_dt im_bytes mp_strides mp_off mp_dt]. fold isz.
    rewrite K by lia. do 4 f_equal. lia.
  - rewrite Z.eqb_refl.
    eexists. split; [unfold mp_size; cbn [mp_dims mp_dt]; fold isz; do 3 f_equal; lia|]. cbn [im_dims im_dt mp_dims mp_dt].
    split; [reflexivity|]. split; [reflexivity|]. intros b r c (IB & IR & IC).
    destruct (in_offset nb nr nc b r c isz IB IR IC HI) as [[O1 O2] _].
    unfold im_item, mp_item. cbn [im_strides im_dt im_bytes mp_strides mp_off mp_dt]. fold isz.
    rewrite K by lia. do 4 f_equal. lia.
Qed.

(** ** Changing what was written *)

(** The pixel at [p] replaced. *)
Definition repl (px : Z * Z * Z -> item) (p : Z * Z * Z) (v : item) : Z * Z * Z -> item := fun q =>
  if (let '(b, r, c) := p in let '(b', r', c') := q in (b =? b')%Z && (r =? r')%Z && (c =? c')%Z) then v else px q.
(** The pixels after a number of assignments, the last one counting. *)
Fixpoint after_all (px : Z * Z * Z -> item) (us : list (Z * Z * Z * item)) : Z * Z * Z -> item :=
  match us with [] => px | (p, v) :: us' => after_all (repl px p v) us' end.

Lemma repl_same px p v q : repl px p v q = v /\ p = q \/ repl px p v q = px q /\ p <> q.
Proof.
  unfold repl. destruct p as [[b r] c], q as [[b' r'] c'].
  destruct ((b =? b')%Z && (r =? r')%Z && (c =? c')%Z) eqn:E; [left|right]; (split; [reflexivity|]).
  - assert (b = b' /\ r = r' /\ c = c') as (-> & -> & ->) by lia. reflexivity.
  - intro H. injection H as -> -> ->. rewrite !Z.eqb_refl in E. discriminate E.
Qed.

Lemma put_concat (l1 l2 : list item) x v k : Forall (fun y => List.length y = k) (l1 ++ x :: l2) -> List.length v = k ->
  firstn (List.length l1 * k) (List.concat (l1 ++ x :: l2)) ++ v ++ skipn (List.length l1 * k + k) (List.concat (l1 ++ x :: l2))
  = List.concat (l1 ++ v :: l2).
Proof.
  intros HF HV. apply Forall_app in HF as [F1 F2]. inversion F2; subst.
  assert (L1 := concat_len l1 _ F1). rewrite !concat_app. cbn [List.concat]. rewrite <- L1.
  rewrite firstn_app, firstn_all, Nat.sub_diag. cbn [firstn]. rewrite app_nil_r. f_equal. f_equal.
  rewrite skipn_app. rewrite skipn_all2 by lia. cbn [app].
  replace (List.length (List.concat l1) + List.length v - List.length (List.concat l1))%nat with (List.length v) by lia.
  rewrite skipn_app, skipn_all2 by lia. cbn [app]. replace (List.length v - List.length x)%nat with 0%nat by lia. reflexivity.
Qed.

Lemma map_repl px p v l1 l2 : NoDup (l1 ++ p :: l2) -> map (repl px p v) (l1 ++ p :: l2) = map px l1 ++ v :: map px l2.
Proof.
  intro ND. apply NoDup_remove_2 in ND. rewrite map_app. cbn [map].
  destruct (repl_same px p v p) as [[-> _]|[_ N]]; [|now destruct N].
  f_equal; [|f_equal]; apply map_ext_in; intros q Hq; destruct (repl_same px p v q) as [[_ ->]|[-> _]]; auto; exfalso; apply ND; apply in_or_app; auto.
Qed.

Lemma put_one m nb nr nc isz pre post (px : Z * Z * Z -> item) b r c v : (0 <= nb)%Z -> (0 <= nr)%Z -> (0 <= nc)%Z -> (1 <= isz)%Z ->
  (forall p, in_image nb nr nc p -> Z.of_nat (List.length (px p)) = isz) -> in_image nb nr nc (b, r, c) -> Z.of_nat (List.length v) = isz ->
  let file := pre ++ List.concat (map px (pixel_order m nb nr nc)) ++ post in
  let o := (List.length pre + Z.to_nat (isz * position m nb nr nc (b, r, c)))%nat in
  firstn o file ++ v ++ skipn (o + Z.to_nat isz) file
  = pre ++ List.concat (map (repl px (b, r, c) v) (pixel_order m nb nr nc)) ++ post.
Proof.
  intros Hb Hr Hc Hi HL HP HV file o. set (q := position m nb nr nc (b, r, c)) in *.
  assert (Hq := position_range m nb nr nc _ HP). fold q in Hq.
  assert (LO := order_len m nb nr nc Hb Hr Hc). set (ord := pixel_order m nb nr nc) in *.
  assert (LT : (Z.to_nat q < List.length ord)%nat) by lia.
  destruct (nth_split ord (0, 0, 0)%Z LT) as (l1 & l2 & EO & E1).
  assert (NQ : nth (Z.to_nat q) ord (0, 0, 0)%Z = (b, r, c)) by exact (order_nth m nb nr nc (b, r, c) _ HP). rewrite NQ in EO.
  assert (ND : NoDup ord) by apply (C36_each_once m nb nr nc).
  assert (FA : Forall (fun y => List.length y = Z.to_nat isz) (map px ord)).
  { apply Forall_forall. intros x Hx. apply in_map_iff in Hx as (p & <- & Hp). apply (C36_each_once m nb nr nc) in Hp. specialize (HL p Hp). lia. }
  rewrite EO in ND. assert (MR := map_repl px (b, r, c) v l1 l2 ND). rewrite <- EO in MR. rewrite MR.
  unfold file. rewrite EO in FA. rewrite map_app in FA. cbn [map] in FA.
  assert (PC := put_concat (map px l1) (map px l2) (px (b, r, c)) v (Z.to_nat isz) FA ltac:(lia)).
  unfold item in *. rewrite <- PC. rewrite map_length, E1.
  replace (map px ord) with (map px l1 ++ px (b, r, c) :: map px l2) by (rewrite EO, map_app; reflexivity).
  set (data := List.concat (map px l1 ++ px (b, r, c) :: map px l2)) in *.
  assert (DL : (Z.to_nat q * Z.to_nat isz + Z.to_nat isz <= List.length data)%nat).
  { unfold data. rewrite (concat_len _ _ FA), app_length. cbn [List.length]. rewrite !map_length. nia. }
  assert (EO' : o = (List.length pre + Z.to_nat q * Z.to_nat isz)%nat) by (unfold o; nia). rewrite EO'.
  generalize dependent (Z.to_nat q * Z.to_nat isz)%nat. intros n. intros. clearbody data. clear - DL.
  rewrite firstn_app, firstn_all2 by lia.
  replace (List.length pre + n - List.length pre)%nat with n by lia.
  rewrite firstn_app. replace (n - List.length data)%nat with 0%nat by lia. cbn [firstn]. rewrite app_nil_r.
  rewrite skipn_app, skipn_all2 by lia. cbn [app].
  replace (List.length pre + n + Z.to_nat isz - List.length pre)%nat with (n + Z.to_nat isz)%nat by lia.
  rewrite skipn_app. replace (n + Z.to_nat isz - List.length data)%nat with 0%nat by lia. cbn [skipn].
  now rewrite <- !app_assoc.
Qed.

(** After an image was written, its array shows the pixels supplied; after any assignments to
    pixels of it the file is as if the image had been written with those, and nothing else of the
    file has changed. *)
Theorem C56_update m (h : hdr) nb nr nc d f px us pre post : header_is FO h nb nr nc d ->
  (0 <= nb)%Z -> (0 <= nr)%Z -> (0 <= nc)%Z -> supplies m f nb nr nc px ->
  (forall p, in_image nb nr nc p -> Z.of_nat (List.length (px p)) = itemsize d) ->
  (forall p v, In (p, v) us -> in_image nb nr nc p /\ Z.of_nat (List.length v) = itemsize d) ->
  exists out a, write_image FO m h f = Ok out
    /\ data_written FO m h (pre ++ out) (Z.of_nat (List.length pre)) = Ok a
    /\ (forall b r c, in_image nb nr nc (b, r, c) -> mp_item (pre ++ out ++ post) a b r c = px (b, r, c))
    /\ mp_puts (pre ++ out ++ post) a us = pre ++ List.concat (map (after_all px us) (pixel_order m nb nr nc)) ++ post
    /\ (forall b r c, in_image nb nr nc (b, r, c) -> mp_item (mp_puts (pre ++ out ++ post) a us) a b r c = after_all px us (b, r, c)).
Proof.
  intros HI Hb Hr Hc HS HL HU. assert (W := C36_write FO m h f nb nr nc d px HI Hb Hr Hc HS).
  destruct HI as [HD HT]. exists (List.concat (map px (pixel_order m nb nr nc))).
  assert (SZ : forall px' : Z * Z * Z -> item, (forall p, in_image nb nr nc p -> Z.of_nat (List.length (px' p)) = itemsize d) ->
     Z.of_nat (List.length (List.concat (map px' (pixel_order m nb nr nc)))) = (nb * nr * nc * itemsize d)%Z) by (intros; now apply C36_size).
  assert (HIZ := isz_pos d).
  unfold data_written. rewrite HT. cbn [bind]. unfold np_map. rewrite HD. cbn [bind].
  replace ((nb <? 0)%Z || (nr <? 0)%Z || (nc <? 0)%Z) with false by lia.
  eexists. split; [exact W|]. unfold mp_size. cbn [mp_dims mp_dt].
  assert (LT : (Z.of_nat (List.length (pre ++ List.concat (map px (pixel_order m nb nr nc)))) <? Z.of_nat (List.length pre) + nb * nr * nc * itemsize d)%Z = false).
  { rewrite app_length. rewrite Nat2Z.inj_add, (SZ px HL). apply Z.ltb_ge. lia. }
  rewrite LT. split; [reflexivity|].
  set (a := {| mp_dims := (nb, nr, nc); mp_strides := _; mp_off := _; mp_dt := d |}).
  assert (OFF : forall b r c, let '(sb, sr, sc) := mp_strides a in
     (mp_off a + b * sb + r * sr + c * sc)%Z = (Z.of_nat (List.length pre) + itemsize d * position m nb nr nc (b, r, c))%Z).
  { intros b r c. unfold a. cbn [mp_strides mp_off]. destruct m; cbn [mode_il position]; ring. }
  assert (IT : forall px' : Z * Z * Z -> item, (forall p, in_image nb nr nc p -> Z.of_nat (List.length (px' p)) = itemsize d) ->
     forall b r c, in_image nb nr nc (b, r, c) -> mp_item (pre ++ List.concat (map px' (pixel_order m nb nr nc)) ++ post) a b r c = px' (b, r, c)).
  { intros px' HL' b r c Hp. unfold mp_item. specialize (OFF b r c). destruct (mp_strides a) as [[sb sr] sc]. rewrite OFF. clear OFF.
    change (mp_dt a) with d. assert (PB := order_nth m nb nr nc (b, r, c) (0, 0, 0)%Z Hp).
    set (q := position m nb nr nc (b, r, c)) in *. assert (Hq := position_range m nb nr nc _ Hp). fold q in Hq.
    assert (LO := order_len m nb nr nc Hb Hr Hc).
    replace (Z.to_nat (Z.of_nat (List.length pre) + itemsize d * q)) with (List.length pre + Z.to_nat q * Z.to_nat (itemsize d))%nat by nia.
    rewrite skipn_app. rewrite (skipn_all2 pre) by lia. cbn [app].
    replace (List.length pre + Z.to_nat q * Z.to_nat (itemsize d) - List.length pre)%nat with (Z.to_nat q * Z.to_nat (itemsize d))%nat by lia.
    rewrite concat_item.
    - rewrite (nth_indep _ [] (px' (0, 0, 0)%Z)) by (rewrite map_length; lia). rewrite map_nth. now rewrite PB.
    - apply Forall_forall. intros x Hx. apply in_map_iff in Hx as (p & <- & Hp'). apply C36_each_once in Hp'. specialize (HL' p Hp'). lia.
    - rewrite map_length. lia. }
  split; [now apply IT|].
  assert (PU : mp_puts (pre ++ List.concat (map px (pixel_order m nb nr nc)) ++ post) a us
     = pre ++ List.concat (map (after_all px us) (pixel_order m nb nr nc)) ++ post
     /\ forall p, in_image nb nr nc p -> Z.of_nat (List.length (after_all px us p)) = itemsize d).
  { clear W HS LT. revert px HL HU. induction us as [|[p v] us IH]; intros px HL HU; [split; [reflexivity|exact HL]|].
    destruct p as [[b r] c]. cbn [mp_puts after_all].
    destruct (HU (b, r, c) v (or_introl eq_refl)) as [HP HV].
    assert (E : mp_put (pre ++ List.concat (map px (pixel_order m nb nr nc)) ++ post) a b r c v
       = pre ++ List.concat (map (repl px (b, r, c) v) (pixel_order m nb nr nc)) ++ post).
    { rewrite <- (put_one m nb nr nc (itemsize d) pre post px b r c v Hb Hr Hc HIZ HL HP HV).
      unfold mp_put. specialize (OFF b r c). destruct (mp_strides a) as [[sb sr] sc]. rewrite OFF. clear OFF. change (mp_dt a) with d.
      assert (Hq := position_range m nb nr nc _ HP).
      now replace (Z.to_nat (Z.of_nat (List.length pre) + itemsize d * position m nb nr nc (b, r, c)))
        with (List.length pre + Z.to_nat (itemsize d * position m nb nr nc (b, r, c)))%nat by nia. }
    rewrite E. apply IH.
    - intros p Hp. destruct (repl_same px (b, r, c) v p) as [[-> _]|[-> _]]; auto.
    - intros p w Hw. apply HU. now right. }
  destruct PU as [PU PL]. split; [exact PU|]. rewrite PU. now apply IT.
Qed.

(** ** Copying *)

Notation irows := desc_NitfImageSubheader.
Notation ifs := (mk_fs desc_NitfImageSubheader).

(** The subheader fields that say how pixels are laid out. *)
Definition layout_names : list string :=
  ["ic"; "imode"; "nbpr"; "nbpc"; "nppbh"; "nbpp"; "pvtype"; "nbands"; "xbands"; "nrows"; "ncols"]%string.

Lemma layout_known : forallb (fun nm => kept irows nm) layout_names = true.
Proof. vm_compute. reflexivity. Qed.

Section Kept.
Variables (h h' : hdr).
Hypothesis K : forall nm v, In nm layout_names -> iget FO h nm = Ok v -> iget FO h' nm = Ok v.

Lemma ieq_kept nm v r : ieq FO h nm v = Ok r -> In nm layout_names -> ieq FO h' nm v = Ok r.
Proof. intros E Hn. unfold ieq in *. apply bind_ok in E as (x & E1 & E2). now rewrite (K nm x Hn E1). Qed.
Lemma bands_kept v : number_band FO h = Ok v -> number_band FO h' = Ok v.
Proof.
  unfold number_band, iint, hint. fold (iget FO h "nbands") (iget FO h' "nbands"). intro E.
  apply bind_ok in E as (n & E1 & E). apply bind_ok in E1 as (w & E1 & E2).
  rewrite (K "nbands"%string w ltac:(cbn; tauto) E1). cbn [bind]. rewrite E2. cbn [bind].
  destruct (n >? 0)%Z; [congruence|apply K; [cbn; tauto|exact E]].
Qed.
Lemma shape_kept s : shape FO h = Ok s -> shape FO h' = Ok s.
Proof.
  unfold shape. intro E. apply bind_ok in E as (b & E1 & E). apply bind_ok in E as (r & E2 & E). apply bind_ok in E as (c & E3 & E).
  rewrite (bands_kept b E1). cbn [bind]. rewrite (K "nrows"%string r ltac:(cbn; tauto) E2). cbn [bind].
  now rewrite (K "ncols"%string c ltac:(cbn; tauto) E3).
Qed.
Lemma dims_kept s : dims FO h = Ok s -> dims FO h' = Ok s.
Proof. unfold dims. intro E. apply bind_ok in E as ([[b r] c] & E1 & E). now rewrite (shape_kept _ E1). Qed.
Lemma dtype_kept d : get_dtype FO h = Ok d -> get_dtype FO h' = Ok d.
Proof.
  unfold get_dtype. generalize dtype_table. induction l as [|[[n p] t] l IH]; cbn [find_dtype]; intro E.
  - apply bind_ok in E as (x & _ & E). apply bind_ok in E as (y & _ & E). destruct x; discriminate E.
  - apply bind_ok in E as (x & E1 & E). rewrite (ieq_kept _ _ _ E1 ltac:(cbn; tauto)). cbn [bind].
    apply bind_ok in E as (y & E2 & E). destruct x.
    + rewrite (ieq_kept _ _ _ E2 ltac:(cbn; tauto)). cbn [bind]. destruct y; auto.
    + injection E2 as <-. cbn [bind]. auto.
Qed.
Lemma plan_kept x : np_plan FO h = Ok (Some x) -> np_plan FO h' = Ok (Some x).
Proof.
  unfold np_plan. intro P.
  apply bind_ok in P as (ic & IC & P). rewrite (ieq_kept _ _ _ IC ltac:(cbn; tauto)). cbn [bind]. destruct ic; [|discriminate P]. cbn [negb] in P |- *.
  apply bind_ok in P as (pm & PM & P). rewrite (ieq_kept _ _ _ PM ltac:(cbn; tauto)). cbn [bind].
  apply bind_ok in P as (s1 & S1 & P).
  assert (S1' : (if pm then ieq FO h' "nbpr" (VInt 1) else Ok false) = Ok s1) by (destruct pm; [apply (ieq_kept _ _ _ S1 ltac:(cbn; tauto))|exact S1]).
  rewrite S1'. cbn [bind]. apply bind_ok in P as (s2 & S2 & P).
  assert (S2' : (if s1 then do (b, r, c) <- shape FO h'; ieq FO h' "nbpc" r else Ok false) = Ok s2).
  { destruct s1; [|exact S2]. apply bind_ok in S2 as ([[b r] c] & SH & S2). rewrite (shape_kept _ SH). cbn [bind]. apply (ieq_kept _ _ _ S2 ltac:(cbn; tauto)). }
  rewrite S2'. cbn [bind]. apply bind_ok in P as (s3 & S3 & P).
  assert (S3' : (if s2 then do (b, r, c) <- shape FO h'; ieq FO h' "nppbh" c else Ok false) = Ok s3).
  { destruct s2; [|exact S3]. apply bind_ok in S3 as ([[b r] c] & SH & S3). rewrite (shape_kept _ SH). cbn [bind]. apply (ieq_kept _ _ _ S3 ltac:(cbn; tauto)). }
  rewrite S3'. cbn [bind]. apply bind_ok in P as (ok & OK & P). destruct ok; [|discriminate P]. cbn [negb] in P.
  assert (OK' : (if s3 then do _ <- get_dtype FO h'; Ok true
            else do b1 <- ieq FO h' "nbpr" (VInt 1);
                 do b2 <- (if b1 then ieq FO h' "nbpc" (VInt 1) else Ok false);
                 if negb b2 then Ok false
                 else do m <- ieq FO h' "imode" (VStr (str "B")); Ok (m || pm)) = Ok true).
  { destruct s3.
    - apply bind_ok in OK as (t & T & _). now rewrite (dtype_kept _ T).
    - apply bind_ok in OK as (b1 & B1 & OK). rewrite (ieq_kept _ _ _ B1 ltac:(cbn; tauto)). cbn [bind].
      apply bind_ok in OK as (b2 & B2 & OK). destruct b1; [|injection B2 as <-; discriminate OK].
      rewrite (ieq_kept _ _ _ B2 ltac:(cbn; tauto)). cbn [bind]. destruct b2; [|discriminate OK]. cbn [negb] in *.
      apply bind_ok in OK as (m & M & OK). rewrite (ieq_kept _ _ _ M ltac:(cbn; tauto)). exact OK. }
  rewrite OK'. cbn [bind negb]. apply bind_ok in P as (one & ONE & P). rewrite (ieq_kept _ _ _ ONE ltac:(cbn; tauto)). cbn [bind].
  destruct one; [discriminate P|]. destruct (get_dtype FO h) as [t|e] eqn:T; [|destruct e; discriminate P].
  now rewrite (dtype_kept _ T).
Qed.
End Kept.

(** A copy of an image whose data is not interleaved by pixel, written with its own subheader,
    reads as the pixels of the image copied. *)
Theorem C56_copy_partial (h : hdr) hb px nb nr nc d pre post : FloatLaws FO ->
  header_is FO h nb nr nc d -> (0 <= nb)%Z -> (0 <= nr)%Z -> (0 <= nc)%Z ->
  np_plan FO h = Ok (Some (false, d)) -> h_attr h = [] -> literals_ok FO ifs (h_st h) -> write FO ifs (h_st h) = Ok hb ->
  (forall b r c, in_image nb nr nc (b, r, c) -> Z.of_nat (List.length (px b r c)) = itemsize d) ->
  exists h' data out a, copy_image FO h px = Ok (h', data)
    /\ (forall nm v, In nm layout_names -> iget FO h nm = Ok v -> iget FO h' nm = Ok v)
    /\ write_image FO GAll h' (numpy_supplier data) = Ok out
    /\ np_read FO h' (pre ++ out ++ post) (Z.of_nat (List.length pre)) = Ok (Some (a, Z.of_nat (List.length (pre ++ out))))
    /\ forall b r c, in_image nb nr nc (b, r, c) -> mp_item (pre ++ out ++ post) a b r c = px b r c.
Proof.
  intros laws HI Hb Hr Hc HP HA HL HW HS.
  destruct (kept_get FO irows laws irows_wf (h_st h) (init_state FO) false hb [] HL HW) as (st1 & R & KG).
  rewrite app_nil_r in R. set (h' := {| h_st := st1; h_attr := [] |}).
  assert (K : forall nm v, In nm layout_names -> iget FO h nm = Ok v -> iget FO h' nm = Ok v).
  { intros nm v Hn. assert (KN := layout_known). rewrite forallb_forall in KN. specialize (KN nm Hn).
    specialize (KG nm v KN). unfold kept in KN. unfold iget, hget. destruct (lookup ifs nm); [exact KG|discriminate KN]. }
  destruct HI as [HD HT].
  exists h'. eexists. eexists.
  assert (PL := plan_kept h h' K _ HP). assert (HI' : header_is FO h' nb nr nc d) by (split; [now apply (dims_kept h h' K)|now apply (dtype_kept h h' K)]).
  set (pp := fun p : Z * Z * Z => let '(b, r, c) := p in px b r c).
  destruct (C36_read FO GAll h' nb nr nc d pp pre post HI' Hb Hr Hc PL) as (a & R1 & R2).
  { intros [[b r] c] Hp. now apply HS. }
  exists a. split.
  { unfold copy_image, deepcopy. rewrite HW. cbn [bind]. rewrite R. cbn [bind fst]. rewrite HD. cbn [bind]. rewrite HT. cbn [bind].
    replace ((nb <? 0)%Z || (nr <? 0)%Z || (nc <? 0)%Z) with false by lia. reflexivity. }
  split; [exact K|]. split.
  { apply (C36_write FO GAll h' _ nb nr nc d pp HI' Hb Hr Hc).
    apply C36_numpy; [reflexivity|]. cbn [a_items pixel_order]. rewrite map_flat_map. apply flat_map_ext. intro x.
    rewrite map_flat_map. apply flat_map_ext. intro y. rewrite map_map. reflexivity. }
  split; [exact R1|]. intros b r c Hp. exact (R2 b r c Hp).
Qed.
End C56.

(** ** Cases, and where the claims fail *)

Definition ex_big : list N := map N.of_nat (seq 0 40).
Example ex_c56_chunks : copy_loop 20 7 ex_big 3 20 = map N.of_nat (seq 3 20).
Proof. vm_compute. reflexivity. Qed.

Definition ex_item (b r c : Z) : item := [Z.to_N (100 + 10 * b + 3 * r + c)].
Definition ex_pix : Z * Z * Z -> item := fun p => let '(b, r, c) := p in ex_item b r c.
Definition copied FO (m : gen_mode) (nb : Z) : option (list N * list item) :=
  match copy_image FO (ex_hdr FO m U1 2 3 nb) ex_item with
  | Ok (h', data) =>
      match write_image FO GAll h' (numpy_supplier data) with
      | Ok out => match np_read FO h' ([7; 7]%N ++ out) 2 with
                  | Ok (Some (a, _)) => Some (out, map (fun p => let '(b, r, c) := p in mp_item ([7; 7]%N ++ out) a b r c) [(0, 0, 0); (0, 1, 2); (1, 0, 0); (1, 1, 2)]%Z)
                  | _ => None
                  end
      | Err _ => None
      end
  | Err _ => None
  end.
Example ex_c56_copy FO : copied FO GBand 2 = Some ([100; 101; 102; 103; 104; 105; 110; 111; 112; 113; 114; 115]%N, [[100]; [105]; [110]; [115]]%N).
Proof. vm_compute. reflexivity. Qed.

(** Finding 55: the copy of an image interleaved by pixel keeps the subheader, but is written band
    after band: the copy shows other pixels. *)
Theorem C56_interleaved_refuted FO : exists (h : TrePlace.hdr FO) px h' data out a,
  np_plan FO h = Ok (Some (true, U1)) /\ copy_image FO h px = Ok (h', data)
  /\ write_image FO GAll h' (numpy_supplier data) = Ok out
  /\ np_read FO h' out 0 = Ok (Some (a, 12%Z)) /\ mp_item out a 0 0 1 <> px 0%Z 0%Z 1%Z.
Proof.
  exists (ex_hdr FO GRowP U1 2 3 2), ex_item.
  assert (X : match copy_image FO (ex_hdr FO GRowP U1 2 3 2) ex_item with
    | Ok (h', data) => match write_image FO GAll h' (numpy_supplier data) with
        | Ok out => match np_read FO h' out 0 with Ok (Some (a, p)) => (p =? 12)%Z && negb (list_eqb (mp_item out a 0 0 1) (ex_item 0 0 1)) | _ => false end
        | Err _ => false end
    | Err _ => false end = true) by (vm_compute; reflexivity).
  destruct (copy_image FO (ex_hdr FO GRowP U1 2 3 2) ex_item) as [[h' data]|]; [|discriminate X].
  destruct (write_image FO GAll h' (numpy_supplier data)) as [out|] eqn:W; [|discriminate X].
  destruct (np_read FO h' out 0) as [[[a p]|]|] eqn:R; try discriminate X.
  apply andb_prop in X as [X1 X2]. apply Z.eqb_eq in X1. subst p.
  exists h', data, out, a. split; [vm_compute; reflexivity|]. split; [reflexivity|]. split; [exact W|]. split; [exact R|].
  intro E. rewrite E, (proj2 (list_eqb_spec _ _) eq_refl) in X2. discriminate X2.
Qed.

(** Finding 56: read into memory, an image interleaved by pixel whose data is cut off is not
    refused: pixels are taken from outside of the array.  As a map of the file it is refused,
    and so is an image that is not interleaved. *)
Theorem C56_cut_refuted FO : exists (h h2 : TrePlace.hdr FO) file m p,
  np_read_mem FO h file 0 = Ok (Some (m, p)) /\ im_dims m = (2, 2, 3)%Z /\ im_item m 1 1 2 = None
  /\ np_read FO h file 0 = Err EValue /\ np_read_mem FO h2 file 0 = Err EValue.
Proof.
  exists (ex_hdr FO GRowP U1 2 3 2), (ex_hdr FO GAll U1 2 3 2), [1; 2; 3; 4; 5]%N. eexists. eexists.
  split; [vm_compute; reflexivity|]. split; [reflexivity|]. split; [vm_compute; reflexivity|]. split; vm_compute; reflexivity.
Qed.

Example ex_c56_update FO : match data_written FO GRowP (ex_hdr FO GRowP U1 2 3 2) (repeat 7%N 14) 2 with
  | Ok a => mp_puts (repeat 7%N 15) a [(1, 1, 2, [9%N]); (0, 0, 1, [8%N])]%Z = [7; 7; 7; 7; 8; 7; 7; 7; 7; 7; 7; 7; 7; 9; 7]%N
  | Err _ => False
  end.
Proof. vm_compute. reflexivity. Qed.

Print Assumptions C56_again.
Print Assumptions C56_memory.
Print Assumptions C56_update.
Print Assumptions C56_copy_partial.
Print Assumptions C56_interleaved_refuted.
Print Assumptions C56_cut_refuted.
