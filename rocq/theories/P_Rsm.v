(** C68: the grid coordinates of RSMGGA (nitf_tre_rsmgga.py:4-14), and whom the attributes of
    RSMPCA and RSMGGA ask. *)
From Verif Require Import Base BaseLemmas Engine Wf EngineLemmas Codec RoundTrip Rewrite Literal
  Positions Keys Deps Assign Update Spec TextSpec Decimal DecimalLemmas Delayed Utf8 Tre TreLemmas TreImpl DescsTre2 Rsm P_Expr Ex P_TreImpl.
From Coq Require Import ZifyBool ZifyNat ZifyN QArith Qpower Qabs Lqa.
Open Scope list_scope.

(** What a coordinate [x] must be, the text [b] being in the record, with [d] digits after the
    point, relative to [r]: blanks are not a number, a whole number counts 10^-d each, and
    anything else is an error. *)
Definition coord_is (b : list N) (d r : Z) (x : res coord) : Prop :=
  (b <> [] /\ Forall byte_blank b /\ x = Ok CNan)
  \/ (exists z q, int_text byte_blank b z /\ x = Ok (CAt q) /\ (q - inject_Z r) * (10 # 1) ^ d == inject_Z z)
  \/ ((b = [] \/ ~ Forall byte_blank b) /\ (forall z, ~ int_text byte_blank b z) /\ x = Err EValue).

(** Axis: name of the coordinate, of the length of its text, the digits, the reference. *)
Record axis := { ax_nm : string; ax_len : string; ax_dig : string; ax_ref : string }.
Definition row_axis := {| ax_nm := "rcoord"; ax_len := "tnumrd"; ax_dig := "fnumrd"; ax_ref := "refrow" |}.
Definition col_axis := {| ax_nm := "ccoord"; ax_len := "tnumcd"; ax_dig := "fnumcd"; ax_ref := "refcol" |}.

Lemma blank_space b : is_space b = true <-> b <> [] /\ Forall byte_blank b.
Proof.
  assert (H : forall l, forallb ws_byte l = true <-> Forall byte_blank l).
  { intro l. rewrite forallb_forall, Forall_forall. unfold byte_blank, ws_byte. split; intros H c Hc; specialize (H c Hc); lia. }
  unfold is_space. destruct b as [|c b].
  - split; [intro E; discriminate E|intros [E _]; contradiction].
  - rewrite H. split; [intro E; split; [discriminate|exact E]|tauto].
Qed.

Lemma pow_nz (d : Z) : ~ (10 # 1) ^ d == 0.
Proof. apply Qpower_not_0. discriminate. Qed.

Lemma unpack_is FO s dig ref b d r : get FO gga s dig [] = Ok (VInt d) -> get FO gga s ref [] = Ok (VInt r) ->
  coord_is b d r (coord_unpack FO s dig ref b).
Proof.
  intros HD HR. unfold coord_unpack. destruct (is_space b) eqn:E.
  - apply blank_space in E. left. tauto.
  - right. destruct (parse_int ws_byte b) as [z|] eqn:P.
    + left. rewrite HD, HR. cbn [bind]. exists z. eexists. split; [now apply (proj1 (C16_accepts b z))|]. split; [reflexivity|].
      assert (N := pow_nz d). field. exact N.
    + right. split; [|split; [|reflexivity]].
      * destruct b as [|c b]; [now left|right]. intro F. assert (X : is_space (c :: b) = true) by (apply blank_space; split; [discriminate|exact F]). congruence.
      * intros z H. apply (proj1 (C16_accepts b z)) in H. congruence.
Qed.

(** ** Reading *)

Lemma ok_inj {T} (a b : T) : Ok a = Ok b -> a = b.
Proof. intro H. now injection H. Qed.

(** Fields that are always there and are read as they stand. *)
Definition plain (f : field) : Prop :=
  fd_cond (f_d f) = None /\ fd_value (f_d f) = None /\ fd_optional (f_d f) = false.

Lemma shape_ok FO fs (s : state FO) f k : valid_index FO fs s f k -> key_shape_ok f k = true.
Proof.
  intros [H _]. unfold key_shape_ok, depth. destruct (f_loops f); destruct k; cbn in H; try reflexivity; discriminate H.
Qed.

Lemma get_plain FO rows (s : state FO) nm f k : lookup (mk_fs rows) nm = Some f -> plain f ->
  valid_index FO (mk_fs rows) s f k ->
  get_base FO (G FO (mk_fs rows) s) (mk_fs rows) s f k
  = match convert FO (f_d f) (stored FO s f k) with Ok v => Ok v | Err _ => Err ERuntime end.
Proof.
  intros HL (Hc & Hv & Ho) HI. unfold get_base. rewrite (lookup_name _ _ _ HL).
  rewrite in_shape_check by (now apply valid_index_shape).
  cbn [bind]. unfold check_condition. rewrite Hc. cbn [bind negb]. now rewrite Hv.
Qed.

Lemma read_int FO rows (s : state FO) inp s' rest nm f k : wf_rows rows = true ->
  read FO (mk_fs rows) false s inp = Ok (s', rest) -> lookup (mk_fs rows) nm = Some f -> plain f ->
  fd_ty (f_d f) = TInt -> valid_index FO (mk_fs rows) s' f k ->
  exists used b z, inp = used ++ rest /\ block_at FO (mk_fs rows) s' used f k b
    /\ size_is FO (mk_fs rows) s' f k (Z.of_nat (List.length b))
    /\ int_text byte_blank b z /\ get FO (mk_fs rows) s' nm k = Ok (VInt z).
Proof.
  intros Hwf HR HL HP HT HI. destruct (read_block_at FO rows false s inp s' rest Hwf HR) as (used & -> & H).
  destruct (H f k (lookup_in _ _ _ HL) HI) as (b & HB & HB1 & HB2). cbn [fst snd] in HB2.
  assert (Hc : cond_is FO (mk_fs rows) s' f k true) by (unfold cond_is; now rewrite (proj1 HP)).
  destruct HB2 as (HS & _); [exact Hc|rewrite (lookup_name _ _ _ HL); discriminate|].
  destruct HB1 as [(Hf & _)|(_ & HB1)]; [exfalso; apply cond_is_check in Hf; apply cond_is_check in Hc; cbn [fst snd] in Hf; congruence|].
  unfold parse_field in HS. destruct HP as (P1 & P2 & P3). rewrite P3, HT in HS. cbn [andb] in HS.
  destruct (rstrip_by ws_byte b) as [|c0 l0] eqn:E; [discriminate HS|].
  unfold conv_int in HS. destruct (parse_int ws_byte (c0 :: l0)) as [z|] eqn:P; [|discriminate HS].
  exists used, b, z. split; [reflexivity|]. split; [exact HB|]. split; [exact HB1|]. split.
  - apply (proj1 (C16_accepts b z)). rewrite <- E in P. now rewrite parse_int_rstrip in P.
  - unfold get. rewrite HL, (shape_ok FO _ s' f k HI). unfold fget, get_pub.
    rewrite (get_plain FO rows s' nm f k HL (conj P1 (conj P2 P3)) HI). apply ok_inj in HS. rewrite <- HS.
    unfold convert. rewrite HT. reflexivity.
Qed.

Lemma read_text FO rows (s : state FO) inp s' rest nm f k : wf_rows rows = true ->
  read FO (mk_fs rows) false s inp = Ok (s', rest) -> lookup (mk_fs rows) nm = Some f -> plain f ->
  fd_ty (f_d f) = TData KExt -> valid_index FO (mk_fs rows) s' f k ->
  exists used b, inp = used ++ rest /\ block_at FO (mk_fs rows) s' used f k b
    /\ size_is FO (mk_fs rows) s' f k (Z.of_nat (List.length b))
    /\ get FO (mk_fs rows) s' nm k = Ok (VBytes b).
Proof.
  intros Hwf HR HL HP HT HI. destruct (read_block_at FO rows false s inp s' rest Hwf HR) as (used & -> & H).
  destruct (H f k (lookup_in _ _ _ HL) HI) as (b & HB & HB1 & HB2). cbn [fst snd] in HB2.
  assert (Hc : cond_is FO (mk_fs rows) s' f k true) by (unfold cond_is; now rewrite (proj1 HP)).
  destruct HB2 as (HS & _); [exact Hc|rewrite (lookup_name _ _ _ HL); discriminate|].
  destruct HB1 as [(Hf & _)|(_ & HB1)]; [exfalso; apply cond_is_check in Hf; apply cond_is_check in Hc; cbn [fst snd] in Hf; congruence|].
  unfold parse_field in HS. destruct HP as (P1 & P2 & P3). rewrite P3, HT in HS. cbn [andb] in HS. apply ok_inj in HS.
  exists used, b. split; [reflexivity|]. split; [exact HB|]. split; [exact HB1|].
  unfold get. rewrite HL, (shape_ok FO _ s' f k HI). unfold fget, get_pub.
  rewrite (get_plain FO rows s' nm f k HL (conj P1 (conj P2 P3)) HI). rewrite <- HS.
  unfold convert. rewrite HT. cbn [conv_bytes bind]. unfold unpack. rewrite HT. reflexivity.
Qed.

(** ** The table of RSMGGA *)

Lemma gga_wf : wf_rows desc_TreRSMGGA = true.
Proof. vm_compute. reflexivity. Qed.

Definition scalar_int (nm : string) (sz : Z) : Prop :=
  exists f, lookup gga nm = Some f /\ plain f /\ fd_ty (f_d f) = TInt /\ f_loops f = []
    /\ fd_size (f_d f) = SzInt sz /\ fd_size_offset (f_d f) = 0%Z.
Ltac scalar := eexists; split; [vm_compute; reflexivity|repeat split].

Lemma gga_len a : a = row_axis \/ a = col_axis -> scalar_int (ax_len a) 2.
Proof. intros [->| ->]; scalar. Qed.
Lemma gga_dig a : a = row_axis \/ a = col_axis -> scalar_int (ax_dig a) 1.
Proof. intros [->| ->]; scalar. Qed.
Lemma gga_ref a : a = row_axis \/ a = col_axis -> scalar_int (ax_ref a) 9.
Proof. intros [->| ->]; scalar. Qed.
Lemma gga_npln : scalar_int "npln" 3.
Proof. scalar. Qed.
Lemma gga_nm a : a = row_axis \/ a = col_axis ->
  exists f, lookup gga (ax_nm a) = Some f /\ plain f /\ fd_ty (f_d f) = TData KExt
    /\ f_loops f = [EFld "npln" 0; EMul (EFld "nxpts" 1) (EFld "nypts" 1)]
    /\ fd_size (f_d f) = SzExpr (EFld (ax_len a) 0) /\ fd_size_offset (f_d f) = 0%Z.
Proof. intros [->| ->]; scalar. Qed.
Lemma gga_pts nm : nm = "nxpts"%string \/ nm = "nypts"%string -> exists f, lookup gga nm = Some f /\ depth f = 1%nat.
Proof. intros [->| ->]; (eexists; split; [vm_compute; reflexivity|reflexivity]). Qed.

(** A name in an expression stands for what the attribute shows. *)
Lemma eval_scalar FO (s : state FO) nm f k v : lookup gga nm = Some f -> f_loops f = [] ->
  (eval FO (G FO gga s) gga k (EFld nm 0) = Ok v <-> get FO gga s nm [] = Ok v).
Proof.
  intros HL HD. cbn [eval]. unfold eval_ref, get, depth, key_shape_ok, depth. rewrite HL, HD. cbn [List.length firstn].
  unfold fget. pose proof (G_get_pub FO desc_TreRSMGGA s f [] gga_wf (lookup_in _ _ _ HL)) as E.
  change (mk_fs desc_TreRSMGGA) with gga in E. rewrite <- E. reflexivity.
Qed.
Lemma eval_one FO (s : state FO) nm f i k v : lookup gga nm = Some f -> depth f = 1%nat ->
  (eval FO (G FO gga s) gga (i :: k) (EFld nm 1) = Ok v <-> get FO gga s nm [i] = Ok v).
Proof.
  intros HL HD. cbn [eval]. unfold eval_ref, get, key_shape_ok. rewrite HL, HD. cbn [List.length firstn Nat.ltb Nat.leb].
  unfold fget. pose proof (G_get_pub FO desc_TreRSMGGA s f [i] gga_wf (lookup_in _ _ _ HL)) as E.
  change (mk_fs desc_TreRSMGGA) with gga in E. rewrite <- E. reflexivity.
Qed.

Lemma point_valid FO (s : state FO) a f i j np nx ny : a = row_axis \/ a = col_axis -> lookup gga (ax_nm a) = Some f ->
  get FO gga s "npln" [] = Ok (VInt np) -> (0 <= i < np)%Z ->
  get FO gga s "nxpts" [i] = Ok (VInt nx) -> get FO gga s "nypts" [i] = Ok (VInt ny) -> (0 <= j < nx * ny)%Z ->
  valid_index FO gga s f [i; j].
Proof.
  intros HA HL HN Hi HX HY Hj. destruct (gga_nm a HA) as (f' & HL' & _ & _ & HS & _).
  assert (f' = f) by congruence. subst f'. unfold valid_index. rewrite HS. split; [reflexivity|].
  intros [|[|m]] Hm; [| |cbn in Hm; lia].
  - exists np. cbn [nth firstn]. split; [|exact Hi]. right. exists (VInt np). split; [|reflexivity].
    destruct gga_npln as (fn & Ln & _ & _ & Dn & _). now apply (eval_scalar FO s "npln" fn [] (VInt np) Ln Dn).
  - exists (nx * ny)%Z. cbn [nth firstn]. split; [|exact Hj]. right. exists (VInt (nx * ny)). split; [|reflexivity].
    destruct (gga_pts "nxpts" (or_introl eq_refl)) as (fx & Lx & Dx). destruct (gga_pts "nypts" (or_intror eq_refl)) as (fy & Ly & Dy).
    cbn [eval]. apply (eval_one FO s "nxpts" fx i [] _ Lx Dx) in HX. apply (eval_one FO s "nypts" fy i [] _ Ly Dy) in HY.
    cbn [eval] in HX, HY. rewrite HX, HY. reflexivity.
Qed.

Lemma scalar_valid FO (s : state FO) f : f_loops f = [] -> valid_index FO gga s f [].
Proof. intro H. unfold valid_index. rewrite H. split; [reflexivity|]. intros j Hj. cbn in Hj. lia. Qed.

Lemma read_scalar FO (s s' : state FO) inp rest nm sz : read FO gga false s inp = Ok (s', rest) -> scalar_int nm sz ->
  exists b z, Z.of_nat (List.length b) = sz /\ int_text byte_blank b z /\ get FO gga s' nm [] = Ok (VInt z).
Proof.
  intros HR (f & HL & HP & HT & HD & HZ & HO).
  destruct (read_int FO desc_TreRSMGGA s inp s' rest nm f [] gga_wf HR HL HP HT (scalar_valid FO s' f HD)) as (used & b & z & _ & _ & H1 & H2 & H3).
  exists b, z. split; [|split; [exact H2|exact H3]]. destruct H1 as (raw & H1 & H4). rewrite HZ in H1. subst raw. rewrite HO in H4. lia.
Qed.

(** A number of [n] characters has at most [n] digits, one of a single character is a digit. *)
Lemma text_val_lt ds : all_digits ds -> (text_val ds < 10 ^ N.of_nat (List.length ds))%N.
Proof.
  induction ds as [|c ds IH]; intro H; [cbn; lia|]. inversion_clear H as [|? ? H1 H2]. specialize (IH H2). cbn [text_val List.length].
  rewrite Nat2N.inj_succ, N.pow_succ_r'. assert (0 < 10 ^ N.of_nat (List.length ds))%N by (apply N.neq_0_lt_0, N.pow_nonzero; discriminate). nia.
Qed.
Lemma groups_length gs : (List.length (List.concat gs) <= List.length (more_groups gs))%nat.
Proof. induction gs as [|g gs IH]; cbn; [lia|]. rewrite !app_length. lia. Qed.
Lemma groups_digits gs : Forall (fun d => d <> [] /\ all_digits d) gs -> all_digits (List.concat gs).
Proof. induction 1 as [|g gs (_ & H) _ IH]; cbn; [constructor|]. apply Forall_app. auto. Qed.
Lemma int_text_bound b z : int_text byte_blank b z -> (Z.abs z < 10 ^ Z.of_nat (List.length b))%Z.
Proof.
  intros (pre & sg & g & gs & post & -> & _ & _ & HF & Hz).
  assert (HD : all_digits (g ++ List.concat gs)) by (change (g ++ List.concat gs) with (List.concat (g :: gs)); now apply groups_digits).
  apply text_val_lt in HD. rewrite app_length in HD. assert (HG := groups_length gs).
  assert (HL : (10 ^ N.of_nat (List.length g + List.length (List.concat gs)) <= 10 ^ N.of_nat (List.length (pre ++ sg ++ g ++ more_groups gs ++ post)))%N).
  { apply N.pow_le_mono_r; [discriminate|]. rewrite !app_length. lia. }
  assert (E : (10 ^ Z.of_nat (List.length (pre ++ sg ++ g ++ more_groups gs ++ post)))%Z
              = Z.of_N (10 ^ N.of_nat (List.length (pre ++ sg ++ g ++ more_groups gs ++ post)))).
  { rewrite N2Z.inj_pow, nat_N_Z. reflexivity. }
  rewrite E. lia.
Qed.
Lemma int_text_one b z : int_text byte_blank b z -> List.length b = 1%nat -> (0 <= z <= 9)%Z.
Proof.
  intros H H1. assert (HB := int_text_bound b z H). rewrite H1 in HB. cbn in HB. destruct H as (pre & sg & g & gs & post & -> & _ & _ & HF & Hz).
  inversion_clear HF as [|? ? (N & _) _]. rewrite !app_length in H1. destruct g; [contradiction|]. cbn [List.length] in H1.
  destruct Hz as [(_ & ->)|(-> & _)]; [lia|cbn in H1; lia].
Qed.

(** After a record was read, a coordinate of the grid shows what stands for it in the record:
    its text [b] is the block of bytes for point [j] of plane [i], as many as [tnumrd] says. *)
Theorem C68_coord FO (s s' : state FO) inp rest a i j np nx ny : a = row_axis \/ a = col_axis ->
  read FO gga false s inp = Ok (s', rest) ->
  get FO gga s' "npln" [] = Ok (VInt np) -> (0 <= i < np)%Z ->
  get FO gga s' "nxpts" [i] = Ok (VInt nx) -> get FO gga s' "nypts" [i] = Ok (VInt ny) -> (0 <= j < nx * ny)%Z ->
  exists f used b d r, lookup gga (ax_nm a) = Some f /\ inp = used ++ rest /\ block_at FO gga s' used f [i; j] b
    /\ get FO gga s' (ax_len a) [] = Ok (VInt (Z.of_nat (List.length b)))
    /\ get FO gga s' (ax_dig a) [] = Ok (VInt d) /\ (0 <= d <= 9)%Z
    /\ get FO gga s' (ax_ref a) [] = Ok (VInt r)
    /\ coord_is b d r (coord_get FO (ax_nm a) (ax_dig a) (ax_ref a) s' [i; j]).
Proof.
  intros HA HR HN Hi HX HY Hj. destruct (gga_nm a HA) as (f & HL & HP & HT & HS & HZ & HO).
  assert (HV := point_valid FO s' a f i j np nx ny HA HL HN Hi HX HY Hj).
  destruct (read_text FO desc_TreRSMGGA s inp s' rest (ax_nm a) f [i; j] gga_wf HR HL HP HT HV) as (used & b & E & HB & HZ' & HG).
  destruct (read_scalar FO s s' inp rest _ _ HR (gga_dig a HA)) as (bd & d & Ld & Td & Gd).
  destruct (read_scalar FO s s' inp rest _ _ HR (gga_ref a HA)) as (br & r & _ & _ & Gr).
  exists f, used, b, d, r. split; [exact HL|]. split; [exact E|]. split; [exact HB|]. split.
  { destruct HZ' as (raw & H1 & H2). rewrite HZ in H1. destruct H1 as (v & Hv & Hr).
    destruct (gga_len a HA) as (fl & Ll & _ & _ & Dl & _). apply (eval_scalar FO s' (ax_len a) fl _ v Ll Dl) in Hv.
    destruct (read_scalar FO s s' inp rest _ _ HR (gga_len a HA)) as (bl & z & _ & _ & Gz). rewrite Gz in Hv. apply ok_inj in Hv.
    subst v. cbn in Hr. apply ok_inj in Hr. subst raw. rewrite HO in H2. rewrite Gz. do 2 f_equal. lia. }
  split; [exact Gd|]. split; [apply (int_text_one bd d Td); lia|]. split; [exact Gr|].
  unfold coord_get. unfold gga in HG |- *. rewrite HG. cbn [bind]. apply unpack_is; [exact Gd|exact Gr].
Qed.

(** It is within [10^(tnumrd - fnumrd)] of the reference. *)
Theorem C68_near FO (s s' : state FO) inp rest a i j np nx ny t d r q : a = row_axis \/ a = col_axis ->
  read FO gga false s inp = Ok (s', rest) ->
  get FO gga s' "npln" [] = Ok (VInt np) -> (0 <= i < np)%Z ->
  get FO gga s' "nxpts" [i] = Ok (VInt nx) -> get FO gga s' "nypts" [i] = Ok (VInt ny) -> (0 <= j < nx * ny)%Z ->
  get FO gga s' (ax_len a) [] = Ok (VInt t) -> get FO gga s' (ax_dig a) [] = Ok (VInt d) ->
  get FO gga s' (ax_ref a) [] = Ok (VInt r) ->
  coord_get FO (ax_nm a) (ax_dig a) (ax_ref a) s' [i; j] = Ok (CAt q) ->
  Qabs (q - inject_Z r) < (10 # 1) ^ (t - d).
Proof.
  intros HA HR HN Hi HX HY Hj HL HD HF HQ.
  destruct (C68_coord FO s s' inp rest a i j np nx ny HA HR HN Hi HX HY Hj) as (f & used & b & d' & r' & _ & _ & _ & Hb & Hd & Hd9 & Hr & HC).
  assert (Et : t = Z.of_nat (List.length b)) by (apply ok_inj in Hb || (rewrite HL in Hb; apply ok_inj in Hb); congruence).
  assert (d' = d) by (rewrite HD in Hd; apply ok_inj in Hd; congruence).
  assert (r' = r) by (rewrite HF in Hr; apply ok_inj in Hr; congruence). subst d' r'.
  rewrite HQ in HC. destruct HC as [(_ & _ & E)|[(z & q' & HI & E & Hz)|(_ & _ & E)]]; [discriminate E| |discriminate E].
  injection E as <-. apply int_text_bound in HI. rewrite <- Et in HI.
  assert (P : 0 < (10 # 1) ^ d) by (apply Qpower_0_lt; reflexivity).
  assert (Hn := pow_nz d).
  assert (B : Qabs (q - inject_Z r) * (10 # 1) ^ d < (10 # 1) ^ (t - d) * (10 # 1) ^ d).
  { assert (E1 : Qabs (q - inject_Z r) * (10 # 1) ^ d == Qabs (inject_Z z)).
    { rewrite <- Hz, Qabs_Qmult. apply Qmult_comp; [reflexivity|]. symmetry. apply Qabs_pos. lra. }
    assert (E2 : (10 # 1) ^ (t - d) * (10 # 1) ^ d == inject_Z (10 ^ t)).
    { rewrite <- Qpower_plus by discriminate. replace (t - d + d)%Z with t by lia.
      change (10 # 1) with (inject_Z 10). rewrite Zpower_Qpower by lia. reflexivity. }
    rewrite E1, E2. change (Qabs (inject_Z z)) with (inject_Z (Z.abs z)). rewrite <- Zlt_Qlt. exact HI. }
  apply (Qmult_lt_r _ _ _ P). exact B.
Qed.

(** ** Assignment *)

(** A field whose class cannot pack takes no value at all. *)
Lemma set_ext FO rows (s : state FO) nm f k v : lookup (mk_fs rows) nm = Some f -> fd_ty (f_d f) = TData KExt ->
  exists e, set FO (mk_fs rows) s nm k v = (s, Err e).
Proof.
  intros HL HT. unfold set. rewrite HL. destruct (key_shape_ok f k); [|eauto]. unfold fset, fuel. cbn [setf]. rewrite HT.
  destruct v as [v|b]; [|eauto]. unfold pack. rewrite HT. eauto.
Qed.

Theorem C68_refused FO (s : state FO) a k v : a = row_axis \/ a = col_axis ->
  exists e, set FO gga s (ax_nm a) k v = (s, Err e).
Proof. intro HA. destruct (gga_nm a HA) as (f & HL & _ & HT & _). exact (set_ext FO _ s _ f k v HL HT). Qed.

Lemma gga_data f : In f (fs_fields gga) -> is_data_ty (fd_ty (f_d f)) = true -> fd_ty (f_d f) = TData KExt.
Proof.
  assert (H : forallb (fun f => match fd_ty (f_d f) with TData KExt => true | TData _ => false | _ => true end) (fs_fields gga) = true)
    by (vm_compute; reflexivity).
  rewrite forallb_forall in H. intros Hf HD. specialize (H f Hf). destruct (fd_ty (f_d f)) as [| | | |[]]; cbn in HD; congruence.
Qed.

Lemma never_stored FO a f k ops : a = row_axis \/ a = col_axis -> lookup gga (ax_nm a) = Some f ->
  forall s : state FO, st_val FO (assign_all FO desc_TreRSMGGA s ops) (f_id f) k = st_val FO s (f_id f) k.
Proof.
  intros HA HL. destruct (gga_nm a HA) as (f' & HL' & _ & HT & _). assert (f' = f) by congruence. subst f'.
  induction ops as [|[[nm k0] v] ops IH]; intro s; [reflexivity|].
  change (assign_all FO desc_TreRSMGGA s ((nm, k0, v) :: ops))
    with (assign_all FO desc_TreRSMGGA (fst (set FO gga s nm k0 v)) ops).
  rewrite IH.
  destruct (lookup gga nm) as [f0|] eqn:L0.
  - destruct (is_data_ty (fd_ty (f_d f0))) eqn:D0.
    + apply (gga_data f0 (lookup_in _ _ _ L0)) in D0. destruct (set_ext FO desc_TreRSMGGA s nm f0 k0 v L0 D0) as (e & E).
      change (mk_fs desc_TreRSMGGA) with gga in E. rewrite E. reflexivity.
    + destruct (assign_all_untouched FO desc_TreRSMGGA f k [(nm, k0, v)] s (lookup_in _ _ _ HL)) as (H & _); [|exact H].
      intros op [<-|[]] (f1 & L1 & H1). cbn [fst snd] in *. change (mk_fs desc_TreRSMGGA) with gga in L1.
      assert (f1 = f0) by congruence. subst f1. destruct H1 as [(-> & _)|(H1 & _)]; [rewrite HT in D0; discriminate D0|congruence].
  - unfold set. rewrite L0. reflexivity.
Qed.

(** Whatever is assigned to a new TRE: the coordinates of the points of the grid cannot be read, and
    unless they take no room at all ([tnumrd] and [tnumcd] 0), the TRE cannot be written. *)
Theorem C68_never FO ops a i j np nx ny : a = row_axis \/ a = col_axis ->
  let s := assign_all FO desc_TreRSMGGA (init_state FO) ops in
  get FO gga s "npln" [] = Ok (VInt np) -> (0 <= i < np)%Z ->
  get FO gga s "nxpts" [i] = Ok (VInt nx) -> get FO gga s "nypts" [i] = Ok (VInt ny) -> (0 <= j < nx * ny)%Z ->
  coord_get FO (ax_nm a) (ax_dig a) (ax_ref a) s [i; j] = Err EValue
  /\ forall out, write FO gga s = Ok out -> exists v, get FO gga s (ax_len a) [] = Ok v /\ as_Z FO v = Ok 0%Z.
Proof.
  cbn zeta. set (s := assign_all FO desc_TreRSMGGA (init_state FO) ops). intros HA HN Hi HX HY Hj.
  destruct (gga_nm a HA) as (f & HL & HP & HT & HS & HZ & HO).
  assert (HV := point_valid FO s a f i j np nx ny HA HL HN Hi HX HY Hj).
  assert (HD : fd_default (f_d f) = DfNone).
  { destruct HA as [->| ->]; cbn [ax_nm row_axis col_axis] in HL; vm_compute in HL; injection HL as <-; reflexivity. }
  assert (HST : stored FO s f [i; j] = SVal (VInt 0)).
  { unfold stored, s. rewrite (never_stored FO a f [i; j] ops HA HL (init_state FO)). cbn [st_val init_state].
    unfold default_val. rewrite HD, (proj2 (proj2 HP)), HT. reflexivity. }
  assert (HG : get_base FO (G FO gga s) gga s f [i; j] = Ok (VBytes [])).
  { pose proof (get_plain FO desc_TreRSMGGA s (ax_nm a) f [i; j] HL HP HV) as E. change (mk_fs desc_TreRSMGGA) with gga in E.
    rewrite E, HST. unfold convert. rewrite HT. reflexivity. }
  split.
  - unfold coord_get, get. rewrite HL, (shape_ok FO gga s f [i; j] HV). unfold fget, get_pub. rewrite HG. cbn [bind]. rewrite HT.
    unfold unpack. rewrite HT. cbn [bind]. reflexivity.
  - intros out W.
    destruct (write_block_at FO desc_TreRSMGGA s out f [i; j] W (lookup_in _ _ _ HL) HV) as (b & _ & HB).
    unfold block in HB. cbn [fst snd] in HB. destruct HB as [(Hc & _)|(_ & HZ1 & HB)].
    + unfold check_condition in Hc. rewrite (proj1 HP) in Hc. discriminate Hc.
    + unfold field_bytes in HB. apply bind_ok_elim in HB as (n & Hn & HB). rewrite HST in HB.
      change (mk_fs desc_TreRSMGGA) with gga in HB, Hn. rewrite HG in HB. cbn [bind] in HB.
      rewrite HT in HB. destruct (has_len [] n) eqn:E; [|discriminate HB].
      unfold has_len in E. apply Z.eqb_eq in E. cbn in E. subst n.
      apply (proj2 (size_is_fsize FO gga s f [i; j] 0)) in Hn. destruct Hn as (raw & H1 & H2). rewrite HZ in H1.
      destruct H1 as (v & Hv & Hr). destruct (gga_len a HA) as (fl & Ll & _ & _ & Dl & _).
      apply (eval_scalar FO s (ax_len a) fl _ v Ll Dl) in Hv. exists v. split; [exact Hv|]. rewrite HO in H2.
      replace raw with 0%Z in Hr by lia. exact Hr.
Qed.

(** ** Whom the attributes ask *)

Section Attr.
Variable FO : FloatOps.
Variable O : Type.
Variable c : icls O.
Variable A : Type.
Variable has : O -> option A.

(** After any history: what the latest object says, if it has the attribute, and nothing is read
    for that; otherwise what the field of that name shows, and an error if there is none. *)
Lemma own_or_cases os nm : let x := isteps FO O c (i_new FO O) os in
  (forall o a, latest FO O c os o -> has o = Some a -> own_or FO O c A x has nm = (x, Ok (AOwn FO A a)))
  /\ ((forall o a, latest FO O c os o -> has o <> Some a) ->
      (forall v, snd (own_or FO O c A x has nm) = Ok (AField FO A v)
        <-> snd (istep FO O c x (IGet FO O nm [])) = ISee FO (SeeVal FO (Ok v)))
      /\ (forall a, snd (own_or FO O c A x has nm) <> Ok (AOwn FO A a))).
Proof.
  cbn zeta. set (x := isteps FO O c (i_new FO O) os). split.
  - intros o a HL HA. unfold own_or. apply (obj_latest FO O c os o) in HL. unfold x. now rewrite HL, HA.
  - intro HN. assert (E : own_or FO O c A x has nm = ask FO O c A x nm).
    { unfold own_or. destruct (i_obj FO O x) as [o|] eqn:Ho; [|reflexivity]. destruct (has o) as [a|] eqn:Ha; [|reflexivity].
      exfalso. apply (HN o a); [|exact Ha]. now apply (obj_latest FO O c os o). }
    rewrite E. unfold ask. destruct (istep FO O c x (IGet FO O nm [])) as [x' sn]. cbn [snd].
    destruct sn as [ob|r|r]; [destruct ob as [[v|e]|r|r]| |]; cbn [snd]; split; intros; try split; intro X; try discriminate X; congruence.
Qed.
End Attr.

Theorem C68_edition FO O (c : icls O) A (has_edition : O -> option A) os : let x := isteps FO O c (i_new FO O) os in
  (forall o a, latest FO O c os o -> has_edition o = Some a -> i_edition FO O c A has_edition x = (x, Ok (AOwn FO A a)))
  /\ ((forall o a, latest FO O c os o -> has_edition o <> Some a) ->
      forall v, snd (i_edition FO O c A has_edition x) = Ok (AField FO A v)
        <-> snd (istep FO O c x (IGet FO O "edition" [])) = ISee FO (SeeVal FO (Ok v))).
Proof. cbn zeta. destruct (own_or_cases FO O c A has_edition os "edition") as (H1 & H2). split; [exact H1|]. intro HN. apply (H2 HN). Qed.

(** The sections are no fields: without an answer of the object there is none. *)
Theorem C68_sections FO O (c : icls O) A (has_row has_col : O -> option A) os :
  lookup (ic_fs O c) "row_section_number" = None -> lookup (ic_fs O c) "col_section_number" = None ->
  let x := isteps FO O c (i_new FO O) os in
  (forall o a, latest FO O c os o -> has_row o = Some a -> i_row FO O c A has_row x = (x, Ok (AOwn FO A a)))
  /\ (forall o a, latest FO O c os o -> has_col o = Some a -> i_col FO O c A has_col x = (x, Ok (AOwn FO A a)))
  /\ ((forall o a, latest FO O c os o -> has_row o <> Some a) -> exists e, snd (i_row FO O c A has_row x) = Err e)
  /\ ((forall o a, latest FO O c os o -> has_col o <> Some a) -> exists e, snd (i_col FO O c A has_col x) = Err e).
Proof.
  intros LR LC. cbn zeta. set (x := isteps FO O c (i_new FO O) os).
  assert (N : forall nm v, lookup (ic_fs O c) nm = None -> snd (istep FO O c x (IGet FO O nm [])) <> ISee FO (SeeVal FO (Ok v))).
  { intros nm v L. cbn [istep dstep]. destruct (force FO (ic_fs O c) (i_d FO O x)) as [d [u|e]]; cbn [on_forced step snd].
    - unfold get. rewrite L. discriminate.
    - discriminate. }
  assert (K : forall has nm, lookup (ic_fs O c) nm = None ->
    (forall o a, latest FO O c os o -> has o <> Some a) -> exists e, snd (own_or FO O c A x has nm) = Err e).
  { intros has nm L HN. destruct (own_or_cases FO O c A has os nm) as (_ & H2). destruct (H2 HN) as (H3 & H4). fold x in H3, H4.
    destruct (snd (own_or FO O c A x has nm)) as [[a|v]|e]; [exfalso; now apply (H4 a)|exfalso|eauto].
    apply (N nm v L). now apply H3. }
  destruct (own_or_cases FO O c A has_row os "row_section_number") as (R & _).
  destruct (own_or_cases FO O c A has_col os "col_section_number") as (C & _).
  split; [exact R|]. split; [exact C|]. split; intro HN; apply K; auto.
Qed.

(** ** Cases *)

(** A grid of two planes, with one and two points.  The texts are "12.34", blank, "-5" and
    anything. *)
Definition e0 : list N := str "+0.00000000000000E+00".
Definition gga_head (planes digits : string) : list N :=
  ljust 80 (str "image") ++ ljust 40 (str "ed 1") ++ str "001" ++ str "002" ++ e0 ++ e0 ++ str "1" ++ str planes
  ++ e0 ++ e0 ++ e0 ++ e0 ++ e0 ++ e0 ++ str "000000100" ++ str "-00000010" ++ str "05" ++ str "03" ++ str digits.
Definition gga_case : list N := gga_head "002" "20" ++ str "00010002"
  ++ str "001001" ++ str "01234" ++ str "  7" ++ str "002001" ++ str "     " ++ str "abc" ++ str "-0050" ++ str "   ".
Definition gga_state : state DecF := match read DecF gga false (init_state DecF) gga_case with Ok (s, _) => s | Err _ => init_state DecF end.

(** What is seen: nothing, not a number, so many [10^-d]s, an error. *)
Inductive shows := ShNothing | ShNan | ShNum (q : Q) | ShErr (e : exn).
Definition shown_coord (x : res coord) : shows :=
  match x with Ok CNone => ShNothing | Ok CNan => ShNan | Ok (CAt q) => ShNum (Qred q) | Err e => ShErr e end.

Example C68_case :
  match read DecF gga false (init_state DecF) gga_case with Ok (_, []) => true | _ => false end = true
  /\ map (fun k => shown_coord (rcoord DecF gga_state k)) [[0; 0]; [1; 0]; [1; 1]]%Z
     = [ShNum (5617 # 50); ShNan; ShNum (199 # 2)]
  /\ map (fun k => shown_coord (ccoord DecF gga_state k)) [[0; 0]; [1; 0]; [1; 1]]%Z
     = [ShNum (-3 # 1); ShErr EValue; ShNan].
Proof. split; [|split]; vm_compute; reflexivity. Qed.

(** A new TRE with a grid of one plane and [n] points. *)
Definition gga_ops (n : Z) : list (string * list Z * sval DecF) :=
  [("npln", [], SVal (VInt 1)); ("tnumrd", [], SVal (VInt 5)); ("tnumcd", [], SVal (VInt 3)); ("nxpts", [0%Z], SVal (VInt n));
   ("nypts", [0%Z], SVal (VInt 1)); ("rcoord", [0; 0]%Z, SVal (VInt 7)); ("ccoord", [0; 0]%Z, SVal (VInt 7))]%string.
Definition gga_built (n : Z) : state DecF := assign_all DecF desc_TreRSMGGA (init_state DecF) (gga_ops n).

(** Coordinates can be assigned, and a TRE with a grid written. *)
Theorem C68_build_refuted : exists s v, (exists ops, s = assign_all DecF desc_TreRSMGGA (init_state DecF) ops)
  /\ (exists b, write DecF gga (gga_built 0) = Ok b)
  /\ (exists e, snd (set DecF gga s "rcoord" [0; 0]%Z v) = Err e) /\ (exists e, write DecF gga s = Err e).
Proof.
  exists (gga_built 1), (SVal (VInt 7)). split; [exists (gga_ops 1); reflexivity|].
  assert (W0 : match write DecF gga (gga_built 0) with Ok _ => true | Err _ => false end = true) by (vm_compute; reflexivity).
  assert (W1 : match write DecF gga (gga_built 1) with Ok _ => false | Err _ => true end = true) by (vm_compute; reflexivity).
  split; [destruct (write DecF gga (gga_built 0)); [eauto|discriminate W0]|]. split.
  - destruct (C68_refused DecF (gga_built 1) row_axis [0; 0]%Z (SVal (VInt 7)) (or_introl eq_refl)) as (e & E).
    change (ax_nm row_axis) with "rcoord"%string in E. rewrite E. exists e. reflexivity.
  - destruct (write DecF gga (gga_built 1)); [discriminate W1|eauto].
Qed.
Example C68_built :
  shown_coord (rcoord DecF (gga_built 1) [0; 0]%Z) = ShErr EValue
  /\ match get DecF gga (gga_built 1) "nxpts" [0%Z] with Ok (VInt 1) => true | _ => false end = true.
Proof. split; vm_compute; reflexivity. Qed.

(** RSMPCA with an object: its text, and the edition kept apart.  The attribute is the object's,
    also when the fields are still those of an earlier one. *)
Definition ed_rows : list row := [RField (ex_field "edition" 4 TStr); RField (ex_field "rsn" 3 TInt)].
Definition ed_cls : icls (list N) := {| ic_tag := str "RSMPCA"; ic_rows := ed_rows; ic_string := TsText; ic_read := fun t => Ok t |}.
Definition ed_has (o : list N) : option (list N) := match o with 45%N :: _ => None | _ => Some (firstn 4 o) end.
Definition ed_run := isteps DecF (list N) ed_cls (i_new DecF (list N)).
Inductive ed_seen := EdOwn (t : list N) | EdField (t : list N) | EdErr (e : exn) | EdElse.
Definition ed_show (r : res (attr DecF (list N))) : ed_seen :=
  match r with Ok (AOwn _ _ a) => EdOwn a | Ok (AField _ _ (VStr t)) => EdField t | Ok _ => EdElse | Err e => EdErr e end.
Definition edition_of os := ed_show (snd (i_edition DecF (list N) ed_cls (list N) ed_has (ed_run os))).
Definition row_of os := ed_show (snd (i_row DecF (list N) ed_cls (list N) (fun _ => None) (ed_run os))).
Definition field_of os := match snd (istep DecF (list N) ed_cls (ed_run os) (IGet DecF (list N) "edition" [])) with
  ISee _ (SeeVal _ (Ok (VStr t))) => EdField t | ISee _ (SeeVal _ (Err e)) => EdErr e | _ => EdElse end.
Definition rd t := IReadBytes DecF (list N) (str t).
Definition pt t := IPut DecF (list N) (str t).
Example C68_asked :
  edition_of [rd "ed 1001"] = EdOwn (str "ed 1") /\ edition_of [rd "-d 1001"] = EdField (str "-d 1")
  /\ row_of [rd "ed 1001"] = EdErr EAttr /\ edition_of [] = EdField [].
Proof. repeat split; vm_compute; reflexivity. Qed.

(** The attribute and the field of the same name show the same. *)
Theorem C68_edition_refuted : exists os, exists t t', t <> t' /\ edition_of os = EdOwn t /\ field_of os = EdField t'.
Proof.
  exists [rd "ed 1001"; pt "ed 2002"], (str "ed 2"), (str "ed 1"). split; [discriminate|]. split; vm_compute; reflexivity.
Qed.

Print Assumptions C68_coord.
Print Assumptions C68_near.
Print Assumptions C68_refused.
Print Assumptions C68_never.
Print Assumptions C68_build_refuted.
Print Assumptions C68_edition.
Print Assumptions C68_sections.
Print Assumptions C68_edition_refuted.
