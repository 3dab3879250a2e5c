(** Properties C15, C16, C17 and C43: the codecs of single values. *)
From Verif Require Import Base BaseLemmas Engine Wf EngineLemmas Codec RoundTrip Rewrite Literal
  Positions Keys Deps Assign Update Decimal DecimalLemmas DecimalFit Spec Reach TextSpec Ex DescsTre2.
From Coq Require Import ZifyBool ZifyNat ZifyN QArith Qabs Qpower Lqa.
Open Scope Z_scope.
Open Scope list_scope.

(** ** C15 Binary integers *)

(** The integers of [n] bytes. *)
Definition fits (signed : bool) (n : nat) (z : Z) : Prop :=
  if signed then - 2 ^ (8 * Z.of_nat n - 1) <= z < 2 ^ (8 * Z.of_nat n - 1)
  else 0 <= z < 2 ^ (8 * Z.of_nat n).

(** [b] is [z] in [n] bytes, most significant first, in two's complement. *)
Definition big_endian (n : nat) (z : Z) (b : list N) : Prop :=
  List.length b = n
  /\ forall i, (i < n)%nat -> Z.of_N (nth i b 0%N) = (z / 256 ^ (Z.of_nat n - 1 - Z.of_nat i)) mod 256.

Definition int_size (n : nat) : Prop := (n = 1 \/ n = 2 \/ n = 3 \/ n = 4 \/ n = 8)%nat.

Lemma nth_be_bytes k : forall n i, (i < k)%nat ->
  nth i (be_bytes k n) 0%N = ((n / 256 ^ N.of_nat (k - 1 - i)) mod 256)%N.
Proof.
  induction k as [|k IH]; intros n i Hi; [lia|]. cbn [be_bytes].
  destruct (Nat.eq_dec i k) as [->|Hne].
  - rewrite app_nth2 by (rewrite length_be_bytes; lia). rewrite length_be_bytes, Nat.sub_diag. cbn [nth].
    replace (S k - 1 - k)%nat with O by lia. cbn. now rewrite N.div_1_r.
  - rewrite app_nth1 by (rewrite length_be_bytes; lia). rewrite IH by lia.
    rewrite N.div_div by (try apply N.pow_nonzero; lia). do 2 f_equal.
    replace (N.of_nat (S k - 1 - i)) with (N.succ (N.of_nat (k - 1 - i))) by lia. now rewrite N.pow_succ_r'.
Qed.

Lemma big_endian_bytes n z : big_endian n z (be_bytes n (Z.to_N (z mod 256 ^ Z.of_nat n))).
Proof.
  split; [apply length_be_bytes|]. intros i Hi. rewrite nth_be_bytes by exact Hi.
  assert (P : 0 < 256 ^ Z.of_nat n) by (apply Z.pow_pos_nonneg; lia).
  pose proof (Z.mod_pos_bound z _ P) as B.
  rewrite N2Z.inj_mod, N2Z.inj_div, N2Z.inj_pow, Z2N.id by lia.
  change (Z.of_N 256) with 256.
  replace (Z.of_N (N.of_nat (n - 1 - i))) with (Z.of_nat n - 1 - Z.of_nat i) by lia.
  set (e := Z.of_nat n - 1 - Z.of_nat i).
  replace (256 ^ Z.of_nat n) with (256 ^ e * 256 * 256 ^ Z.of_nat i)
    by (rewrite <- (Z.pow_1_r 256) at 2; rewrite <- !Z.pow_add_r by lia; f_equal; lia).
  assert (P1 : 0 < 256 ^ e) by (apply Z.pow_pos_nonneg; lia).
  assert (P2 : 0 < 256 ^ Z.of_nat i) by (apply Z.pow_pos_nonneg; lia).
  rewrite (Z.mul_comm _ (256 ^ Z.of_nat i)), (Z.mul_comm (256 ^ e) 256), Z.mul_assoc.
  rewrite (Z.mod_eq z) by nia. rewrite <- (Z.mul_comm (256 ^ e)), <- (Z.mul_assoc (256 ^ e)).
  set (q := z / _). replace (z - 256 ^ e * (256 ^ Z.of_nat i * 256 * q)) with (z + (- (256 ^ Z.of_nat i * q * 256)) * 256 ^ e) by ring.
  rewrite Z.div_add by lia.
  replace (- (256 ^ Z.of_nat i * q * 256)) with ((- (256 ^ Z.of_nat i * q)) * 256) by ring.
  apply Z.mod_add. lia.
Qed.

Lemma big_endian_inj n z b : big_endian n z b -> b = be_bytes n (Z.to_N (z mod 256 ^ Z.of_nat n)).
Proof.
  intros [L H]. destruct (big_endian_bytes n z) as [L' H']. apply nth_ext with (d := 0%N) (d' := 0%N); [congruence|].
  intros i Hi. rewrite L in Hi. apply N2Z.inj. now rewrite H, H'.
Qed.

Lemma pow256_2 n : 256 ^ Z.of_nat n = 2 ^ (8 * Z.of_nat n).
Proof. change 256 with (2 ^ 8). rewrite <- Z.pow_mul_r by lia. reflexivity. Qed.

Lemma half_256 n : (0 < n)%nat -> 256 ^ Z.of_nat n / 2 = 2 ^ (8 * Z.of_nat n - 1).
Proof.
  intro H. rewrite pow256_2. replace (8 * Z.of_nat n) with (Z.succ (8 * Z.of_nat n - 1)) at 1 by lia.
  rewrite Z.pow_succ_r by lia. rewrite Z.mul_comm. apply Z.div_mul. lia.
Qed.

Lemma fits_in_range sg n z : (0 < n)%nat -> fits sg n z <-> in_range sg (Z.of_nat n) z = true.
Proof.
  intro H. unfold fits, in_range. rewrite half_256, pow256_2 by exact H. destruct sg; lia.
Qed.

Lemma val_of_pack sg n z : (0 < n)%nat -> fits sg n z -> 
  be_val_s sg (be_bytes n (Z.to_N (z mod 256 ^ Z.of_nat n))) = z.
Proof.
  intros Hn HF. unfold be_val_s. rewrite length_be_bytes.
  assert (P : 0 < 256 ^ Z.of_nat n) by (apply Z.pow_pos_nonneg; lia).
  pose proof (Z.mod_pos_bound z _ P) as B.
  rewrite be_val_bytes.
  2: { apply N2Z.inj_lt. rewrite N2Z.inj_pow, Z2N.id by lia. rewrite nat_N_Z. change (Z.of_N 256) with 256. lia. }
  rewrite Z2N.id by lia. unfold fits in HF. rewrite <- half_256, <- pow256_2 in HF by exact Hn.
  assert (E : 256 ^ Z.of_nat n = 2 * (256 ^ Z.of_nat n / 2)).
  { rewrite half_256, pow256_2 by exact Hn. rewrite <- Z.pow_succ_r by lia. f_equal. lia. }
  set (m := 256 ^ Z.of_nat n) in *. set (h := m / 2) in *. clearbody h. destruct sg; cbn [andb].
  - destruct (z <? 0) eqn:Ez.
    + assert (z mod m = z + m) as ->.
      { rewrite <- (Z.mod_small (z + m) m) by lia. rewrite <- (Z.mod_add z 1 m) by lia. f_equal. lia. }
      destruct (m <=? 2 * (z + m)) eqn:E1; lia.
    + rewrite Z.mod_small by lia. destruct (m <=? 2 * z) eqn:E1; lia.
  - apply Z.mod_small. lia.
Qed.

Lemma int_size_test n : int_size n <->
  ((Z.of_nat n =? 3) || (Z.of_nat n =? 1) || (Z.of_nat n =? 2) || (Z.of_nat n =? 4) || (Z.of_nat n =? 8)) = true.
Proof. unfold int_size. lia. Qed.

(** In range: the big-endian bytes, and back. *)
Theorem C15_pack FO sg n z : int_size n -> fits sg n z ->
  exists b, pack_int FO sg (Z.of_nat n) (VInt z) = Ok b /\ big_endian n z b
    /\ unpack_int FO sg (Z.of_nat n) b = Ok (VInt z).
Proof.
  intros Hn HF. assert (0 < n)%nat by (unfold int_size in Hn; lia).
  exists (be_bytes n (Z.to_N (z mod 256 ^ Z.of_nat n))). split; [|split; [apply big_endian_bytes|]].
  - unfold pack_int. apply int_size_test in Hn. rewrite Hn. cbn [conv_int as_Z].
    replace (if Z.of_nat n =? 3 then _ else _) with (@Ok Z z) by (destruct (_ =? _); reflexivity).
    cbn [bind]. apply fits_in_range in HF; [|assumption]. rewrite HF. now rewrite Nat2Z.id.
  - unfold unpack_int. rewrite length_be_bytes, val_of_pack by assumption. rewrite Z.eqb_refl.
    destruct (Z.of_nat n =? 3) eqn:E; [reflexivity|]. apply int_size_test in Hn. rewrite E in Hn. cbn [orb] in Hn.
    now rewrite Hn.
Qed.

(** Out of range, or another size: refused. *)
Theorem C15_refuse FO sg n z : ~ (int_size n /\ fits sg n z) -> exists e, pack_int FO sg (Z.of_nat n) (VInt z) = Err e.
Proof.
  intro H. unfold pack_int.
  destruct (_ || _ || _ || _ || _) eqn:E; [|eauto]. apply int_size_test in E.
  assert (0 < n)%nat by (unfold int_size in E; lia). cbn [conv_int as_Z].
  replace (if Z.of_nat n =? 3 then _ else _) with (@Ok Z z) by (destruct (_ =? _); reflexivity). cbn [bind].
  destruct (in_range _ _ _) eqn:R; [|eauto]. apply fits_in_range in R; [|assumption]. tauto.
Qed.

(** Any bytes are the representation of exactly one number of that size, which is the one read. *)
Theorem C15_unpack FO sg n b : int_size n -> List.length b = n -> Forall (fun c => (c < 256)%N) b ->
  exists z, unpack_int FO sg (Z.of_nat n) b = Ok (VInt z) /\ fits sg n z /\ big_endian n z b
    /\ pack_int FO sg (Z.of_nat n) (VInt z) = Ok b.
Proof.
  intros Hn HL HB. assert (H0 : (0 < n)%nat) by (unfold int_size in Hn; lia).
  assert (HA : all_bytes b = true).
  { unfold all_bytes. apply forallb_forall. rewrite Forall_forall in HB. intros c Hc. specialize (HB c Hc). lia. }
  assert (U : unpack_int FO sg (Z.of_nat n) b = Ok (VInt (be_val_s sg b))).
  { unfold unpack_int. rewrite HL, Z.eqb_refl. destruct (Z.of_nat n =? 3) eqn:E; [reflexivity|].
    apply int_size_test in Hn. rewrite E in Hn. cbn [orb] in Hn. now rewrite Hn. }
  assert (L := be_val_lt b HA). apply N2Z.inj_lt in L. rewrite N2Z.inj_pow, HL, nat_N_Z in L. change (Z.of_N 256) with 256 in L.
  assert (E : 256 ^ Z.of_nat n = 2 * (256 ^ Z.of_nat n / 2)).
  { rewrite half_256, pow256_2 by exact H0. rewrite <- Z.pow_succ_r by lia. f_equal. lia. }
  assert (HF : fits sg n (be_val_s sg b)).
  { unfold fits. rewrite <- half_256, <- pow256_2 by exact H0. unfold be_val_s. rewrite HL.
    destruct sg; cbn [andb]; [|lia]. destruct (_ <=? _) eqn:C; lia. }
  assert (HM : Z.to_N (be_val_s sg b mod 256 ^ Z.of_nat n) = be_val b).
  { unfold be_val_s. rewrite HL. destruct (sg && _).
    - replace (Z.of_N (be_val b) - 256 ^ Z.of_nat n) with (Z.of_N (be_val b) + (-1) * 256 ^ Z.of_nat n) by ring.
      rewrite Z.mod_add by lia. rewrite Z.mod_small by lia. apply N2Z.id.
    - rewrite Z.mod_small by lia. apply N2Z.id. }
  assert (EB : be_bytes n (Z.to_N (be_val_s sg b mod 256 ^ Z.of_nat n)) = b).
  { rewrite HM. rewrite <- HL. now apply be_bytes_val. }
  destruct (C15_pack FO sg n _ Hn HF) as (b' & P1 & P2 & _). apply big_endian_inj in P2. rewrite EB in P2. subst b'.
  exists (be_val_s sg b). split; [exact U|]. split; [exact HF|]. split; [|exact P1].
  rewrite <- EB at 2. apply big_endian_bytes.
Qed.

(** Reading refuses other sizes, whatever the bytes. *)
Theorem C15_unpack_refuse FO sg n b : ~ int_size n -> exists e, unpack_int FO sg (Z.of_nat n) b = Err e.
Proof.
  intro H. unfold unpack_int. rewrite int_size_test in H.
  destruct (Z.of_nat n =? 3) eqn:E; [cbn [orb] in H; congruence|]. cbn [orb] in H.
  destruct (_ || _ || _ || _); [congruence|eauto].
Qed.

(** Assignment of an integer to a binary integer field of a structure (all shipped ones have
    [size_not_updated]): accepted exactly if it fits; then it reads back and is written big-endian. *)
Theorem C15_assign FO rows (s : state FO) nm f k sg n z :
  wf_rows rows = true -> lookup (mk_fs rows) nm = Some f -> fd_ty (f_d f) = TData (KInt sg) ->
  fd_size_not_updated (f_d f) = true -> (f_loops f = [] -> k = []) ->
  assignable FO (mk_fs rows) s f k (SVal (VInt z)) ->
  size_is FO (mk_fs rows) s f k (Z.of_nat n) ->
  (int_size n /\ fits sg n z /\ exists s' b,
     set FO (mk_fs rows) s nm k (SVal (VInt z)) = (s', Ok tt)
     /\ only_changed FO s s' f k (SVal (VBytes b)) /\ big_endian n z b
     /\ get FO (mk_fs rows) s' nm k = Ok (VInt z)
     /\ forall out, write FO (mk_fs rows) s' = Ok out -> valid_index FO (mk_fs rows) s' f k ->
          block_at FO (mk_fs rows) s' out f k b)
  \/ (~ (int_size n /\ fits sg n z) /\ exists e, set FO (mk_fs rows) s nm k (SVal (VInt z)) = (s, Err e)).
Proof.
  intros Hwf HL HT Hnu HK HA HS. assert (Hf := lookup_in _ _ _ HL).
  rewrite size_is_fsize in HS.
  assert (HKS : key_shape_ok f k = true).
  { unfold key_shape_ok, depth. destruct (f_loops f); [|reflexivity]. now rewrite HK. }
  assert (HM0 : assignable FO (mk_fs rows) s f k (SVal (VBytes []))).
  { destruct HA as (A1 & A2 & A3 & A4 & A5 & A6 & _). repeat split; auto. discriminate. }
  assert (D : (int_size n /\ fits sg n z) \/ ~ (int_size n /\ fits sg n z)).
  { destruct (in_range sg (Z.of_nat n) z) eqn:R.
    - destruct (Nat.eq_dec n 0) as [->|N0]; [right; unfold int_size; lia|].
      rewrite <- fits_in_range in R by lia.
      assert (int_size n \/ ~ int_size n) as [A|A] by (unfold int_size; lia); [left; auto|right; tauto].
    - right. intros [A B]. apply fits_in_range in B; [congruence|unfold int_size in A; lia]. }
  assert (HPK : pack FO (G FO (mk_fs rows) s) (mk_fs rows) f k (VInt z) = pack_int FO sg (Z.of_nat n) (VInt z)).
  { unfold pack. rewrite HT, HS. reflexivity. }
  destruct D as [[D1 D2]|D]; [left|right].
  2: { split; [exact D|]. destruct (C15_refuse FO sg n z D) as [e He]. exists e.
       unfold set. rewrite HL, HKS. unfold fset, fuel. cbn [setf]. now rewrite HT, HPK, He. }
  split; [exact D1|]. split; [exact D2|].
  destruct (C15_pack FO sg n z D1 D2) as (b & P1 & P2 & P3). rewrite P1 in HPK.
  exists (assigned FO s f k (SVal (VBytes b))), b. set (s' := assigned FO s f k (SVal (VBytes b))).
  assert (HM : may_assign FO (mk_fs rows) s f k (SVal (VBytes b))).
  { destruct HM0 as (A1 & A2 & A3 & A4 & A5 & A6 & _). apply assignable_may. repeat split; auto. discriminate. }
  pose proof (assigned_refs FO rows s f k (SVal (VBytes b)) Hwf Hf) as HR.
  fold s' in HR. apply field_refs_split in HR as (R1 & R2 & R3 & R4).
  assert (HF' : fsize_of FO (G FO (mk_fs rows) s') (mk_fs rows) f k = Ok (Z.of_nat n)).
  { rewrite <- HS. now apply fsize_ext. }
  assert (HLb : List.length b = n) by apply P2.
  assert (HSET : set FO (mk_fs rows) s nm k (SVal (VInt z)) = (s', Ok tt)).
  { unfold set. rewrite HL, HKS. unfold fset, fuel. cbn [setf]. rewrite HT, HPK.
    unfold set_base. destruct HM as (Hn & HI & HC & Hh & Hv & Him & _).
    destruct (fd_name (f_d f)); [|congruence]. rewrite HI, HC, Hh, Hv, Him. cbn [orb].
    fold (assigned FO s f k (SVal (VBytes b))). fold s'. rewrite HT, Hnu, HF', HLb, Z.eqb_refl. reflexivity. }
  split; [exact HSET|]. split; [apply only_changed_assigned|]. split; [exact P2|].
  assert (HGB : get_base FO (G FO (mk_fs rows) s') (mk_fs rows) s' f k = Ok (VBytes b)).
  { unfold get_base. destruct HM as (Hn & HI & HC & Hh & Hv & _). destruct (fd_name (f_d f)); [|congruence].
    rewrite (check_index_ext FO _ (G FO (mk_fs rows) s)), (check_condition_ext FO _ (G FO (mk_fs rows) s)), HI, HC by assumption.
    cbn [bind negb]. rewrite Hv. unfold s'. rewrite assigned_self. unfold convert. rewrite HT. reflexivity. }
  split.
  { unfold get. rewrite HL, HKS. unfold fget, get_pub. rewrite HGB. cbn [bind]. rewrite HT.
    unfold unpack. rewrite HT, HF'. cbn [bind]. exact P3. }
  intros out HW HV. destruct (write_block_at FO rows s' out f k HW Hf HV) as (b2 & B1 & B2).
  assert (b2 = b) as ->; [|exact B1].
  destruct B2 as [[HC2 _]|(_ & _ & HF)]; cbn [fst snd] in *.
  - destruct HM as (Hn & HI & HC & _).
    rewrite (check_condition_ext FO _ (G FO (mk_fs rows) s)) in HC2 by assumption. congruence.
  - unfold field_bytes in HF. rewrite HF' in HF. cbn [bind] in HF. rewrite HGB in HF.
    unfold s' in HF at 1. rewrite assigned_self in HF. cbn [bind] in HF. rewrite HT in HF.
    unfold has_len in HF. rewrite HLb, Z.eqb_refl in HF. destruct (fd_optional (f_d f)); congruence.
Qed.

(** ** C16 Decimal integers *)

(** Formatting ([_format_val], nitf_field.py:195-196) gives the zero padded text, of [w]
    characters exactly if the numeral (with its sign) has at most [w]; it parses back. *)
Theorem C16_format w z :
  exists t, zero_padded w z t /\ fmt_d (dfmt_zero w) z = t
    /\ (List.length t = w <-> forall ds, numeral (Z.abs_N z) ds ->
          (List.length ds + (if (z <? 0)%Z then 1 else 0) <= w)%nat)
    /\ parse_int ws_byte t = Some z /\ parse_int ws_str t = Some z.
Proof.
  exists (fmt_d (dfmt_zero w) z). split; [now apply zero_padded_iff|]. split; [reflexivity|]. split.
  - assert (E := proj2 (zero_padded_iff w z _) eq_refl).
    set (t := fmt_d (dfmt_zero w) z) in *. clearbody t. destruct E as (zs & ds & -> & HN & _ & HL).
    assert (L : List.length ((if z <? 0 then [45%N] else []) ++ ds) = (List.length ds + (if (z <? 0)%Z then 1 else 0))%nat).
    { rewrite app_length. destruct (z <? 0); cbn [List.length]; lia. }
    rewrite !app_length in *. split.
    + intros H ds' HN'. rewrite (numeral_unique _ _ HN'), <- (numeral_unique _ _ HN). lia.
    + intro H. specialize (H ds HN). lia.
  - split; apply parse_int_fmt_d; auto using ws_ok_byte, ws_ok_str.
Qed.

(** Reading: spaces, a sign or none, digits, spaces. *)
Theorem C16_parse pre sign ds post :
  Forall (eq 32%N) pre -> Forall (eq 32%N) post -> all_digits ds -> ds <> [] ->
  (sign = [] \/ sign = [43%N] \/ sign = [45%N]) ->
  let z := if list_eqb sign [45%N] then - Z.of_N (text_val ds) else Z.of_N (text_val ds) in
  parse_int ws_byte (pre ++ sign ++ ds ++ post) = Some z
  /\ parse_int ws_str (pre ++ sign ++ ds ++ post) = Some z.
Proof.
  intros H1 H2 H3 H4 H5 z. unfold z. rewrite text_val_digval.
  assert (S : forall ws l, ws 32%N = true -> Forall (eq 32%N) l -> forallb ws l = true).
  { intros ws l Hw Hl. apply forallb_forall. rewrite Forall_forall in Hl. intros c Hc. now rewrite <- (Hl c Hc). }
  apply all_digits_forallb in H3.
  split; apply parse_int_text; auto using ws_ok_byte, ws_ok_str.
Qed.

(** ** C17 Fixed width decimals *)

Theorem C17_fixed_width w x t : fit_width w x = Some t <->
  exists p, Z.of_nat p <= w - 2 /\ fixed_point p x t /\ Z.of_nat (List.length t) <= w
    /\ forall r t', (p < r)%nat -> Z.of_nat r <= w - 2 -> fixed_point r x t' -> w < Z.of_nat (List.length t').
Proof.
  split.
  - intro H. pose proof (fit_width_best w x) as B. rewrite H in B. destruct B as (p & B1 & B2 & B3 & B4 & _).
    exists p. split; [lia|]. split; [now apply fixed_point_iff|]. split; [exact B3|].
    intros r t' R1 R2 R3. apply fixed_point_iff in R3. subst t'. auto.
  - intros (p & A1 & A2 & A3 & A4). apply fixed_point_iff in A2. subst t.
    pose proof (fit_width_best w x) as B. destruct (fit_width w x) as [t|] eqn:E.
    + destruct B as (q & B1 & -> & B3 & B4 & _).
      assert (q = p) as ->; [|reflexivity].
      destruct (Nat.lt_trichotomy p q) as [L|[L|L]]; auto; exfalso.
      * specialize (A4 q (fmt_fixed q x) L). rewrite fixed_point_iff in A4. specialize (A4 ltac:(lia) eq_refl). lia.
      * specialize (B4 p L). lia.
    + exfalso. destruct B as [B|B]; [lia|].
      assert (L : (List.length (fmt_fixed 0 x) <= List.length (fmt_fixed p x))%nat).
      { rewrite !(sign_len (d_neg x)) by reflexivity. pose proof (fixed_len_0 x p). lia. }
      lia.
Qed.

(** An error exactly if not even the text without decimals fits. *)
Theorem C17_error w x : fit_width w x = None <->
  w < 2 \/ forall t, fixed_point 0 x t -> w < Z.of_nat (List.length t).
Proof.
  rewrite fit_width_none. split; (intros [H|H]; [now left|right]).
  - intros t Ht. apply fixed_point_iff in Ht. now subst.
  - apply H. now apply fixed_point_iff.
Qed.

(** What is read back is within half a unit of the last decimal. *)
Theorem C17_close w x t : fit_width w x = Some t ->
  exists p y, fixed_point p x t /\ parse_float t = Some y
    /\ (Qabs (dec_Q y - dec_Q x) <= (1 # 2) * (10 # 1) ^ (- Z.of_nat p))%Q.
Proof.
  intro H. pose proof (fit_width_best w x) as B. rewrite H in B. destruct B as (p & _ & B2 & _ & _ & y & By & Bc).
  exists p, y. split; [now apply fixed_point_iff|auto].
Qed.

(** ** C43 RPC coefficients (nitf_tre_rpc.py:5-17) *)

(** When seven digits carry into an eleventh digit of the integer part. *)
Lemma rpc_len x t : rpc_text x = Some t ->
  (List.length t = 12%nat /\ Qabs (dec_Q x) < 9999999500 # 1)%Q
  \/ (List.length t = 13%nat /\ 9999999500 # 1 <= Qabs (dec_Q x))%Q.
Proof.
  intro H. destruct (rpc_text_cases x t H) as [[H1 ->]|(H1 & H2 & H3 & H4 & ->)].
  - left. split; [reflexivity|]. apply abs_lt10_spec in H1. eapply Qlt_trans; [exact H1|]. reflexivity.
  - rewrite rpc_form_len by lia.
    assert (B : forall k, abs_lt10 x k = (ndig (d_man x) + d_ex x <=? k)).
    { intro k. unfold abs_lt10. now replace (d_man x =? 0)%N with false by lia. }
    rewrite B in H2. destruct (Z.eq_dec (ndig (d_man x) + d_ex x) 10) as [E|E].
    + pose proof (abs_dec_Q x) as A.
      assert (NR := proj2 (nearest_rnd10 (d_man x) (d_ex x - 3) _) eq_refl).
      set (r := rnd10 (d_man x) (d_ex x - 3)) in *.
      assert (NX : nearest (Qabs (dec_Q x) * (1 # 1000)) r).
      { eapply nearest_comp; [|exact NR]. rewrite A. replace (d_ex x - 3) with (d_ex x + (-3)) by lia.
        rewrite Qpower_plus by apply Q10_nz. change ((10 # 1) ^ (-3))%Q with (1 # 1000)%Q. ring. }
      assert (ES : snd (exp_parts 6 x) = if (10000000 <=? r)%N then 10 else 9).
      { unfold exp_parts. replace (d_man x =? 0)%N with false by lia.
        replace (d_ex x + Z.of_nat 6 - (ndig (d_man x) - 1 + d_ex x)) with (d_ex x - 3) by lia. fold r.
        change (10 ^ N.of_nat 7)%N with 10000000%N. destruct (_ <=? r)%N; cbn [snd]; lia. }
      rewrite ES. destruct NX as [N1 N2]. set (v := Qabs (dec_Q x)) in *. clearbody v. clear A NR.
      apply Qabs_Qle_condition in N1 as [N3 N4].
      destruct (10000000 <=? r)%N eqn:C.
      * right. split; [reflexivity|].
        assert (R : ((10000000 # 1) <= inject_Z (Z.of_N r))%Q) by (unfold Qle; cbn [Qnum Qden inject_Z]; lia).
        lra.
      * left. split; [reflexivity|]. 
        assert (R : (inject_Z (Z.of_N r) <= (9999999 # 1))%Q) by (unfold Qle; cbn [Qnum Qden inject_Z]; lia).
        destruct (Qlt_le_dec v (9999999500 # 1)) as [|G]; [assumption|exfalso].
        assert (R2 : (inject_Z (Z.of_N r) == (9999999 # 1))%Q) by lra.
        assert (R3 : r = 9999999%N) by (unfold Qeq in R2; cbn [Qnum Qden inject_Z] in R2; lia).
        assert (T : N.even r = true).
        { apply N2. rewrite R2. assert (V : (v == 9999999500 # 1)%Q) by lra. rewrite V. reflexivity. }
        rewrite R3 in T. discriminate.
    + left. assert (ES : snd (exp_parts 6 x) <> 10).
      { pose proof (exp_parts_e 6 x H3). lia. }
      split; [destruct (_ =? _) eqn:EA; lia|].
      assert (L9 : abs_lt10 x 9 = true) by (rewrite B; lia).
      apply abs_lt10_spec in L9. eapply Qlt_trans; [exact L9|reflexivity].
Qed.

(** Coefficients of 9999999500 or more in size are accepted by the formatting function but give 13
    characters (see below); all others are written in 12, with seven significant digits, or
    as zero below 1e-9; from 1e10 on they are refused. *)
Theorem C43_rpc_partial x :
  match rpc_text x with
  | None => ((10 # 1) ^ 10 <= Qabs (dec_Q x))%Q
  | Some t => (Qabs (dec_Q x) < (10 # 1) ^ 10)%Q
      /\ (List.length t = 12%nat <-> (Qabs (dec_Q x) < 9999999500 # 1)%Q)
      /\ exists y, parse_float t = Some y
           /\ ((Qabs (dec_Q x) < (10 # 1) ^ (-9) /\ dec_Q y == 0)
               \/ ((10 # 1) ^ (-9) <= Qabs (dec_Q x)
                   /\ Qabs (dec_Q y - dec_Q x) <= (1 # 2) * (10 # 1) ^ (-6) * Qabs (dec_Q x)))%Q
  end.
Proof.
  pose proof (rpc_close x) as C. destruct (rpc_text x) as [t|] eqn:E; [|exact C].
  destruct C as [C1 C2]. split; [exact C1|]. split; [|exact C2].
  destruct (rpc_len x t E) as [[H1 H2]|[H1 H2]]; split; auto; intro; [lia|exfalso].
  eapply Qlt_irrefl, Qle_lt_trans; [exact H2|eassumption].
Qed.

(** A coefficient just below 1e10 is formatted in 13 characters, so a structure holding it,
    although the assignment succeeds, cannot be written. *)
Theorem C43_rpc_refuted :
  exists x t, rpc_text x = Some t /\ List.length t <> 12%nat
    /\ is_ok (snd (set DecF (mk_fs desc_TreRPC00B) (init_state DecF) "line_num_coeff" [0] (SVal (@VFloat DecF x)))) = true
    /\ is_ok (write DecF (mk_fs desc_TreRPC00B) (init_state DecF)) = true
    /\ is_ok (write DecF (mk_fs desc_TreRPC00B)
         (fst (set DecF (mk_fs desc_TreRPC00B) (init_state DecF) "line_num_coeff" [0] (SVal (@VFloat DecF x))))) = false.
Proof.
  exists (D false 99999999999 (-1)), (str "+1.000000E+10"). vm_compute. repeat split. discriminate.
Qed.

(** ** Examples *)

Example C15_case :
  let p := fun sg n z => match pack_int DecF sg n (VInt z) with Ok b => Some b | Err _ => None end in
  let u := fun sg n b => see (unpack_int DecF sg n b) in
  p true 2 (-2) = Some [255; 254]%N /\ u true 2 [255; 254]%N = SeeInt (-2)
  /\ p false 3 70000 = Some [1; 17; 112]%N /\ u false 3 [1; 17; 112]%N = SeeInt 70000
  /\ p true 8 (- 2 ^ 63) = Some [128; 0; 0; 0; 0; 0; 0; 0]%N /\ p true 1 128 = None /\ p false 1 128 = Some [128%N]
  /\ p false 4 (-1) = None /\ p false 5 1 = None /\ u false 5 [0; 0; 0; 0; 1]%N = SeeErr ERuntime.
Proof. vm_compute. repeat split. Qed.
Example C15_fits : fits true 2 (-2) /\ ~ fits true 1 128 /\ big_endian 2 (-2) [255; 254]%N.
Proof.
  unfold fits. cbn. split; [lia|]. split; [lia|]. split; [reflexivity|].
  intros [|[|i]] Hi; [reflexivity..|lia].
Qed.
(** The 4 byte signed field of the example table. *)
Example C15_assign_case :
  let s := fst (set DecF ex_fs ex_st "k" [] (SVal (VInt (-300)))) in
  fd_ty (f_d (ex_f "k")) = TData (KInt true) /\ fd_size_not_updated (f_d (ex_f "k")) = true
  /\ ex_get s "k" [] = SeeInt (-300)
  /\ write DecF ex_fs s = Ok (firstn (List.length ex_bytes - 4) ex_bytes ++ [255; 255; 254; 212]%N)
  /\ snd (set DecF ex_fs ex_st "k" [] (SVal (VInt (2 ^ 31)))) = Err EStruct.
Proof. vm_compute. repeat split. Qed.

Example C16_case :
  fmt_d (dfmt_zero 5) (-42) = str "-0042" /\ fmt_d (dfmt_zero 2) (-42) = str "-42"
  /\ parse_int ws_byte (str "  +0042 ") = Some 42 /\ parse_int ws_byte (str "4 2") = None.
Proof. vm_compute. repeat split. Qed.

Example C17_case :
  fit_width 4 (D false 9996 (-3)) = Some (str "10.0") /\ fit_width 5 (D true 9996 (-3)) = Some (str "-10.0")
  /\ fit_width 3 (D true 9996 (-3)) = Some (str "-10") /\ fit_width 3 (D false 1 3) = None
  /\ fit_width 1 (D false 1 0) = None /\ fit_width 4 (D false 25 (-1)) = Some (str "2.50").
Proof. vm_compute. repeat split. Qed.

Example C43_case :
  rpc_text (D true 1234567890 (-10)) = Some (str "-1.234568E-1") /\ rpc_text (D false 99999994 2) = Some (str "+9.999999E+9")
  /\ rpc_text (D false 1 (-10)) = Some (str "+0.000000E+0") /\ rpc_text (D false 1 10) = None.
Proof. vm_compute. repeat split. Qed.

Print Assumptions C15_pack.
Print Assumptions C15_refuse.
Print Assumptions C15_unpack.
Print Assumptions C15_unpack_refuse.
Print Assumptions C15_assign.
Print Assumptions C16_format.
Print Assumptions C16_parse.
Print Assumptions C17_fixed_width.
Print Assumptions C17_error.
Print Assumptions C17_close.
Print Assumptions C43_rpc_partial.
Print Assumptions C43_rpc_refuted.
