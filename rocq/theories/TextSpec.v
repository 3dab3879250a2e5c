(** What decimal texts mean, independently of the functions that print and parse them. *)
From Verif Require Import Base BaseLemmas Engine Codec Decimal DecimalLemmas DecimalFit.
From Coq Require Import ZifyBool ZifyNat ZifyN QArith Qabs Qpower.
Open Scope N_scope.
Open Scope list_scope.

(** Value of a digit string, by position: the digit [c] followed by [n] digits counts
    [10^n] times. *)
Fixpoint text_val (ds : list N) : N :=
  match ds with
  | [] => 0
  | c :: ds' => (c - 48) * 10 ^ N.of_nat (List.length ds') + text_val ds'
  end.
Definition all_digits (ds : list N) : Prop := Forall (fun c => 48 <= c <= 57) ds.

(** [ds] is the usual decimal numeral of [n]: digits, no superfluous leading zero. *)
Definition numeral (n : N) (ds : list N) : Prop :=
  all_digits ds /\ text_val ds = n /\ ds <> [] /\ (hd 0 ds = 48 -> ds = [48]).

Lemma text_val_digval ds : text_val ds = digval ds 0.
Proof.
  induction ds as [|c ds IH]; [reflexivity|]. cbn [text_val]. rewrite IH.
  unfold digval at 2. cbn [fold_left]. fold (digval ds (0 * 10 + (c - 48))).
  rewrite (digval_acc ds (0 * 10 + (c - 48))). lia.
Qed.

Lemma all_digits_forallb ds : all_digits ds <-> forallb is_digit ds = true.
Proof.
  unfold all_digits. rewrite Forall_forall, forallb_forall. unfold is_digit. split; intros H c Hc; specialize (H c Hc); lia.
Qed.

Lemma text_val_lt ds : all_digits ds -> text_val ds < 10 ^ N.of_nat (List.length ds).
Proof.
  induction 1 as [|c ds Hc _ IH]; [cbn; lia|]. cbn [text_val List.length]. rewrite pow10_S. nia.
Qed.

Lemma text_val_inj a : forall b, all_digits a -> all_digits b -> List.length a = List.length b ->
  text_val a = text_val b -> a = b.
Proof.
  induction a as [|c a IH]; intros [|d b] Ha Hb HL HV; try discriminate; auto.
  inversion Ha as [|? ? Hc Ha']; inversion Hb as [|? ? Hd Hb']; subst. cbn [text_val List.length] in *.
  injection HL as HL. rewrite HL in HV. pose proof (text_val_lt a Ha') as L1. pose proof (text_val_lt b Hb') as L2.
  rewrite HL in L1. set (t := 10 ^ N.of_nat (List.length b)) in *.
  assert (c = d) by nia. subst d. f_equal. apply IH; auto. lia.
Qed.

Lemma numeral_digits n : numeral n (digits n).
Proof.
  destruct (digits_spec n) as (H1 & H2 & H3). assert (HA : all_digits (digits n)) by now apply all_digits_forallb.
  split; [exact HA|]. split; [now rewrite text_val_digval|]. split; [exact H1|].
  intro Hh. destruct (digits_bounds n) as [_ [->|B]]; [reflexivity|].
  destruct (digits n) as [|c ds] eqn:E; [congruence|]. cbn [hd] in Hh. subst c. exfalso.
  rewrite <- text_val_digval in H3. cbn [text_val] in H3. inversion HA as [|? ? _ HA']; subst.
  pose proof (text_val_lt ds HA'). cbn [List.length] in B. rewrite pow10_S in B. lia.
Qed.

Lemma numeral_unique n ds : numeral n ds -> ds = digits n.
Proof.
  intros (H1 & H2 & H3 & H4). destruct (numeral_digits n) as (D1 & D2 & D3 & D4).
  apply text_val_inj; auto; [|congruence].
  assert (B : forall n ds, numeral n ds -> n = 0 /\ ds = [48] \/ 10 ^ N.of_nat (List.length ds) <= 10 * n).
  { clear. intros n ds (H1 & H2 & H3 & H4). destruct ds as [|c ds]; [congruence|]. cbn [hd] in H4.
    destruct (N.eq_dec c 48) as [->|Hne].
    - left. rewrite (H4 eq_refl) in *. cbn in H2. auto.
    - right. inversion H1 as [|? ? Hc _]; subst. cbn [text_val List.length]. rewrite pow10_S.
      set (t := 10 ^ N.of_nat (List.length ds)). nia. }
  destruct (B n ds) as [[-> ->]|B1]; [repeat split; auto|reflexivity|].
  destruct (B n (digits n)) as [[E1 E2]|B2]; [apply numeral_digits| |].
  - rewrite E1 in *. pose proof (pow10_pos (List.length ds)). lia.
  - pose proof (text_val_lt ds H1) as U1. pose proof (text_val_lt _ D1) as U2. rewrite H2 in U1. rewrite D2 in U2.
    destruct (Nat.lt_trichotomy (List.length ds) (List.length (digits n))) as [L|[L|L]]; auto; exfalso.
    + assert (10 ^ N.of_nat (S (List.length ds)) <= 10 ^ N.of_nat (List.length (digits n))) by (apply N.pow_le_mono_r; lia).
      rewrite pow10_S in H. lia.
    + assert (10 ^ N.of_nat (S (List.length (digits n))) <= 10 ^ N.of_nat (List.length ds)) by (apply N.pow_le_mono_r; lia).
      rewrite pow10_S in H. lia.
Qed.

(** ** Rounding *)

(** [m] is the integer nearest to [v], the even one of two equally near. *)
Definition nearest (v : Q) (m : N) : Prop :=
  (Qabs (inject_Z (Z.of_N m) - v) <= 1 # 2)%Q
  /\ ((Qabs (inject_Z (Z.of_N m) - v) == 1 # 2)%Q -> N.even m = true).

Lemma div_he_tie n d : d <> 0 ->
  (2 * n = 2 * d * div_he n d + d \/ 2 * d * div_he n d = 2 * n + d) -> N.even (div_he n d) = true.
Proof.
  intro Hd. unfold div_he. pose proof (N.div_mod n d Hd) as E. pose proof (N.mod_lt n d Hd) as L.
  set (q := n / d) in *. set (r := n mod d) in *. clearbody q r.
  destruct (2 * r <? d) eqn:E1; [intro; exfalso; nia|]. destruct (d <? 2 * r) eqn:E2; [intro; exfalso; nia|].
  destruct (N.even q) eqn:Ev; auto. intros _. replace (q + 1) with (N.succ q) by lia.
  rewrite N.even_succ, <- N.negb_even, Ev. reflexivity.
Qed.

Lemma round_unique n d a b : d <> 0 ->
  2 * n <= 2 * d * a + d -> 2 * d * a <= 2 * n + d ->
  (2 * n = 2 * d * a + d \/ 2 * d * a = 2 * n + d -> N.even a = true) ->
  2 * n <= 2 * d * b + d -> 2 * d * b <= 2 * n + d ->
  (2 * n = 2 * d * b + d \/ 2 * d * b = 2 * n + d -> N.even b = true) -> a = b.
Proof.
  intros Hd A1 A2 A3 B1 B2 B3.
  assert (H : a = b \/ a = b + 1 \/ b = a + 1).
  { assert (d * (2 * a) <= d * (2 * b + 2)) by lia. assert (d * (2 * b) <= d * (2 * a + 2)) by lia.
    apply N.mul_le_mono_pos_l in H, H0; lia. }
  destruct H as [Heq|[Heq|Heq]]; [exact Heq| |]; subst; exfalso.
  - assert (E1 : N.even (b + 1) = true) by (apply A3; right; lia).
    assert (E2 : N.even b = true) by (apply B3; left; lia).
    replace (b + 1) with (N.succ b) in E1 by lia. rewrite N.even_succ, <- N.negb_even, E2 in E1. discriminate.
  - assert (E1 : N.even (a + 1) = true) by (apply B3; right; lia).
    assert (E2 : N.even a = true) by (apply A3; left; lia).
    replace (a + 1) with (N.succ a) in E1 by lia. rewrite N.even_succ, <- N.negb_even, E2 in E1. discriminate.
Qed.

(** The half-unit conditions as integer inequalities. *)
Lemma near_int (m n d : N) (v : Q) : d <> 0 ->
  (inject_Z (Z.of_N n) == v * inject_Z (Z.of_N d))%Q ->
  ((Qabs (inject_Z (Z.of_N m) - v) <= 1 # 2)%Q <-> 2 * n <= 2 * d * m + d /\ 2 * d * m <= 2 * n + d)
  /\ ((Qabs (inject_Z (Z.of_N m) - v) == 1 # 2)%Q <-> 2 * n = 2 * d * m + d \/ 2 * d * m = 2 * n + d).
Proof.
  intros Hd Hn. set (D := inject_Z (Z.of_N d)) in *.
  assert (Hd' : (0 < D)%Q) by (unfold D, Qlt; cbn; lia).
  assert (K : forall z : Q, ((z * D == inject_Z (Z.of_N m) * D - inject_Z (Z.of_N n))%Q -> z == inject_Z (Z.of_N m) - v)%Q).
  { intros z Hz. apply (Qmult_inj_r z _ D); [intro H0; rewrite H0 in Hd'; discriminate|]. rewrite Hz, Hn. ring. }
  assert (E : (Qabs (inject_Z (Z.of_N m) - v) == inject_Z (Z.abs (Z.of_N m * Z.of_N d - Z.of_N n)) / D)%Q).
  { assert (E0 : (inject_Z (Z.of_N m) - v == inject_Z (Z.of_N m * Z.of_N d - Z.of_N n) / D)%Q).
    { symmetry. apply K. rewrite Qmult_comm, Qmult_div_r by (intro H0; rewrite H0 in Hd'; discriminate).
      unfold D. rewrite <- inject_Z_mult. unfold Z.sub. rewrite inject_Z_plus, inject_Z_opp. reflexivity. }
    rewrite E0. unfold Qdiv. rewrite Qabs_Qmult. rewrite (Qabs_pos (/ D)) by (apply Qlt_le_weak, Qinv_lt_0_compat, Hd').
    reflexivity. }
  rewrite E. clear E K Hn. set (z := (Z.of_N m * Z.of_N d - Z.of_N n)%Z).
  assert (E : ((1 # 2) == (inject_Z (Z.of_N d) * (1 # 2)) / D)%Q).
  { fold D. field. intro H0. rewrite H0 in Hd'. discriminate. }
  assert (I1 : (inject_Z (Z.abs z) / D <= 1 # 2)%Q <-> (2 * Z.abs z <= Z.of_N d)%Z).
  { rewrite E. unfold Qdiv. rewrite Qmult_le_r by (apply Qinv_lt_0_compat, Hd').
    unfold Qle, Qmult, inject_Z. cbn [Qnum Qden]. lia. }
  assert (I2 : (inject_Z (Z.abs z) / D == 1 # 2)%Q <-> (2 * Z.abs z = Z.of_N d)%Z).
  { split.
    - intro H. assert (H' : (inject_Z (Z.abs z) == inject_Z (Z.of_N d) * (1 # 2))%Q).
      { apply (Qmult_inj_r _ _ (/ D)); [intro H0; pose proof (Qinv_lt_0_compat _ Hd') as P; rewrite H0 in P; discriminate|].
        rewrite E in H. exact H. }
      unfold Qeq, Qmult, inject_Z in H'. cbn [Qnum Qden] in H'. lia.
    - intro H. rewrite E. unfold Qdiv. apply Qmult_comp; [|reflexivity].
      unfold Qeq, Qmult, inject_Z. cbn [Qnum Qden]. lia. }
  rewrite I1, I2. unfold z. split; split; lia.
Qed.

Lemma nearest_rnd10 man s m :
  nearest (inject_Z (Z.of_N man) * (10 # 1) ^ s) m <-> m = rnd10 man s.
Proof.
  assert (E : (inject_Z (Z.of_N (man * up s)) == inject_Z (Z.of_N man) * (10 # 1) ^ s * inject_Z (Z.of_N (dn s)))%Q).
  { rewrite N2Z.inj_mul, inject_Z_mult, up_dn_Q. ring. }
  unfold nearest. destruct (near_int m (man * up s) (dn s) _ (dn_pos s) E) as [I1 I2]. rewrite I1, I2.
  destruct (rnd10_close man s) as [C1 C2].
  assert (C3 : 2 * (man * up s) = 2 * dn s * rnd10 man s + dn s \/ 2 * dn s * rnd10 man s = 2 * (man * up s) + dn s ->
               N.even (rnd10 man s) = true).
  { rewrite rnd10_eq. apply div_he_tie, dn_pos. }
  split.
  - intros [[A1 A2] A3]. apply (round_unique (man * up s) (dn s)); auto. apply dn_pos.
  - intros ->. auto.
Qed.

(** ** Fixed point texts *)

(** [t] is [x] written with [p] decimals: a minus sign if [x] is negative, the integer part
    without superfluous zeros, a point and [p] digits (no point if [p] = 0), the number
    correctly rounded. *)
Definition fixed_point (p : nat) (x : dec) (t : list N) : Prop :=
  exists ip fp, t = (if d_neg x then [45] else []) ++ ip ++ match p with O => [] | S _ => 46 :: fp end
    /\ all_digits (ip ++ fp) /\ List.length fp = p /\ ip <> [] /\ (hd 0 ip = 48 -> ip = [48])
    /\ nearest (Qabs (dec_Q x) * (10 # 1) ^ Z.of_nat p) (text_val (ip ++ fp)).

Lemma abs_dec_Q x : (Qabs (dec_Q x) == inject_Z (Z.of_N (d_man x)) * (10 # 1) ^ d_ex x)%Q.
Proof.
  unfold dec_Q. rewrite !Qabs_Qmult. rewrite (Qabs_pos ((10 # 1) ^ _)) by (apply Qlt_le_weak, Q10_pos).
  rewrite (Qabs_pos (inject_Z _)) by (unfold Qle; cbn; lia).
  destruct (d_neg x); cbn [Qabs Z.abs]; [change (Qabs (-1 # 1)) with (1 # 1)%Q|change (Qabs 1) with (1 # 1)%Q]; ring.
Qed.

Lemma nearest_comp v w m : (v == w)%Q -> nearest v m -> nearest w m.
Proof. unfold nearest. intros E [H1 H2]. rewrite E in H1, H2. auto. Qed.

Lemma nearest_fixed x p m : nearest (Qabs (dec_Q x) * (10 # 1) ^ Z.of_nat p) m
  <-> m = rnd10 (d_man x) (d_ex x + Z.of_nat p).
Proof.
  rewrite <- nearest_rnd10. assert (E : (Qabs (dec_Q x) * (10 # 1) ^ Z.of_nat p
    == inject_Z (Z.of_N (d_man x)) * (10 # 1) ^ (d_ex x + Z.of_nat p))%Q).
  { rewrite abs_dec_Q, Qpower_plus by apply Q10_nz. ring. }
  split; apply nearest_comp; [exact E|symmetry; exact E].
Qed.

Lemma text_val_app a b : text_val (a ++ b) = text_val a * 10 ^ N.of_nat (List.length b) + text_val b.
Proof.
  induction a as [|c a IH]; [reflexivity|]. cbn [app text_val]. rewrite IH, app_length, Nat2N.inj_add, N.pow_add_r. lia.
Qed.

Lemma fixed_point_iff p x t : fixed_point p x t <-> t = fmt_fixed p x.
Proof.
  unfold fmt_fixed, fixed_text. set (m := rnd10 (d_man x) (d_ex x + Z.of_nat p)). split.
  - intros (ip & fp & -> & HA & HL & H1 & H2 & HN). apply nearest_fixed in HN. fold m in HN.
    unfold all_digits in HA. apply Forall_app in HA as [HA1 HA2].
    rewrite text_val_app, HL in HN. pose proof (text_val_lt fp HA2) as L. rewrite HL in L.
    assert (Eip : ip = digits (m / 10 ^ N.of_nat p)).
    { apply numeral_unique. split; [exact HA1|]. split; [|auto]. rewrite <- HN.
      pose proof (pow10_pos p). rewrite N.div_add_l, (N.div_small (text_val fp)) by lia. lia. }
    assert (Efp : text_val fp = m mod 10 ^ N.of_nat p).
    { rewrite <- HN. pose proof (pow10_pos p). rewrite N.add_comm, N.mod_add by lia. now rewrite N.mod_small. }
    unfold sign_text. f_equal. unfold point_text. rewrite <- Eip. f_equal. destruct p as [|p]; auto. f_equal.
    apply text_val_inj; auto.
    + apply all_digits_forallb, pad0_digit. now destruct (digits_spec (m mod 10 ^ N.of_nat (S p))) as (_ & ? & _).
    + rewrite frac_len by lia. exact HL.
    + rewrite text_val_digval with (ds := pad0 _ _), pad0_val. rewrite N.mul_0_l.
      destruct (digits_spec (m mod 10 ^ N.of_nat (S p))) as (_ & _ & ->). exact Efp.
  - intros ->. exists (int_part p m), (frac_part p m).
    destruct (parts_digits p m 0) as (P1 & P2 & P3 & P4). cbn [repeat app] in P1, P3.
    split; [rewrite point_parts; reflexivity|].
    split; [apply all_digits_forallb; rewrite forallb_app, P1, P2; reflexivity|].
    split; [exact P4|]. split; [exact P3|].
    split; [apply (numeral_digits (m / 10 ^ N.of_nat p))|].
    apply nearest_fixed. fold m. rewrite text_val_digval. exact (parts_val p m 0).
Qed.

(** ** Integers *)

(** [t] is [z] padded with zeros to [w] characters, or more if it needs more. *)
Definition zero_padded (w : nat) (z : Z) (t : list N) : Prop :=
  exists zs ds, t = (if (z <? 0)%Z then [45] else []) ++ zs ++ ds /\ numeral (Z.abs_N z) ds
    /\ Forall (eq 48) zs /\ List.length t = Nat.max w (List.length t - List.length zs).

Lemma zero_padded_iff w z t : zero_padded w z t <-> t = fmt_d (dfmt_zero w) z.
Proof.
  unfold fmt_d, dfmt_zero. cbn [df_plus df_zero df_left df_width].
  set (sg := if (z <? 0)%Z then [45] else []). split.
  - intros (zs & ds & -> & HN & HZ & HL). apply numeral_unique in HN. rewrite HN in *.
    f_equal. f_equal. fold sg in HL. rewrite !app_length in HL.
    assert (E : zs = repeat 48 (List.length zs)).
    { clear -HZ. induction HZ as [|c l <- _ IH]; [reflexivity|]. cbn. now f_equal. }
    rewrite E at 1. f_equal. lia.
  - intros ->. exists (repeat 48 (w - (List.length sg + List.length (digits (Z.abs_N z))))), (digits (Z.abs_N z)).
    split; [reflexivity|]. split; [apply numeral_digits|]. split.
    + apply Forall_forall. intros c Hc. apply repeat_spec in Hc. auto.
    + rewrite !app_length, !repeat_length. lia.
Qed.
