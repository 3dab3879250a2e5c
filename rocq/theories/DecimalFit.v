(** Fixed-width printing: rounding, best fit, and the laws of the float codec. *)
From Verif Require Import Base BaseLemmas Engine Codec Decimal DecimalLemmas.
From Coq Require Import ZifyBool ZifyNat ZifyN QArith Qabs Qpower.
Open Scope N_scope.
Open Scope list_scope.

(** ** Rounding *)

Lemma div_he_close n d : d <> 0 -> 2 * n <= 2 * d * div_he n d + d /\ 2 * d * div_he n d <= 2 * n + d.
Proof.
  intro Hd. unfold div_he. pose proof (N.div_mod n d Hd) as E. pose proof (N.mod_lt n d Hd) as L.
  set (q := n / d) in *. set (r := n mod d) in *. clearbody q r.
  destruct (2 * r <? d) eqn:E1; [nia|]. destruct (d <? 2 * r) eqn:E2; [nia|].
  destruct (N.even q); nia.
Qed.

Lemma div_he_exact q d : d <> 0 -> div_he (q * d) d = q.
Proof.
  intro Hd. unfold div_he. rewrite N.div_mul, N.mod_mul by assumption.
  replace (2 * 0 <? d) with true by lia. reflexivity.
Qed.

(** Above [b - 1/2] strictly gives at least [b]. *)
Lemma div_he_ge n d b : d <> 0 -> 2 * b * d < 2 * n + d -> b <= div_he n d.
Proof.
  intros Hd H. destruct (div_he_close n d Hd) as [H1 _].
  destruct (N.le_gt_cases b (div_he n d)) as [|L]; auto. exfalso.
  assert (2 * d * (div_he n d + 1) <= 2 * d * b) by (apply N.mul_le_mono_l; lia).
  assert (E : div_he n d + 1 = b \/ div_he n d + 2 <= b) by lia.
  destruct E as [E|E]; nia.
Qed.

(** [man * 10^s] compared with integers, without fractions. *)
Definition up (s : Z) : N := 10 ^ Z.to_N s.          (* 10^s, or 1 if s < 0 *)
Definition dn (s : Z) : N := 10 ^ Z.to_N (- s).      (* 10^-s, or 1 if s > 0 *)

Lemma up_pos s : up s <> 0. Proof. apply N.pow_nonzero. lia. Qed.
Lemma dn_pos s : dn s <> 0. Proof. apply N.pow_nonzero. lia. Qed.

Lemma rnd10_eq man s : rnd10 man s = div_he (man * up s) (dn s).
Proof.
  unfold rnd10, up, dn. destruct (0 <=? s)%Z eqn:E.
  - replace (Z.to_N (- s)) with 0 by lia. rewrite N.pow_0_r.
    rewrite <- (N.mul_1_r (man * _)) at 2. symmetry. apply div_he_exact. lia.
  - replace (Z.to_N s) with 0 by lia. now rewrite N.pow_0_r, N.mul_1_r.
Qed.

Lemma up_dn_add s (k : nat) : up (s + Z.of_nat k) * dn s = 10 ^ N.of_nat k * up s * dn (s + Z.of_nat k).
Proof.
  unfold up, dn. rewrite <- !N.pow_add_r. f_equal. lia.
Qed.

Lemma rnd10_close man s :
  2 * (man * up s) <= 2 * dn s * rnd10 man s + dn s /\ 2 * dn s * rnd10 man s <= 2 * (man * up s) + dn s.
Proof. rewrite rnd10_eq. apply div_he_close, dn_pos. Qed.

Lemma rnd10_ge man s b : 2 * b * dn s < 2 * (man * up s) + dn s -> b <= rnd10 man s.
Proof. intro H. rewrite rnd10_eq. apply div_he_ge; auto. apply dn_pos. Qed.

Lemma rnd10_0 s : rnd10 0 s = 0.
Proof.
  destruct (rnd10_close 0 s) as [_ H]. pose proof (dn_pos s).
  rewrite rnd10_eq, N.mul_0_l. unfold div_he. rewrite N.div_0_l, N.mod_0_l by assumption.
  replace (2 * 0 <? dn s) with true by lia. reflexivity.
Qed.

(** A number with the decimals printed is printed exactly. *)
Lemma rnd10_exact m (p : Z) : rnd10 m (- p + p) = m.
Proof. replace (- p + p)%Z with 0%Z by lia. unfold rnd10. cbn. lia. Qed.

(** More decimals printed never makes the integer part longer than fewer decimals do. *)
Lemma rnd10_carry man s i j k : (i < j)%nat ->
  10 ^ N.of_nat (k + j) <= rnd10 man (s + Z.of_nat j) -> 10 ^ N.of_nat (k + i) <= rnd10 man (s + Z.of_nat i).
Proof.
  intros Hij H. apply rnd10_ge.
  destruct (rnd10_close man (s + Z.of_nat j)) as [_ H2].
  pose proof (up_dn_add (s + Z.of_nat i) (j - i)) as E.
  replace (s + Z.of_nat i + Z.of_nat (j - i))%Z with (s + Z.of_nat j)%Z in E by lia.
  set (ui := up (s + Z.of_nat i)) in *. set (uj := up (s + Z.of_nat j)) in *.
  set (di := dn (s + Z.of_nat i)) in *. set (dj := dn (s + Z.of_nat j)) in *.
  assert (Hdi : di <> 0) by apply dn_pos. assert (Hdj : dj <> 0) by apply dn_pos.
  set (r := rnd10 man (s + Z.of_nat j)) in *.
  set (t := 10 ^ N.of_nat (j - i)) in *.
  assert (Ht : 10 <= t).
  { unfold t. replace (j - i)%nat with (S (j - i - 1)) by lia. rewrite pow10_S.
    pose proof (pow10_pos (j - i - 1)). lia. }
  assert (Eb : 10 ^ N.of_nat (k + j) = 10 ^ N.of_nat (k + i) * t).
  { unfold t. rewrite <- N.pow_add_r. f_equal. lia. }
  set (b := 10 ^ N.of_nat (k + i)) in *. rewrite Eb in H. clearbody ui uj di dj r t b.
  (* 2 b t dj <= 2 man uj + dj, times di; uj di = t ui dj *)
  assert (A : 2 * dj * (b * t) <= 2 * (man * uj) + dj) by nia.
  assert (A2 : 2 * dj * (b * t) * di <= (2 * (man * uj) + dj) * di) by (apply N.mul_le_mono_r; exact A).
  assert (A3 : (2 * (man * uj) + dj) * di = 2 * man * (t * ui * dj) + dj * di) by (rewrite <- E; lia).
  rewrite A3 in A2.
  (* divide by dj *)
  assert (A4 : dj * (2 * (b * t) * di) <= dj * (2 * man * (t * ui) + di)) by lia.
  apply N.mul_le_mono_pos_l in A4; [|lia].
  destruct (N.lt_ge_cases (2 * b * di) (2 * (man * ui) + di)) as [|G]; auto. exfalso.
  assert (t * (2 * (man * ui) + di) <= t * (2 * b * di)) by (apply N.mul_le_mono_l; exact G).
  assert (t * di <= di) by lia. nia.
Qed.

(** ** [float_to_fixed_width] *)

Lemma fixed_len p x : List.length (fixed_text p x)
  = (List.length (digits (rnd10 (d_man x) (d_ex x + Z.of_nat p) / 10 ^ N.of_nat p))
     + match p with O => 0 | S _ => S p end)%nat.
Proof. apply point_len. Qed.

(** The integer part with fewer decimals is at most one more than with more decimals. *)
Lemma fixed_int_step x i j : (i <= j)%nat ->
  (List.length (digits (rnd10 (d_man x) (d_ex x + Z.of_nat j) / 10 ^ N.of_nat j))
   <= List.length (digits (rnd10 (d_man x) (d_ex x + Z.of_nat i) / 10 ^ N.of_nat i)))%nat.
Proof.
  intro Hij. destruct (Nat.eq_dec i j) as [->|Hne]; auto.
  set (Mj := rnd10 (d_man x) (d_ex x + Z.of_nat j)). set (Mi := rnd10 (d_man x) (d_ex x + Z.of_nat i)).
  pose proof (pow10_pos i) as P1. pose proof (pow10_pos j) as P2.
  destruct (digits_bounds (Mj / 10 ^ N.of_nat j)) as [_ [E|B]].
  - rewrite E. change (List.length (digits 0)) with 1%nat. apply digits_len_pos.
  - destruct (List.length (digits (Mj / 10 ^ N.of_nat j))) as [|k] eqn:L; [lia|].
    rewrite pow10_S in B. assert (B' : 10 ^ N.of_nat k <= Mj / 10 ^ N.of_nat j) by lia.
    assert (C : 10 ^ N.of_nat (k + j) <= Mj).
    { rewrite Nat2N.inj_add, N.pow_add_r. pose proof (N.mul_div_le Mj (10 ^ N.of_nat j)). nia. }
    apply (rnd10_carry _ _ i j k) in C; [|lia]. fold Mi in C.
    assert (C' : 10 ^ N.of_nat k <= Mi / 10 ^ N.of_nat i).
    { apply N.div_le_lower_bound; [lia|]. rewrite <- N.pow_add_r.
      replace (N.of_nat i + N.of_nat k) with (N.of_nat (k + i)) by lia. exact C. }
    destruct (digits_bounds (Mi / 10 ^ N.of_nat i)) as [B1 _].
    destruct (Nat.le_gt_cases (S k) (List.length (digits (Mi / 10 ^ N.of_nat i)))) as [|L2]; auto. exfalso.
    assert (10 ^ N.of_nat (List.length (digits (Mi / 10 ^ N.of_nat i))) <= 10 ^ N.of_nat k)
      by (apply N.pow_le_mono_r; lia). lia.
Qed.

(** Rounding with no decimals adds at most one to the integer part. *)
Lemma fixed_len_0 x p : (List.length (fixed_text 0 x) <= List.length (fixed_text p x))%nat.
Proof.
  rewrite !fixed_len. destruct p as [|p]; [lia|].
  set (M0 := rnd10 (d_man x) (d_ex x + Z.of_nat 0) / 10 ^ N.of_nat 0).
  set (Mp := rnd10 (d_man x) (d_ex x + Z.of_nat (S p)) / 10 ^ N.of_nat (S p)).
  assert (H : M0 <= Mp + 1).
  { unfold M0, Mp. rewrite N.pow_0_r, N.div_1_r.
    set (r0 := rnd10 (d_man x) (d_ex x + Z.of_nat 0)). set (rp := rnd10 (d_man x) (d_ex x + Z.of_nat (S p))).
    destruct (rnd10_close (d_man x) (d_ex x + Z.of_nat 0)) as [_ H0].
    destruct (rnd10_close (d_man x) (d_ex x + Z.of_nat (S p))) as [Hp _].
    fold r0 in H0. fold rp in Hp.
    pose proof (up_dn_add (d_ex x + Z.of_nat 0) (S p)) as E.
    replace (d_ex x + Z.of_nat 0 + Z.of_nat (S p))%Z with (d_ex x + Z.of_nat (S p))%Z in E by lia.
    set (ui := up (d_ex x + Z.of_nat 0)) in *. set (uj := up (d_ex x + Z.of_nat (S p))) in *.
    set (di := dn (d_ex x + Z.of_nat 0)) in *. set (dj := dn (d_ex x + Z.of_nat (S p))) in *.
    assert (Hdi : di <> 0) by apply dn_pos. assert (Hdj : dj <> 0) by apply dn_pos.
    set (t := 10 ^ N.of_nat (S p)) in *.
    assert (Ht : 10 <= t) by (unfold t; rewrite pow10_S; pose proof (pow10_pos p); lia).
    assert (Hq : rp < t * (rp / t + 1)) by (pose proof (N.div_mod rp t); pose proof (N.mod_lt rp t); lia).
    set (q := rp / t) in *. clearbody r0 rp ui uj di dj t q.
    destruct (N.le_gt_cases r0 (q + 1)) as [|G]; auto. exfalso.
    (* r0 >= q+2, 2 di r0 <= 2 m ui + di; 2 m uj <= 2 dj rp + dj; uj di = t ui dj *)
    assert (A : 2 * di * (q + 2) <= 2 * (d_man x * ui) + di) by nia.
    assert (A1 : t * dj * (2 * di * (q + 2)) <= t * dj * (2 * (d_man x * ui) + di))
      by (apply N.mul_le_mono_l; exact A).
    assert (A2 : t * dj * (2 * (d_man x * ui) + di) = 2 * d_man x * (uj * di) + t * dj * di) by (rewrite E; lia).
    assert (A3 : di * (2 * (d_man x * uj)) <= di * (2 * dj * rp + dj)) by (apply N.mul_le_mono_l; exact Hp).
    assert (A4 : t * dj * (2 * di * (q + 2)) <= di * (2 * dj * rp + dj) + t * dj * di) by lia.
    assert (A5 : (dj * di) * (2 * t * (q + 2)) <= (dj * di) * (2 * rp + 1 + t)) by lia.
    apply N.mul_le_mono_pos_l in A5; [|nia]. lia. }
  pose proof (digits_len_mono _ _ H). pose proof (digits_len_succ Mp). lia.
Qed.

Lemma sign_len neg p x : d_neg x = neg ->
  List.length (fmt_fixed p x) = (List.length (sign_text false neg) + List.length (fixed_text p x))%nat.
Proof. intros <-. unfold fmt_fixed. apply app_length. Qed.

Lemma first_fit_spec w p x :
  (exists q, (q <= p)%nat /\ first_fit w p x = Some (fmt_fixed q x)
     /\ (List.length (fmt_fixed q x) <= w)%nat
     /\ forall r, (q < r <= p)%nat -> (w < List.length (fmt_fixed r x))%nat)
  \/ (first_fit w p x = None /\ forall r, (r <= p)%nat -> (w < List.length (fmt_fixed r x))%nat).
Proof.
  induction p as [|p IH]; cbn [first_fit].
  - destruct (_ <=? w)%nat eqn:E; [left|right].
    + exists 0%nat. split; [lia|]. split; [reflexivity|]. split; [lia|]. intros; lia.
    + split; auto. intros r Hr. replace r with 0%nat by lia. lia.
  - destruct (List.length (fmt_fixed (S p) x) <=? w)%nat eqn:E.
    + left. exists (S p). split; [lia|]. split; [reflexivity|]. split; [lia|]. intros; lia.
    + destruct IH as [(q & H1 & H2 & H3 & H4)|(H1 & H2)]; [left|right].
      * exists q. split; [lia|]. split; [exact H2|]. split; [exact H3|]. intros r Hr.
        destruct (Nat.eq_dec r (S p)) as [->|]; [lia|]. apply H4. lia.
      * split; [exact H1|]. intros r Hr. destruct (Nat.eq_dec r (S p)) as [->|]; [lia|]. apply H2. lia.
Qed.

(** Parsing what was printed. *)
Lemma parse_fixed p x : parse_float (fmt_fixed p x)
  = Some {| d_neg := d_neg x; d_man := rnd10 (d_man x) (d_ex x + Z.of_nat p); d_ex := - Z.of_nat p |}.
Proof.
  pose proof (parse_point [] [] false (d_neg x) 0 p (rnd10 (d_man x) (d_ex x + Z.of_nat p)) None
    eq_refl eq_refl I) as H.
  cbn [repeat app exp_suffix exp_val] in H. rewrite !app_nil_r in H. exact H.
Qed.

(** The value denoted. *)
Definition dec_Q (x : dec) : Q :=
  ((if d_neg x then (-1 # 1) else 1) * inject_Z (Z.of_N (d_man x)) * (10 # 1) ^ d_ex x)%Q.

Lemma Q10_pow (n : N) : (inject_Z (Z.of_N (10 ^ n)) == (10 # 1) ^ Z.of_N n)%Q.
Proof.
  rewrite N2Z.inj_pow. change (Z.of_N 10) with 10%Z. change (10 # 1)%Q with (inject_Z 10).
  apply Zpower_Qpower. lia.
Qed.

Lemma Q10_nz : ~ ((10 # 1) == 0)%Q. Proof. discriminate. Qed.
Lemma Q10_pos e : (0 < (10 # 1) ^ e)%Q. Proof. apply Qpower_0_lt. reflexivity. Qed.

Lemma up_dn_Q s : (inject_Z (Z.of_N (up s)) == (10 # 1) ^ s * inject_Z (Z.of_N (dn s)))%Q.
Proof.
  unfold up, dn. rewrite !Q10_pow. rewrite <- Qpower_plus by apply Q10_nz.
  replace (s + Z.of_N (Z.to_N (- s)))%Z with (Z.of_N (Z.to_N s)) by lia. reflexivity.
Qed.

(** Rounding error at most one half. *)
Lemma rnd10_Q man s :
  (Qabs (inject_Z (Z.of_N (rnd10 man s)) - inject_Z (Z.of_N man) * (10 # 1) ^ s) <= 1 # 2)%Q.
Proof.
  destruct (rnd10_close man s) as [H1 H2]. pose proof (up_dn_Q s) as E. pose proof (dn_pos s) as Hd.
  set (r := rnd10 man s) in *. set (d := dn s) in *. set (u := up s) in *. clearbody r d u.
  set (P := ((10 # 1) ^ s)%Q) in *. clearbody P.
  assert (Hd' : (0 < inject_Z (Z.of_N d))%Q) by (unfold Qlt; cbn; lia).
  apply Qabs_Qle_condition. split.
  - apply (Qmult_le_r _ _ (inject_Z (Z.of_N d))); [exact Hd'|].
    setoid_replace ((inject_Z (Z.of_N r) - inject_Z (Z.of_N man) * P) * inject_Z (Z.of_N d))%Q
      with (inject_Z (Z.of_N r) * inject_Z (Z.of_N d) - inject_Z (Z.of_N man) * inject_Z (Z.of_N u))%Q
      by (rewrite E; ring).
    unfold Qle, Qminus, Qplus, Qmult, Qopp, inject_Z. cbn [Qnum Qden]. lia.
  - apply (Qmult_le_r _ _ (inject_Z (Z.of_N d))); [exact Hd'|].
    setoid_replace ((inject_Z (Z.of_N r) - inject_Z (Z.of_N man) * P) * inject_Z (Z.of_N d))%Q
      with (inject_Z (Z.of_N r) * inject_Z (Z.of_N d) - inject_Z (Z.of_N man) * inject_Z (Z.of_N u))%Q
      by (rewrite E; ring).
    unfold Qle, Qminus, Qplus, Qmult, Qopp, inject_Z. cbn [Qnum Qden]. lia.
Qed.

(** What is printed with [p] decimals is within half a unit of the last place. *)
Lemma fixed_close p x y : parse_float (fmt_fixed p x) = Some y ->
  (Qabs (dec_Q y - dec_Q x) <= (1 # 2) * (10 # 1) ^ (- Z.of_nat p))%Q.
Proof.
  rewrite parse_fixed. intro H. injection H as <-. unfold dec_Q. cbn [d_neg d_man d_ex].
  pose proof (rnd10_Q (d_man x) (d_ex x + Z.of_nat p)) as B.
  set (sg := (if d_neg x then -1 # 1 else 1)%Q).
  assert (Hsg : (Qabs sg == 1)%Q) by (unfold sg; destruct (d_neg x); reflexivity).
  rewrite Qpower_plus in B by apply Q10_nz.
  set (r := inject_Z (Z.of_N (rnd10 (d_man x) (d_ex x + Z.of_nat p)))) in *.
  set (m := inject_Z (Z.of_N (d_man x))) in *.
  assert (Hp : ((10 # 1) ^ Z.of_nat p * (10 # 1) ^ (- Z.of_nat p) == 1)%Q).
  { rewrite <- Qpower_plus by apply Q10_nz. replace (Z.of_nat p + - Z.of_nat p)%Z with 0%Z by lia. reflexivity. }
  setoid_replace (sg * r * (10 # 1) ^ (- Z.of_nat p) - sg * m * (10 # 1) ^ d_ex x)%Q
    with (sg * ((r - m * ((10 # 1) ^ d_ex x * (10 # 1) ^ Z.of_nat p)) * (10 # 1) ^ (- Z.of_nat p)))%Q.
  - rewrite !Qabs_Qmult, Hsg, Qmult_1_l.
    rewrite (Qabs_pos ((10 # 1) ^ _)) by (apply Qlt_le_weak, Q10_pos).
    apply Qmult_le_compat_r; [exact B|]. apply Qlt_le_weak, Q10_pos.
  - transitivity (sg * r * (10 # 1) ^ (- Z.of_nat p)
       - sg * m * (10 # 1) ^ d_ex x * ((10 # 1) ^ Z.of_nat p * (10 # 1) ^ (- Z.of_nat p)))%Q; [|ring].
    rewrite Hp. ring.
Qed.

(** The main statement on [float_to_fixed_width]. *)
Theorem fit_width_best w x :
  match fit_width w x with
  | Some t => exists p, (0 <= Z.of_nat p <= w - 2)%Z /\ t = fmt_fixed p x
      /\ (Z.of_nat (List.length t) <= w)%Z
      /\ (forall r, (p < r)%nat -> (Z.of_nat r <= w - 2)%Z -> (w < Z.of_nat (List.length (fmt_fixed r x)))%Z)
      /\ exists y, parse_float t = Some y
           /\ (Qabs (dec_Q y - dec_Q x) <= (1 # 2) * (10 # 1) ^ (- Z.of_nat p))%Q
  | None => (w < 2)%Z \/ (w < Z.of_nat (List.length (fmt_fixed 0 x)))%Z
  end.
Proof.
  unfold fit_width. destruct (w <? 2)%Z eqn:E; [left; lia|].
  destruct (first_fit_spec (Z.to_nat w) (Z.to_nat w - 2) x) as [(q & H1 & -> & H3 & H4)|(-> & H2)].
  - exists q. split; [lia|]. split; [reflexivity|]. split; [lia|]. split.
    + intros r Hr1 Hr2. specialize (H4 r). lia.
    + eexists. split; [apply parse_fixed|]. apply fixed_close. apply parse_fixed.
  - right. specialize (H2 0%nat). lia.
Qed.

Theorem fit_width_none w x : fit_width w x = None <->
  (w < 2)%Z \/ (w < Z.of_nat (List.length (fmt_fixed 0 x)))%Z.
Proof.
  split.
  - intro H. pose proof (fit_width_best w x) as B. now rewrite H in B.
  - intros [H|H]; unfold fit_width; [now replace (w <? 2)%Z with true by lia|].
    destruct (w <? 2)%Z eqn:E; auto.
    destruct (first_fit_spec (Z.to_nat w) (Z.to_nat w - 2) x) as [(q & H1 & _ & H3 & _)|(-> & _)]; auto.
    exfalso. rewrite (sign_len (d_neg x)) in H, H3 by reflexivity. pose proof (fixed_len_0 x q). lia.
Qed.

(** ** The laws of the codec *)

Lemma lstrip_split p l : exists a, l = a ++ lstrip_by p l /\ forallb p a = true.
Proof.
  induction l as [|c l (a & E & H)]; [exists []; auto|]. cbn [lstrip_by].
  destruct (p c) eqn:Ec; [|exists []; auto].
  exists (c :: a). cbn [app forallb]. rewrite Ec, H. split; auto. now f_equal.
Qed.

Lemma span_split p l a b : span p l = (a, b) -> l = a ++ b /\ forallb p a = true.
Proof.
  revert a b. induction l as [|c l IH]; intros a b; cbn [span].
  - intro H. injection H as <- <-. auto.
  - destruct (p c) eqn:E.
    + destruct (span p l) as [a' b'] eqn:E2. intro H. injection H as <- <-.
      destruct (IH _ _ eq_refl) as [-> H2]. cbn. now rewrite E, H2.
    + intro H. injection H as <- <-. auto.
Qed.

Lemma digit_visible c : is_digit c = true -> visible c = true.
Proof. unfold is_digit, visible, ws_byte. lia. Qed.

Lemma parse_body_digit neg l y : parse_body neg l = Some y -> existsb visible l = true.
Proof.
  unfold parse_body. destruct (span is_digit l) as [a l1] eqn:E.
  destruct (span_split _ _ _ _ E) as [-> Ha]. rewrite existsb_app.
  destruct a as [|c a].
  - cbn [app existsb orb]. destruct l1 as [|c l1]; [discriminate|].
    destruct (c =? 46)%N eqn:Ec; [|discriminate].
    destruct (span is_digit l1) as [b l2] eqn:E2. destruct (span_split _ _ _ _ E2) as [-> Hb].
    destruct b as [|d b]; [discriminate|]. intros _. cbn [existsb app]. cbn [forallb] in Hb.
    apply andb_true_iff in Hb as [Hb _]. rewrite (digit_visible d Hb). now rewrite orb_true_r.
  - intros _. cbn [existsb forallb] in *. apply andb_true_iff in Ha as [Ha _]. now rewrite (digit_visible c Ha).
Qed.

Lemma existsb_rstrip (v p : N -> bool) l : existsb v (rstrip_by p l) = true -> existsb v l = true.
Proof. destruct (rstrip_decomp p l) as (b & E & _). rewrite E at 2. rewrite existsb_app. now intros ->. Qed.

Lemma existsb_lstrip (v p : N -> bool) l : existsb v (lstrip_by p l) = true -> existsb v l = true.
Proof. destruct (lstrip_split p l) as (b & E & _). rewrite E at 2. rewrite existsb_app. intros ->. apply orb_true_r. Qed.

Lemma parse_visible t y : parse_float t = Some y -> existsb visible t = true.
Proof.
  unfold parse_float. intro H. apply (existsb_lstrip visible ws_byte), (existsb_rstrip visible ws_byte).
  destruct (rstrip_by _ _) as [|c l]; [discriminate|]. cbn [existsb].
  destruct (c =? 43)%N; [|destruct (c =? 45)%N].
  - apply parse_body_digit in H. rewrite H. apply orb_true_r.
  - apply parse_body_digit in H. rewrite H. apply orb_true_r.
  - apply parse_body_digit in H. exact H.
Qed.

Lemma exp_text_suffix p upper x : exp_text p upper x
  = point_text p (fst (exp_parts p x))
    ++ exp_suffix (Some (if upper then 69 else 101, (snd (exp_parts p x) <? 0)%Z, Z.abs_N (snd (exp_parts p x)), 2%nat)).
Proof. unfold exp_text. destruct (exp_parts p x). reflexivity. Qed.

Lemma abs_sign e : (if (e <? 0)%Z then (- Z.of_N (Z.abs_N e))%Z else Z.of_N (Z.abs_N e)) = e.
Proof. destruct (e <? 0)%Z eqn:E; lia. Qed.

(** What a printf text parses to. *)
Definition pct_val (p : nat) (expo : bool) (x : dec) : dec :=
  if expo then {| d_neg := d_neg x; d_man := fst (exp_parts p x); d_ex := snd (exp_parts p x) - Z.of_nat p |}
  else {| d_neg := d_neg x; d_man := rnd10 (d_man x) (d_ex x + Z.of_nat p); d_ex := - Z.of_nat p |}.

Lemma ws_spaces n : forallb ws_byte (spaces n) = true.
Proof. induction n; auto. Qed.

Lemma parse_pct plus zero lft w p expo upper x :
  parse_float (fmt_pct plus zero lft w p expo upper x) = Some (pct_val p expo x).
Proof.
  assert (B : exists e, exp_char_ok e
    /\ (if expo then exp_text p upper x else fixed_text p x) = point_text p (d_man (pct_val p expo x)) ++ exp_suffix e
    /\ (exp_val e - Z.of_nat p)%Z = d_ex (pct_val p expo x)).
  { destruct expo.
    - eexists. split; [|split; [apply exp_text_suffix|]].
      + cbn. destruct upper; auto.
      + cbn [exp_val pct_val d_ex]. now rewrite abs_sign.
    - exists None. cbn [exp_char_ok exp_suffix pct_val d_man d_ex]. rewrite app_nil_r. split; [exact I|]. split; auto. }
  destruct B as (e & He & Eb & Ee).
  assert (R : {| d_neg := d_neg x; d_man := d_man (pct_val p expo x); d_ex := exp_val e - Z.of_nat p |} = pct_val p expo x).
  { rewrite Ee. unfold pct_val. destruct expo; reflexivity. }
  unfold fmt_pct, pad_num. rewrite Eb. destruct lft; [|destruct zero].
  - rewrite <- R. erewrite <- (parse_point [] _ plus (d_neg x) 0 p _ e); [|reflexivity| |exact He].
    + cbn [repeat app]. rewrite <- !app_assoc. reflexivity.
    + apply ws_spaces.
  - rewrite <- R. erewrite <- (parse_point [] [] plus (d_neg x) _ p _ e); [|reflexivity|reflexivity|exact He].
    cbn [app]. rewrite app_nil_r. reflexivity.
  - rewrite <- R. erewrite <- (parse_point _ [] plus (d_neg x) 0 p _ e); [| |reflexivity|exact He].
    + cbn [repeat app]. rewrite app_nil_r. reflexivity.
    + apply ws_spaces.
Qed.

(** Mantissa range of the scientific form. *)
Lemma exp_parts_range p x : d_man x <> 0 ->
  10 ^ N.of_nat p <= fst (exp_parts p x) < 10 ^ N.of_nat (S p).
Proof.
  intro Hx. unfold exp_parts. replace (d_man x =? 0) with false by lia.
  set (s := (d_ex x + Z.of_nat p - (ndig (d_man x) - 1 + d_ex x))%Z).
  set (r := rnd10 (d_man x) s).
  destruct (digits_bounds (d_man x)) as [B1 [|B2]]; [lia|].
  set (L := List.length (digits (d_man x))) in *. pose proof (digits_len_pos (d_man x)) as HL. fold L in HL.
  destruct L as [|k] eqn:EL; [lia|].
  assert (Es : s = (Z.of_nat p - Z.of_nat k)%Z) by (unfold s, ndig; fold L; lia).
  rewrite pow10_S in B1, B2.
  destruct (rnd10_close (d_man x) s) as [_ H2]. fold r in H2. pose proof (dn_pos s) as Hd.
  assert (E1 : 10 ^ N.of_nat p * dn s = 10 ^ N.of_nat k * up s).
  { unfold up, dn. rewrite <- !N.pow_add_r. f_equal. lia. }
  assert (G1 : 10 ^ N.of_nat p <= r).
  { apply rnd10_ge. replace (2 * 10 ^ N.of_nat p * dn s) with (2 * (10 ^ N.of_nat k * up s)) by lia. nia. }
  assert (G2 : r <= 10 ^ N.of_nat (S p)).
  { rewrite pow10_S. destruct (N.le_gt_cases r (10 * 10 ^ N.of_nat p)) as [|G]; auto. exfalso.
    assert (A : 2 * dn s * (10 * 10 ^ N.of_nat p + 1) <= 2 * (d_man x * up s) + dn s) by nia.
    pose proof (up_pos s).
    assert (A2 : d_man x * up s < 10 * 10 ^ N.of_nat k * up s) by (apply N.mul_lt_mono_pos_r; lia).
    lia. }
  pose proof (pow10_pos p). rewrite pow10_S in *.
  destruct (10 * 10 ^ N.of_nat p <=? r) eqn:E; cbn [fst]; lia.
Qed.

(** Printing again what a scientific text denotes. *)
Lemma exp_parts_again p x : exp_parts p (pct_val p true x) = exp_parts p x.
Proof.
  unfold pct_val. destruct (N.eq_dec (d_man x) 0) as [E|E].
  - assert (Ep : exp_parts p x = (0, 0%Z)) by (unfold exp_parts; now rewrite E).
    rewrite Ep. cbn [fst snd]. unfold exp_parts. cbn [d_man]. reflexivity.
  - pose proof (exp_parts_range p x E) as R. destruct (exp_parts p x) as [m e] eqn:Ep. cbn [fst snd] in *.
    pose proof (pow10_pos p). unfold exp_parts. cbn [d_man d_ex].
    replace (m =? 0) with false by lia. unfold ndig. rewrite (digits_len m p) by lia.
    replace (e - Z.of_nat p + Z.of_nat p - (Z.of_nat (S p) - 1 + (e - Z.of_nat p)))%Z with 0%Z by lia.
    replace (rnd10 m 0) with m by (unfold rnd10; cbn; lia).
    replace (10 ^ N.of_nat (S p) <=? m) with false by lia. f_equal. lia.
Qed.

Lemma pct_again plus zero lft w p expo upper x :
  fmt_pct plus zero lft w p expo upper (pct_val p expo x) = fmt_pct plus zero lft w p expo upper x.
Proof.
  unfold fmt_pct. replace (d_neg (pct_val p expo x)) with (d_neg x) by (unfold pct_val; now destruct expo).
  f_equal. destruct expo.
  - rewrite !exp_text_suffix. now rewrite exp_parts_again.
  - unfold fixed_text, pct_val. cbn [d_man d_ex]. now rewrite rnd10_exact.
Qed.

(** Printing again what [float_to_fixed_width] wrote. *)
Lemma fixed_again_len x q r : (q <= r)%nat ->
  List.length (fixed_text r {| d_neg := d_neg x; d_man := rnd10 (d_man x) (d_ex x + Z.of_nat q); d_ex := - Z.of_nat q |})
  = (List.length (digits (rnd10 (d_man x) (d_ex x + Z.of_nat q) / 10 ^ N.of_nat q)) + match r with O => 0 | S _ => S r end)%nat.
Proof.
  intro H. rewrite fixed_len. cbn [d_man d_ex]. f_equal. f_equal. f_equal.
  set (m := rnd10 (d_man x) (d_ex x + Z.of_nat q)). unfold rnd10.
  replace (0 <=? - Z.of_nat q + Z.of_nat r)%Z with true by lia.
  replace (Z.to_N (- Z.of_nat q + Z.of_nat r)) with (N.of_nat (r - q)) by lia.
  replace (10 ^ N.of_nat r) with (10 ^ N.of_nat q * 10 ^ N.of_nat (r - q))
    by (rewrite <- N.pow_add_r; f_equal; lia).
  pose proof (pow10_pos q). pose proof (pow10_pos (r - q)).
  apply N.div_mul_cancel_r; lia.
Qed.

Lemma fit_again w x t y : fit_width w x = Some t -> parse_float t = Some y -> fit_width w y = Some t.
Proof.
  unfold fit_width. destruct (w <? 2)%Z eqn:E; [discriminate|]. intros H Hy.
  destruct (first_fit_spec (Z.to_nat w) (Z.to_nat w - 2) x) as [(q & H1 & H2 & H3 & H4)|(H1 & _)];
    [|congruence].
  rewrite H2 in H. injection H as <-. rewrite parse_fixed in Hy. injection Hy as <-.
  set (y := {| d_neg := d_neg x; d_man := _; d_ex := _ |}).
  assert (Eq : fmt_fixed q y = fmt_fixed q x).
  { unfold fmt_fixed, fixed_text, y. cbn [d_neg d_man d_ex]. now rewrite rnd10_exact. }
  assert (Hr : forall r, (q < r <= Z.to_nat w - 2)%nat -> (Z.to_nat w < List.length (fmt_fixed r y))%nat).
  { intros r Hr. specialize (H4 r Hr). rewrite (sign_len (d_neg x)) in * by reflexivity.
    unfold y. rewrite fixed_again_len by lia. rewrite fixed_len in H4.
    pose proof (fixed_int_step x q r). destruct r; lia. }
  destruct (first_fit_spec (Z.to_nat w) (Z.to_nat w - 2) y) as [(q' & G1 & -> & G3 & G4)|(_ & G)].
  - destruct (Nat.lt_trichotomy q' q) as [L|[->|L]].
    + specialize (G4 q). rewrite Eq in G4. lia.
    + now rewrite Eq.
    + specialize (Hr q'). lia.
  - specialize (G q). rewrite Eq in G. lia.
Qed.

(** RPC coefficients. *)
Lemma drop_exp0_app a b : forallb (fun c => negb (c =? 69)) a = true -> drop_exp0 (a ++ b) = a ++ drop_exp0 b.
Proof.
  induction a as [|c a IH]; [reflexivity|]. cbn [forallb]. intro H. apply andb_true_iff in H as [Hc H].
  assert (F : drop_exp0 ((c :: a) ++ b) = c :: drop_exp0 (a ++ b)).
  { cbn [app drop_exp0]. destruct (a ++ b) as [|s [|z l]]; auto.
    replace (c =? 69) with false by lia. reflexivity. }
  rewrite F, IH by assumption. reflexivity.
Qed.

Lemma digits_no_E l : forallb is_digit l = true -> forallb (fun c => negb (c =? 69)) l = true.
Proof.
  intro H. apply forallb_forall. intros c Hc. rewrite forallb_forall in H. specialize (H c Hc).
  unfold is_digit in H. lia.
Qed.

Lemma point_no_E p m : forallb (fun c => negb (c =? 69)) (point_text p m) = true.
Proof.
  rewrite point_parts, forallb_app. destruct (parts_digits p m 0) as (H1 & H2 & _).
  cbn [repeat app] in H1. rewrite (digits_no_E _ H1). destruct p; auto.
  cbn [forallb]. now rewrite (digits_no_E _ H2).
Qed.

(** The text of a coefficient with exponent between -10 and 10. *)
Definition rpc_form (x : dec) : list N :=
  sign_text true (d_neg x) ++ point_text 6 (fst (exp_parts 6 x))
    ++ exp_suffix (Some (69, (snd (exp_parts 6 x) <? 0)%Z, Z.abs_N (snd (exp_parts 6 x)), 1%nat)).

Lemma point_len1 p m : m < 10 ^ N.of_nat (S p) -> List.length (point_text p m)
  = match p with O => 1%nat | S _ => S (S p) end.
Proof.
  intro H. rewrite point_len. rewrite (digits_small (m / _)).
  - destruct p; reflexivity.
  - pose proof (pow10_pos p). rewrite pow10_S in H. apply N.div_lt_upper_bound; lia.
Qed.

Lemma exp_parts_lt p x : fst (exp_parts p x) < 10 ^ N.of_nat (S p).
Proof.
  destruct (N.eq_dec (d_man x) 0) as [E|E].
  - unfold exp_parts. rewrite E. cbn [N.eqb fst]. pose proof (pow10_pos (S p)). lia.
  - apply exp_parts_range, E.
Qed.

Lemma rpc_form_eq x : (-10 <= snd (exp_parts 6 x) <= 10)%Z ->
  drop_exp0 (fmt_pct true true false 10 6 true true x) = rpc_form x.
Proof.
  intro He. unfold fmt_pct, rpc_form. rewrite exp_text_suffix.
  pose proof (exp_parts_lt 6 x) as Hm.
  destruct (exp_parts 6 x) as [m e]. cbn [fst snd] in *. unfold pad_num.
  assert (Hl : List.length (sign_text true (d_neg x)) = 1%nat) by (destruct (d_neg x); reflexivity).
  rewrite Hl, app_length, point_len1 by exact Hm.
  set (es := exp_suffix _). assert (Hes : (1 <= List.length es)%nat) by (unfold es; cbn; lia).
  replace (10 - (1 + (8 + List.length es)))%nat with 0%nat by lia. cbn [repeat app]. unfold es. clear es Hes.
  rewrite drop_exp0_app by (destruct (d_neg x); reflexivity). f_equal.
  rewrite drop_exp0_app by apply point_no_E. f_equal.
  unfold exp_suffix. assert (C : (Z.abs_N e < 10)%N \/ Z.abs_N e = 10%N) by lia.
  destruct C as [C|C].
  - rewrite digits_small by exact C. unfold pad0. cbn [List.length Nat.sub repeat app].
    destruct (e <? 0)%Z; reflexivity.
  - rewrite C. change (digits 10) with [49; 48]. destruct (e <? 0)%Z; reflexivity.
Qed.

Lemma exp_parts_e p x : d_man x <> 0 ->
  (ndig (d_man x) - 1 + d_ex x <= snd (exp_parts p x) <= ndig (d_man x) + d_ex x)%Z.
Proof.
  intro H. unfold exp_parts. replace (d_man x =? 0) with false by lia.
  destruct (_ <=? _); cbn [snd]; lia.
Qed.

Lemma rpc_text_cases x t : rpc_text x = Some t ->
  (abs_lt10 x (-9) = true /\ t = str "+0.000000E+0")
  \/ (abs_lt10 x (-9) = false /\ abs_lt10 x 10 = true /\ d_man x <> 0
      /\ (-9 <= snd (exp_parts 6 x) <= 10)%Z /\ t = rpc_form x).
Proof.
  unfold rpc_text. destruct (abs_lt10 x (-9)) eqn:E1.
  - intro H. injection H as <-. left; auto.
  - destruct (abs_lt10 x 10) eqn:E2; [|discriminate]. cbn [negb]. intro H. right.
    assert (Hx : d_man x <> 0).
    { intro Z0. unfold abs_lt10 in E1. rewrite Z0 in E1. discriminate. }
    pose proof (exp_parts_e 6 x Hx) as R. unfold abs_lt10 in E1, E2.
    replace (d_man x =? 0) with false in * by lia.
    assert (B : (-9 <= snd (exp_parts 6 x) <= 10)%Z) by lia.
    rewrite rpc_form_eq in H by lia. injection H as <-. auto.
Qed.

Lemma parse_rpc_form x : parse_float (rpc_form x) = Some (pct_val 6 true x).
Proof.
  pose proof (parse_point [] [] true (d_neg x) 0 6 (fst (exp_parts 6 x))
    (Some (69, (snd (exp_parts 6 x) <? 0)%Z, Z.abs_N (snd (exp_parts 6 x)), 1%nat)) eq_refl eq_refl (or_introl eq_refl)) as H.
  cbn [app repeat] in H. rewrite app_nil_r in H. unfold rpc_form. rewrite H. unfold pct_val. cbn [exp_val].
  now rewrite abs_sign.
Qed.

Lemma rpc_form_len x : (-10 <= snd (exp_parts 6 x) <= 10)%Z ->
  List.length (rpc_form x) = if (Z.abs (snd (exp_parts 6 x)) =? 10)%Z then 13%nat else 12%nat.
Proof.
  intro He. unfold rpc_form. rewrite !app_length, point_len1 by apply exp_parts_lt.
  replace (List.length (sign_text true (d_neg x))) with 1%nat by (destruct (d_neg x); reflexivity).
  unfold exp_suffix. rewrite !app_length, pad0_len. cbn [List.length].
  set (e := snd (exp_parts 6 x)) in *. assert (C : (Z.abs_N e < 10)%N \/ Z.abs_N e = 10%N) by lia.
  destruct C as [C|C].
  - rewrite digits_small by exact C. replace (_ =? 10)%Z with false by lia. reflexivity.
  - rewrite C. replace (_ =? 10)%Z with true by lia. reflexivity.
Qed.

Lemma rpc_parses x t : rpc_text x = Some t -> exists y, parse_float t = Some y.
Proof.
  intro H. destruct (rpc_text_cases x t H) as [[_ ->]|(_ & _ & _ & _ & ->)].
  - eexists. vm_compute. reflexivity.
  - eexists. apply parse_rpc_form.
Qed.

Lemma rpc_again x t y : rpc_text x = Some t -> (List.length t <= 12)%nat -> parse_float t = Some y ->
  rpc_text y = Some t.
Proof.
  intros H Hl Hy. destruct (rpc_text_cases x t H) as [[_ ->]|(E1 & E2 & Hx & He & ->)].
  - vm_compute in Hy. injection Hy as <-. vm_compute. reflexivity.
  - rewrite parse_rpc_form in Hy. assert (y = pct_val 6 true x) as -> by congruence. rewrite rpc_form_len in Hl by lia.
    assert (He' : (-9 <= snd (exp_parts 6 x) <= 9)%Z) by (destruct (_ =? _)%Z eqn:E in Hl; lia). clear Hl.
    pose proof (exp_parts_range 6 x Hx) as R.
    assert (A : forall k, abs_lt10 (pct_val 6 true x) k = (snd (exp_parts 6 x) + 1 <=? k)%Z).
    { intro k. unfold abs_lt10, pct_val. cbn [d_man d_ex].
      replace (fst (exp_parts 6 x) =? 0) with false by (pose proof (pow10_pos 6); lia).
      unfold ndig. rewrite (digits_len _ 6) by (pose proof (pow10_pos 6); lia). lia. }
    unfold rpc_text. rewrite !A. replace (_ <=? -9)%Z with false by lia. replace (_ <=? 10)%Z with true by lia.
    cbn [negb]. rewrite (pct_again true true false 10 6 true true x). f_equal. apply rpc_form_eq. lia.
Qed.

Theorem DecF_laws : FloatLaws DecF.
Proof.
  constructor.
  - intros sp x t H. destruct sp as [w|plus zero lft w p expo upper|nm]; cbn [DecF fl_fmt fl_parse] in *.
    + pose proof (fit_width_best w x) as B. rewrite H in B. destruct B as (p & _ & _ & _ & _ & y & Hy & _). eauto.
    + injection H as <-. eexists. apply parse_pct.
    + destruct (String.eqb nm _); [|discriminate]. eapply rpc_parses, H.
  - intros t u Hu. cbn [DecF fl_parse]. unfold parse_float. now rewrite rstrip_lstrip.
  - intros t y H. eapply parse_visible, H.
Qed.

(** Every named float format is used with fields of 12 bytes. *)
Definition ext_sized (fs : fstruct) : bool :=
  forallb (fun f => match fd_ty (f_d f), fd_frmt (f_d f) with
                    | TFloat, FrF (FsExt _) =>
                        match fd_size (f_d f) with
                        | SzInt n => negb (n =? 0)%Z && (n - fd_size_offset (f_d f) <=? 12)%Z
                        | _ => false end
                    | _, _ => true end) (fs_fields fs).

Theorem DecF_stable fs : ext_sized fs = true -> FloatStable DecF fs.
Proof.
  intros Hx f sz Hf Hty Hsz x t y H1 Hl H2. unfold ext_sized in Hx. rewrite forallb_forall in Hx.
  specialize (Hx f Hf). rewrite Hty in Hx. unfold float_spec in *.
  assert (Hfit : forall w, fl_fmt DecF (FsFit w) x = Some t -> fl_fmt DecF (FsFit w) y = Some t).
  { intros w E. exact (fit_again w x t y E H2). }
  destruct (fd_frmt (f_d f)) as [| |[w|plus zero lft w p expo upper|nm]] eqn:Ef; try (apply Hfit; exact H1);
    cbn [DecF fl_fmt fl_parse] in *.
  - injection H1 as <-. rewrite parse_pct in H2. assert (y = pct_val p expo x) as -> by congruence. now rewrite pct_again.
  - destruct (String.eqb nm _); [|discriminate].
    destruct (fd_size (f_d f)) as [n|]; [|discriminate]. specialize (Hsz n eq_refl).
    apply andb_true_iff in Hx as [Hx1 Hx2]. replace (n =? 0)%Z with false in Hsz by lia.
    apply (rpc_again x); auto. lia.
Qed.

(** The largest coefficients the function accepts do not fit their field. *)
Theorem rpc_12 x t : rpc_text x = Some t ->
  List.length t = 12%nat \/ (List.length t = 13%nat /\ snd (exp_parts 6 x) = 10%Z).
Proof.
  intro H. destruct (rpc_text_cases x t H) as [[_ ->]|(_ & _ & _ & He & ->)]; [left; reflexivity|].
  rewrite rpc_form_len by lia. destruct (_ =? _)%Z eqn:E; [right|left]; auto. split; auto. lia.
Qed.

(** ** Precision of the scientific form *)

Definition dec_abs (x : dec) : Q := (inject_Z (Z.of_N (d_man x)) * (10 # 1) ^ d_ex x)%Q.

Lemma dec_abs_Q x : (dec_abs x == Qabs (dec_Q x))%Q.
Proof.
  unfold dec_abs, dec_Q. rewrite !Qabs_Qmult.
  rewrite (Qabs_pos ((10 # 1) ^ _)) by (apply Qlt_le_weak, Q10_pos).
  rewrite (Qabs_pos (inject_Z _)) by (unfold Qle; cbn; lia).
  setoid_replace (Qabs (if d_neg x then -1 # 1 else 1)) with 1%Q by (destruct (d_neg x); reflexivity). ring.
Qed.

Lemma dec_abs_bounds x : d_man x <> 0 ->
  ((10 # 1) ^ (ndig (d_man x) - 1 + d_ex x) <= dec_abs x
   /\ dec_abs x < (10 # 1) ^ (ndig (d_man x) + d_ex x))%Q.
Proof.
  intro Hx. destruct (digits_bounds (d_man x)) as [B1 [|B2]]; [lia|].
  pose proof (digits_len_pos (d_man x)) as HL. unfold ndig, dec_abs.
  set (L := List.length (digits (d_man x))) in *. destruct L as [|k]; [lia|].
  rewrite pow10_S in B2.
  rewrite !Qpower_plus by apply Q10_nz.
  replace (Z.of_nat (S k) - 1)%Z with (Z.of_N (N.of_nat k)) by lia.
  replace (Z.of_nat (S k)) with (Z.of_N (N.of_nat (S k))) by lia.
  setoid_rewrite <- Q10_pow. pose proof (Q10_pos (d_ex x)) as P. split.
  - apply Qmult_le_compat_r; [|apply Qlt_le_weak, P]. unfold Qle. cbn [inject_Z Qnum Qden]. lia.
  - apply Qmult_lt_compat_r; [exact P|]. unfold Qlt. cbn [inject_Z Qnum Qden]. lia.
Qed.

Lemma Q10_lt a b : (a < b)%Z -> ((10 # 1) ^ a < (10 # 1) ^ b)%Q.
Proof. intro H. apply Qpower_lt_compat_l; [exact H|reflexivity]. Qed.
Lemma Q10_le a b : (a <= b)%Z -> ((10 # 1) ^ a <= (10 # 1) ^ b)%Q.
Proof. intro H. apply Qpower_le_compat_l; [exact H|]. discriminate. Qed.

Lemma abs_lt10_spec x k : abs_lt10 x k = true <-> (Qabs (dec_Q x) < (10 # 1) ^ k)%Q.
Proof.
  rewrite <- dec_abs_Q. unfold abs_lt10. destruct (N.eq_dec (d_man x) 0) as [E|E].
  - rewrite E. cbn [N.eqb]. split; auto. intros _.
    setoid_replace (dec_abs x) with 0%Q by (unfold dec_abs; rewrite E; ring). apply Q10_pos.
  - replace (d_man x =? 0) with false by lia. destruct (dec_abs_bounds x E) as [B1 B2]. split.
    + intro H. eapply Qlt_le_trans; [exact B2|]. apply Q10_le. lia.
    + intro H. destruct (ndig (d_man x) + d_ex x <=? k)%Z eqn:C; auto. exfalso.
      assert (G : ((10 # 1) ^ k <= dec_abs x)%Q).
      { eapply Qle_trans; [|exact B1]. apply Q10_le. lia. }
      eapply Qlt_irrefl, Qlt_le_trans; [exact H|exact G].
Qed.

(** Relative error of the scientific form: half a unit of the last of [p+1] digits. *)
Lemma exp_close p x :
  (Qabs (dec_Q (pct_val p true x) - dec_Q x) <= (1 # 2) * (10 # 1) ^ (- Z.of_nat p) * Qabs (dec_Q x))%Q.
Proof.
  unfold pct_val. destruct (N.eq_dec (d_man x) 0) as [E|E].
  - setoid_replace (dec_Q x) with 0%Q by (unfold dec_Q; rewrite E; cbn [Z.of_N]; ring).
    setoid_replace (dec_Q {| d_neg := d_neg x; d_man := fst (exp_parts p x); d_ex := snd (exp_parts p x) - Z.of_nat p |})
      with 0%Q by (unfold dec_Q, exp_parts; rewrite E; cbn [N.eqb fst snd d_man d_neg d_ex Z.of_N]; ring).
    change (Qabs (0 - 0)) with 0%Q. change (Qabs 0) with 0%Q. rewrite Qmult_0_r. apply Qle_refl.
  - set (e := (ndig (d_man x) - 1 + d_ex x)%Z).
    set (r := rnd10 (d_man x) (d_ex x + Z.of_nat p - e)).
    assert (V : (inject_Z (Z.of_N (fst (exp_parts p x))) * (10 # 1) ^ (snd (exp_parts p x) - Z.of_nat p)
                 == inject_Z (Z.of_N r) * (10 # 1) ^ (e - Z.of_nat p))%Q).
    { assert (U : r <= 10 ^ N.of_nat (S p)).
      { pose proof (exp_parts_range p x E) as R. unfold exp_parts in R.
        replace (d_man x =? 0) with false in R by lia. fold e r in R.
        destruct (_ <=? r) eqn:C in R; cbn [fst] in R; [|lia].
        (* r / 10 < 10^(p+1) is not enough; use the rounding bound *)
        destruct (digits_bounds (d_man x)) as [B1 _].
        destruct (rnd10_close (d_man x) (d_ex x + Z.of_nat p - e)) as [_ H2]. fold r in H2.
        set (s := (d_ex x + Z.of_nat p - e)%Z) in *. pose proof (dn_pos s) as Hd. pose proof (up_pos s) as Hu.
        pose proof (digits_len_pos (d_man x)) as HL.
        set (L := List.length (digits (d_man x))) in *. destruct L as [|k] eqn:EL; [lia|].
        assert (Es : s = (Z.of_nat p - Z.of_nat k)%Z) by (unfold s, e, ndig; fold L; lia).
        assert (E1 : 10 ^ N.of_nat p * dn s = 10 ^ N.of_nat k * up s).
        { unfold up, dn. rewrite <- !N.pow_add_r. f_equal. lia. }
        rewrite pow10_S in *. destruct (N.le_gt_cases r (10 * 10 ^ N.of_nat p)) as [|G]; auto. exfalso.
        assert (A : 2 * dn s * (10 * 10 ^ N.of_nat p + 1) <= 2 * (d_man x * up s) + dn s) by nia.
        assert (A2 : d_man x * up s < 10 * 10 ^ N.of_nat k * up s) by (apply N.mul_lt_mono_pos_r; lia).
        lia. }
      unfold exp_parts. replace (d_man x =? 0) with false by lia. fold e r.
      destruct (10 ^ N.of_nat (S p) <=? r) eqn:C; cbn [fst snd]; [|reflexivity].
      assert (Er : r = 10 * 10 ^ N.of_nat p) by (rewrite pow10_S in *; lia). rewrite Er.
      replace (10 * 10 ^ N.of_nat p / 10) with (10 ^ N.of_nat p)
        by (rewrite N.mul_comm, N.div_mul; lia).
      replace (e + 1 - Z.of_nat p)%Z with (1 + (e - Z.of_nat p))%Z by lia.
      rewrite Qpower_plus by apply Q10_nz. rewrite N2Z.inj_mul, inject_Z_mult.
      change (inject_Z (Z.of_N 10)) with (10 # 1)%Q. change ((10 # 1) ^ 1)%Q with (10 # 1)%Q. ring. }
    pose proof (rnd10_Q (d_man x) (d_ex x + Z.of_nat p - e)) as B. fold r in B.
    destruct (dec_abs_bounds x E) as [B1 _]. fold e in B1. rewrite dec_abs_Q in B1.
    apply Qle_trans with ((1 # 2) * (10 # 1) ^ (- Z.of_nat p) * (10 # 1) ^ e)%Q.
    2:{ rewrite (Qmult_comm _ ((10 # 1) ^ e)), (Qmult_comm _ (Qabs _)). apply Qmult_le_compat_r; [exact B1|].
        apply Qmult_le_0_compat; [discriminate|]. apply Qlt_le_weak, Q10_pos. }
    unfold dec_Q. cbn [d_neg d_man d_ex].
    set (sg := (if d_neg x then -1 # 1 else 1)%Q).
    assert (Hsg : (Qabs sg == 1)%Q) by (unfold sg; destruct (d_neg x); reflexivity).
    set (R := inject_Z (Z.of_N r)) in *. set (M := inject_Z (Z.of_N (d_man x))) in *.
    assert (Hp : ((10 # 1) ^ d_ex x == (10 # 1) ^ (d_ex x + Z.of_nat p - e) * (10 # 1) ^ (e - Z.of_nat p))%Q).
    { rewrite <- Qpower_plus by apply Q10_nz. now replace (d_ex x + Z.of_nat p - e + (e - Z.of_nat p))%Z with (d_ex x) by lia. }
    rewrite <- Qmult_assoc, V, <- Qmult_assoc, Hp.
    setoid_replace (sg * (R * (10 # 1) ^ (e - Z.of_nat p))
        - sg * (M * ((10 # 1) ^ (d_ex x + Z.of_nat p - e) * (10 # 1) ^ (e - Z.of_nat p))))%Q
      with (sg * ((R - M * (10 # 1) ^ (d_ex x + Z.of_nat p - e)) * (10 # 1) ^ (e - Z.of_nat p)))%Q by ring.
    rewrite !Qabs_Qmult, Hsg, Qmult_1_l.
    rewrite (Qabs_pos ((10 # 1) ^ _)) by (apply Qlt_le_weak, Q10_pos).
    rewrite <- Qmult_assoc, <- Qpower_plus by apply Q10_nz.
    replace (- Z.of_nat p + e)%Z with (e - Z.of_nat p)%Z by lia.
    apply Qmult_le_compat_r; [exact B|]. apply Qlt_le_weak, Q10_pos.
Qed.

(** The coefficient function: refused exactly from 1e10 up, zero below 1e-9, otherwise
    seven significant digits. *)
Theorem rpc_close x :
  match rpc_text x with
  | None => ((10 # 1) ^ 10 <= Qabs (dec_Q x))%Q
  | Some t => (Qabs (dec_Q x) < (10 # 1) ^ 10)%Q
      /\ exists y, parse_float t = Some y
           /\ ((Qabs (dec_Q x) < (10 # 1) ^ (-9) /\ dec_Q y == 0)
               \/ ((10 # 1) ^ (-9) <= Qabs (dec_Q x)
                   /\ Qabs (dec_Q y - dec_Q x) <= (1 # 2) * (10 # 1) ^ (-6) * Qabs (dec_Q x)))%Q
  end.
Proof.
  assert (N1 : forall k, abs_lt10 x k = false -> ((10 # 1) ^ k <= Qabs (dec_Q x))%Q).
  { intros k H. apply Qnot_lt_le. intro C. apply abs_lt10_spec in C. congruence. }
  destruct (rpc_text x) as [t|] eqn:E.
  - destruct (rpc_text_cases x t E) as [[H ->]|(H1 & H2 & _ & _ & ->)].
    + apply abs_lt10_spec in H. split.
      * eapply Qlt_trans; [exact H|]. apply Q10_lt. lia.
      * eexists. split; [vm_compute; reflexivity|]. left. split; [exact H|reflexivity].
    + split; [now apply abs_lt10_spec|]. eexists. split; [apply parse_rpc_form|]. right.
      split; [apply N1, H1|]. apply (exp_close 6).
  - unfold rpc_text in E. destruct (abs_lt10 x (-9)); [discriminate|].
    destruct (abs_lt10 x 10) eqn:H; [discriminate|]. apply N1, H.
Qed.
