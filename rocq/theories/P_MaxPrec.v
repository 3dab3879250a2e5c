(** C66: fitting a number into a width with maximum_precision=True (nitf_field.py:20-34). *)
From Verif Require Import Base BaseLemmas Engine Codec Decimal DecimalLemmas DecimalFit TextSpec MaxPrec.
From Verif Require Import P_Codec.
From Coq Require Import ZifyBool ZifyNat ZifyN QArith Qabs Qpower Lqa.
Open Scope Z_scope.
Open Scope list_scope.

(** ** What is to be shown *)

(** [m * 10^(e-p)] is [v] rounded to [p + 1] significant digits. *)
Definition scientific (p : nat) (v : Q) (m : N) (e : Z) : Prop :=
  ((v == 0)%Q /\ m = 0%N /\ e = 0)
  \/ (exists E M, ((10 # 1) ^ E <= v < (10 # 1) ^ (E + 1))%Q /\ nearest (v * (10 # 1) ^ (Z.of_nat p - E)) M
      /\ (10 ^ N.of_nat p <= m < 10 ^ N.of_nat (S p))%N
      /\ (inject_Z (Z.of_N m) * (10 # 1) ^ e == inject_Z (Z.of_N M) * (10 # 1) ^ E)%Q).

(** [t] is [x] written as d.ddde+dd with [p] digits after the point and two or more in the exponent. *)
Definition sci (p : nat) (x : dec) (t : list N) : Prop :=
  exists d fp zs ds e,
    t = (if d_neg x then [45%N] else []) ++ d :: match p with O => [] | S _ => 46%N :: fp end
        ++ 101%N :: (if e <? 0 then 45%N else 43%N) :: zs ++ ds
    /\ all_digits (d :: fp) /\ List.length fp = p /\ scientific p (Qabs (dec_Q x)) (text_val (d :: fp)) e
    /\ numeral (Z.abs_N e) ds /\ Forall (eq 48%N) zs /\ List.length (zs ++ ds) = Nat.max 2 (List.length ds).

(** ** The exponent form *)

Lemma shift_unique p m1 e1 m2 e2 :
  (10 ^ N.of_nat p <= m1 < 10 ^ N.of_nat (S p))%N -> (10 ^ N.of_nat p <= m2 < 10 ^ N.of_nat (S p))%N ->
  (inject_Z (Z.of_N m1) * (10 # 1) ^ e1 == inject_Z (Z.of_N m2) * (10 # 1) ^ e2)%Q -> m1 = m2 /\ e1 = e2.
Proof.
  assert (K : forall m1 e1 m2 e2, (10 ^ N.of_nat p <= m1)%N -> (m2 < 10 ^ N.of_nat (S p))%N ->
    (inject_Z (Z.of_N m1) * (10 # 1) ^ e1 == inject_Z (Z.of_N m2) * (10 # 1) ^ e2)%Q -> e1 <= e2).
  { clear. intros m1 e1 m2 e2 A B Q. destruct (Z_le_gt_dec e1 e2) as [|G]; [assumption|exfalso].
    replace e1 with (e2 + (e1 - e2)) in Q by lia. rewrite Qpower_plus in Q by apply Q10_nz.
    assert (Q' : (inject_Z (Z.of_N m1) * (10 # 1) ^ (e1 - e2) == inject_Z (Z.of_N m2))%Q).
    { apply (Qmult_inj_r _ _ ((10 # 1) ^ e2)); [intro X; pose proof (Q10_pos e2) as Y; rewrite X in Y; discriminate Y|].
      rewrite <- Q. ring. }
    replace (e1 - e2) with (Z.of_N (Z.to_N (e1 - e2))) in Q' by lia. rewrite <- Q10_pow, <- inject_Z_mult in Q'.
    assert (Q2 : Z.of_N m1 * Z.of_N (10 ^ Z.to_N (e1 - e2)) = Z.of_N m2) by (unfold Qeq in Q'; cbn in Q'; lia).
    assert (T : (10 <= 10 ^ Z.to_N (e1 - e2))%N).
    { change 10%N with (10 ^ 1)%N at 1. apply N.pow_le_mono_r; lia. }
    rewrite pow10_S in B. nia. }
  intros A B Q. assert (e1 = e2).
  { apply Z.le_antisymm; [apply (K m1 e1 m2 e2)|apply (K m2 e2 m1 e1)]; try tauto. now symmetry. }
  split; [|assumption]. subst e2.
  assert (Q' : (inject_Z (Z.of_N m1) == inject_Z (Z.of_N m2))%Q).
  { apply (Qmult_inj_r _ _ ((10 # 1) ^ e1)); [intro X; pose proof (Q10_pos e1) as Y; rewrite X in Y; discriminate Y|exact Q]. }
  unfold Qeq in Q'. cbn in Q'. lia.
Qed.

Lemma parts_value p x : d_man x <> 0%N ->
  let e := ndig (d_man x) - 1 + d_ex x in
  (inject_Z (Z.of_N (fst (exp_parts p x))) * (10 # 1) ^ snd (exp_parts p x)
   == inject_Z (Z.of_N (rnd10 (d_man x) (d_ex x + Z.of_nat p - e))) * (10 # 1) ^ e)%Q.
Proof.
  intros E e. set (r := rnd10 (d_man x) (d_ex x + Z.of_nat p - e)).
  assert (U : (r <= 10 ^ N.of_nat (S p))%N).
  { destruct (digits_bounds (d_man x)) as [B1 _].
    destruct (rnd10_close (d_man x) (d_ex x + Z.of_nat p - e)) as [_ H2]. fold r in H2.
    set (s := d_ex x + Z.of_nat p - e) in *. pose proof (dn_pos s) as Hd. pose proof (up_pos s) as Hu.
    pose proof (digits_len_pos (d_man x)) as HL.
    set (L := List.length (digits (d_man x))) in *. destruct L as [|k] eqn:EL; [lia|].
    assert (Es : s = Z.of_nat p - Z.of_nat k) by (unfold s, e, ndig; fold L; lia).
    assert (E1 : (10 ^ N.of_nat p * dn s = 10 ^ N.of_nat k * up s)%N).
    { unfold up, dn. rewrite <- !N.pow_add_r. f_equal. lia. }
    rewrite pow10_S in *. destruct (N.le_gt_cases r (10 * 10 ^ N.of_nat p)) as [|G]; auto. exfalso.
    assert (A : (2 * dn s * (10 * 10 ^ N.of_nat p + 1) <= 2 * (d_man x * up s) + dn s)%N) by nia.
    assert (A2 : (d_man x * up s < 10 * 10 ^ N.of_nat k * up s)%N) by (apply N.mul_lt_mono_pos_r; lia).
    lia. }
  unfold exp_parts. replace (d_man x =? 0)%N with false by lia. fold e. fold r.
  destruct (10 ^ N.of_nat (S p) <=? r)%N eqn:C; cbn [fst snd]; [|reflexivity].
  assert (Er : r = (10 * 10 ^ N.of_nat p)%N) by (rewrite pow10_S in *; lia). rewrite Er.
  replace (10 * 10 ^ N.of_nat p / 10)%N with (10 ^ N.of_nat p)%N by (rewrite N.mul_comm, N.div_mul; lia).
  replace (e + 1) with (1 + e) by lia.
  rewrite Qpower_plus by apply Q10_nz. rewrite N2Z.inj_mul, inject_Z_mult.
  change (inject_Z (Z.of_N 10)) with (10 # 1)%Q. change ((10 # 1) ^ 1)%Q with (10 # 1)%Q. ring.
Qed.

Lemma abs_zero x : (Qabs (dec_Q x) == 0)%Q <-> d_man x = 0%N.
Proof.
  rewrite <- dec_abs_Q. split.
  - intro H. destruct (N.eq_dec (d_man x) 0) as [|E]; auto. exfalso.
    destruct (dec_abs_bounds x E) as [B _]. rewrite H in B.
    pose proof (Q10_pos (ndig (d_man x) - 1 + d_ex x)) as P. eapply Qlt_irrefl, Qlt_le_trans; [exact P|exact B].
  - intro H. unfold dec_abs. rewrite H. cbn [Z.of_N]. ring.
Qed.

Lemma level_unique (v : Q) a b : ((10 # 1) ^ a <= v < (10 # 1) ^ (a + 1))%Q -> ((10 # 1) ^ b <= v < (10 # 1) ^ (b + 1))%Q -> a = b.
Proof.
  assert (K : forall a b, ((10 # 1) ^ a <= v)%Q -> (v < (10 # 1) ^ (b + 1))%Q -> a <= b).
  { intros a' b' A B. destruct (Z_le_gt_dec a' b') as [|G]; [assumption|exfalso].
    eapply Qlt_irrefl, Qlt_le_trans; [exact B|]. eapply Qle_trans; [|exact A]. apply Q10_le. lia. }
  intros [A1 A2] [B1 B2]. apply Z.le_antisymm; apply K; assumption.
Qed.

Lemma scientific_iff p x m e : scientific p (Qabs (dec_Q x)) m e <-> (m, e) = exp_parts p x.
Proof.
  destruct (N.eq_dec (d_man x) 0) as [E|E].
  - unfold exp_parts. replace (d_man x =? 0)%N with true by lia. split.
    + intros [(_ & -> & ->)|(E' & M & (B & _) & _)]; [reflexivity|exfalso].
      apply abs_zero in E. rewrite E in B. eapply Qlt_irrefl, Qlt_le_trans; [apply Q10_pos|exact B].
    + intro Q. left. split; [now apply abs_zero|]. split; congruence.
  - destruct (dec_abs_bounds x E) as [B1 B2]. rewrite dec_abs_Q in B1, B2.
    set (e0 := ndig (d_man x) - 1 + d_ex x) in *.
    replace (ndig (d_man x) + d_ex x) with (e0 + 1) in B2 by (unfold e0; lia).
    pose proof (exp_parts_range p x E) as R. pose proof (parts_value p x E) as V. cbv zeta in V. fold e0 in V.
    assert (NR : forall M, nearest (Qabs (dec_Q x) * (10 # 1) ^ (Z.of_nat p - e0)) M
                 <-> M = rnd10 (d_man x) (d_ex x + Z.of_nat p - e0)).
    { intro M. rewrite <- nearest_rnd10.
      assert (Q : (Qabs (dec_Q x) * (10 # 1) ^ (Z.of_nat p - e0) == inject_Z (Z.of_N (d_man x)) * (10 # 1) ^ (d_ex x + Z.of_nat p - e0))%Q).
      { rewrite abs_dec_Q. replace (d_ex x + Z.of_nat p - e0) with (d_ex x + (Z.of_nat p - e0)) by lia.
        rewrite Qpower_plus by apply Q10_nz. ring. }
      split; apply nearest_comp; [exact Q|symmetry; exact Q]. }
    split.
    + intros [(Z & _)|(E' & M & B & N & G & Q)]; [apply abs_zero in Z; lia|].
      assert (E' = e0) by (eapply level_unique; [exact B|split; assumption]). subst E'.
      apply NR in N. subst M. rewrite <- V in Q.
      destruct (shift_unique p _ _ _ _ G R Q) as [-> ->]. now destruct (exp_parts p x).
    + intro Q. right. exists e0, (rnd10 (d_man x) (d_ex x + Z.of_nat p - e0)).
      split; [split; assumption|]. split; [now apply NR|].
      rewrite <- Q in R, V. cbn [fst snd] in R, V. split; [exact R|exact V].
Qed.

Lemma exp_pad e : exists zs, pad0 2 (digits e) = zs ++ digits e /\ Forall (eq 48%N) zs
  /\ List.length (zs ++ digits e) = Nat.max 2 (List.length (digits e)).
Proof.
  exists (repeat 48%N (2 - List.length (digits e))). split; [reflexivity|]. split.
  - apply Forall_forall. intros c Hc. apply repeat_spec in Hc. auto.
  - rewrite app_length, repeat_length. lia.
Qed.

Lemma sci_iff p x t : sci p x t <-> t = fmt_exp p x.
Proof.
  unfold fmt_exp, exp_text. split.
  - intros (d & fp & zs & ds & e & -> & HA & HL & HS & HN & HZ & HZL).
    apply scientific_iff in HS. rewrite <- HS. clear HS. unfold sign_text. f_equal.
    apply numeral_unique in HN. subst ds.
    assert (EZ : zs ++ digits (Z.abs_N e) = pad0 2 (digits (Z.abs_N e))).
    { unfold pad0. f_equal. rewrite app_length in HZL.
      assert (E : zs = repeat 48%N (List.length zs)).
      { clear -HZ. induction HZ as [|c l <- _ IH]; [reflexivity|]. cbn. now f_equal. }
      rewrite E. f_equal. lia. }
    rewrite EZ. cbn [app]. inversion HA as [|? ? Hd Hf]; subst.
    pose proof (text_val_lt fp Hf) as L. set (p := List.length fp) in *.
    assert (V : text_val (d :: fp) = ((d - 48) * 10 ^ N.of_nat p + text_val fp)%N) by reflexivity.
    pose proof (pow10_pos p) as P10.
    assert (Q1 : (text_val (d :: fp) / 10 ^ N.of_nat p = d - 48)%N).
    { rewrite V, N.div_add_l, (N.div_small (text_val fp)) by lia. lia. }
    assert (Q2 : (text_val (d :: fp) mod 10 ^ N.of_nat p = text_val fp)%N).
    { rewrite V, N.add_comm, N.mod_add by lia. now rewrite N.mod_small. }
    unfold point_text. rewrite Q1, Q2. rewrite (digits_small (d - 48)) by lia. replace (48 + (d - 48))%N with d by lia.
    cbn [app]. f_equal. destruct p as [|q] eqn:Ep; [reflexivity|]. cbn [app]. f_equal. f_equal.
    apply text_val_inj; auto.
    + apply all_digits_forallb, pad0_digit. now destruct (digits_spec (text_val fp)) as (_ & ? & _).
    + rewrite pad0_len. assert (List.length (digits (text_val fp)) <= S q)%nat by (apply digits_len_le; [exact L|lia]).
      fold p. lia.
    + rewrite (text_val_digval (pad0 _ _)), pad0_val, N.mul_0_l. now destruct (digits_spec (text_val fp)) as (_ & _ & ->).
  - intros ->. pose proof (exp_parts_lt p x) as R.
    assert (HS := proj2 (scientific_iff p x (fst (exp_parts p x)) (snd (exp_parts p x))) ltac:(now destruct (exp_parts p x))).
    destruct (exp_parts p x) as [m e]. cbn [fst snd] in *.
    destruct (exp_pad (Z.abs_N e)) as (zs & Ez & Hz & Lz).
    assert (Q1 : (m / 10 ^ N.of_nat p < 10)%N).
    { pose proof (pow10_pos p). rewrite pow10_S in R. apply N.div_lt_upper_bound; lia. }
    destruct (parts_digits p m 0) as (P1 & P2 & P3 & P4). cbn [repeat app] in P1, P3.
    exists (48 + m / 10 ^ N.of_nat p)%N, (frac_part p m), zs, (digits (Z.abs_N e)), e.
    assert (I : int_part p m = [(48 + m / 10 ^ N.of_nat p)%N]) by (unfold int_part; now apply digits_small).
    assert (TV : text_val ((48 + m / 10 ^ N.of_nat p)%N :: frac_part p m) = m).
    { rewrite text_val_digval. change (_ :: frac_part p m) with ([(48 + m / 10 ^ N.of_nat p)%N] ++ frac_part p m).
      rewrite <- I. exact (parts_val p m 0). }
    split; [|split; [|split; [exact P4|split; [now rewrite TV|split; [apply numeral_digits|split; [exact Hz|exact Lz]]]]]].
    + unfold sign_text. f_equal. rewrite point_parts, I, Ez. cbn [app]. reflexivity.
    + apply all_digits_forallb. change (_ :: frac_part p m) with ([(48 + m / 10 ^ N.of_nat p)%N] ++ frac_part p m).
      rewrite <- I, forallb_app, P1, P2. reflexivity.
Qed.

Lemma fmt_exp_len p x : List.length (fmt_exp p x)
  = (List.length (sign_text false (d_neg x)) + match p with O => 1 | S _ => S (S p) end + 2
     + Nat.max 2 (List.length (digits (Z.abs_N (snd (exp_parts p x))))))%nat.
Proof.
  unfold fmt_exp. rewrite exp_text_suffix, !app_length, point_len1 by apply exp_parts_lt.
  unfold exp_suffix. rewrite !app_length, pad0_len. cbn [List.length]. lia.
Qed.

Lemma exp_len_0 x p : (List.length (fmt_exp 0 x) <= List.length (fmt_exp p x))%nat.
Proof.
  destruct p as [|p]; [lia|]. rewrite !fmt_exp_len.
  assert (B : (Z.abs_N (snd (exp_parts 0 x)) <= Z.abs_N (snd (exp_parts (S p) x)) + 1)%N).
  { destruct (N.eq_dec (d_man x) 0) as [E|E].
    - unfold exp_parts. replace (d_man x =? 0)%N with true by lia. cbn. lia.
    - pose proof (exp_parts_e 0 x E). pose proof (exp_parts_e (S p) x E). lia. }
  pose proof (digits_len_mono _ _ B). pose proof (digits_len_succ (Z.abs_N (snd (exp_parts (S p) x)))). lia.
Qed.

Lemma first_exp_spec w p x :
  (exists q, (q <= p)%nat /\ first_exp w p x = Some (fmt_exp q x)
     /\ (List.length (fmt_exp q x) <= w)%nat
     /\ forall r, (q < r <= p)%nat -> (w < List.length (fmt_exp r x))%nat)
  \/ (first_exp w p x = None /\ forall r, (r <= p)%nat -> (w < List.length (fmt_exp r x))%nat).
Proof.
  induction p as [|p IH]; cbn [first_exp].
  - destruct (_ <=? w)%nat eqn:E; [left|right].
    + exists 0%nat. split; [lia|]. split; [reflexivity|]. split; [lia|]. intros; lia.
    + split; auto. intros r Hr. replace r with 0%nat by lia. lia.
  - destruct (List.length (fmt_exp (S p) x) <=? w)%nat eqn:E.
    + left. exists (S p). split; [lia|]. split; [reflexivity|]. split; [lia|]. intros; lia.
    + destruct IH as [(q & H1 & H2 & H3 & H4)|(H1 & H2)]; [left|right].
      * exists q. split; [lia|]. split; [exact H2|]. split; [exact H3|]. intros r Hr.
        destruct (Nat.eq_dec r (S p)) as [->|]; [lia|]. apply H4. lia.
      * split; [exact H1|]. intros r Hr. destruct (Nat.eq_dec r (S p)) as [->|]; [lia|]. apply H2. lia.
Qed.

Lemma parse_fmt_exp p x : parse_float (fmt_exp p x) = Some (pct_val p true x).
Proof.
  pose proof (parse_pct false false false 0 p true false x) as H. unfold fmt_pct, pad_num in H.
  cbn [Nat.sub spaces repeat app] in H. exact H.
Qed.

(** ** The bounds *)

Lemma scaled_Q x k : (Qabs (dec_Q x) * inject_Z (Z.of_N (10 ^ Z.to_N (k - d_ex x)))
  == inject_Z (Z.of_N (d_man x * 10 ^ Z.to_N (d_ex x - k))) * (10 # 1) ^ k)%Q.
Proof.
  rewrite abs_dec_Q, N2Z.inj_mul, inject_Z_mult, !Q10_pow, <- !Qmult_assoc, <- !Qpower_plus by apply Q10_nz.
  replace (d_ex x + Z.of_N (Z.to_N (k - d_ex x))) with (Z.of_N (Z.to_N (d_ex x - k)) + k) by lia. reflexivity.
Qed.
Lemma sign_Q x : (dec_Q x == if d_neg x then - Qabs (dec_Q x) else Qabs (dec_Q x))%Q.
Proof. pose proof (abs_dec_Q x) as A. destruct (d_neg x) eqn:G; rewrite A; unfold dec_Q; rewrite G; ring. Qed.

Lemma below_spec x k : below x k = true <-> (dec_Q x < (10 # 1) ^ k)%Q.
Proof.
  unfold below. pose proof (Q10_pos k) as PK. pose proof (Qabs_nonneg (dec_Q x)) as PA. rewrite sign_Q.
  destruct (d_neg x); cbn [orb].
  - split; [|auto]. intros _. lra.
  - pose proof (scaled_Q x k) as S. set (a := (d_man x * 10 ^ Z.to_N (d_ex x - k))%N) in *. set (b := (10 ^ Z.to_N (k - d_ex x))%N) in *.
    assert (HB : (b <> 0)%N) by (apply N.pow_nonzero; lia). set (v := Qabs (dec_Q x)) in *. set (t := ((10 # 1) ^ k)%Q) in *.
    clearbody a b v t. assert (PB : (0 < inject_Z (Z.of_N b))%Q) by (unfold Qlt; cbn; lia).
    split.
    + intro H. assert (L : (inject_Z (Z.of_N a) < inject_Z (Z.of_N b))%Q) by (unfold Qlt; cbn; lia).
      apply (Qmult_lt_r _ _ _ PB). rewrite S, (Qmult_comm t). now apply Qmult_lt_r.
    + intro H. apply (Qmult_lt_r _ _ _ PB) in H. rewrite S, (Qmult_comm t) in H. apply Qmult_lt_r in H; [|exact PK].
      unfold Qlt in H. cbn in H. lia.
Qed.
Lemma above_spec x k : above x k = true <-> ((10 # 1) ^ k < dec_Q x)%Q.
Proof.
  unfold above. pose proof (Q10_pos k) as PK. pose proof (Qabs_nonneg (dec_Q x)) as PA. rewrite sign_Q.
  destruct (d_neg x); cbn [negb andb].
  - split; [discriminate|]. intro H. exfalso. lra.
  - pose proof (scaled_Q x k) as S. set (a := (d_man x * 10 ^ Z.to_N (d_ex x - k))%N) in *. set (b := (10 ^ Z.to_N (k - d_ex x))%N) in *.
    assert (HB : (b <> 0)%N) by (apply N.pow_nonzero; lia). set (v := Qabs (dec_Q x)) in *. set (t := ((10 # 1) ^ k)%Q) in *.
    clearbody a b v t. assert (PB : (0 < inject_Z (Z.of_N b))%Q) by (unfold Qlt; cbn; lia).
    split.
    + intro H. assert (L : (inject_Z (Z.of_N b) < inject_Z (Z.of_N a))%Q) by (unfold Qlt; cbn; lia).
      apply (Qmult_lt_r _ _ _ PB). rewrite S, (Qmult_comm t). now apply Qmult_lt_r.
    + intro H. apply (Qmult_lt_r _ _ _ PB) in H. rewrite S, (Qmult_comm t) in H. apply Qmult_lt_r in H; [|exact PK].
      unfold Qlt in H. cbn in H. lia.
Qed.

(** ** The theorems *)

(** Inside these bounds the function works as without maximum_precision. *)
Definition moderate (w : Z) (x : dec) : Prop := ((10 # 1) ^ (5 - w) <= dec_Q x <= (10 # 1) ^ (w - 5))%Q.

Lemma moderate_spec w x : (below x (- w + 5) || above x (w - 5)) = false <-> moderate w x.
Proof.
  rewrite orb_false_iff. replace (- w + 5) with (5 - w) by lia. unfold moderate.
  pose proof (below_spec x (5 - w)) as B. pose proof (above_spec x (w - 5)) as A.
  split.
  - intros [X Y]. rewrite X in B. rewrite Y in A. split; apply Qnot_lt_le; intro Z; [apply B in Z|apply A in Z]; discriminate Z.
  - intros [X Y]. split; apply Bool.not_true_is_false; intro Z.
    + apply B in Z. apply Qle_not_lt in X. now apply X.
    + apply A in Z. apply Qle_not_lt in Y. now apply Y.
Qed.

(** Moderate numbers are written as without the option; the others in exponent form with as many
    digits as fit. *)
Theorem C66_form w x t : fit_max w x = Some t <->
  (moderate w x /\ fit_width w x = Some t)
  \/ (~ moderate w x
      /\ exists p, Z.of_nat p <= w - 2 /\ sci p x t /\ Z.of_nat (List.length t) <= w
           /\ forall r t', (p < r)%nat -> Z.of_nat r <= w - 2 -> sci r x t' -> w < Z.of_nat (List.length t')).
Proof.
  rewrite <- moderate_spec. unfold fit_max. destruct (below x (- w + 5) || above x (w - 5)).
  2:{ split; [auto|]. intros [[_ H]|[H _]]; [exact H|]. now elim H. }
  transitivity (exists p, Z.of_nat p <= w - 2 /\ sci p x t /\ Z.of_nat (List.length t) <= w
           /\ forall r t', (p < r)%nat -> Z.of_nat r <= w - 2 -> sci r x t' -> w < Z.of_nat (List.length t')).
  2:{ split; [intro H; right; split; [discriminate|exact H]|]. intros [[H _]|[_ H]]; [discriminate H|exact H]. }
  destruct (w <? 2) eqn:E.
  { split; [discriminate|]. intros (p & H & _). lia. }
  destruct (first_exp_spec (Z.to_nat w) (Z.to_nat w - 2) x) as [(q & H1 & H2 & H3 & H4)|(H1 & H2)].
  - rewrite H2. split.
    + intros [= <-]. exists q. split; [lia|]. split; [now apply sci_iff|]. split; [lia|].
      intros r t' R1 R2 R3. apply sci_iff in R3. subst t'. specialize (H4 r). lia.
    + intros (p & A1 & A2 & A3 & A4). apply sci_iff in A2. subst t. f_equal. f_equal.
      destruct (Nat.lt_trichotomy p q) as [L|[L|L]]; auto; exfalso.
      * specialize (A4 q (fmt_exp q x) L ltac:(lia) (proj2 (sci_iff _ _ _) eq_refl)). lia.
      * specialize (H4 p). lia.
  - rewrite H1. split; [discriminate|]. intros (p & A1 & A2 & A3 & _). apply sci_iff in A2. subst t. specialize (H2 p). lia.
Qed.

(** An error exactly if not even the text without decimals fits. *)
Theorem C66_error w x : fit_max w x = None <->
  w < 2 \/ (moderate w x /\ forall t, fixed_point 0 x t -> w < Z.of_nat (List.length t))
  \/ (~ moderate w x /\ forall t, sci 0 x t -> w < Z.of_nat (List.length t)).
Proof.
  rewrite <- moderate_spec. unfold fit_max. destruct (below x (- w + 5) || above x (w - 5)).
  - destruct (w <? 2) eqn:E; [split; [intro; left; lia|auto]|].
    destruct (first_exp_spec (Z.to_nat w) (Z.to_nat w - 2) x) as [(q & H1 & H2 & H3 & H4)|(H1 & H2)].
    + rewrite H2. split; [discriminate|]. intros [H|[[H _]|[_ H]]]; [lia|discriminate H|exfalso].
      specialize (H (fmt_exp 0 x) (proj2 (sci_iff _ _ _) eq_refl)). pose proof (exp_len_0 x q). lia.
    + rewrite H1. split; [|auto]. intros _. right. right. split; [discriminate|]. intros t Ht. apply sci_iff in Ht. subst t.
      specialize (H2 0%nat). lia.
  - rewrite C17_error. split; [intros [H|H]; auto|]. intros [H|[[_ H]|[H _]]]; auto. now elim H.
Qed.

(** What is read back is within half a unit of the last digit written. *)
Theorem C66_close w x t : fit_max w x = Some t ->
  exists p y, parse_float t = Some y
    /\ ((moderate w x /\ fixed_point p x t /\ Qabs (dec_Q y - dec_Q x) <= (1 # 2) * (10 # 1) ^ (- Z.of_nat p))
        \/ (~ moderate w x /\ sci p x t /\ Qabs (dec_Q y - dec_Q x) <= (1 # 2) * (10 # 1) ^ (- Z.of_nat p) * Qabs (dec_Q x)))%Q.
Proof.
  intro H. apply C66_form in H. destruct H as [[M H]|[M (p & _ & H & _)]].
  - destruct (C17_close w x t H) as (p & y & A & B & C). exists p, y. auto.
  - exists p. apply sci_iff in H. subst t. exists (pct_val p true x). split; [apply parse_fmt_exp|].
    right. split; [exact M|]. split; [now apply sci_iff|]. apply exp_close.
Qed.

(** Six characters are enough for zero and numbers from 1e-99 up to 9.5e99. *)
Theorem C66_fits w x : 6 <= w ->
  (dec_Q x == 0 \/ ((10 # 1) ^ (-99) <= Qabs (dec_Q x) /\ Qabs (dec_Q x) < (95 # 10) * (10 # 1) ^ 99))%Q ->
  exists t, fit_max w x = Some t.
Proof.
  intros W B. destruct (fit_max w x) as [t|] eqn:F; [eauto|exfalso]. apply C66_error in F.
  destruct F as [F|[[[M1 M2] F]|[_ F]]]; [lia| |].
  - specialize (F (fmt_fixed 0 x) (proj2 (fixed_point_iff _ _ _) eq_refl)).
    assert (NG : d_neg x = false).
    { destruct (d_neg x) eqn:G; [exfalso|reflexivity]. pose proof (sign_Q x) as S. rewrite G in S.
      pose proof (Q10_pos (5 - w)) as P. pose proof (Qabs_nonneg (dec_Q x)). lra. }
    unfold fmt_fixed in F. rewrite NG in F. cbn [sign_text app] in F. rewrite fixed_len in F.
    change (10 ^ N.of_nat 0)%N with 1%N in F. rewrite N.div_1_r in F.
    set (r := rnd10 (d_man x) (d_ex x + Z.of_nat 0)) in *.
    assert (NR : nearest (Qabs (dec_Q x) * (10 # 1) ^ Z.of_nat 0) r) by now apply nearest_fixed.
    destruct NR as [NR _]. pose proof (sign_Q x) as SQ. rewrite NG in SQ. apply Qabs_Qle_condition in NR as [_ NR].
    change ((10 # 1) ^ Z.of_nat 0)%Q with 1%Q in NR.
    assert (L : (inject_Z (Z.of_N r) <= (10 # 1) ^ (w - 5) + (1 # 2))%Q) by lra.
    replace (w - 5) with (Z.of_N (N.of_nat (Z.to_nat (w - 5)))) in L by lia. rewrite <- Q10_pow in L.
    assert (L2 : (r <= 10 ^ N.of_nat (Z.to_nat (w - 5)))%N).
    { unfold Qle, Qplus in L. cbn [Qnum Qden inject_Z] in L. lia. }
    assert (L3 : (r < 10 ^ N.of_nat (S (Z.to_nat (w - 5))))%N).
    { rewrite pow10_S. pose proof (pow10_pos (Z.to_nat (w - 5))). lia. }
    pose proof (digits_len_le _ _ L3). lia.
  - specialize (F (fmt_exp 0 x) (proj2 (sci_iff _ _ _) eq_refl)). rewrite fmt_exp_len in F.
    assert (SL : (List.length (sign_text false (d_neg x)) <= 1)%nat) by (destruct (d_neg x); cbn; lia).
    assert (EB : (Z.abs_N (snd (exp_parts 0 x)) < 10 ^ N.of_nat 2)%N).
    { change (10 ^ N.of_nat 2)%N with 100%N. destruct (N.eq_dec (d_man x) 0) as [E|E].
      - unfold exp_parts. replace (d_man x =? 0)%N with true by lia. cbn. lia.
      - assert (NZ : ~ (Qabs (dec_Q x) == 0)%Q) by (rewrite abs_zero; exact E).
        destruct B as [B|[B1 B2]]; [elim NZ; rewrite B; reflexivity|].
        destruct (dec_abs_bounds x E) as [C1 C2]. rewrite dec_abs_Q in C1, C2.
        pose proof (exp_parts_e 0 x E) as R.
        assert (LO : -99 < ndig (d_man x) + d_ex x).
        { destruct (Z_lt_le_dec (-99) (ndig (d_man x) + d_ex x)) as [|G]; [assumption|exfalso].
          eapply Qlt_irrefl, Qlt_le_trans; [exact C2|]. eapply Qle_trans; [|exact B1]. now apply Q10_le. }
        assert (HI : ndig (d_man x) - 1 + d_ex x <= 99).
        { destruct (Z_le_gt_dec (ndig (d_man x) - 1 + d_ex x) 99) as [|G]; [assumption|exfalso].
          assert (G2 : ((10 # 1) ^ 100 <= Qabs (dec_Q x))%Q).
          { eapply Qle_trans; [|exact C1]. apply Q10_le. lia. }
          eapply Qlt_irrefl, Qlt_le_trans; [exact B2|]. eapply Qle_trans; [|exact G2]. apply Qle_bool_iff. vm_compute. reflexivity. }
        destruct (Z.eq_dec (ndig (d_man x) - 1 + d_ex x) 99) as [E9|E9]; [|lia].
        assert (ES : snd (exp_parts 0 x) = 99); [|lia].
        unfold exp_parts. replace (d_man x =? 0)%N with false by lia. rewrite E9.
        set (r := rnd10 (d_man x) (d_ex x + Z.of_nat 0 - 99)).
        assert (NR : nearest (inject_Z (Z.of_N (d_man x)) * (10 # 1) ^ (d_ex x + Z.of_nat 0 - 99)) r) by now apply nearest_rnd10.
        destruct NR as [NR _]. apply Qabs_Qle_condition in NR as [_ NR].
        assert (V : (inject_Z (Z.of_N (d_man x)) * (10 # 1) ^ (d_ex x + Z.of_nat 0 - 99) == Qabs (dec_Q x) * (10 # 1) ^ (-99))%Q).
        { rewrite abs_dec_Q. replace (d_ex x + Z.of_nat 0 - 99) with (d_ex x + -99) by lia. rewrite Qpower_plus by apply Q10_nz. ring. }
        rewrite V in NR.
        assert (V2 : (Qabs (dec_Q x) * (10 # 1) ^ (-99) < 95 # 10)%Q).
        { apply (Qmult_lt_r _ _ _ (Q10_pos (-99))) in B2. eapply Qlt_le_trans; [exact B2|]. apply Qle_bool_iff. vm_compute. reflexivity. }
        assert (V3 : (inject_Z (Z.of_N r) < 10 # 1)%Q) by lra.
        assert (V4 : (r < 10)%N) by (unfold Qlt in V3; cbn in V3; lia).
        change (10 ^ N.of_nat 1)%N with 10%N. replace (10 <=? r)%N with false by lia. reflexivity. }
    pose proof (digits_len_le _ _ EB ltac:(lia)). lia.
Qed.

(** With the option the text can be less precise: for large numbers that would fit with decimals,
    and for every negative number. *)
Theorem C66_precision_refuted :
  (exists x a b y z, fit_width 10 x = Some a /\ fit_max 10 x = Some b /\ parse_float a = Some y /\ parse_float b = Some z
     /\ (0 < dec_Q x)%Q /\ (dec_Q y == dec_Q x)%Q /\ (Qabs (dec_Q z - dec_Q x) == 322 # 100)%Q)
  /\ (exists x a b y z, fit_width 10 x = Some a /\ fit_max 10 x = Some b /\ parse_float a = Some y /\ parse_float b = Some z
     /\ (dec_Q x < 0)%Q /\ (dec_Q y == dec_Q x)%Q /\ ~ (dec_Q z == dec_Q x)%Q).
Proof.
  split.
  - exists (D false 12345678 (-2)), (str "123456.780"), (str "1.2346e+05"), (D false 123456780 (-3)), (D false 12346 1).
    repeat split; vm_compute; reflexivity.
  - exists (D true 525125 (-5)), (str "-5.2512500"), (str "-5.251e+00"), (D true 52512500 (-7)), (D true 5251 (-3)).
    repeat split; try (vm_compute; reflexivity). discriminate.
Qed.

Print Assumptions C66_form.
Print Assumptions C66_error.
Print Assumptions C66_close.
Print Assumptions C66_fits.
Print Assumptions C66_precision_refuted.

Example C66_case :
  fit_max 7 (D false 123456789 3) = Some (str "1.2e+11") /\ fit_width 7 (D false 123456789 3) = None
  /\ fit_max 7 (D false 12345 (-4)) = Some (str "1.23450") /\ fit_max 7 (D true 12345 (-4)) = Some (str "-1e+00")
  /\ fit_max 7 (D false 0 0) = Some (str "0.0e+00") /\ fit_max 6 (D true 96 99) = None
  /\ fit_max 7 (D false 12345 (-9)) = Some (str "1.2e-05").
Proof. vm_compute. repeat split. Qed.
