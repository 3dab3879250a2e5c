(** Facts about decimal printing. *)
From Verif Require Import Base BaseLemmas Engine Decimal.
From Coq Require Import ZifyBool ZifyNat ZifyN.
Open Scope list_scope.

(** ** Digits *)

Lemma dig_aux_acc f : forall n acc, dig_aux f n acc = dig_aux f n [] ++ acc.
Proof.
  induction f as [|f IH]; intros n acc; auto. cbn [dig_aux].
  destruct (n / 10 =? 0)%N; auto.
  rewrite (IH _ (_ :: acc)), (IH _ [_]). now rewrite <- app_assoc.
Qed.

Lemma dig_aux_fuel f : forall g n, (n < 2 ^ N.of_nat f)%N -> (n < 2 ^ N.of_nat g)%N -> f <> O -> g <> O ->
  dig_aux f n [] = dig_aux g n [].
Proof.
  induction f as [|f IH]; intros [|g] n Hf Hg H0 H1; try congruence. cbn [dig_aux].
  destruct (n / 10 =? 0)%N eqn:E; auto.
  rewrite Nat2N.inj_succ, N.pow_succ_r' in Hf, Hg.
  rewrite (dig_aux_acc f), (dig_aux_acc g). f_equal. apply IH; try lia.
  - intros ->. cbn in Hf. lia.
  - intros ->. cbn in Hg. lia.
Qed.

Lemma digits_step n : (10 <= n)%N -> digits n = digits (n / 10) ++ [(48 + n mod 10)%N].
Proof.
  intro H. unfold digits. cbn [dig_aux]. replace (n / 10 =? 0)%N with false by lia.
  rewrite dig_aux_acc. f_equal.
  pose proof (size_nat_pow n) as B. rewrite Nat2N.inj_succ, N.pow_succ_r' in B.
  assert (C : (n / 10 < 2 ^ N.of_nat (N.size_nat n))%N) by lia.
  change (if (n / 10 / 10 =? 0)%N then [(48 + (n / 10) mod 10)%N]
    else dig_aux (N.size_nat (n / 10)) (n / 10 / 10) [(48 + (n / 10) mod 10)%N])
    with (dig_aux (S (N.size_nat (n / 10))) (n / 10) []).
  apply dig_aux_fuel; auto; [apply size_nat_pow|]. intro E. rewrite E in C. cbn in C. lia.
Qed.

Lemma digits_small n : (n < 10)%N -> digits n = [(48 + n)%N].
Proof.
  intro H. unfold digits. cbn [dig_aux]. replace (n / 10 =? 0)%N with true by lia.
  now rewrite N.mod_small.
Qed.

Lemma digits_len_pos n : (1 <= List.length (digits n))%nat.
Proof. destruct (digits_spec n) as (H & _). destruct (digits n); [congruence|cbn; lia]. Qed.

Lemma pow10_S k : (10 ^ N.of_nat (S k) = 10 * 10 ^ N.of_nat k)%N.
Proof. now rewrite Nat2N.inj_succ, N.pow_succ_r'. Qed.

Lemma pow10_pos k : (1 <= 10 ^ N.of_nat k)%N.
Proof. induction k as [|k IH]; [cbn; lia|]. rewrite pow10_S. lia. Qed.

Lemma digits_bounds n : (n < 10 ^ N.of_nat (List.length (digits n)))%N
  /\ (n = 0%N \/ 10 ^ N.of_nat (List.length (digits n)) <= 10 * n)%N.
Proof.
  induction n as [n IH] using (well_founded_induction N.lt_wf_0).
  destruct (N.lt_ge_cases n 10) as [H|H].
  - rewrite digits_small by lia. cbn [List.length]. change (10 ^ N.of_nat 1)%N with 10%N. lia.
  - rewrite digits_step by lia. rewrite app_length. cbn [List.length]. rewrite Nat.add_1_r, pow10_S.
    destruct (IH (n / 10)%N) as [H1 H2]; [lia|]. split; [lia|]. right. destruct H2; lia.
Qed.

(** [k] digits exactly when between [10^(k-1)] and [10^k]. *)
Lemma digits_len n k : (0 < n)%N -> (10 ^ N.of_nat k <= n < 10 ^ N.of_nat (S k))%N ->
  List.length (digits n) = S k.
Proof.
  intros Hn [H1 H2]. destruct (digits_bounds n) as [B1 B2]. destruct B2 as [B2|B2]; [lia|].
  destruct (Nat.lt_trichotomy (List.length (digits n)) (S k)) as [L|[L|L]]; auto; exfalso.
  - assert ((10 ^ N.of_nat (List.length (digits n)) <= 10 ^ N.of_nat k)%N) by (apply N.pow_le_mono_r; lia). lia.
  - assert ((10 ^ N.of_nat (S (S k)) <= 10 ^ N.of_nat (List.length (digits n)))%N) by (apply N.pow_le_mono_r; lia).
    rewrite (pow10_S (S k)) in H. lia.
Qed.

Lemma digits_len_le n k : (n < 10 ^ N.of_nat k)%N -> (1 <= k)%nat -> (List.length (digits n) <= k)%nat.
Proof.
  intros H Hk. destruct (digits_bounds n) as [_ [->|B]].
  - cbn. lia.
  - destruct (Nat.le_gt_cases (List.length (digits n)) k) as [|L]; auto. exfalso.
    assert ((10 ^ N.of_nat (S k) <= 10 ^ N.of_nat (List.length (digits n)))%N) by (apply N.pow_le_mono_r; lia).
    rewrite pow10_S in H0. lia.
Qed.

Lemma digits_len_mono n m : (n <= m)%N -> (List.length (digits n) <= List.length (digits m))%nat.
Proof.
  intro H. apply digits_len_le; [|apply digits_len_pos]. destruct (digits_bounds m). lia.
Qed.

Lemma digits_len_succ n : (List.length (digits (n + 1)) <= S (List.length (digits n)))%nat.
Proof.
  apply digits_len_le; [|lia]. rewrite pow10_S. destruct (digits_bounds n). lia.
Qed.

(** ** Point texts *)

Lemma pad0_len w l : List.length (pad0 w l) = Nat.max w (List.length l).
Proof. unfold pad0. rewrite app_length, repeat_length. lia. Qed.

Lemma pad0_val w l acc : digval (pad0 w l) acc = digval l (acc * 10 ^ N.of_nat (w - List.length l)).
Proof.
  unfold pad0, digval. rewrite fold_left_app. f_equal.
  generalize (w - List.length l)%nat. intro k. revert acc. induction k as [|k IH]; intro acc.
  - cbn. lia.
  - cbn [repeat fold_left]. rewrite IH, pow10_S. lia.
Qed.

Lemma pad0_digit w l : forallb is_digit l = true -> forallb is_digit (pad0 w l) = true.
Proof.
  intro H. unfold pad0. rewrite forallb_app, H, andb_true_r. induction (w - List.length l)%nat; auto.
Qed.

Lemma frac_len p m : (1 <= p)%nat -> List.length (pad0 p (digits (m mod 10 ^ N.of_nat p))) = p.
Proof.
  intro H. rewrite pad0_len. pose proof (pow10_pos p).
  assert ((List.length (digits (m mod 10 ^ N.of_nat p)) <= p)%nat) by (apply digits_len_le; [apply N.mod_lt; lia|lia]). lia.
Qed.

Lemma point_len p m : List.length (point_text p m)
  = (List.length (digits (m / 10 ^ N.of_nat p)) + match p with O => 0 | S _ => S p end)%nat.
Proof.
  unfold point_text. rewrite app_length. destruct p as [|p]; auto. cbn [List.length].
  now rewrite frac_len by lia.
Qed.

(** The two digit strings of a point text denote [m]. *)
Definition int_part (p : nat) (m : N) : list N := digits (m / 10 ^ N.of_nat p).
Definition frac_part (p : nat) (m : N) : list N :=
  match p with O => [] | S _ => pad0 p (digits (m mod 10 ^ N.of_nat p)) end.

Lemma parts_val p m z : digval ((repeat 48%N z ++ int_part p m) ++ frac_part p m) 0 = m.
Proof.
  unfold int_part, frac_part. rewrite <- app_assoc, digval_zeros.
  assert (Hd : forall n, digval (digits n) 0 = n) by (intro n; now destruct (digits_spec n) as (_ & _ & ?)).
  destruct p as [|p].
  - rewrite app_nil_r, Hd. cbn [N.of_nat]. rewrite N.pow_0_r. apply N.div_1_r.
  - unfold digval. rewrite fold_left_app. fold (digval (digits (m / 10 ^ N.of_nat (S p))) 0). rewrite Hd.
    fold (digval (pad0 (S p) (digits (m mod 10 ^ N.of_nat (S p)))) (m / 10 ^ N.of_nat (S p))).
    rewrite digval_acc, frac_len by lia. rewrite pad0_val, N.mul_0_l, Hd.
    pose proof (pow10_pos (S p)). pose proof (N.div_mod m (10 ^ N.of_nat (S p))). lia.
Qed.

Lemma parts_digits p m z : forallb is_digit (repeat 48%N z ++ int_part p m) = true
  /\ forallb is_digit (frac_part p m) = true
  /\ repeat 48%N z ++ int_part p m <> [] /\ List.length (frac_part p m) = p.
Proof.
  unfold int_part, frac_part. destruct (digits_spec (m / 10 ^ N.of_nat p)) as (H1 & H2 & _).
  split; [|split; [|split]].
  - rewrite forallb_app, H2, andb_true_r. induction z; auto.
  - destruct p; auto. apply pad0_digit. now destruct (digits_spec (m mod 10 ^ N.of_nat (S p))) as (_ & ? & _).
  - intro E. apply app_eq_nil in E. tauto.
  - destruct p; auto. apply frac_len. lia.
Qed.

Lemma point_parts p m : point_text p m = int_part p m ++ match p with O => [] | S _ => 46%N :: frac_part p m end.
Proof. unfold point_text, int_part, frac_part. destruct p; auto. Qed.

(** ** Parsing *)

Lemma span_app p a l : forallb p a = true -> (match l with [] => True | c :: _ => p c = false end) ->
  span p (a ++ l) = (a, l).
Proof.
  induction a as [|c a IH]; cbn [app forallb span]; intros H Hl.
  - destruct l as [|c l]; auto. cbn. now rewrite Hl.
  - apply andb_true_iff in H as [-> H]. now rewrite IH.
Qed.

(** The exponent part of a text. *)
Definition exp_suffix (e : option (N * bool * N * nat)) : list N :=
  match e with
  | None => []
  | Some (c, neg, n, w) => [c] ++ [if neg then 45%N else 43%N] ++ pad0 w (digits n)
  end.
Definition exp_val (e : option (N * bool * N * nat)) : Z :=
  match e with None => 0%Z | Some (_, neg, n, _) => if neg then (- Z.of_N n)%Z else Z.of_N n end.
Definition exp_char_ok (e : option (N * bool * N * nat)) : Prop :=
  match e with None => True | Some (c, _, _, _) => c = 69%N \/ c = 101%N end.

Lemma parse_exp_suffix (neg : bool) n w :
  parse_exp ((if neg then 45%N else 43%N) :: pad0 w (digits n)) = Some (if neg then (- Z.of_N n)%Z else Z.of_N n).
Proof.
  destruct (digits_spec n) as (H1 & H2 & H3).
  assert (S : span is_digit (pad0 w (digits n)) = (pad0 w (digits n), [])).
  { rewrite <- (app_nil_r (pad0 w (digits n))) at 1. apply span_app; auto. now apply pad0_digit. }
  assert (Hne : pad0 w (digits n) <> []) by (unfold pad0; intro E; apply app_eq_nil in E; tauto).
  assert (V : digval (pad0 w (digits n)) 0 = n) by (rewrite pad0_val, N.mul_0_l; exact H3).
  unfold parse_exp. rewrite S. destruct (pad0 w (digits n)) as [|c l] eqn:E; [congruence|].
  destruct neg; cbn [N.eqb Pos.eqb option_map]; now rewrite V.
Qed.

Lemma parse_body_point neg z p m e : exp_char_ok e ->
  parse_body neg (repeat 48%N z ++ point_text p m ++ exp_suffix e)
  = Some {| d_neg := neg; d_man := m; d_ex := exp_val e - Z.of_nat p |}.
Proof.
  intro He. destruct (parts_digits p m z) as (D1 & D2 & D3 & D4). assert (V := parts_val p m z).
  unfold parse_body. rewrite point_parts. rewrite <- app_assoc, (app_assoc (repeat 48%N z)).
  assert (Hesc : match exp_suffix e with [] => True | c :: _ => is_digit c = false end).
  { destruct e as [[[[c ng] n] w]|]; cbn; auto. destruct He; subst; reflexivity. }
  assert (Hesc46 : match exp_suffix e with [] => True | c :: _ => (c =? 46)%N = false end).
  { destruct e as [[[[c ng] n] w]|]; cbn; auto. destruct He; subst; reflexivity. }
  assert (S1 : span is_digit ((repeat 48%N z ++ int_part p m) ++ match p with O => [] | S _ => 46%N :: frac_part p m end ++ exp_suffix e)
             = (repeat 48%N z ++ int_part p m, match p with O => [] | S _ => 46%N :: frac_part p m end ++ exp_suffix e)).
  { apply span_app; auto. destruct p as [|p]; [exact Hesc|reflexivity]. }
  rewrite S1.
  assert (S2 : (match match p with O => [] | S _ => 46%N :: frac_part p m end ++ exp_suffix e with
                | c :: l1' => if (c =? 46)%N then span is_digit l1'
                              else ([], match p with O => [] | S _ => 46%N :: frac_part p m end ++ exp_suffix e)
                | [] => ([], []) end) = (frac_part p m, exp_suffix e)).
  { destruct p as [|p].
    - cbn [app frac_part]. destruct (exp_suffix e) as [|c l] eqn:E; auto. now rewrite Hesc46.
    - cbn [app]. rewrite N.eqb_refl. now apply span_app. }
  rewrite S2.
  destruct ((repeat 48%N z ++ int_part p m) ++ frac_part p m) as [|c ab] eqn:E.
  - apply app_eq_nil in E. tauto.
  - rewrite V, D4. destruct e as [[[[ec ng] n] w]|]; cbn [exp_suffix exp_val].
    + cbn [app]. cbn [exp_char_ok] in He.
      replace ((ec =? 69)%N || (ec =? 101)%N) with true by (destruct He; subst; reflexivity).
      now rewrite parse_exp_suffix.
    + reflexivity.
Qed.

Lemma strip_core (ws : N -> bool) a l b : forallb ws a = true -> forallb ws b = true ->
  (match l with [] => False | c :: _ => ws c = false end) -> rstrip_by ws l = l ->
  rstrip_by ws (lstrip_by ws (a ++ l ++ b)) = l.
Proof.
  intros Ha Hb Hl Hr. rewrite lstrip_app_all by assumption. destruct l as [|c l]; [contradiction|].
  cbn [app]. rewrite lstrip_head by assumption. rewrite app_comm_cons, rstrip_app_all by assumption. exact Hr.
Qed.

(** A printed number, possibly padded, parses to the number printed. *)
Lemma parse_point a b plus neg z p m e : forallb ws_byte a = true -> forallb ws_byte b = true ->
  exp_char_ok e ->
  parse_float (a ++ (sign_text plus neg ++ repeat 48%N z ++ point_text p m ++ exp_suffix e) ++ b)
  = Some {| d_neg := neg; d_man := m; d_ex := exp_val e - Z.of_nat p |}.
Proof.
  intros Ha Hb He. unfold parse_float.
  set (body := repeat 48%N z ++ point_text p m ++ exp_suffix e).
  assert (HB : exists c l, body = c :: l /\ is_digit c = true).
  { unfold body. rewrite point_parts, <- app_assoc, (app_assoc (repeat 48%N z)).
    destruct (parts_digits p m z) as (D1 & _ & D3 & _).
    destruct (repeat 48%N z ++ int_part p m) as [|c l]; [congruence|]. cbn [forallb] in D1.
    apply andb_true_iff in D1 as [D1 _]. cbn [app]. eauto. }
  assert (HR : rstrip_by ws_byte body = body).
  { assert (Hlast : exists l c, body = l ++ [c] /\ is_digit c = true).
    { assert (Hd : forall x y, y <> [] -> forallb is_digit y = true ->
               exists l c, x ++ y = l ++ [c] /\ is_digit c = true).
      { intros x y Hy Hd. destruct (exists_last Hy) as (y' & c & ->). exists (x ++ y'), c.
        rewrite forallb_app in Hd. apply andb_true_iff in Hd as [_ Hd]. cbn in Hd. rewrite andb_true_r in Hd.
        split; auto. now rewrite app_assoc. }
      unfold body. destruct e as [[[[ec ng] n] w]|]; cbn [exp_suffix].
      - rewrite !app_assoc. destruct (digits_spec n) as (H1 & H2 & _). apply Hd; [|now apply pad0_digit].
        unfold pad0. intro E. apply app_eq_nil in E. tauto.
      - rewrite app_nil_r, point_parts. destruct (parts_digits p m 0) as (D1 & D2 & D3 & D4). cbn [repeat app] in D1, D3.
        destruct p as [|p].
        + rewrite app_nil_r. now apply Hd.
        + rewrite (app_assoc (repeat 48%N z)). change (46%N :: frac_part (S p) m) with ([46%N] ++ frac_part (S p) m).
          rewrite app_assoc. apply Hd; auto. intro E. rewrite E in D4. discriminate. }
    destruct Hlast as (l & c & E & Hc). rewrite E. apply rstrip_last.
    unfold is_digit, ws_byte in *. lia. }
  assert (HE := parse_body_point neg z p m e He). fold body in HE.
  destruct HB as (c & l & EB & Hc).
  rewrite (strip_core ws_byte a (sign_text plus neg ++ body) b Ha Hb).
  - unfold sign_text. destruct neg; [|destruct plus]; cbn [app]; try (cbn [N.eqb Pos.eqb]; exact HE).
    rewrite EB in HE |- *. replace (c =? 43)%N with false by (unfold is_digit in Hc; lia).
    replace (c =? 45)%N with false by (unfold is_digit in Hc; lia). exact HE.
  - unfold sign_text. destruct neg; [|destruct plus]; cbn [app]; auto. rewrite EB.
    unfold is_digit, ws_byte in *. lia.
  - unfold sign_text. destruct neg; [|destruct plus]; cbn [app]; auto.
    + cbn [rstrip_by]. rewrite HR, EB. reflexivity.
    + cbn [rstrip_by]. rewrite HR, EB. reflexivity.
Qed.
