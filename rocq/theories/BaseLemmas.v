(** Facts about the definitions of Base.v. *)
From Verif Require Import Base.
From Coq Require Import ZifyBool ZifyNat ZifyN.
Ltac Zify.zify_post_hook ::= Z.div_mod_to_equations.

Lemma list_eqb_spec a b : list_eqb a b = true <-> a = b.
Proof.
  revert b; induction a as [|x a IH]; destruct b as [|y b]; cbn; split; intro H;
    try discriminate; auto.
  - apply andb_true_iff in H as [H1 H2]. apply N.eqb_eq in H1. apply IH in H2. congruence.
  - injection H as -> ->. rewrite N.eqb_refl. cbn. now apply IH.
Qed.

Lemma keyeqb_spec a b : keyeqb a b = true <-> a = b.
Proof.
  revert b; induction a as [|x a IH]; destruct b as [|y b]; cbn; split; intro H;
    try discriminate; auto.
  - apply andb_true_iff in H as [H1 H2]. apply Z.eqb_eq in H1. apply IH in H2. congruence.
  - injection H as -> ->. rewrite Z.eqb_refl. cbn. now apply IH.
Qed.

Lemma keyeqb_refl a : keyeqb a a = true.
Proof. now apply keyeqb_spec. Qed.

Lemma keyeqb_neq a b : a <> b -> keyeqb a b = false.
Proof. intro H. destruct (keyeqb a b) eqn:E; auto. apply keyeqb_spec in E. contradiction. Qed.

(** ** bind *)

Lemma bind_ok {A B} (r : res A) (f : A -> res B) b :
  bind r f = Ok b <-> exists a, r = Ok a /\ f a = Ok b.
Proof.
  destruct r; cbn; split.
  - intro H; eauto.
  - intros (a' & H1 & H2). injection H1 as ->. exact H2.
  - discriminate.
  - intros (a & H & _). discriminate.
Qed.

Lemma bind_ok_elim {A B} (r : res A) (f : A -> res B) b :
  bind r f = Ok b -> exists a, r = Ok a /\ f a = Ok b.
Proof. apply bind_ok. Qed.

(** ** strip *)

Lemma rstrip_nil p l : rstrip_by p l = [] <-> forallb p l = true.
Proof.
  induction l as [|c l IH]; cbn; [tauto|].
  destruct (rstrip_by p l) as [|x r].
  - destruct (p c); cbn.
    + split; auto. intros _. now apply IH.
    + split; discriminate.
  - split; [discriminate|]. intro H. apply andb_true_iff in H as [_ H].
    apply IH in H. discriminate.
Qed.

Lemma rstrip_app_all p l t : forallb p t = true -> rstrip_by p (l ++ t) = rstrip_by p l.
Proof.
  intro H. induction l as [|c l IH]; cbn.
  - now apply rstrip_nil.
  - now rewrite IH.
Qed.

Lemma rstrip_sub p q l :
  (forall c, q c = true -> p c = true) -> rstrip_by p (rstrip_by q l) = rstrip_by p l.
Proof.
  intro Hs. induction l as [|c l IH]; cbn; auto.
  destruct (rstrip_by q l) as [|x r] eqn:E.
  - cbn in IH. rewrite <- IH. destruct (q c) eqn:Q; cbn; auto.
    rewrite (Hs _ Q). reflexivity.
  - change (rstrip_by p (c :: x :: r) = match rstrip_by p l with
            | [] => if p c then [] else [c] | n0 :: l0 => c :: n0 :: l0 end).
    rewrite <- IH. reflexivity.
Qed.

(** Last element not matching: nothing to strip. *)
Definition ends_ok (p : N -> bool) (l : list N) : Prop := rstrip_by p l = l.

Lemma rstrip_idem p l : rstrip_by p (rstrip_by p l) = rstrip_by p l.
Proof. apply rstrip_sub. auto. Qed.

Lemma rstrip_sup p q l :
  (forall c, q c = true -> p c = true) -> rstrip_by q (rstrip_by p l) = rstrip_by p l.
Proof.
  intro Hs. induction l as [|c l IH]; cbn; auto.
  destruct (rstrip_by p l) as [|x r] eqn:E.
  - destruct (p c) eqn:P; cbn; auto.
    destruct (q c) eqn:Q; auto. apply Hs in Q. congruence.
  - change (match rstrip_by q (x :: r) with
            | [] => if q c then [] else [c] | n0 :: l0 => c :: n0 :: l0 end = c :: x :: r).
    now rewrite IH.
Qed.

Lemma rstrip_last p l c : p c = false -> rstrip_by p (l ++ [c]) = l ++ [c].
Proof.
  intro H. induction l as [|x l IH]; cbn.
  - now rewrite H.
  - rewrite IH. destruct (l ++ [c]) eqn:E; auto. destruct l; discriminate.
Qed.

Lemma rstrip_decomp p l : exists t, l = rstrip_by p l ++ t /\ forallb p t = true.
Proof.
  induction l as [|c l (t & IH & Ht)]; cbn.
  - exists []. auto.
  - destruct (rstrip_by p l) as [|x r] eqn:E.
    + destruct (p c) eqn:P.
      * exists (c :: l). split; auto. cbn. rewrite P. cbn. now apply rstrip_nil.
      * exists l. split; auto. now apply rstrip_nil.
    + exists t. split; auto. cbn. f_equal. exact IH.
Qed.

Lemma forallb_spaces p n : p 32%N = true -> forallb p (spaces n) = true.
Proof. intro H. unfold spaces. induction n; cbn; auto. now rewrite H. Qed.

Lemma rstrip_ljust p n l : p 32%N = true -> rstrip_by p (ljust n l) = rstrip_by p l.
Proof. intro H. unfold ljust. apply rstrip_app_all. now apply forallb_spaces. Qed.

Lemma ws_byte_str c : ws_byte c = true -> ws_str c = true.
Proof. unfold ws_byte, ws_str. lia. Qed.

Lemma length_spaces n : List.length (spaces n) = n.
Proof. apply repeat_length. Qed.

Lemma length_ljust n l : List.length (ljust n l) = Nat.max n (List.length l).
Proof. unfold ljust. rewrite app_length, length_spaces. lia. Qed.

Lemma all_bytes_app a b : all_bytes (a ++ b) = all_bytes a && all_bytes b.
Proof. apply forallb_app. Qed.

Lemma all_bytes_spaces n : all_bytes (spaces n) = true.
Proof. unfold all_bytes. now apply forallb_spaces. Qed.

Lemma encode_ok s b : encode_latin1 s = Ok b -> b = s /\ all_bytes s = true.
Proof. unfold encode_latin1. destruct (all_bytes s); [|discriminate]. intro H. injection H as <-. auto. Qed.

Lemma lstrip_head p c l : p c = false -> lstrip_by p (c :: l) = c :: l.
Proof. intro H. cbn. now rewrite H. Qed.

Lemma lstrip_app_all p a l : forallb p a = true -> lstrip_by p (a ++ l) = lstrip_by p l.
Proof.
  induction a as [|c a IH]; cbn; auto. intro H. apply andb_true_iff in H as [-> H]. now apply IH.
Qed.

(** ** digits *)

Definition digval (l : list N) (acc : N) : N := fold_left (fun a c => (a * 10 + (c - 48))%N) l acc.

Lemma dig_aux_spec fuel : forall n acc,
  (n < 2 ^ N.of_nat fuel)%N ->
  exists ds, dig_aux fuel n acc = ds ++ acc /\ (fuel <> O -> ds <> [])
   /\ forallb is_digit ds = true /\ digval ds 0 = n.
Proof.
  induction fuel as [|fuel IH]; intros n acc Hn.
  - exists []. cbn in *. repeat split; auto. lia. 
  - cbn [dig_aux].
    assert (Hd : is_digit (48 + n mod 10)%N = true) by (unfold is_digit; lia).
    destruct (n / 10 =? 0)%N eqn:E.
    + exists [(48 + n mod 10)%N]. cbn [app forallb]. rewrite Hd. repeat split; try discriminate.
      unfold digval. cbn [fold_left]. lia.
    + destruct (IH (n / 10)%N ((48 + n mod 10)%N :: acc)) as (ds & H1 & H2 & H3 & H4).
      { rewrite Nat2N.inj_succ, N.pow_succ_r' in Hn. lia. }
      exists (ds ++ [(48 + n mod 10)%N]). rewrite H1, <- app_assoc. repeat split; auto.
      * intros _. destruct ds; discriminate.
      * rewrite forallb_app, H3. cbn [forallb]. now rewrite Hd.
      * unfold digval in *. rewrite fold_left_app. cbn [fold_left]. rewrite H4. lia.
Qed.

Lemma size_nat_pow n : (n < 2 ^ N.of_nat (S (N.size_nat n)))%N.
Proof.
  rewrite Nat2N.inj_succ, N.pow_succ_r'.
  destruct n as [|p]; [cbn; lia|]. cbn [N.size_nat].
  induction p as [p IH|p IH|]; cbn [Pos.size_nat].
  - rewrite Nat2N.inj_succ, N.pow_succ_r'. lia.
  - rewrite Nat2N.inj_succ, N.pow_succ_r'. lia.
  - cbn. lia.
Qed.

Lemma digits_spec n :
  digits n <> [] /\ forallb is_digit (digits n) = true /\ digval (digits n) 0 = n.
Proof.
  unfold digits.
  destruct (dig_aux_spec (S (N.size_nat n)) n [] (size_nat_pow n)) as (ds & -> & H2 & H3 & H4).
  rewrite app_nil_r. auto.
Qed.

Lemma digval_acc l acc :
  digval l acc = (acc * 10 ^ N.of_nat (List.length l) + digval l 0)%N.
Proof.
  revert acc. induction l as [|c l IH]; intro acc.
  - cbn. lia.
  - unfold digval in *. cbn [fold_left]. rewrite IH. rewrite (IH (0 * 10 + (c - 48))%N).
    cbn [List.length]. rewrite Nat2N.inj_succ, N.pow_succ_r'. lia.
Qed.

Lemma digval_zeros n l : digval (repeat 48%N n ++ l) 0 = digval l 0.
Proof. unfold digval. rewrite fold_left_app. f_equal. induction n; cbn; auto. Qed.

Lemma parse_digits_ok l acc b :
  forallb is_digit l = true -> (b = true \/ l <> []) ->
  parse_digits_us l acc b = Some (digval l acc).
Proof.
  revert acc b. induction l as [|c l IH]; intros acc b H Hb; cbn.
  - destruct Hb as [-> | Hb]; auto. contradiction.
  - cbn in H. apply andb_true_iff in H as [H1 H2]. rewrite H1.
    unfold digval. cbn. apply IH; auto.
Qed.

Lemma digit_not_ws_str c : is_digit c = true -> ws_str c = false.
Proof. unfold is_digit, ws_str. lia. Qed.

Definition ws_ok (ws : N -> bool) : Prop := forall c, ws c = true -> ws_str c = true.

Lemma ws_ok_byte : ws_ok ws_byte. Proof. exact ws_byte_str. Qed.
Lemma ws_ok_str : ws_ok ws_str. Proof. intros c H; exact H. Qed.

Lemma rstrip_digits ws a l :
  ws_ok ws -> l <> [] -> forallb is_digit l = true -> rstrip_by ws (a ++ l) = a ++ l.
Proof.
  intros Hw Hn Hd. destruct (exists_last Hn) as (l' & c & ->).
  rewrite app_assoc. apply rstrip_last.
  rewrite forallb_app in Hd. apply andb_true_iff in Hd as [_ Hd]. cbn in Hd.
  rewrite andb_true_r in Hd.
  destruct (ws c) eqn:E; auto. apply Hw in E. apply digit_not_ws_str in Hd. congruence.
Qed.

(** Sign, then digits, with white space on both sides: what [int()] accepts (without
    underscores). *)
Lemma parse_int_text ws pre post sign ds :
  ws_ok ws -> forallb ws pre = true -> forallb ws post = true ->
  (sign = [] \/ sign = [43%N] \/ sign = [45%N]) ->
  ds <> [] -> forallb is_digit ds = true ->
  parse_int ws (pre ++ sign ++ ds ++ post) =
    Some (if list_eqb sign [45%N] then - Z.of_N (digval ds 0) else Z.of_N (digval ds 0))%Z.
Proof.
  intros Hw Hpre Hpost Hs Hn Hd. unfold parse_int.
  rewrite lstrip_app_all by exact Hpre.
  assert (Hl : lstrip_by ws (sign ++ ds ++ post) = sign ++ ds ++ post).
  { destruct Hs as [-> | [-> | ->]]; cbn [app].
    - destruct ds as [|c ds]; [contradiction|]. cbn [app]. apply lstrip_head.
      cbn in Hd. apply andb_true_iff in Hd as [Hd _].
      destruct (ws c) eqn:E; auto. apply Hw in E. apply digit_not_ws_str in Hd. congruence.
    - apply lstrip_head. destruct (ws 43%N) eqn:E; auto. apply Hw in E. discriminate.
    - apply lstrip_head. destruct (ws 45%N) eqn:E; auto. apply Hw in E. discriminate. }
  rewrite Hl, app_assoc, rstrip_app_all by exact Hpost.
  rewrite rstrip_digits by assumption.
  destruct Hs as [-> | [-> | ->]]; cbn [app list_eqb].
  - destruct ds as [|c ds]; [contradiction|].
    assert (Hc : is_digit c = true) by (cbn in Hd; apply andb_true_iff in Hd; tauto).
    assert (Hp := parse_digits_ok (c :: ds) 0 false Hd (or_intror Hn)).
    destruct c as [|p]; [discriminate|].
    assert (Pos.to_nat p >= 48 /\ Pos.to_nat p <= 57)%nat by (unfold is_digit in Hc; lia).
    do 6 (destruct p as [p|p|]; try lia; try (rewrite Hp; reflexivity)).
  - rewrite parse_digits_ok; auto.
  - rewrite parse_digits_ok; auto.
Qed.

Lemma fmt_d_shape f z :
  exists pre sign ds post,
    fmt_d f z = pre ++ sign ++ ds ++ post
    /\ forallb (N.eqb 32) pre = true /\ forallb (N.eqb 32) post = true
    /\ (sign = [] \/ sign = [43%N] \/ sign = [45%N])
    /\ ds <> [] /\ forallb is_digit ds = true
    /\ (if list_eqb sign [45%N] then - Z.of_N (digval ds 0) else Z.of_N (digval ds 0))%Z = z.
Proof.
  destruct (digits_spec (Z.abs_N z)) as (D1 & D2 & D3).
  set (sign := if (z <? 0)%Z then [45%N] else if df_plus f then [43%N] else []).
  assert (Hsign : sign = [] \/ sign = [43%N] \/ sign = [45%N]).
  { unfold sign. destruct (z <? 0)%Z, (df_plus f); auto. }
  assert (Hneg : list_eqb sign [45%N] = (z <? 0)%Z).
  { unfold sign. destruct (z <? 0)%Z, (df_plus f); auto. }
  unfold fmt_d. fold sign. set (n := (df_width f - _)%nat).
  destruct (df_left f); [|destruct (df_zero f)].
  - exists [], sign, (digits (Z.abs_N z)), (spaces n). cbn [app].
    repeat split; auto. { now apply forallb_spaces. }
    rewrite Hneg, D3. destruct (z <? 0)%Z eqn:E; lia.
  - exists [], sign, (repeat 48%N n ++ digits (Z.abs_N z)), []. cbn [app].
    rewrite app_nil_r. repeat split; auto.
    + destruct n; cbn; auto. discriminate.
    + rewrite forallb_app, D2, andb_true_r. clear. induction n; cbn; auto.
    + rewrite Hneg, digval_zeros, D3. destruct (z <? 0)%Z eqn:E; lia.
  - exists (spaces n), sign, (digits (Z.abs_N z)), []. rewrite app_nil_r.
    repeat split; auto. { now apply forallb_spaces. }
    rewrite Hneg, D3. destruct (z <? 0)%Z eqn:E; lia.
Qed.

Lemma forallb_impl {A} (p q : A -> bool) l :
  (forall x, p x = true -> q x = true) -> forallb p l = true -> forallb q l = true.
Proof.
  intros H. induction l as [|x l IH]; cbn; auto. intro E.
  apply andb_true_iff in E as [E1 E2]. rewrite (H _ E1), IH; auto.
Qed.

Lemma parse_int_fmt_d ws f z :
  ws_ok ws -> ws 32%N = true -> parse_int ws (fmt_d f z) = Some z.
Proof.
  intros Hw H32. destruct (fmt_d_shape f z) as (pre & sign & ds & post & -> & H1 & H2 & H3 & H4 & H5 & H6).
  rewrite parse_int_text; auto.
  - now rewrite H6.
  - eapply forallb_impl; [|exact H1]. intros x Hx. apply N.eqb_eq in Hx. now subst.
  - eapply forallb_impl; [|exact H2]. intros x Hx. apply N.eqb_eq in Hx. now subst.
Qed.

Lemma str_of_Z_fmt z : str_of_Z z = fmt_d (dfmt_zero 0) z.
Proof.
  unfold str_of_Z, fmt_d, dfmt_zero. cbn [df_left df_zero df_plus df_width].
  rewrite Nat.sub_0_l. reflexivity.
Qed.

(** Trailing white space never changes what [int()] makes of a text. *)
Lemma lstrip_rstrip_comm_nil p l : lstrip_by p l = [] <-> forallb p l = true.
Proof.
  induction l as [|c l IH]; cbn; [tauto|]. destruct (p c); cbn; [exact IH|].
  split; discriminate.
Qed.

Lemma rstrip_lstrip p l t : forallb p t = true ->
  rstrip_by p (lstrip_by p (l ++ t)) = rstrip_by p (lstrip_by p l).
Proof.
  intro H. induction l as [|c l IH]; cbn [app lstrip_by].
  - cbn [rstrip_by]. apply rstrip_nil. clear -H.
    induction t as [|c t IH]; cbn in *; auto. apply andb_true_iff in H as [-> H]. auto.
  - destruct (p c) eqn:P; auto.
    change (c :: l ++ t) with ((c :: l) ++ t). now apply rstrip_app_all.
Qed.

Lemma parse_int_post ws l t : forallb ws t = true -> parse_int ws (l ++ t) = parse_int ws l.
Proof. intro H. unfold parse_int. now rewrite rstrip_lstrip. Qed.

Lemma parse_int_rstrip ws l : parse_int ws (rstrip_by ws l) = parse_int ws l.
Proof.
  destruct (rstrip_decomp ws l) as (t & E & Ht). rewrite E at 2. now rewrite parse_int_post.
Qed.

(** ** range *)

Lemma in_zrange n i : In i (zrange n) <-> (0 <= i < n)%Z.
Proof.
  unfold zrange. rewrite in_map_iff. split.
  - intros (x & <- & Hx). apply in_seq in Hx. lia.
  - intro H. exists (Z.to_nat i). split; [lia|]. apply in_seq. lia.
Qed.

(** ** big-endian *)

Lemma be_val_app a b : be_val (a ++ b) = (be_val a * 256 ^ N.of_nat (List.length b) + be_val b)%N.
Proof.
  unfold be_val. rewrite fold_left_app.
  generalize (fold_left (fun a0 c : N => (a0 * 256 + c)%N) a 0%N). clear a.
  induction b as [|c b IH] using rev_ind; intro acc.
  - cbn. lia.
  - rewrite !fold_left_app, app_length. cbn. rewrite IH.
    replace (N.of_nat (List.length b + 1)) with (N.succ (N.of_nat (List.length b))) by lia.
    rewrite N.pow_succ_r'. lia.
Qed.

Lemma length_be_bytes k n : List.length (be_bytes k n) = k.
Proof. revert n; induction k; intro n; cbn; auto. rewrite app_length, IHk. cbn. lia. Qed.

Lemma all_bytes_be k n : all_bytes (be_bytes k n) = true.
Proof.
  revert n; induction k as [|k IH]; intro n; cbn [be_bytes]; [reflexivity|].
  rewrite all_bytes_app, IH. cbn [all_bytes forallb andb].
  rewrite andb_true_r. apply N.ltb_lt. apply N.mod_lt. discriminate.
Qed.

Lemma be_val_bytes k n : (n < 256 ^ N.of_nat k)%N -> be_val (be_bytes k n) = n.
Proof.
  revert n; induction k as [|k IH]; intros n H.
  - cbn in *. lia.
  - cbn [be_bytes]. rewrite be_val_app. cbn [List.length be_val fold_left].
    rewrite Nat2N.inj_succ, N.pow_succ_r' in H. rewrite IH by lia.
    change (256 ^ N.of_nat 1)%N with 256%N. unfold be_val. cbn. lia.
Qed.

Lemma be_val_lt l : all_bytes l = true -> (be_val l < 256 ^ N.of_nat (List.length l))%N.
Proof.
  induction l as [|c l IH] using rev_ind; intro H.
  - cbn. lia.
  - rewrite all_bytes_app in H. apply andb_true_iff in H as [H1 H2]. apply IH in H1.
    cbn in H2. rewrite andb_true_r in H2. rewrite be_val_app, app_length.
    change (N.of_nat (List.length [c])) with 1%N.
    replace (N.of_nat (List.length l + List.length [c])) with (N.succ (N.of_nat (List.length l))) by (cbn; lia).
    rewrite N.pow_succ_r'. replace (be_val [c]) with c by (unfold be_val; cbn; lia).
    change (256 ^ 1)%N with 256%N. apply N.ltb_lt in H2. nia.
Qed.

Lemma be_bytes_val l : all_bytes l = true -> be_bytes (List.length l) (be_val l) = l.
Proof.
  induction l as [|c l IH] using rev_ind; intro H; auto.
  rewrite all_bytes_app in H. apply andb_true_iff in H as [H1 H2]. apply IH in H1.
  cbn in H2. rewrite andb_true_r in H2.
  rewrite app_length. replace (List.length l + List.length [c])%nat with (S (List.length l)) by (cbn; lia).
  cbn [be_bytes]. rewrite be_val_app. change (N.of_nat (List.length [c])) with 1%N.
  replace (be_val [c]) with c by (unfold be_val; cbn; lia).
  change (256 ^ 1)%N with 256%N. apply N.ltb_lt in H2.
  replace ((be_val l * 256 + c) / 256)%N with (be_val l) by lia.
  replace ((be_val l * 256 + c) mod 256)%N with c by lia.
  now rewrite H1.
Qed.
