(** Corner coordinates of images (C34). *)
From Verif Require Import Base BaseLemmas Engine Wf EngineLemmas Codec RoundTrip Rewrite Literal
  Positions Keys Deps Assign Update Spec DescsHdr Utf8 Tre TreLemmas TrePlace TrePlaceLemmas Scalar
  Decimal DecimalLemmas DecimalFit P_RoundTrip Image ImageLemmas Igeolo.
From Coq Require Import QArith Qpower Qabs Qround Lqa ZifyBool ZifyNat ZifyN.
Open Scope list_scope.
Ltac Zify.zify_post_hook ::= idtac.

(** ** What is claimed *)
(** The coordinates [g] are within [eps] of the coordinates [c]. *)
Definition near (eps : Q) (c : dec * dec) (g : Q * Q) : Prop :=
  (Qabs (fst g - dec_Q (fst c)) <= eps)%Q /\ (Qabs (snd g - dec_Q (snd c)) <= eps)%Q.
(** The same for the magnitudes. *)
Definition near_abs (eps : Q) (c : dec * dec) (g : Q * Q) : Prop :=
  (Qabs (fst g - Qabs (dec_Q (fst c))) <= eps)%Q /\ (Qabs (snd g - Qabs (dec_Q (snd c))) <= eps)%Q.
(** Longitude and latitude in degrees. *)
Definition on_earth (c : dec * dec) : Prop :=
  (Qabs (dec_Q (fst c)) <= 180)%Q /\ (Qabs (dec_Q (snd c)) <= 90)%Q.

(** ** Text *)
Lemma slice_set_next a b pre t n : List.length pre = a -> List.length t = (b - a)%nat -> (a <= b)%nat ->
  slice_set a b t (pre ++ spaces n) = (pre ++ t) ++ spaces (n - (b - a)).
Proof.
  intros Hp Ht Hab. unfold slice_set. subst a.
  rewrite firstn_app, firstn_all, Nat.sub_diag. cbn [firstn]. rewrite app_nil_r.
  rewrite skipn_app. rewrite (skipn_all2 pre) by lia. cbn [app]. rewrite <- app_assoc. f_equal. f_equal.
  unfold spaces. generalize (b - List.length pre)%nat as k. clear. intro k. revert n.
  induction k as [|k IH]; intros [|n]; cbn; auto.
Qed.

Lemma slice_mid a b pre t post : List.length pre = a -> List.length t = (b - a)%nat ->
  slice a b (pre ++ t ++ post) = t.
Proof.
  intros Hp Ht. unfold slice. subst a. rewrite skipn_app, (skipn_all2 pre) by lia.
  rewrite Nat.sub_diag. cbn [app skipn]. rewrite firstn_app, <- Ht, firstn_all, Nat.sub_diag. cbn [firstn]. apply app_nil_r.
Qed.

Lemma slice_0 b t post : List.length t = b -> slice 0 b (t ++ post) = t.
Proof. intro H. apply (slice_mid 0 b [] t post); [reflexivity|lia]. Qed.
Lemma slice_last a b pre t : List.length pre = a -> List.length t = (b - a)%nat -> slice a b (pre ++ t) = t.
Proof. intros H1 H2. rewrite <- (app_nil_r t) at 1. now apply slice_mid. Qed.

Lemma fmtz_len w z : (1 <= w)%nat -> (0 <= z < 10 ^ Z.of_nat w)%Z -> List.length (fmt_d (dfmt_zero w) z) = w.
Proof.
  intros Hw Hz. unfold fmt_d, dfmt_zero. cbn [df_left df_zero df_plus df_width].
  replace (z <? 0)%Z with false by lia. cbn [List.length app]. rewrite app_length, repeat_length.
  assert (List.length (digits (Z.abs_N z)) <= w)%nat; [|lia].
  apply digits_len_le; [|exact Hw]. apply N2Z.inj_lt. rewrite N2Z.inj_pow. lia.
Qed.

Lemma fmtz_len_neg w z : (2 <= w)%nat -> (- 10 ^ (Z.of_nat w - 1) < z < 0)%Z ->
  List.length (fmt_d (dfmt_zero w) z) = w.
Proof.
  intros Hw Hz. unfold fmt_d, dfmt_zero. cbn [df_left df_zero df_plus df_width].
  replace (z <? 0)%Z with true by lia. cbn [List.length app]. rewrite app_length, repeat_length.
  assert (List.length (digits (Z.abs_N z)) <= w - 1)%nat; [|lia].
  apply digits_len_le; [|lia]. apply N2Z.inj_lt. rewrite N2Z.inj_pow.
  replace (Z.of_N (N.of_nat (w - 1))) with (Z.of_nat w - 1)%Z by lia. lia.
Qed.

Lemma parse_fmtz w z : parse_float (fmt_d (dfmt_zero w) z)
  = Some {| d_neg := (z <? 0)%Z; d_man := Z.abs_N z; d_ex := 0 |}.
Proof.
  unfold fmt_d, dfmt_zero. cbn [df_left df_zero df_plus df_width].
  pose proof (parse_point [] [] false (z <? 0)%Z (w - (List.length (if (z <? 0)%Z then [45%N] else []) + List.length (digits (Z.abs_N z)))) 0
    (Z.abs_N z) None eq_refl eq_refl I) as P.
  cbn [exp_suffix exp_val app] in P. rewrite !app_nil_r in P. unfold point_text in P.
  cbn [N.of_nat] in P. rewrite N.pow_0_r, N.div_1_r, app_nil_r in P.
  unfold sign_text in P. exact P.
Qed.

Lemma to_float_fmtz w z : exists q, to_float (fmt_d (dfmt_zero w) z) = Ok q /\ (q == inject_Z z)%Q.
Proof.
  unfold to_float. rewrite parse_fmtz. eexists. split; [reflexivity|]. unfold dec_Q. cbn [d_neg d_man d_ex].
  change ((10 # 1) ^ 0)%Q with 1%Q. rewrite Qmult_1_r.
  destruct (z <? 0)%Z eqn:E.
  - replace (Z.of_N (Z.abs_N z)) with (- z)%Z by lia. unfold Qeq, inject_Z, Qmult; cbn [Qnum Qden]. lia.
  - replace (Z.of_N (Z.abs_N z)) with z by lia. unfold Qeq, inject_Z, Qmult; cbn [Qnum Qden]. lia.
Qed.

Lemma to_int_fmtz w z : to_int (fmt_d (dfmt_zero w) z) = Ok z.
Proof.
  unfold to_int. rewrite parse_int_fmt_d; auto. intros c H; unfold ws_byte, ws_str in *; lia.
Qed.

(** Characters written are ASCII. *)
Lemma digits_ascii l : forallb is_digit l = true -> ascii l = true.
Proof. apply forallb_impl. intros c H. unfold is_digit in H. lia. Qed.
Lemma zeros_ascii n : ascii (repeat 48%N n) = true.
Proof. induction n; auto. Qed.
Lemma ascii_app a b : ascii (a ++ b) = ascii a && ascii b.
Proof. apply forallb_app. Qed.
Lemma fmtz_ascii w z : ascii (fmt_d (dfmt_zero w) z) = true.
Proof.
  unfold fmt_d, dfmt_zero. cbn [df_left df_zero df_plus df_width].
  destruct (digits_spec (Z.abs_N z)) as (_ & D & _). rewrite !ascii_app, zeros_ascii, (digits_ascii _ D).
  destruct (z <? 0)%Z; reflexivity.
Qed.
Lemma pct_ascii w p x : ascii (fmt_pct true true false w p false false x) = true.
Proof.
  unfold fmt_pct, pad_num, fixed_text. rewrite point_parts.
  destruct (parts_digits p (rnd10 (d_man x) (d_ex x + Z.of_nat p)) 0) as (A & B & _).
  cbn [repeat app] in A. rewrite !ascii_app, zeros_ascii, (digits_ascii _ A).
  unfold sign_text. destruct (d_neg x), p; cbn [ascii forallb andb]; auto; fold ascii;
    change (forallb (fun c => c <? 128)%N) with ascii; rewrite (digits_ascii _ B); reflexivity.
Qed.

(** The text does not end in white space. *)
Definition solid (t : list N) : Prop := exists l c, t = l ++ [c] /\ ws_str c = false.
Lemma solid_app a b : solid b -> solid (a ++ b).
Proof. intros (l & c & -> & H). exists (a ++ l), c. now rewrite app_assoc. Qed.
Lemma solid_rstrip t : solid t -> rstrip_by ws_str t = t.
Proof. intros (l & c & -> & H). now apply rstrip_last. Qed.
Lemma solid_digits l : l <> [] -> forallb is_digit l = true -> solid l.
Proof.
  intros Hn H. destruct (exists_last Hn) as (l' & c & ->). exists l', c. split; auto.
  rewrite forallb_app in H. apply andb_true_iff in H as [_ H]. cbn in H. rewrite andb_true_r in H.
  now apply digit_not_ws_str.
Qed.
Lemma solid_fmtz w z : solid (fmt_d (dfmt_zero w) z).
Proof.
  unfold fmt_d, dfmt_zero. cbn [df_left df_zero df_plus df_width].
  destruct (digits_spec (Z.abs_N z)) as (Hn & D & _). apply solid_app, solid_app. now apply solid_digits.
Qed.
Lemma solid_pct w x : solid (fmt_pct true true false w 3 false false x).
Proof.
  unfold fmt_pct, pad_num, fixed_text. rewrite point_parts.
  destruct (parts_digits 3 (rnd10 (d_man x) (d_ex x + Z.of_nat 3)) 0) as (A & B & _ & L).
  apply solid_app, solid_app, solid_app. apply (solid_app [46%N]). apply solid_digits; [|exact B].
  intro E. rewrite E in L. discriminate.
Qed.

(** ** Degrees *)
Lemma fixed_bound x n : (Qabs (dec_Q x) <= inject_Z (Z.of_N n))%Q -> (rnd10 (d_man x) (d_ex x + 3) <= n * 1000)%N.
Proof.
  intro H. pose proof (rnd10_Q (d_man x) (d_ex x + 3)) as B.
  rewrite <- dec_abs_Q in H. unfold dec_abs in H.
  rewrite Qpower_plus in B by apply Q10_nz. change ((10 # 1) ^ 3)%Q with (1000 # 1)%Q in B.
  set (r := rnd10 _ _) in *.
  assert (L : (inject_Z (Z.of_N r) <= inject_Z (Z.of_N n) * 1000 + (1 # 2))%Q).
  { apply Qabs_Qle_condition in B as [_ B].
    set (m := (inject_Z (Z.of_N (d_man x)) * (10 # 1) ^ d_ex x)%Q) in *.
    setoid_replace (inject_Z (Z.of_N (d_man x)) * ((10 # 1) ^ d_ex x * (1000 # 1)))%Q with (m * 1000)%Q in B by (unfold m; ring).
    lra. }
  unfold Qle, Qplus, Qmult, inject_Z in L. cbn [Qnum Qden] in L. lia.
Qed.

Lemma pct_len (w : nat) (n : N) x : (Qabs (dec_Q x) <= inject_Z (Z.of_N n))%Q -> (6 <= w)%nat ->
  (n < 10 ^ N.of_nat (w - 5))%N -> List.length (fmt_pct true true false w 3 false false x) = w.
Proof.
  intros H Hw Hn. pose proof (fixed_bound x n H) as B.
  unfold fmt_pct, pad_num. rewrite !app_length, repeat_length.
  assert (S : List.length (sign_text true (d_neg x)) = 1%nat) by (destruct (d_neg x); reflexivity).
  rewrite S. unfold fixed_text. change (Z.of_nat 3) with 3%Z. rewrite point_len.
  set (r := rnd10 _ _) in *. change (10 ^ N.of_nat 3)%N with 1000%N.
  assert (L : (List.length (digits (r / 1000)) <= w - 5)%nat).
  { apply digits_len_le; [|lia]. eapply N.le_lt_trans; [|exact Hn].
    apply N.div_le_upper_bound; lia. }
  lia.
Qed.

Lemma to_float_pct w x : exists q, to_float (fmt_pct true true false w 3 false false x) = Ok q
  /\ (Qabs (q - dec_Q x) <= 1 # 2000)%Q.
Proof.
  unfold to_float. rewrite parse_pct. eexists. split; [reflexivity|].
  apply (fixed_close 3). rewrite parse_fixed. reflexivity.
Qed.

(** ** Degrees, minutes and seconds *)
Lemma dms_spec a (n : Z) : (0 <= a)%Q -> (a <= inject_Z n)%Q ->
  exists d m s, dms a = (d, m, s) /\ (0 <= d <= n)%Z /\ (0 <= m < 60)%Z /\ (0 <= s < 60)%Z
    /\ (Qabs (inject_Z d + inject_Z m / 60 + inject_Z s / 3600 - a) <= 1 # 7200)%Q.
Proof.
  intros H0 Hn. unfold dms.
  set (nd := Qfloor a). set (a1 := ((a - inject_Z nd) * 60)%Q). set (nm := Qfloor a1).
  set (a2 := ((a1 - inject_Z nm) * 60)%Q). set (ns := Qfloor (a2 + (1 # 2))).
  pose proof (Qfloor_le a) as F1. pose proof (Qlt_floor a) as F2. fold nd in F1, F2.
  pose proof (Qfloor_le a1) as F3. pose proof (Qlt_floor a1) as F4. fold nm in F3, F4.
  pose proof (Qfloor_le (a2 + (1 # 2))) as F5. pose proof (Qlt_floor (a2 + (1 # 2))) as F6. fold ns in F5, F6.
  rewrite inject_Z_plus in F2, F4, F6. change (inject_Z 1) with 1%Q in *.
  assert (D0 : (0 <= nd)%Z).
  { apply Z.lt_succ_r. rewrite Zlt_Qlt. unfold Z.succ. rewrite inject_Z_plus. change (inject_Z 0) with 0%Q. change (inject_Z 1) with 1%Q. lra. }
  assert (A1 : (0 <= a1 < 60)%Q) by (unfold a1; lra).
  assert (M0 : (0 <= nm < 60)%Z).
  { split.
    - apply Z.lt_succ_r. rewrite Zlt_Qlt. unfold Z.succ. rewrite inject_Z_plus. change (inject_Z 0) with 0%Q. change (inject_Z 1) with 1%Q. lra.
    - rewrite Zlt_Qlt. change (inject_Z 60) with 60%Q. lra. }
  assert (A2 : (0 <= a2 < 60)%Q) by (unfold a2; lra).
  assert (S0 : (0 <= ns <= 60)%Z).
  { split.
    - apply Z.lt_succ_r. rewrite Zlt_Qlt. unfold Z.succ. rewrite inject_Z_plus. change (inject_Z 0) with 0%Q. change (inject_Z 1) with 1%Q. lra.
    - apply Z.lt_succ_r. change (Z.succ 60) with 61%Z. rewrite Zlt_Qlt. change (inject_Z 61) with 61%Q. lra. }
  assert (E : (a == inject_Z nd + inject_Z nm / 60 + a2 / 3600)%Q) by (unfold a2, a1; field).
  assert (Dn : (nd <= n)%Z) by (rewrite Zle_Qle; lra).
  assert (C : (nd = n -> ns <> 60)%Z).
  { intros En Es. assert (a1 == 0)%Q by (unfold a1; rewrite En in *; lra).
    assert (nm = 0)%Z.
    { apply Z.le_antisymm; [|lia]. apply Z.lt_succ_r. rewrite Zlt_Qlt. change (inject_Z (Z.succ 0)) with 1%Q. lra. }
    assert (a2 == 0)%Q by (unfold a2; rewrite H1; change (inject_Z 0) with 0%Q; lra).
    rewrite Es in F5. change (inject_Z 60) with 60%Q in F5. lra. }
  clearbody ns a2 nm a1 nd. unfold Qdiv in *. change (/ 60)%Q with (1 # 60)%Q in *. change (/ 3600)%Q with (1 # 3600)%Q in *.
  destruct (ns =? 60)%Z eqn:E60; [|].
  - apply Z.eqb_eq in E60. rewrite E60 in *. change (inject_Z 60) with 60%Q in *.
    specialize (C). assert (nd < n)%Z by (destruct (Z.eq_dec nd n); [exfalso; now apply C|lia]).
    destruct (nm + 1 =? 60)%Z eqn:E61.
    + apply Z.eqb_eq in E61. assert (nm = 59)%Z by lia.
      eexists _, _, _. split; [reflexivity|]. repeat split; try lia.
      rewrite inject_Z_plus. change (inject_Z 1) with 1%Q. change (inject_Z 0) with 0%Q.
      subst nm. change (inject_Z 59) with 59%Q in *. apply Qabs_Qle_condition. split; lra.
    + apply Z.eqb_neq in E61. eexists _, _, _. split; [reflexivity|]. repeat split; try lia.
      rewrite inject_Z_plus. change (inject_Z 1) with 1%Q. change (inject_Z 0) with 0%Q.
      apply Qabs_Qle_condition. split; lra.
  - apply Z.eqb_neq in E60. eexists _, _, _. split; [reflexivity|]. repeat split; try lia.
    apply Qabs_Qle_condition. split; lra.
Qed.

(** The text of a coordinate. *)
Lemma encode_dms_spec (lat : bool) x : (Qabs (dec_Q x) <= inject_Z (if lat then 90 else 180))%Q ->
  exists d m s, encode_dms lat x = fmt_d (dfmt_zero (if lat then 2 else 3)) d ++ fmt_d (dfmt_zero 2) m ++ fmt_d (dfmt_zero 2) s
      ++ [if lat then (if Qle_bool 0 (dec_Q x) then 78%N else 83%N) else (if Qle_bool 0 (dec_Q x) then 69%N else 87%N)]
    /\ List.length (fmt_d (dfmt_zero (if lat then 2 else 3)) d) = (if lat then 2 else 3)%nat
    /\ List.length (fmt_d (dfmt_zero 2) m) = 2%nat /\ List.length (fmt_d (dfmt_zero 2) s) = 2%nat
    /\ (Qabs (inject_Z d + inject_Z m / 60 + inject_Z s / 3600 - Qabs (dec_Q x)) <= 1 # 7200)%Q.
Proof.
  intro H. destruct (dms_spec _ _ (Qabs_nonneg _) H) as (d & m & s & E & Hd & Hm & Hs & Q1).
  unfold encode_dms. rewrite E. exists d, m, s.
  split; [destruct lat, (Qle_bool 0 (dec_Q x)); reflexivity|].
  repeat split; auto; apply fmtz_len; destruct lat; cbn [Z.of_nat Pos.of_succ_nat Pos.succ]; lia.
Qed.

Lemma solid_dms c : on_earth c -> solid (encode_dms false (fst c)).
Proof.
  intros [Hx _]. destruct (encode_dms_spec false (fst c) Hx) as (d & m & s & -> & _).
  apply solid_app, solid_app, solid_app. exists [], (if Qle_bool 0 (dec_Q (fst c)) then 69%N else 87%N).
  split; [reflexivity|]. destruct (Qle_bool 0 (dec_Q (fst c))); reflexivity.
Qed.

Lemma to_float_3 w1 d m s : exists q1 q2 q3,
  to_float (fmt_d (dfmt_zero w1) d) = Ok q1 /\ to_float (fmt_d (dfmt_zero 2) m) = Ok q2
  /\ to_float (fmt_d (dfmt_zero 2) s) = Ok q3
  /\ (q1 + q2 / 60 + q3 / 3600 == inject_Z d + inject_Z m / 60 + inject_Z s / 3600)%Q.
Proof.
  destruct (to_float_fmtz w1 d) as (q1 & A & A'). destruct (to_float_fmtz 2 m) as (q2 & B & B').
  destruct (to_float_fmtz 2 s) as (q3 & C & C'). exists q1, q2, q3. repeat split; auto.
  now rewrite A', B', C'.
Qed.

Lemma not_beyond x n : (Qabs (dec_Q x) <= inject_Z n)%Q -> beyond x n = false.
Proof. intro H. unfold beyond. apply Qle_bool_iff in H. now rewrite H. Qed.

Lemma degrees_ok cs : Forall on_earth cs -> check_degrees cs = Ok tt.
Proof.
  intro H. unfold check_degrees.
  assert (A : existsb (fun c => beyond (fst c) 180) cs = false).
  { induction H as [|c cs [Hx Hy] _ IH]; auto. cbn [existsb]. rewrite (not_beyond _ 180 Hx). exact IH. }
  assert (B : existsb (fun c => beyond (snd c) 90) cs = false).
  { clear A. induction H as [|c cs [Hx Hy] _ IH]; auto. cbn [existsb]. rewrite (not_beyond _ 90 Hy). exact IH. }
  now rewrite A, B.
Qed.

(** The writer puts four pairs of 15 characters side by side. *)
Lemma four_pairs t1 t2 t3 t4 : List.length t1 = 15%nat -> List.length t2 = 15%nat ->
  List.length t3 = 15%nat -> List.length t4 = 15%nat ->
  slice_set 45 60 t4 (slice_set 30 45 t3 (slice_set 15 30 t2 (slice_set 0 15 t1 (spaces 60)))) = ((t1 ++ t2) ++ t3) ++ t4.
Proof.
  intros H1 H2 H3 H4. change (spaces 60) with ([] ++ spaces 60).
  rewrite (slice_set_next 0 15 [] t1 60); [|reflexivity|lia|lia]. cbn [app].
  rewrite slice_set_next; [|lia|lia|lia].
  rewrite slice_set_next; [|rewrite app_length; lia|lia|lia].
  rewrite slice_set_next; [|rewrite !app_length; lia|lia|lia].
  change (spaces _) with (@nil N). apply app_nil_r.
Qed.

Lemma eight_parts a1 b1 a2 b2 a3 b3 a4 b4 :
  List.length a1 = 7%nat -> List.length b1 = 8%nat -> List.length a2 = 7%nat -> List.length b2 = 8%nat ->
  List.length a3 = 7%nat -> List.length b3 = 8%nat -> List.length a4 = 7%nat -> List.length b4 = 8%nat ->
  slice_set 52 60 b4 (slice_set 45 52 a4 (slice_set 37 45 b3 (slice_set 30 37 a3
    (slice_set 22 30 b2 (slice_set 15 22 a2 (slice_set 7 15 b1 (slice_set 0 7 a1 (spaces 60))))))))
  = (((a1 ++ b1) ++ (a2 ++ b2)) ++ (a3 ++ b3)) ++ (a4 ++ b4).
Proof.
  intros. change (spaces 60) with ([] ++ spaces 60).
  rewrite (slice_set_next 0 7 [] a1 60); [|reflexivity|lia|lia]. cbn [app].
  do 7 (rewrite slice_set_next; [|rewrite ?app_length; lia|lia|lia]).
  change (spaces _) with (@nil N). rewrite app_nil_r, <- !app_assoc. reflexivity.
Qed.

Lemma read_four ic t1 t2 t3 t4 : known_icords ic = true ->
  List.length t1 = 15%nat -> List.length t2 = 15%nat -> List.length t3 = 15%nat -> List.length t4 = 15%nat ->
  read_igeolo ic (((t1 ++ t2) ++ t3) ++ t4) = read_pairs ic [t1; t2; t3; t4] None.
Proof.
  intros K H1 H2 H3 H4. unfold read_igeolo. rewrite K. cbn [negb].
  rewrite (slice_last 45 60 _ t4); [|rewrite !app_length; lia|lia].
  rewrite <- !app_assoc. rewrite (slice_0 15 t1) by lia.
  rewrite (slice_mid 15 30 t1 t2); [|lia|lia].
  rewrite (app_assoc t1 t2). rewrite (slice_mid 30 45 (t1 ++ t2) t3); [|rewrite app_length; lia|lia]. reflexivity.
Qed.

(** *** Each pair *)
Lemma pair_deg c : on_earth c -> List.length (encode_deg c) = 15%nat /\ ascii (encode_deg c) = true
  /\ exists g, read_pair icD (encode_deg c) = Ok (None, g) /\ near (1 # 2000) c g.
Proof.
  intros [Hx Hy]. unfold encode_deg.
  pose proof (pct_len 7 90 (snd c) Hy ltac:(lia) eq_refl) as L1.
  pose proof (pct_len 8 180 (fst c) Hx ltac:(lia) eq_refl) as L2.
  split; [rewrite app_length; lia|]. split; [rewrite ascii_app, !pct_ascii; reflexivity|].
  destruct (to_float_pct 7 (snd c)) as (y & Ey & Cy). destruct (to_float_pct 8 (fst c)) as (x & Ex & Cx).
  exists (x, y). split; [|split; assumption].
  unfold read_pair. change (list_eqb icD icN || list_eqb icD icS) with false. change (list_eqb icD icG) with false. cbv iota.
  rewrite (slice_0 7) by lia. rewrite (slice_last 7 15) by lia. rewrite Ey. cbn [bind]. rewrite Ex. reflexivity.
Qed.

Lemma pair_dms c : on_earth c ->
  let ty := encode_dms true (snd c) in let tx := encode_dms false (fst c) in
  List.length ty = 7%nat /\ List.length tx = 8%nat /\ ascii ty = true /\ ascii tx = true
  /\ exists g, read_pair icG (ty ++ tx) = Ok (None, g) /\ near_abs (1 # 7200) c g.
Proof.
  intros [Hx Hy] ty tx.
  destruct (encode_dms_spec true (snd c) Hy) as (d & m & s & E & L1 & L2 & L3 & Q1). fold ty in E.
  destruct (encode_dms_spec false (fst c) Hx) as (d' & m' & s' & E' & L1' & L2' & L3' & Q1'). fold tx in E'.
  cbv iota in E, E', L1, L1'.
  set (h := [if Qle_bool 0 (dec_Q (snd c)) then 78%N else 83%N]) in E.
  set (h' := [if Qle_bool 0 (dec_Q (fst c)) then 69%N else 87%N]) in E'.
  assert (Lh : List.length h = 1%nat) by reflexivity. assert (Lh' : List.length h' = 1%nat) by reflexivity.
  assert (Ah : ascii h = true) by (unfold h; destruct (Qle_bool 0 (dec_Q (snd c))); reflexivity).
  assert (Ah' : ascii h' = true) by (unfold h'; destruct (Qle_bool 0 (dec_Q (fst c))); reflexivity).
  assert (L : List.length ty = 7%nat) by (rewrite E, !app_length; lia).
  assert (L' : List.length tx = 8%nat) by (rewrite E', !app_length; lia).
  split; [exact L|]. split; [exact L'|].
  split; [rewrite E, !ascii_app, !fmtz_ascii, Ah; reflexivity|].
  split; [rewrite E', !ascii_app, !fmtz_ascii, Ah'; reflexivity|].
  destruct (to_float_3 2 d m s) as (q1 & q2 & q3 & F1 & F2 & F3 & EQ).
  destruct (to_float_3 3 d' m' s') as (p1 & p2 & p3 & G1 & G2 & G3 & EQ').
  exists (p1 + p2 / 60 + p3 / 3600, q1 + q2 / 60 + q3 / 3600)%Q. split.
  - unfold read_pair. change (list_eqb icG icN || list_eqb icG icS) with false. change (list_eqb icG icG) with true. cbv iota.
    assert (N6 : nth_error (ty ++ tx) 6 <> None) by (apply nth_error_Some; rewrite app_length; lia).
    assert (N14 : nth_error (ty ++ tx) 14 <> None) by (apply nth_error_Some; rewrite app_length; lia).
    destruct (nth_error (ty ++ tx) 6) as [c6|]; [|congruence]. destruct (nth_error (ty ++ tx) 14) as [c14|]; [|congruence].
    clear N6 N14. rewrite E, E', <- !app_assoc.
    set (A := fmt_d (dfmt_zero 2) d) in *. set (B := fmt_d (dfmt_zero 2) m) in *. set (C := fmt_d (dfmt_zero 2) s) in *.
    set (A' := fmt_d (dfmt_zero 3) d') in *. set (B' := fmt_d (dfmt_zero 2) m') in *. set (C' := fmt_d (dfmt_zero 2) s') in *.
    rewrite (slice_0 2 A) by lia. rewrite (slice_mid 2 4 A B) by lia.
    rewrite (app_assoc A B). rewrite (slice_mid 4 6 (A ++ B) C) by (rewrite ?app_length; lia).
    rewrite (app_assoc (A ++ B) C), (app_assoc ((A ++ B) ++ C) h).
    rewrite (slice_mid 7 10 (((A ++ B) ++ C) ++ h) A') by (rewrite ?app_length; lia).
    rewrite (app_assoc _ A'). rewrite (slice_mid 10 12 _ B') by (rewrite ?app_length; lia).
    rewrite (app_assoc _ B'). rewrite (slice_mid 12 14 _ C') by (rewrite ?app_length; lia).
    rewrite F1. cbn [bind]. rewrite F2. cbn [bind]. rewrite F3. cbn [bind]. rewrite G1. cbn [bind]. rewrite G2. cbn [bind].
    rewrite G3. reflexivity.
  - split; cbn [fst snd]; [rewrite EQ'|rewrite EQ]; assumption.
Qed.

Lemma utm_len (w : nat) (z : Z) : (2 <= w)%nat -> (- 10 ^ (Z.of_nat w - 1) < z < 10 ^ Z.of_nat w)%Z ->
  List.length (fmt_d (dfmt_zero w) z) = w.
Proof. intros Hw Hz. destruct (Z.ltb_spec z 0); [apply fmtz_len_neg|apply fmtz_len]; lia. Qed.

(** A zone of two digits, an easting the writer accepts and a northing of at most six
    characters. *)
Definition utm_fits (c : dec * dec) : Prop :=
  (-100000 <= dec_Q (fst c))%Q /\ (dec_Q (fst c) < 999999 + (1 # 2))%Q
  /\ (-99999 <= dec_Q (snd c))%Q /\ (dec_Q (snd c) < 1000000)%Q.

Lemma floor_bounds x a b : (inject_Z a <= dec_Q x)%Q -> (dec_Q x < inject_Z b)%Q -> (a <= floorZ x < b)%Z
  /\ (0 <= dec_Q x - inject_Z (floorZ x) < 1)%Q.
Proof.
  intros Ha Hb. unfold floorZ. pose proof (Qfloor_le (dec_Q x)) as F1. pose proof (Qlt_floor (dec_Q x)) as F2.
  set (n := Qfloor (dec_Q x)) in *. clearbody n. rewrite inject_Z_plus in F2. change (inject_Z 1) with 1%Q in F2.
  split; [|lra]. split.
  - apply Z.lt_succ_r. rewrite Zlt_Qlt. unfold Z.succ. rewrite inject_Z_plus. change (inject_Z 1) with 1%Q. lra.
  - rewrite Zlt_Qlt. lra.
Qed.

Lemma pair_utm ic z c : ic = icN \/ ic = icS -> (0 <= z <= 99)%Z -> utm_fits c ->
  exists t, encode_utm (Some z) c = Ok t /\ List.length t = 15%nat /\ ascii t = true
  /\ exists g, read_pair ic t = Ok (Some z, g)
       /\ (fst g == inject_Z (floorZ (snd c)))%Q /\ (snd g == inject_Z (floorZ (fst c)))%Q.
Proof.
  intros Hi Hz (X0 & X1 & Y0 & Y1).
  assert (X1' : (dec_Q (fst c) < inject_Z 1000000)%Q) by (change (inject_Z 1000000) with 1000000%Q; lra).
  destruct (floor_bounds (fst c) (-100000) 1000000 X0 X1') as [Bx _].
  destruct (floor_bounds (snd c) (-99999) 1000000 Y0 Y1) as [By _].
  eexists. split; [reflexivity|].
  set (A := fmt_d (dfmt_zero 2) z). set (B := fmt_d (dfmt_zero 6) (floorZ (snd c))). set (C := fmt_d (dfmt_zero 7) (floorZ (fst c))).
  assert (LA : List.length A = 2%nat) by (apply utm_len; cbn [Z.of_nat Pos.of_succ_nat Pos.succ]; lia).
  assert (LB : List.length B = 6%nat) by (apply utm_len; cbn [Z.of_nat Pos.of_succ_nat Pos.succ]; lia).
  assert (LC : List.length C = 7%nat) by (apply utm_len; cbn [Z.of_nat Pos.of_succ_nat Pos.succ]; lia).
  split; [rewrite !app_length; lia|]. split; [unfold A, B, C; rewrite !ascii_app, !fmtz_ascii; reflexivity|].
  destruct (to_float_fmtz 6 (floorZ (snd c))) as (b & Eb & Qb). destruct (to_float_fmtz 7 (floorZ (fst c))) as (a & Ea & Qa).
  exists (b, a). split; [|split; assumption].
  unfold read_pair. replace (list_eqb ic icN || list_eqb ic icS) with true by (destruct Hi as [-> | ->]; reflexivity). cbv iota.
  rewrite (slice_0 2 A) by lia. rewrite (slice_mid 2 8 A B) by lia.
  rewrite (app_assoc A B). rewrite (slice_last 8 15 (A ++ B) C) by (rewrite ?app_length; lia).
  unfold A, B, C. rewrite to_int_fmtz. cbn [bind]. rewrite Eb. cbn [bind]. rewrite Ea. reflexivity.
Qed.

Lemma utm_checks c : utm_fits c -> check_utm_x (fst c) = Ok tt /\ check_utm_y (snd c) = Ok tt.
Proof.
  intros (X0 & X1 & Y0 & Y1). unfold check_utm_x, check_utm_y.
  pose proof (Qfloor_le (dec_Q (fst c) + (1 # 2))) as F1. pose proof (Qlt_floor (dec_Q (fst c) + (1 # 2))) as F2.
  pose proof (Qfloor_le (dec_Q (snd c) + (1 # 2))) as F3. pose proof (Qlt_floor (dec_Q (snd c) + (1 # 2))) as F4.
  set (t := Qfloor (dec_Q (fst c) + (1 # 2))) in *. set (u := Qfloor (dec_Q (snd c) + (1 # 2))) in *. clearbody t u.
  rewrite inject_Z_plus in F2, F4. change (inject_Z 1) with 1%Q in *.
  assert (-100000 <= t < 1000000)%Z.
  { split.
    - apply Z.lt_succ_r. rewrite Zlt_Qlt. unfold Z.succ. rewrite inject_Z_plus. change (inject_Z 1) with 1%Q. change (inject_Z (-100000)) with (-100000)%Q. lra.
    - rewrite Zlt_Qlt. change (inject_Z 1000000) with 1000000%Q. lra. }
  assert (-1000000 <= u < 10000000)%Z.
  { split.
    - apply Z.lt_succ_r. rewrite Zlt_Qlt. unfold Z.succ. rewrite inject_Z_plus. change (inject_Z 1) with 1%Q. change (inject_Z (-1000000)) with (-1000000)%Q. lra.
    - rewrite Zlt_Qlt. change (inject_Z 10000000) with 10000000%Q. lra. }
  split.
  - replace (t <? -100000)%Z with false by lia. replace (1000000 <=? t)%Z with false by lia. reflexivity.
  - replace (u <? -1000000)%Z with false by lia. replace (10000000 <=? u)%Z with false by lia. reflexivity.
Qed.

Lemma utm_ok cs : Forall utm_fits cs -> check_utm cs = Ok tt.
Proof.
  induction 1 as [|c cs H _ IH]; auto. cbn [check_utm]. destruct (utm_checks c H) as [-> ->]. exact IH.
Qed.

(** ** The functions of the module *)
Ltac four cs H := destruct cs as [|?c1 [|?c2 [|?c3 [|?c4 [|]]]]]; try discriminate H.

Lemma write_read_deg zone cs : List.length cs = 4%nat -> Forall on_earth cs ->
  exists t, write_igeolo icD zone cs = Ok t /\ List.length t = 60%nat /\ ascii t = true /\ solid t
    /\ exists got, read_igeolo icD t = Ok (got, None) /\ Forall2 (near (1 # 2000)) cs got.
Proof.
  intros HL HE. four cs HL. pose proof (degrees_ok _ HE) as HC.
  inversion HE as [|x1 l1 E1 HE1]; subst; clear HE. inversion HE1 as [|x2 l2 E2 HE2]; subst; clear HE1.
  inversion HE2 as [|x3 l3 E3 HE3]; subst; clear HE2. inversion HE3 as [|x4 l4 E4 _]; subst; clear HE3.
  destruct (pair_deg c1 E1) as (L1 & A1 & g1 & R1 & N1). destruct (pair_deg c2 E2) as (L2 & A2 & g2 & R2 & N2).
  destruct (pair_deg c3 E3) as (L3 & A3 & g3 & R3 & N3). destruct (pair_deg c4 E4) as (L4 & A4 & g4 & R4 & N4).
  eexists. split.
  - unfold write_igeolo. change (known_icords icD) with true. change (list_eqb icD icG) with false. change (list_eqb icD icD) with true.
    cbn [negb]. rewrite HC. cbn [bind]. rewrite four_pairs by assumption. reflexivity.
  - split; [rewrite !app_length; lia|]. split; [rewrite !ascii_app, A1, A2, A3, A4; reflexivity|].
    split; [apply solid_app; apply solid_app, solid_pct|].
    exists [g1; g2; g3; g4]. split; [|repeat (apply Forall2_cons; [assumption|]); apply Forall2_nil].
    rewrite read_four by (try assumption; reflexivity). cbn [read_pairs].
    rewrite R1. cbn [bind]. rewrite R2. cbn [bind]. rewrite R3. cbn [bind]. rewrite R4. reflexivity.
Qed.

Lemma write_read_dms zone cs : List.length cs = 4%nat -> Forall on_earth cs ->
  exists t, write_igeolo icG zone cs = Ok t /\ List.length t = 60%nat /\ ascii t = true /\ solid t
    /\ exists got, read_igeolo icG t = Ok (got, None) /\ Forall2 (near_abs (1 # 7200)) cs got.
Proof.
  intros HL HE. four cs HL. pose proof (degrees_ok _ HE) as HC.
  inversion HE as [|x1 l1 E1 HE1]; subst; clear HE. inversion HE1 as [|x2 l2 E2 HE2]; subst; clear HE1.
  inversion HE2 as [|x3 l3 E3 HE3]; subst; clear HE2. inversion HE3 as [|x4 l4 E4 _]; subst; clear HE3.
  destruct (pair_dms c1 E1) as (L1 & M1 & A1 & B1 & g1 & R1 & N1). destruct (pair_dms c2 E2) as (L2 & M2 & A2 & B2 & g2 & R2 & N2).
  destruct (pair_dms c3 E3) as (L3 & M3 & A3 & B3 & g3 & R3 & N3). destruct (pair_dms c4 E4) as (L4 & M4 & A4 & B4 & g4 & R4 & N4).
  eexists. split.
  - unfold write_igeolo. change (known_icords icG) with true. change (list_eqb icG icG) with true.
    cbn [negb]. rewrite HC. cbn [bind]. rewrite eight_parts by assumption. reflexivity.
  - split; [rewrite !app_length; lia|]. split; [rewrite !ascii_app, A1, A2, A3, A4, B1, B2, B3, B4; reflexivity|].
    split; [apply solid_app, solid_app, solid_dms, E4|].
    exists [g1; g2; g3; g4]. split; [|repeat (apply Forall2_cons; [assumption|]); apply Forall2_nil].
    rewrite read_four; [|reflexivity|rewrite app_length; lia|rewrite app_length; lia|rewrite app_length; lia|rewrite app_length; lia].
    cbn [read_pairs].
    rewrite R1. cbn [bind]. rewrite R2. cbn [bind]. rewrite R3. cbn [bind]. rewrite R4. reflexivity.
Qed.

(** What is read back after UTM coordinates were written: northing and easting exchanged. *)
Definition exchanged (c : dec * dec) (g : Q * Q) : Prop :=
  (0 <= dec_Q (snd c) - fst g < 1)%Q /\ (0 <= dec_Q (fst c) - snd g < 1)%Q.

Lemma write_read_utm ic z cs : ic = icN \/ ic = icS -> (0 <= z <= 99)%Z ->
  List.length cs = 4%nat -> Forall utm_fits cs ->
  exists t, write_igeolo ic (Some z) cs = Ok t /\ List.length t = 60%nat /\ ascii t = true /\ solid t
    /\ exists got, read_igeolo ic t = Ok (got, Some z) /\ Forall2 exchanged cs got.
Proof.
  intros Hi Hz HL HE. four cs HL. pose proof (utm_ok _ HE) as HC.
  inversion HE as [|x1 l1 E1 HE1]; subst; clear HE. inversion HE1 as [|x2 l2 E2 HE2]; subst; clear HE1.
  inversion HE2 as [|x3 l3 E3 HE3]; subst; clear HE2. inversion HE3 as [|x4 l4 E4 _]; subst; clear HE3.
  assert (X : forall c g, utm_fits c -> (fst g == inject_Z (floorZ (snd c)))%Q -> (snd g == inject_Z (floorZ (fst c)))%Q -> exchanged c g).
  { intros c g (X0 & X1 & Y0 & Y1) G1 G2.
    destruct (floor_bounds (fst c) (-100000) 1000000 X0) as [_ Bx]; [change (inject_Z 1000000) with 1000000%Q; lra|].
    destruct (floor_bounds (snd c) (-99999) 1000000 Y0 Y1) as [_ By].
    split; [rewrite G1; exact By|rewrite G2; exact Bx]. }
  destruct (pair_utm ic z c1 Hi Hz E1) as (t1 & W1 & L1 & A1 & g1 & R1 & P1 & Q1). destruct (pair_utm ic z c2 Hi Hz E2) as (t2 & W2 & L2 & A2 & g2 & R2 & P2 & Q2).
  destruct (pair_utm ic z c3 Hi Hz E3) as (t3 & W3 & L3 & A3 & g3 & R3 & P3 & Q3). destruct (pair_utm ic z c4 Hi Hz E4) as (t4 & W4 & L4 & A4 & g4 & R4 & P4 & Q4).
  assert (K : known_icords ic = true) by (destruct Hi as [-> | ->]; reflexivity).
  eexists. split.
  - unfold write_igeolo. rewrite K. replace (list_eqb ic icG) with false by (destruct Hi as [-> | ->]; reflexivity).
    replace (list_eqb ic icD) with false by (destruct Hi as [-> | ->]; reflexivity).
    cbn [negb]. rewrite HC. cbn [bind]. rewrite W1. cbn [bind]. rewrite W2. cbn [bind]. rewrite W3. cbn [bind]. rewrite W4. cbn [bind].
    rewrite four_pairs by assumption. reflexivity.
  - split; [rewrite !app_length; lia|]. split; [rewrite !ascii_app, A1, A2, A3, A4; reflexivity|].
    split; [apply solid_app; injection W4 as <-; apply solid_app, solid_app, solid_fmtz|].
    exists [g1; g2; g3; g4]. split; [|repeat (apply Forall2_cons; [apply X; assumption|]); apply Forall2_nil].
    rewrite read_four by assumption. cbn [read_pairs].
    rewrite R1. cbn [bind]. rewrite R2. cbn [bind]. rewrite R3. cbn [bind]. rewrite R4. reflexivity.
Qed.

(** ** The subheader *)
Section Hdr.
Variable FO : FloatOps.
Notation hdr := (hdr FO).

Lemma icords_scalar : scalar irows "icords" (fld_of "icords").
Proof. repeat split; vm_compute; reflexivity. Qed.
Lemma igeolo_lookup : lookup ifs "igeolo" = Some (fld_of "igeolo").
Proof. vm_compute. reflexivity. Qed.
Lemma igeolo_loops : f_loops (fld_of "igeolo") = [].
Proof. vm_compute. reflexivity. Qed.
Lemma igeolo_desc : f_d (fld_of "igeolo") = Build_fdesc (Some "igeolo") (SzInt 60%Z) TStr FrNone DfNone
  (Some (ECmp CNe (ERstrip (EFld "icords" 0)) (EStr (str "")))) false 32%N false None 0%Z false.
Proof. vm_compute. reflexivity. Qed.
Lemma icords_ty : fd_ty (f_d (fld_of "icords")) = TStr. Proof. vm_compute. reflexivity. Qed.
Opaque fld_of.

Lemma get_icords (s : state FO) c : stored FO s (fld_of "icords") [] = SVal (VStr c) -> rstrip_by ws_str c = c ->
  get FO ifs s "icords" [] = Ok (VStr c).
Proof.
  intros H Hc. rewrite (get_scalar FO irows s _ _ icords_scalar), H. unfold conv_of, convert. rewrite icords_ty.
  cbn [conv_str]. now rewrite Hc.
Qed.

Lemma igeolo_cond (s : state FO) c : stored FO s (fld_of "icords") [] = SVal (VStr c) -> rstrip_by ws_str c = c -> c <> [] ->
  check_condition FO (G FO ifs s) ifs (fld_of "igeolo") [] = Ok true.
Proof.
  intros H Hc Hn. pose proof (get_icords s c H Hc) as HG.
  unfold get in HG. destruct icords_scalar as (HL & HLo & _). rewrite HL in HG. unfold key_shape_ok, depth in HG. rewrite HLo in HG.
  cbn [List.length] in HG.
  unfold check_condition. rewrite igeolo_desc. cbn [fd_cond eval]. unfold eval_ref. rewrite HL. unfold depth. rewrite HLo.
  cbn [List.length]. rewrite (G_get_pub FO irows s (fld_of "icords") [] irows_wf (lookup_in _ _ _ HL)).
  cbn [Nat.eqb] in HG. unfold fget in HG. rewrite HG. cbn [bind]. rewrite Hc.
  destruct c as [|x c]; [congruence|reflexivity].
Qed.

Lemma igeolo_get (s : state FO) c t : stored FO s (fld_of "icords") [] = SVal (VStr c) -> rstrip_by ws_str c = c -> c <> [] ->
  stored FO s (fld_of "igeolo") [] = SVal (VStr t) -> rstrip_by ws_str t = t ->
  get FO ifs s "igeolo" [] = Ok (VStr t).
Proof.
  intros H Hc Hn Ht Hr. unfold get. rewrite igeolo_lookup. unfold key_shape_ok, depth. rewrite igeolo_loops. cbn [List.length Nat.eqb].
  unfold fget, get_pub, get_base. unfold check_index. rewrite igeolo_loops, (igeolo_cond s c H Hc Hn).
  rewrite igeolo_desc. cbn [fd_name bind fd_value fd_ty negb convert]. rewrite Ht. cbn. now rewrite Hr.
Qed.

Lemma igeolo_set (s : state FO) c t : st_impl FO s = false ->
  stored FO s (fld_of "icords") [] = SVal (VStr c) -> rstrip_by ws_str c = c -> c <> [] ->
  set FO ifs s "igeolo" [] (SVal (VStr t)) = (assigned FO s (fld_of "igeolo") [] (SVal (VStr t)), Ok tt).
Proof.
  intros HI H Hc Hn.
  destruct (set_plain FO ifs s "igeolo" (fld_of "igeolo") [] (SVal (VStr t)) igeolo_lookup) as [(_ & _ & E)|(E & _)].
  - now rewrite igeolo_desc.
  - exact E.
  - exfalso. apply E. split; [unfold key_shape_ok, depth; now rewrite igeolo_loops|].
    unfold may_assign. rewrite (igeolo_cond s c H Hc Hn). unfold check_index. rewrite igeolo_loops, igeolo_desc.
    cbn [fd_name fd_hard fd_value fd_optional]. repeat split; auto; discriminate.
Qed.

(** Setting the corners stores the text, and getting them reads it. *)
Lemma set_get (h : hdr) ic zone cs t : st_impl FO (h_st h) = false -> known_icords ic = true ->
  write_igeolo ic zone cs = Ok t -> ascii t = true -> solid t ->
  exists h', set_corners FO h ic cs zone = (h', Ok tt)
    /\ hget FO irows h' "icords" = Ok (VStr ic) /\ hget FO irows h' "igeolo" = Ok (VStr t)
    /\ get_corners FO h' = (do (got, z) <- read_igeolo ic t; Ok (ic, got, z)).
Proof.
  intros HI HK HW HA HR. apply solid_rstrip in HR.
  assert (Hc : rstrip_by ws_str ic = ic /\ ic <> []).
  { unfold known_icords in HK. rewrite !orb_true_iff in HK.
    destruct HK as [[[K|K]|K]|K]; apply list_eqb_spec in K; subst ic; split; try reflexivity; discriminate. }
  destruct Hc as [Hc Hn].
  set (s1 := assigned FO (h_st h) (fld_of "icords") [] (SVal (VStr ic))).
  set (s2 := assigned FO s1 (fld_of "igeolo") [] (SVal (VStr t))).
  assert (S1 : stored FO s1 (fld_of "icords") [] = SVal (VStr ic)) by apply assigned_self.
  assert (I1 : st_impl FO s1 = false) by exact HI.
  assert (S2 : stored FO s2 (fld_of "icords") [] = SVal (VStr ic)).
  { rewrite <- S1. apply (assigned_same FO irows).
    - eapply lookup_in, igeolo_lookup.
    - eapply lookup_in, icords_scalar.
    - destruct icords_scalar as (HL & _). apply (lookup_ne irows "icords" "igeolo"); [exact HL|exact igeolo_lookup|discriminate]. }
  assert (S3 : stored FO s2 (fld_of "igeolo") [] = SVal (VStr t)) by apply assigned_self.
  exists {| h_st := s2; h_attr := h_attr h |}.
  assert (G1 : hget FO irows {| h_st := s2; h_attr := h_attr h |} "icords" = Ok (VStr ic)).
  { unfold hget. rewrite (proj1 icords_scalar). apply (get_icords s2); assumption. }
  assert (G2 : hget FO irows {| h_st := s2; h_attr := h_attr h |} "igeolo" = Ok (VStr t)).
  { unfold hget. rewrite igeolo_lookup. apply (igeolo_get s2 ic); assumption. }
  split; [|split; [exact G1|split; [exact G2|]]].
  - unfold set_corners. rewrite (hset_scalar FO irows h "icords" _ _ icords_scalar HI) by discriminate.
    rewrite HW, (utf8_dec_ascii t HA). unfold hset. cbn [h_st h_attr]. rewrite igeolo_lookup.
    fold s1. rewrite (igeolo_set s1 ic t I1 S1 Hc Hn). reflexivity.
  - unfold get_corners. rewrite G1. cbn [bind]. rewrite G2. cbn [bind]. rewrite (utf8_enc_ascii t HA).
    destruct (read_igeolo ic t) as [[got z]|e]; reflexivity.
Qed.
End Hdr.

(** ** C34 *)
(** Decimal degrees: any four corners on the earth can be set on any image subheader; the
    field then holds 60 characters, and the corners read back are within half of the third
    decimal of what was set. *)
Theorem C34_degrees FO (h : hdr FO) zone cs : st_impl FO (h_st h) = false ->
  List.length cs = 4%nat -> Forall on_earth cs ->
  exists h' t got, set_corners FO h (str "D") cs zone = (h', Ok tt)
    /\ hget FO desc_NitfImageSubheader h' "igeolo" = Ok (VStr t) /\ List.length t = 60%nat
    /\ get_corners FO h' = Ok (str "D", got, None) /\ Forall2 (near (1 # 2000)) cs got.
Proof.
  intros HI HL HE. destruct (write_read_deg zone cs HL HE) as (t & W & L & A & S & got & R & N).
  destruct (set_get FO h icD zone cs t HI eq_refl W A S) as (h' & E & _ & G2 & G3).
  exists h', t, got. split; [exact E|]. split; [exact G2|]. split; [exact L|]. split; [|exact N].
  rewrite G3, R. reflexivity.
Qed.

(** Degrees, minutes and seconds: 60 characters, and for corners in the north-eastern
    quarter the coordinates read back are within half a second.  Missing: the sign of
    southern and western coordinates, see [C34_geographic_refuted]. *)
Theorem C34_geographic_partial FO (h : hdr FO) zone cs : st_impl FO (h_st h) = false ->
  List.length cs = 4%nat -> Forall on_earth cs ->
  exists h' t got, set_corners FO h (str "G") cs zone = (h', Ok tt)
    /\ hget FO desc_NitfImageSubheader h' "igeolo" = Ok (VStr t) /\ List.length t = 60%nat
    /\ get_corners FO h' = Ok (str "G", got, None) /\ Forall2 (near_abs (1 # 7200)) cs got
    /\ (Forall (fun c => 0 <= dec_Q (fst c) /\ 0 <= dec_Q (snd c))%Q cs -> Forall2 (near (1 # 7200)) cs got).
Proof.
  intros HI HL HE. destruct (write_read_dms zone cs HL HE) as (t & W & L & A & S & got & R & N).
  destruct (set_get FO h icG zone cs t HI eq_refl W A S) as (h' & E & _ & G2 & G3).
  exists h', t, got. split; [exact E|]. split; [exact G2|]. split; [exact L|]. split; [rewrite G3, R; reflexivity|].
  split; [exact N|]. intro P. clear - N P. induction N as [|c g cs gs [N1 N2] N IH]; [constructor|].
  inversion P as [|x l [P1 P2] P']; subst. constructor; [|auto]. unfold near.
  rewrite (Qabs_pos _ P1) in N1. rewrite (Qabs_pos _ P2) in N2. split; assumption.
Qed.

(** The hemisphere is in the text: read as the standard says, with S and W negative, the
    text written is within half a second of the corners. *)
Definition std_angle (w : nat) (t : list N) : res Q :=
  do a <- to_float (slice 0 w t); do b <- to_float (slice w (w + 2) t); do c <- to_float (slice (w + 2) (w + 4) t);
  let v := (a + b / 60 + c / 3600)%Q in
  match skipn (w + 4) t with
  | [h] => if (h =? 83)%N || (h =? 87)%N then Ok (- v)%Q else Ok v
  | _ => Err EValue
  end.

Lemma std_angle_ok (lat : bool) x : (Qabs (dec_Q x) <= inject_Z (if lat then 90 else 180))%Q ->
  exists q, std_angle (if lat then 2 else 3) (encode_dms lat x) = Ok q /\ (Qabs (q - dec_Q x) <= 1 # 7200)%Q.
Proof.
  intro H. destruct (encode_dms_spec lat x H) as (d & m & s & E & L1 & L2 & L3 & Q1).
  destruct (to_float_3 (if lat then 2 else 3) d m s) as (q1 & q2 & q3 & F1 & F2 & F3 & EQ).
  rewrite E. unfold std_angle. set (w := if lat then 2%nat else 3%nat) in *.
  set (A := fmt_d (dfmt_zero w) d) in *. set (B := fmt_d (dfmt_zero 2) m) in *. set (C := fmt_d (dfmt_zero 2) s) in *.
  rewrite (slice_0 w A) by lia. rewrite (slice_mid w (w + 2) A B) by lia.
  rewrite (app_assoc A B). rewrite (slice_mid (w + 2) (w + 4) (A ++ B) C) by (rewrite ?app_length; lia).
  rewrite F1. cbn [bind]. rewrite F2. cbn [bind]. rewrite F3. cbn [bind].
  rewrite (app_assoc (A ++ B) C). rewrite skipn_app, skipn_all2 by (rewrite !app_length; lia).
  replace (w + 4 - List.length ((A ++ B) ++ C))%nat with 0%nat by (rewrite !app_length; lia). cbn [app skipn].
  rewrite <- EQ in Q1. destruct (Qle_bool 0 (dec_Q x)) eqn:S.
  - apply Qle_bool_iff in S. rewrite (Qabs_pos _ S) in Q1. destruct lat; eexists; (split; [reflexivity|exact Q1]).
  - assert (S' : (dec_Q x <= 0)%Q).
    { apply Qlt_le_weak, Qnot_le_lt. intro X. apply Qle_bool_iff in X. congruence. }
    rewrite (Qabs_neg _ S') in Q1.
    assert (Q2 : (Qabs (- (q1 + q2 / 60 + q3 / 3600) - dec_Q x) <= 1 # 7200)%Q).
    { rewrite <- Qabs_opp. setoid_replace (- (- (q1 + q2 / 60 + q3 / 3600) - dec_Q x))%Q
        with (q1 + q2 / 60 + q3 / 3600 - - dec_Q x)%Q by ring. exact Q1. }
    destruct lat; eexists; (split; [reflexivity|exact Q2]).
Qed.

Theorem C34_geographic_text zone cs : List.length cs = 4%nat -> Forall on_earth cs ->
  exists t, write_igeolo (str "G") zone cs = Ok t /\ List.length t = 60%nat
    /\ forall i c, nth_error cs i = Some c ->
       exists y x, std_angle 2 (slice (15 * i) (15 * i + 7) t) = Ok y /\ std_angle 3 (slice (15 * i + 7) (15 * i + 15) t) = Ok x
         /\ near (1 # 7200) c (x, y).
Proof.
  intros HL HE. four cs HL. pose proof (degrees_ok _ HE) as HC.
  inversion HE as [|x1 l1 E1 HE1]; subst; clear HE. inversion HE1 as [|x2 l2 E2 HE2]; subst; clear HE1.
  inversion HE2 as [|x3 l3 E3 HE3]; subst; clear HE2. inversion HE3 as [|x4 l4 E4 _]; subst; clear HE3.
  destruct (pair_dms c1 E1) as (L1 & M1 & _). destruct (pair_dms c2 E2) as (L2 & M2 & _).
  destruct (pair_dms c3 E3) as (L3 & M3 & _). destruct (pair_dms c4 E4) as (L4 & M4 & _).
  eexists. split.
  - unfold write_igeolo. change (known_icords (str "G")) with true. change (list_eqb (str "G") icG) with true.
    cbn [negb]. rewrite HC. cbn [bind]. rewrite eight_parts by assumption. reflexivity.
  - split; [rewrite !app_length; lia|].
    assert (K : forall c, on_earth c -> exists y x, std_angle 2 (encode_dms true (snd c)) = Ok y
       /\ std_angle 3 (encode_dms false (fst c)) = Ok x /\ near (1 # 7200) c (x, y)).
    { intros c [Hx Hy]. destruct (std_angle_ok true (snd c) Hy) as (y & Ey & Cy).
      destruct (std_angle_ok false (fst c) Hx) as (x & Ex & Cx). exists y, x. repeat split; assumption. }
    set (a1 := encode_dms true (snd c1)) in *. set (b1 := encode_dms false (fst c1)) in *.
    set (a2 := encode_dms true (snd c2)) in *. set (b2 := encode_dms false (fst c2)) in *.
    set (a3 := encode_dms true (snd c3)) in *. set (b3 := encode_dms false (fst c3)) in *.
    set (a4 := encode_dms true (snd c4)) in *. set (b4 := encode_dms false (fst c4)) in *.
    intros i c Hi. destruct i as [|[|[|[|i]]]]; cbn [nth_error] in Hi; try discriminate.
    + injection Hi as <-. change (15 * 0)%nat with 0%nat. cbn [Nat.add].
      rewrite <- !app_assoc, (slice_0 7 a1) by lia. rewrite (slice_mid 7 15 a1 b1) by lia. now apply K.
    + injection Hi as <-. change (15 * 1)%nat with 15%nat. cbn [Nat.add].
      rewrite <- !app_assoc, (app_assoc a1 b1). rewrite (slice_mid 15 22 (a1 ++ b1) a2) by (rewrite ?app_length; lia).
      rewrite (app_assoc (a1 ++ b1) a2), (slice_mid 22 30 _ b2) by (rewrite ?app_length; lia). now apply K.
    + injection Hi as <-. change (15 * 2)%nat with 30%nat. cbn [Nat.add].
      rewrite <- (app_assoc _ (a3 ++ b3)), <- (app_assoc a3 b3).
      rewrite (slice_mid 30 37 _ a3) by (rewrite ?app_length; lia).
      rewrite (app_assoc _ a3), (slice_mid 37 45 _ b3) by (rewrite ?app_length; lia). now apply K.
    + injection Hi as <-. change (15 * 3)%nat with 45%nat. cbn [Nat.add].
      rewrite (slice_mid 45 52 _ a4) by (rewrite ?app_length; lia).
      rewrite (app_assoc _ a4), (slice_last 52 60 _ b4) by (rewrite ?app_length; lia). now apply K.
    + destruct i; discriminate.
Qed.

(** UTM: 60 characters and the zone is kept, for northings of at most six characters; but
    what is read back has easting and northing exchanged, each up to a metre below what
    was set. *)
Theorem C34_utm_partial FO (h : hdr FO) ic z cs : st_impl FO (h_st h) = false -> ic = str "N" \/ ic = str "S" ->
  (0 <= z <= 99)%Z -> List.length cs = 4%nat -> Forall utm_fits cs ->
  exists h' t got, set_corners FO h ic cs (Some z) = (h', Ok tt)
    /\ hget FO desc_NitfImageSubheader h' "igeolo" = Ok (VStr t) /\ List.length t = 60%nat
    /\ get_corners FO h' = Ok (ic, got, Some z) /\ Forall2 exchanged cs got.
Proof.
  intros HI Hi Hz HL HE. destruct (write_read_utm ic z cs Hi Hz HL HE) as (t & W & L & A & S & got & R & N).
  destruct (set_get FO h ic (Some z) cs t HI ltac:(destruct Hi as [-> | ->]; reflexivity) W A S) as (h' & E & _ & G2 & G3).
  exists h', t, got. split; [exact E|]. split; [exact G2|]. split; [exact L|]. split; [|exact N].
  rewrite G3, R. reflexivity.
Qed.

(** Coordinates out of range, anything but four corners and other encodings are refused. *)
Theorem C34_rejects zone cs ic t : write_igeolo ic zone cs = Ok t ->
  List.length cs = 4%nat /\ In ic [str "G"; str "D"; str "N"; str "S"]
  /\ (In ic [str "G"; str "D"] -> Forall on_earth cs).
Proof.
  unfold write_igeolo. intro H.
  destruct cs as [|c1 [|c2 [|c3 [|c4 [|]]]]]; try discriminate. split; [reflexivity|].
  destruct (known_icords ic) eqn:K; [|discriminate]. cbn [negb] in H.
  unfold known_icords in K. rewrite !orb_true_iff in K.
  assert (D : check_degrees [c1; c2; c3; c4] = Ok tt -> Forall on_earth [c1; c2; c3; c4]).
  { unfold check_degrees. destruct (existsb _ _ || existsb _ _) eqn:B; [discriminate|]. intros _.
    apply orb_false_iff in B as [B1 B2].
    assert (P : forall x n, beyond x n = false -> (Qabs (dec_Q x) <= inject_Z n)%Q).
    { intros x n. unfold beyond. intro X. apply negb_false_iff in X. now apply Qle_bool_iff. }
    apply Forall_forall. intros c Hc. split.
    - apply (P _ 180%Z). destruct (beyond (fst c) 180) eqn:X; auto.
      rewrite <- B1. symmetry. apply existsb_exists. now exists c.
    - apply (P _ 90%Z). destruct (beyond (snd c) 90) eqn:X; auto.
      rewrite <- B2. symmetry. apply existsb_exists. now exists c. }
  split.
  - destruct K as [[[K|K]|K]|K]; apply list_eqb_spec in K; subst ic; cbn; auto 6.
  - intros [<-|[<-|[]]].
    + change (list_eqb (str "G") icG) with true in H. cbv iota in H. apply D.
      destruct (check_degrees [c1; c2; c3; c4]) as [[]|]; [reflexivity|discriminate].
    + change (list_eqb (str "D") icG) with false in H. change (list_eqb (str "D") icD) with true in H. cbv iota in H. apply D.
      destruct (check_degrees [c1; c2; c3; c4]) as [[]|]; [reflexivity|discriminate].
Qed.

(** *** What does not hold *)
Definition deg (z : Z) : dec := D (z <? 0)%Z (Z.abs_N z) 0.
Definition sydney : list (dec * dec) := [(deg 151, deg (-34)); (deg 152, deg (-34)); (deg 152, deg (-35)); (deg 151, deg (-35))].
Definition rome : list (dec * dec) := [(deg 290000, deg 4642000); (deg 291000, deg 4642000); (deg 291000, deg 4641000); (deg 290000, deg 4641000)].
Definition tropics : list (dec * dec) := [(deg 290000, deg 642000); (deg 291000, deg 642000); (deg 291000, deg 641000); (deg 290000, deg 641000)].

(** Southern latitudes come back as northern. *)
Theorem C34_geographic_refuted : exists cs t got, List.length cs = 4%nat /\ Forall on_earth cs
  /\ write_igeolo (str "G") None cs = Ok t /\ read_igeolo (str "G") t = Ok (got, None)
  /\ exists c g, nth_error cs 0 = Some c /\ nth_error got 0 = Some g /\ ~ near 60 c g.
Proof.
  exists sydney. eexists _, _. split; [reflexivity|].
  split; [repeat (apply Forall_cons; [split; vm_compute; congruence|]); apply Forall_nil|].
  split; [vm_compute; reflexivity|]. split; [vm_compute; reflexivity|].
  eexists _, _. split; [reflexivity|]. split; [reflexivity|]. intros [_ H]. apply Qle_bool_iff in H. vm_compute in H. discriminate.
Qed.

(** UTM corners come back with the coordinates exchanged. *)
Theorem C34_utm_refuted : exists cs t got, List.length cs = 4%nat /\ Forall utm_fits cs
  /\ write_igeolo (str "N") (Some 33%Z) cs = Ok t /\ read_igeolo (str "N") t = Ok (got, Some 33%Z)
  /\ exists c g, nth_error cs 0 = Some c /\ nth_error got 0 = Some g /\ ~ near 1000 c g.
Proof.
  exists tropics. eexists _, _. split; [reflexivity|].
  split; [repeat (apply Forall_cons; [repeat split; vm_compute; congruence|]); apply Forall_nil|].
  split; [vm_compute; reflexivity|]. split; [vm_compute; reflexivity|].
  eexists _, _. split; [reflexivity|]. split; [reflexivity|]. intros [_ H]. apply Qle_bool_iff in H. vm_compute in H. discriminate.
Qed.

(** A northing of seven digits, which is the usual case, gives more than 60 characters. *)
Theorem C34_utm_length_refuted : exists cs t, List.length cs = 4%nat
  /\ write_igeolo (str "N") (Some 33%Z) cs = Ok t /\ List.length t = 64%nat.
Proof. exists rome. eexists. split; [reflexivity|]. split; vm_compute; reflexivity. Qed.

(** *** Cases *)
(** 59.99 degrees 59 minutes 59.9 seconds carries over. *)
Definition carry : list (dec * dec) :=
  [(D false 1799999999 (-7), D false 899999999 (-7)); (deg 180, deg 90); (D false 125 (-1), D false 333333 (-4)); (deg 0, deg 0)].
Example ex_carry : write_igeolo (str "G") None carry
  = Ok (str "900000N1800000E900000N1800000E332000N0123000E000000N0000000E").
Proof. vm_compute. reflexivity. Qed.
Example ex_carry_ok : Forall on_earth carry.
Proof. repeat (apply Forall_cons; [split; vm_compute; congruence|]); apply Forall_nil. Qed.
Example ex_degrees : write_igeolo (str "D") None sydney
  = Ok (str "-34.000+151.000-34.000+152.000-35.000+152.000-35.000+151.000").
Proof. vm_compute. reflexivity. Qed.
Example ex_sydney_ok : Forall on_earth sydney.
Proof. repeat (apply Forall_cons; [split; vm_compute; congruence|]); apply Forall_nil. Qed.
Example ex_utm : write_igeolo (str "N") (Some 33%Z) tropics
  = Ok (str "336420000290000336420000291000336410000291000336410000290000").
Proof. vm_compute. reflexivity. Qed.
Example ex_header FO : exists h' t, set_corners FO {| h_st := init_state FO; h_attr := [] |} (str "D") sydney None = (h', Ok tt)
  /\ hget FO desc_NitfImageSubheader h' "igeolo" = Ok (VStr t) /\ List.length t = 60%nat.
Proof.
  destruct (C34_degrees FO {| h_st := init_state FO; h_attr := [] |} None sydney eq_refl eq_refl ex_sydney_ok) as (h' & t & got & A & B & C & _).
  now exists h', t.
Qed.
Example ex_refused : write_igeolo (str "U") None sydney = Err ERuntime /\ write_igeolo (str "D") None [(deg 181, deg 0); (deg 0, deg 0); (deg 0, deg 0); (deg 0, deg 0)] = Err ERuntime.
Proof. split; vm_compute; reflexivity. Qed.

Print Assumptions C34_degrees.
Print Assumptions C34_geographic_partial.
Print Assumptions C34_geographic_text.
Print Assumptions C34_utm_partial.
Print Assumptions C34_rejects.
Print Assumptions C34_geographic_refuted.
Print Assumptions C34_utm_refuted.
Print Assumptions C34_utm_length_refuted.
