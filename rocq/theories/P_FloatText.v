(** Which texts are decimal numbers (C16), and what corner coordinates are read as (C34). *)
From Verif Require Import Base BaseLemmas Engine Wf Decimal DecimalLemmas DecimalFit TextSpec P_Codec Igeolo P_Igeolo P_Expr.
From Coq Require Import ZifyBool ZifyNat ZifyN QArith.
Open Scope list_scope.
Ltac Zify.zify_post_hook ::= idtac.

(** [l] is the decimal number [x]: blanks, a sign or none, digits with a point or none (one
    digit at least), an exponent or none, blanks. *)
Definition exponent (l : list N) (e : Z) : Prop :=
  l = [] /\ e = 0%Z
  \/ exists m sg ds, l = m :: sg ++ ds /\ (m = 69%N \/ m = 101%N) /\ ds <> [] /\ all_digits ds
     /\ ((sg = [] \/ sg = [43%N]) /\ e = Z.of_N (text_val ds) \/ sg = [45%N] /\ e = (- Z.of_N (text_val ds))%Z).
Definition float_text (l : list N) (x : dec) : Prop :=
  exists pre sg a pt b ex e post, l = pre ++ (sg ++ a ++ pt ++ ex) ++ post
    /\ Forall byte_blank pre /\ Forall byte_blank post
    /\ (pt = [] /\ b = [] \/ pt = 46%N :: b) /\ all_digits a /\ all_digits b /\ a ++ b <> []
    /\ exponent ex e
    /\ ((sg = [] \/ sg = [43%N]) /\ d_neg x = false \/ sg = [45%N] /\ d_neg x = true)
    /\ d_man x = text_val (a ++ b) /\ d_ex x = (e - Z.of_nat (List.length b))%Z.

Lemma span_split p l a b : span p l = (a, b) <-> l = a ++ b /\ forallb p a = true /\ match b with [] => True | c :: _ => p c = false end.
Proof.
  split.
  - revert a b. induction l as [|c l IH]; cbn [span]; intros a b H; [injection H as <- <-; auto|].
    destruct (p c) eqn:P.
    + destruct (span p l) as [a' b'] eqn:S. injection H as <- <-. destruct (IH _ _ eq_refl) as (-> & A & B). cbn. rewrite P, A. auto.
    + injection H as <- <-. cbn. rewrite P. auto.
  - intros (-> & A & B). now apply span_app.
Qed.
Lemma digits_iff l : forallb is_digit l = true <-> all_digits l.
Proof. symmetry. apply all_digits_forallb. Qed.
Lemma digit_head ds c l : all_digits ds -> ds = c :: l -> (c =? 43)%N = false /\ (c =? 45)%N = false /\ (c =? 46)%N = false /\ is_digit c = true.
Proof. intros A ->. inversion_clear A. unfold is_digit. repeat split; lia. Qed.

Lemma parse_exp_iff l e : parse_exp l = Some e <->
  exists sg ds, l = sg ++ ds /\ ds <> [] /\ all_digits ds
    /\ ((sg = [] \/ sg = [43%N]) /\ e = Z.of_N (text_val ds) \/ sg = [45%N] /\ e = (- Z.of_N (text_val ds))%Z).
Proof.
  assert (NUM : forall l z, match span is_digit l with (c :: ds, []) => Some (Z.of_N (digval (c :: ds) 0)) | _ => None end = Some z
            <-> l <> [] /\ all_digits l /\ z = Z.of_N (text_val l)).
  { intros l0 z. destruct (span is_digit l0) as [a b] eqn:S. apply span_split in S as (-> & A & B). split.
    - destruct a as [|c a]; [discriminate|]. destruct b as [|c' b]; [|discriminate]. intro H. injection H as <-. rewrite app_nil_r.
      split; [discriminate|]. split; [now apply digits_iff|]. now rewrite text_val_digval.
    - intros (NE & D & ->). apply Forall_app in D as (_ & D). destruct b as [|c b]; [|inversion_clear D; unfold is_digit in B; lia].
      rewrite app_nil_r in *. destruct a as [|c a]; [contradiction|]. now rewrite text_val_digval. }
  unfold parse_exp. destruct l as [|c l].
  - split; [discriminate|]. intros (sg & ds & E & NE & _). symmetry in E. apply app_eq_nil in E as (_ & ->). contradiction.
  - destruct (N.eqb_spec c 43) as [->|N1]; [|destruct (N.eqb_spec c 45) as [->|N2]].
    + rewrite NUM. split.
      * intros (NE & D & ->). exists [43%N], l. repeat split; auto.
      * intros (sg & ds & E & NE & D & K). destruct K as [([-> | ->] & ->)|(-> & ->)]; cbn in E; [|injection E as <-; auto|discriminate E].
        symmetry in E. destruct (digit_head ds 43%N l D E) as (H & _). discriminate H.
    + destruct (match span is_digit l with (c :: ds, []) => _ | _ => None end) as [z|] eqn:Z0.
      * apply NUM in Z0 as (NE & D & ->). cbn [option_map]. split.
        -- intro H. injection H as <-. exists [45%N], l. repeat split; auto.
        -- intros (sg & ds & E & NE' & D' & K). destruct K as [([-> | ->] & ->)|(-> & ->)]; cbn in E; [|discriminate E|injection E as <-; auto].
           symmetry in E. destruct (digit_head ds 45%N l D' E) as (_ & H & _). discriminate H.
      * cbn [option_map]. split; [discriminate|]. intros (sg & ds & E & NE' & D' & K). exfalso. destruct K as [([-> | ->] & ->)|(-> & ->)]; cbn in E.
        -- symmetry in E. destruct (digit_head ds 45%N l D' E) as (_ & H & _). discriminate H.
        -- discriminate E.
        -- injection E as <-. rewrite (proj2 (NUM l _) (conj NE' (conj D' eq_refl))) in Z0. discriminate Z0.
    + rewrite NUM. split.
      * intros (NE & D & ->). exists [], (c :: l). repeat split; auto.
      * intros (sg & ds & E & NE & D & K). destruct K as [([-> | ->] & ->)|(-> & ->)]; cbn in E; [subst ds; auto|injection E as -> _; contradiction|injection E as -> _; contradiction].
Qed.
Lemma exponent_iff l e : (match l with [] => Some 0%Z | c :: l' => if (c =? 69)%N || (c =? 101)%N then parse_exp l' else None end) = Some e <-> exponent l e.
Proof.
  unfold exponent. destruct l as [|c l].
  - split; [intro H; injection H as <-; auto|]. intros [(_ & ->)|(m & sg & ds & E & _)]; [reflexivity|discriminate E].
  - destruct ((c =? 69)%N || (c =? 101)%N) eqn:M.
    + rewrite parse_exp_iff. split.
      * intros (sg & ds & -> & R). right. exists c, sg, ds. split; [reflexivity|]. split; [lia|exact R].
      * intros [(E & _)|(m & sg & ds & E & _ & R)]; [discriminate E|]. injection E as -> ->. eauto.
    + split; [discriminate|]. intros [(E & _)|(m & sg & ds & E & H & _)]; [discriminate E|]. injection E as -> _. lia.
Qed.
Lemma exponent_head ex e : exponent ex e -> match ex with [] => True | c :: _ => is_digit c = false /\ (c =? 46)%N = false end.
Proof. intros [(-> & _)|(m & sg & ds & -> & [->| ->] & _)]; cbn; auto. Qed.
Lemma parse_body_iff neg l x : parse_body neg l = Some x <->
  exists a pt b ex e, l = a ++ pt ++ ex /\ (pt = [] /\ b = [] \/ pt = 46%N :: b) /\ all_digits a /\ all_digits b /\ a ++ b <> []
    /\ exponent ex e /\ d_neg x = neg /\ d_man x = text_val (a ++ b) /\ d_ex x = (e - Z.of_nat (List.length b))%Z.
Proof.
  assert (FIN : forall a b ex, match a ++ b with [] => None | ab =>
       let r := fun e => Some {| d_neg := neg; d_man := digval ab 0; d_ex := e - Z.of_nat (List.length b) |} in
       match ex with [] => r 0%Z | c :: l3 => if (c =? 69)%N || (c =? 101)%N then match parse_exp l3 with Some e => r e | None => None end else None end end = Some x
     <-> a ++ b <> [] /\ exists e, exponent ex e /\ d_neg x = neg /\ d_man x = text_val (a ++ b) /\ d_ex x = (e - Z.of_nat (List.length b))%Z).
  { intros a b ex. destruct (a ++ b) as [|c0 ab]; [split; [discriminate|intros (H & _); contradiction]|].
    assert (R : forall e, Some {| d_neg := neg; d_man := digval (c0 :: ab) 0; d_ex := e - Z.of_nat (List.length b) |} = Some x
              <-> d_neg x = neg /\ d_man x = text_val (c0 :: ab) /\ d_ex x = (e - Z.of_nat (List.length b))%Z).
    { intro e. rewrite text_val_digval. destruct x as [xn xm xe]. cbn [d_neg d_man d_ex]. split; [intro H; injection H as <- <- <-; auto|intros (-> & -> & ->); reflexivity]. }
    cbv zeta. split.
    - intro H. split; [discriminate|]. destruct ex as [|c l3]; [exists 0%Z; split; [now left|now apply R]|].
      destruct ((c =? 69)%N || (c =? 101)%N) eqn:M; [|discriminate H]. destruct (parse_exp l3) as [e|] eqn:P; [|discriminate H]. exists e.
      split; [|now apply R]. apply exponent_iff. now rewrite M.
    - intros (_ & e & X & H). apply R in H. apply exponent_iff in X. destruct ex as [|c l3]; [injection X as <-; exact H|].
      destruct ((c =? 69)%N || (c =? 101)%N); [|discriminate X]. now rewrite X. }
  unfold parse_body. destruct (span is_digit l) as [a l1] eqn:S1. apply span_split in S1 as (-> & A & H1). apply digits_iff in A.
  assert (UNI : forall a' l', a ++ l1 = a' ++ l' -> all_digits a' -> match l' with [] => True | c :: _ => is_digit c = false end -> a' = a /\ l' = l1).
  { intros a' l' E A' H'. assert (X : span is_digit (a ++ l1) = (a', l')) by (apply span_split; split; [exact E|split; [now apply digits_iff|exact H']]).
    rewrite span_app in X; [injection X as <- <-; auto|now apply digits_iff|exact H1]. }
  destruct l1 as [|c l1'].
  - apply (iff_trans (FIN a [] [])). split.
    + intros (NE & e & X & R). exists a, [], [], [], e. repeat split; auto; try constructor; tauto.
    + intros (a' & pt & b & ex & e & E & P & A' & B & NE & X & R). destruct (UNI a' (pt ++ ex) E A') as (-> & E').
      { destruct P as [(-> & _)| ->]; [|reflexivity]. apply exponent_head in X. destruct ex; cbn; tauto. }
      apply app_eq_nil in E' as (-> & ->). destruct P as [(_ & ->)|P]; [|discriminate P]. split; [exact NE|]. exists e. auto.
  - destruct (N.eqb_spec c 46) as [->|NP].
    + destruct (span is_digit l1') as [b l2] eqn:S2. apply span_split in S2 as (-> & B & H2). apply digits_iff in B. apply (iff_trans (FIN a b l2)). split.
      * intros (NE & e & X & R). exists a, (46%N :: b), b, l2, e. repeat split; auto; tauto.
      * intros (a' & pt & b' & ex & e & E & P & A' & B' & NE & X & R). destruct (UNI a' (pt ++ ex) E A') as (-> & E').
        { destruct P as [(-> & _)| ->]; [|reflexivity]. apply exponent_head in X. destruct ex; cbn; tauto. }
        destruct P as [(-> & ->)| ->].
        -- exfalso. cbn in E'. apply exponent_head in X. rewrite E' in X. destruct X as (_ & X). discriminate X.
        -- cbn in E'. injection E' as E'. assert (SP : span is_digit (b' ++ ex) = (b, l2)) by (rewrite E'; apply span_app; [now apply digits_iff|exact H2]).
           rewrite span_app in SP; [injection SP as <- <-|now apply digits_iff|apply exponent_head in X; destruct ex; tauto]. split; [exact NE|]. exists e. auto.
    + apply (iff_trans (FIN a [] (c :: l1'))). split.
      * intros (NE & e & X & R). exists a, [], [], (c :: l1'), e. repeat split; auto; try constructor; tauto.
      * intros (a' & pt & b' & ex & e & E & P & A' & B' & NE & X & R). destruct (UNI a' (pt ++ ex) E A') as (-> & E').
        { destruct P as [(-> & _)| ->]; [|reflexivity]. apply exponent_head in X. destruct ex; cbn; tauto. }
        destruct P as [(-> & ->)| ->]; [|cbn in E'; injection E' as <- _; contradiction]. cbn in E'. subst ex. split; [exact NE|]. exists e. auto.
Qed.

(** Exactly these texts are decimal numbers. *)
Theorem C16_accepts_float l x : parse_float l = Some x <-> float_text l x.
Proof.
  assert (FB : forall m, forallb ws_byte m = true <-> Forall byte_blank m).
  { intro m. rewrite forallb_forall, Forall_forall. split; intros H y I; apply byte_blank_iff, H, I. }
  assert (BODY : forall core, match core with [] => None | c :: l => if (c =? 43)%N then parse_body false l else if (c =? 45)%N then parse_body true l else parse_body false (c :: l) end = Some x
     <-> exists sg body, core = sg ++ body /\ ((sg = [] \/ sg = [43%N]) /\ parse_body false body = Some x \/ sg = [45%N] /\ parse_body true body = Some x)).
  { intro core. split.
    - destruct core as [|c core]; [discriminate|]. destruct (N.eqb_spec c 43) as [->|N1]; [intro H; exists [43%N], core; auto|].
      destruct (N.eqb_spec c 45) as [->|N2]; [intro H; exists [45%N], core; auto|]. intro H. exists [], (c :: core). auto.
    - intros (sg & body & -> & K). destruct K as [([-> | ->] & H)|(-> & H)]; cbn [app].
      + destruct body as [|c body]; [cbn in H; discriminate H|]. 
        assert (NS : (c =? 43)%N = false /\ (c =? 45)%N = false).
        { apply parse_body_iff in H as (a & pt & b & ex & e & E & P & A & _ & NE & X & _). destruct a as [|c' a].
          - destruct P as [(-> & ->)| ->]; [contradiction|]. cbn in E. injection E as -> _. auto.
          - cbn in E. injection E as -> _. destruct (digit_head _ c' a A eq_refl) as (? & ? & _). auto. }
        destruct NS as (-> & ->). exact H.
      + exact H.
      + exact H. }
  unfold parse_float. rewrite BODY. split.
  - intros (sg & body & E & K). destruct (strip_split ws_byte l) as (pre & post & EL & P & Q). rewrite E in EL.
    assert (PB : exists neg, parse_body neg body = Some x /\ ((sg = [] \/ sg = [43%N]) /\ neg = false \/ sg = [45%N] /\ neg = true)) by (destruct K as [(K & H)|(K & H)]; eauto).
    destruct PB as (neg & PB & KS). apply parse_body_iff in PB as (a & pt & b & ex & e & -> & PT & A & B & NE & X & N0 & M & D).
    exists pre, sg, a, pt, b, ex, e, post. split; [exact EL|]. split; [now apply FB|]. split; [now apply FB|]. split; [exact PT|].
    split; [exact A|]. split; [exact B|]. split; [exact NE|]. split; [exact X|]. split; [|split; [exact M|exact D]].
    rewrite N0. exact KS.
  - intros (pre & sg & a & pt & b & ex & e & post & -> & P & Q & PT & A & B & NE & X & KS & M & D). apply FB in P, Q.
    exists sg, (a ++ pt ++ ex). split.
    + assert (H : exists c y, sg ++ a ++ pt ++ ex = c :: y /\ ws_byte c = false).
      { assert (SG : sg = [] \/ sg = [43%N] \/ sg = [45%N]) by tauto. destruct SG as [->|[->| ->]]; cbn [app]; [|eauto|eauto].
        destruct a as [|c a]; [|inversion_clear A; exists c, (a ++ pt ++ ex); split; [reflexivity|unfold ws_byte; lia]].
        destruct PT as [(-> & ->)| ->]; [contradiction|]. exists 46%N, (b ++ ex). auto. }
      assert (T : exists y c, sg ++ a ++ pt ++ ex = y ++ [c] /\ ws_byte c = false).
      { assert (DG : forall ds, ds <> [] -> all_digits ds -> exists y c, ds = y ++ [c] /\ ws_byte c = false).
        { intros ds N D'. destruct (exists_last N) as (y & c & ->). exists y, c. split; [reflexivity|]. apply Forall_app in D' as (_ & D'). inversion_clear D'. unfold ws_byte. lia. }
        destruct X as [(-> & _)|(m & sg' & ds & -> & _ & ND & DD & _)].
        - rewrite app_nil_r. destruct PT as [(-> & ->)| ->].
          + rewrite app_nil_r in *. destruct (DG a NE A) as (y & c & -> & W). exists (sg ++ y), c. rewrite app_assoc. auto.
          + destruct b as [|b0 b].
            * exists (sg ++ a), 46%N. rewrite app_assoc. auto.
            * destruct (DG (b0 :: b) ltac:(discriminate) B) as (y & c & -> & W). exists (sg ++ a ++ 46%N :: y), c. rewrite <- !app_assoc. auto.
        - destruct (DG ds ND DD) as (y & c & -> & W). exists (sg ++ a ++ pt ++ m :: sg' ++ y), c. split; [|exact W]. rewrite <- !app_assoc. cbn. now rewrite <- !app_assoc. }
      destruct H as (c & y & E1 & W1), T as (y' & c' & E2 & W2). eapply strip_core; eauto.
    + assert (PB : forall neg, d_neg x = neg -> parse_body neg (a ++ pt ++ ex) = Some x) by (intros neg HN; apply parse_body_iff; exists a, pt, b, ex, e; repeat split; auto).
      destruct KS as [(K & H)|(K & H)]; auto.
Qed.

(** ** C34: corner coordinates of any file *)
(** Characters [a] to [b] of a text. *)
Definition part (a b : nat) (l : list N) : list N := firstn (b - a) (skipn a l).
Definition number_at (a b : nat) (p : list N) (q : Q) : Prop := exists x, float_text (part a b p) x /\ q = dec_Q x.
(** The 15 characters [p] of one corner are read as the zone [z] and the coordinates [c] as the
    code does it: decimal degrees latitude first; degrees, minutes and seconds whatever the letter
    after them; a zone and two lengths. *)
Definition corner (ic p : list N) (z : option Z) (c : Q * Q) : Prop :=
  (ic = str "D" /\ z = None /\ number_at 0 7 p (snd c) /\ number_at 7 15 p (fst c))
  \/ (ic = str "G" /\ z = None /\ List.length p = 15%nat /\ exists d1 m1 s1 d2 m2 s2,
        number_at 0 2 p d1 /\ number_at 2 4 p m1 /\ number_at 4 6 p s1 /\ snd c = (d1 + m1 / 60 + s1 / 3600)%Q
        /\ number_at 7 10 p d2 /\ number_at 10 12 p m2 /\ number_at 12 14 p s2 /\ fst c = (d2 + m2 / 60 + s2 / 3600)%Q)
  \/ ((ic = str "N" \/ ic = str "S") /\ (exists n, z = Some n /\ int_text byte_blank (part 0 2 p) n)
       /\ number_at 2 8 p (fst c) /\ number_at 8 15 p (snd c)).

Lemma to_float_iff a b p q : to_float (slice a b p) = Ok q <-> number_at a b p q.
Proof.
  unfold to_float, number_at, part, slice. destruct (parse_float (firstn (b - a) (skipn a p))) as [x|] eqn:P.
  - split; [intro H; injection H as <-; exists x; split; [now apply C16_accepts_float|reflexivity]|].
    intros (y & F & ->). apply C16_accepts_float in F. rewrite P in F. now injection F as ->.
  - split; [discriminate|]. intros (y & F & _). apply C16_accepts_float in F. congruence.
Qed.
Lemma to_int_iff a b p z : to_int (slice a b p) = Ok z <-> int_text byte_blank (part a b p) z.
Proof.
  unfold to_int, part, slice. destruct (C16_accepts (firstn (b - a) (skipn a p)) z) as (C & _). rewrite <- C.
  destruct (parse_int ws_byte (firstn (b - a) (skipn a p))); split; congruence.
Qed.
Lemma nth_there {A} (l : list A) n : (do _ <- match nth_error l n with Some _ => Ok tt | None => Err EIndex end; Ok tt) = Ok tt <-> (n < List.length l)%nat.
Proof. rewrite <- nth_error_Some. destruct (nth_error l n); cbn; split; congruence. Qed.
Lemma read_pair_iff ic p z c : known_icords ic = true -> (List.length p <= 15)%nat -> read_pair ic p = Ok (z, c) <-> corner ic p z c.
Proof.
  intros K L.
  assert (KI : ic = icG \/ ic = icD \/ ic = icN \/ ic = icS).
  { unfold known_icords in K. rewrite !orb_true_iff in K. destruct K as [[[K|K]|K]|K]; apply list_eqb_spec in K; tauto. }
  assert (EQ : forall a b, list_eqb a b = true <-> a = b) by (intros; apply list_eqb_spec).
  unfold read_pair, corner. destruct c as [x y]. cbn [fst snd].
  destruct KI as [->|[->|KI]].
  - change (list_eqb icG icN || list_eqb icG icS) with false. change (list_eqb icG icG) with true. cbv iota. split.
    + intro H. apply bind_ok_elim in H as (d1 & D1 & H). apply bind_ok_elim in H as (m1 & M1 & H). apply bind_ok_elim in H as (s1 & S1 & H). cbv zeta in H.
      apply bind_ok_elim in H as (u1 & _ & H). apply bind_ok_elim in H as (d2 & D2 & H). apply bind_ok_elim in H as (m2 & M2 & H). apply bind_ok_elim in H as (s2 & S2 & H).
      apply bind_ok_elim in H as (u2 & U2 & H). injection H as <- <- <-. right. left. split; [reflexivity|]. split; [reflexivity|]. split.
      * assert (14 < List.length p)%nat; [|lia]. apply nth_there. now destruct (nth_error p 14).
      * exists d1, m1, s1, d2, m2, s2. rewrite <- !to_float_iff. auto 10.
    + intros [(E & _)|[(_ & -> & LP & d1 & m1 & s1 & d2 & m2 & s2 & D1 & M1 & S1 & -> & D2 & M2 & S2 & ->)|([E|E] & _)]]; try discriminate E.
      apply to_float_iff in D1, M1, S1, D2, M2, S2. rewrite D1, M1, S1, D2, M2, S2. cbn [bind].
      destruct (nth_error p 6) eqn:N6; [|apply nth_error_None in N6; lia]. destruct (nth_error p 14) eqn:N14; [|apply nth_error_None in N14; lia]. reflexivity.
  - change (list_eqb icD icN || list_eqb icD icS) with false. change (list_eqb icD icG) with false. cbv iota. split.
    + intro H. apply bind_ok_elim in H as (a & A & H). apply bind_ok_elim in H as (b & B & H). injection H as <- <- <-. left. rewrite <- !to_float_iff. auto.
    + intros [(_ & -> & A & B)|[(E & _)|([E|E] & _)]]; try discriminate E. apply to_float_iff in A, B. now rewrite A, B.
  - assert (C1 : list_eqb ic icN || list_eqb ic icS = true) by (apply orb_true_iff; rewrite !EQ; tauto). rewrite C1. split.
    + intro H. apply bind_ok_elim in H as (n & NN & H). apply bind_ok_elim in H as (a & A & H). apply bind_ok_elim in H as (b & B & H). injection H as <- <- <-.
      right. right. split; [exact KI|]. rewrite <- !to_float_iff. split; [|auto]. exists n. split; [reflexivity|]. now apply to_int_iff.
    + intros [(E & _)|[(E & _)|(_ & (n & -> & NN) & A & B)]]; [destruct KI as [-> | ->]; discriminate E|destruct KI as [-> | ->]; discriminate E|].
      apply to_int_iff in NN. apply to_float_iff in A, B. now rewrite NN, A, B.
Qed.

(** Whatever the text: it is read exactly if every part is a number (and nothing is read from
    texts that are cut off), as the numbers there, with the zone of the last corner. *)
Theorem C34_reads ic s cs zone : read_igeolo ic s = Ok (cs, zone) <->
  exists z1 z2 z3 c1 c2 c3 c4, cs = [c1; c2; c3; c4]
    /\ corner ic (part 0 15 s) z1 c1 /\ corner ic (part 15 30 s) z2 c2 /\ corner ic (part 30 45 s) z3 c3 /\ corner ic (part 45 60 s) zone c4.
Proof.
  assert (PL : forall a b, (b - a <= 15)%nat -> (List.length (slice a b s) <= 15)%nat) by (intros a b H; unfold slice; rewrite firstn_length; lia).
  assert (CK : forall p z c, corner ic p z c -> known_icords ic = true).
  { intros p z c [(-> & _)|[(-> & _)|([-> | ->] & _)]]; reflexivity. }
  assert (ZN : forall p z c z', corner ic p z c -> corner ic p z' c -> True) by auto. clear ZN.
  unfold read_igeolo. split.
  - destruct (known_icords ic) eqn:K; [|discriminate]. cbn [negb read_pairs]. intro H.
    apply bind_ok_elim in H as ([z1 c1] & R1 & H). apply bind_ok_elim in H as ([l1 y1] & H & E1).
    apply bind_ok_elim in H as ([z2 c2] & R2 & H). apply bind_ok_elim in H as ([l2 y2] & H & E2).
    apply bind_ok_elim in H as ([z3 c3] & R3 & H). apply bind_ok_elim in H as ([l3 y3] & H & E3).
    apply bind_ok_elim in H as ([z4 c4] & R4 & H). cbn [bind] in H. injection H as <- <-. injection E3 as <- <-. injection E2 as <- <-. injection E1 as <- <-.
    apply read_pair_iff in R1, R2, R3, R4; auto; try (apply PL; lia). exists z1, z2, z3, c1, c2, c3, c4. split; [reflexivity|]. split; [exact R1|]. split; [exact R2|]. split; [exact R3|].
    replace (match z4 with Some _ => z4 | None => _ end) with z4; [exact R4|]. destruct z4; [reflexivity|].
    assert (NU : forall p z c, corner ic p z c -> corner ic (part 45 60 s) None c4 -> z = None).
    { intros p z c C [(-> & _)|[(-> & _)|(_ & (n & E & _) & _)]]; [| |discriminate E]; destruct C as [(_ & -> & _)|[(_ & -> & _)|([E|E] & _)]]; try reflexivity; discriminate E. }
    rewrite (NU _ _ _ R3 R4), (NU _ _ _ R2 R4), (NU _ _ _ R1 R4). reflexivity.
  - intros (z1 & z2 & z3 & c1 & c2 & c3 & c4 & -> & R1 & R2 & R3 & R4). assert (K := CK _ _ _ R1). rewrite K. cbn [negb read_pairs].
    assert (NU : forall p z c, corner ic p z c -> zone = None -> z = None).
    { intros p z c C E. rewrite E in R4. destruct R4 as [(-> & _)|[(-> & _)|(_ & (n & E' & _) & _)]]; [| |discriminate E']; destruct C as [(_ & -> & _)|[(_ & -> & _)|([E'|E'] & _)]]; try reflexivity; discriminate E'. }
    assert (N3 := NU _ _ _ R3). assert (N2 := NU _ _ _ R2). assert (N1 := NU _ _ _ R1).
    apply (read_pair_iff ic (slice 0 15 s)) in R1; [|exact K|apply PL; lia]. apply (read_pair_iff ic (slice 15 30 s)) in R2; [|exact K|apply PL; lia].
    apply (read_pair_iff ic (slice 30 45 s)) in R3; [|exact K|apply PL; lia]. apply (read_pair_iff ic (slice 45 60 s)) in R4; [|exact K|apply PL; lia].
    rewrite R1. cbn [bind]. rewrite R2. cbn [bind]. rewrite R3. cbn [bind]. rewrite R4. cbn [bind]. do 2 f_equal.
    destruct zone; [reflexivity|]. now rewrite N3, N2, N1.
Qed.

Example ex_c16_float : float_text (str " -1.25e+3 ") (D true 125 1) /\ float_text (str ".5") (D false 5 (-1)) /\ float_text (str "7.") (D false 7 0)
  /\ ~ (exists x, float_text (str ".") x) /\ ~ (exists x, float_text (str "1e") x) /\ ~ (exists x, float_text (str "1 2") x).
Proof.
  repeat split; try (apply C16_accepts_float; vm_compute; reflexivity); intros (x & H); apply C16_accepts_float in H; vm_compute in H; discriminate H.
Qed.
Example ex_c34_reads : exists cs, read_igeolo (str "N") (str "331234567654321331234567654321331234567654321341234567654321") = Ok (cs, Some 34%Z)
  /\ read_igeolo (str "D") (str "+12.500-179.250+12.500-179.250+12.500-179.250+12.500-179.x50") = Err EValue
  /\ read_igeolo (str "N") (str "331234567654321331234567654321331234567654321xx1234567654321") = Err EValue
  /\ read_igeolo (str "G") (str "123456N1234567E123456N1234567E123456N1234567E123456N1234567") = Err EIndex.
Proof. eexists. split; [vm_compute; reflexivity|]. split; [vm_compute; reflexivity|]. split; vm_compute; reflexivity. Qed.

Print Assumptions C16_accepts_float.
Print Assumptions C34_reads.
