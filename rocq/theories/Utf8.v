(** [str.encode("utf-8")] and [bytes.decode("utf-8")] (strict), used for TRE tags
    (nitf_tre.py:59,74,122,126,158,250), engineering data and text. *)
From Verif Require Import Base.
From Coq Require Import ZifyBool ZifyNat ZifyN.
Open Scope list_scope.
Open Scope N_scope.

(** One code point (nitf_tre.py:74); surrogates cannot be encoded. *)
Definition utf8_char (c : N) : option (list N) :=
  if c <? 128 then Some [c]
  else if c <? 2048 then Some [192 + c / 64; 128 + c mod 64]
  else if c <? 65536 then
    if (55296 <=? c) && (c <? 57344) then None
    else Some [224 + c / 4096; 128 + c / 64 mod 64; 128 + c mod 64]
  else if c <? 1114112 then
    Some [240 + c / 262144; 128 + c / 4096 mod 64; 128 + c / 64 mod 64; 128 + c mod 64]
  else None.

(** [s.encode("utf-8")] (nitf_tre.py:74,126). *)
Fixpoint utf8_enc (s : list N) : option (list N) :=
  match s with
  | [] => Some []
  | c :: s' => match utf8_char c, utf8_enc s' with
               | Some b, Some r => Some (b ++ r)
               | _, _ => None
               end
  end.

(** Continuation byte. ([decode("utf-8")], nitf_tre.py:59, 122.) *)
Definition cont (b : N) : bool := (128 <=? b) && (b <? 192).

(** [b.decode("utf-8")] (nitf_tre.py:59,122,250): over-long forms, surrogates and values above
    10FFFF are refused. *)
Fixpoint utf8_dec (l : list N) : option (list N) :=
  match l with
  | [] => Some []
  | b0 :: l0 =>
    if b0 <? 128 then option_map (cons b0) (utf8_dec l0)
    else match l0 with
    | [] => None
    | b1 :: l1 =>
      if (192 <=? b0) && (b0 <? 224) then
        let c := (b0 - 192) * 64 + (b1 - 128) in
        if cont b1 && (128 <=? c) then option_map (cons c) (utf8_dec l1) else None
      else match l1 with
      | [] => None
      | b2 :: l2 =>
        if (224 <=? b0) && (b0 <? 240) then
          let c := (b0 - 224) * 4096 + (b1 - 128) * 64 + (b2 - 128) in
          if cont b1 && cont b2 && (2048 <=? c) && negb ((55296 <=? c) && (c <? 57344))
          then option_map (cons c) (utf8_dec l2) else None
        else match l2 with
        | [] => None
        | b3 :: l3 =>
          if (240 <=? b0) && (b0 <? 248) then
            let c := (b0 - 240) * 262144 + (b1 - 128) * 4096 + (b2 - 128) * 64 + (b3 - 128) in
            if cont b1 && cont b2 && cont b3 && (65536 <=? c) && (c <? 1114112)
            then option_map (cons c) (utf8_dec l3) else None
          else None
        end end end end.

Ltac Zify.zify_post_hook ::= Z.to_euclidean_division_equations.

Ltac if_false := match goal with |- context [if ?b then _ else _] => replace b with false by lia; cbv iota end.
Ltac if_true := match goal with |- context [if ?b then _ else _] => replace b with true by lia; cbv iota end.

Lemma utf8_dec_cons b0 l0 : utf8_dec (b0 :: l0) =
    if b0 <? 128 then option_map (cons b0) (utf8_dec l0)
    else match l0 with
    | [] => None
    | b1 :: l1 =>
      if (192 <=? b0) && (b0 <? 224) then
        let c := (b0 - 192) * 64 + (b1 - 128) in
        if cont b1 && (128 <=? c) then option_map (cons c) (utf8_dec l1) else None
      else match l1 with
      | [] => None
      | b2 :: l2 =>
        if (224 <=? b0) && (b0 <? 240) then
          let c := (b0 - 224) * 4096 + (b1 - 128) * 64 + (b2 - 128) in
          if cont b1 && cont b2 && (2048 <=? c) && negb ((55296 <=? c) && (c <? 57344))
          then option_map (cons c) (utf8_dec l2) else None
        else match l2 with
        | [] => None
        | b3 :: l3 =>
          if (240 <=? b0) && (b0 <? 248) then
            let c := (b0 - 240) * 262144 + (b1 - 128) * 4096 + (b2 - 128) * 64 + (b3 - 128) in
            if cont b1 && cont b2 && cont b3 && (65536 <=? c) && (c <? 1114112)
            then option_map (cons c) (utf8_dec l3) else None
          else None
        end end end.
Proof. reflexivity. Qed.

Lemma some_eq {A} (a b : A) : Some a = Some b -> b = a.
Proof. congruence. Qed.

Lemma utf8_char_dec c b l : utf8_char c = Some b ->
  utf8_dec (b ++ l) = option_map (cons c) (utf8_dec l).
Proof.
  unfold utf8_char. intro H.
  destruct (c <? 128) eqn:E1; [apply some_eq in H; subst b; cbn [app]; rewrite utf8_dec_cons; now rewrite E1|].
  destruct (c <? 2048) eqn:E2.
  { apply some_eq in H; subst b. cbn [app]; rewrite utf8_dec_cons; cbv zeta. if_false. if_true.
    replace ((192 + c / 64 - 192) * 64 + (128 + c mod 64 - 128)) with c by lia.
    unfold cont. if_true. reflexivity. }
  destruct (c <? 65536) eqn:E3.
  { destruct ((55296 <=? c) && (c <? 57344)) eqn:E4; [discriminate|]. apply some_eq in H; subst b.
    cbn [app]; rewrite utf8_dec_cons; cbv zeta. if_false. if_false. if_true.
    replace ((224 + c / 4096 - 224) * 4096 + (128 + c / 64 mod 64 - 128) * 64 + (128 + c mod 64 - 128))
      with c by lia.
    rewrite E4. unfold cont. if_true. reflexivity. }
  destruct (c <? 1114112) eqn:E4; [|discriminate]. apply some_eq in H; subst b.
  cbn [app]; rewrite utf8_dec_cons; cbv zeta. if_false. if_false. if_false. if_true.
  replace ((240 + c / 262144 - 240) * 262144 + (128 + c / 4096 mod 64 - 128) * 4096
           + (128 + c / 64 mod 64 - 128) * 64 + (128 + c mod 64 - 128)) with c by lia.
  rewrite E4. unfold cont. if_true. reflexivity.
Qed.

Lemma utf8_enc_dec s b : utf8_enc s = Some b -> utf8_dec b = Some s.
Proof.
  revert b. induction s as [|c s IH]; intros b H; cbn in H; [injection H as <-; reflexivity|].
  destruct (utf8_char c) as [bc|] eqn:E; [|discriminate].
  destruct (utf8_enc s) as [r|]; [|discriminate]. injection H as <-.
  rewrite (utf8_char_dec c bc r E), (IH r eq_refl). reflexivity.
Qed.

Lemma utf8_dec_enc l s : utf8_dec l = Some s -> all_bytes l = true -> utf8_enc s = Some l.
Proof.
  remember (List.length l) as n eqn:En. revert l s En.
  induction n as [n IH] using (well_founded_induction Wf_nat.lt_wf). intros l s -> H HB.
  destruct l as [|b0 l0]; [injection H as <-; reflexivity|].
  assert (G : forall c l1 b, utf8_char c = Some b -> (List.length l1 <= List.length l0)%nat ->
              all_bytes l1 = true ->
              option_map (cons c) (utf8_dec l1) = Some s -> utf8_enc s = Some (b ++ l1)).
  { intros c l1 b Hc Hl HB1 Ho. destruct (utf8_dec l1) as [s1|] eqn:E1; [|discriminate].
    injection Ho as <-. cbn [utf8_enc]. rewrite Hc.
    rewrite (IH (List.length l1)) with (l := l1); auto. cbn [List.length]. lia. }
  rewrite utf8_dec_cons in H. cbv zeta in H. cbn [all_bytes forallb] in HB. apply andb_prop in HB as [B0 HB].
  destruct (b0 <? 128) eqn:E0.
  { apply (G b0 l0 [b0]); auto. unfold utf8_char. now rewrite E0. }
  destruct l0 as [|b1 l1]; [discriminate|]. cbn [forallb] in HB. apply andb_prop in HB as [B1 HB].
  destruct ((192 <=? b0) && (b0 <? 224)) eqn:E1.
  { destruct (cont b1 && (128 <=? (b0 - 192) * 64 + (b1 - 128))) eqn:E2; [|discriminate].
    unfold cont in E2.
    apply (G ((b0 - 192) * 64 + (b1 - 128)) l1 [b0; b1]); auto; [|cbn [List.length]; lia].
    unfold utf8_char. if_false. if_true. f_equal. repeat f_equal; lia. }
  destruct l1 as [|b2 l2]; [discriminate|]. cbn [forallb] in HB. apply andb_prop in HB as [B2 HB].
  destruct ((224 <=? b0) && (b0 <? 240)) eqn:E2.
  { set (c := (b0 - 224) * 4096 + (b1 - 128) * 64 + (b2 - 128)) in *.
    destruct (cont b1 && cont b2 && (2048 <=? c) && negb ((55296 <=? c) && (c <? 57344))) eqn:E3; [|discriminate].
    unfold cont in E3.
    apply (G c l2 [b0; b1; b2]); auto; [|cbn [List.length]; lia].
    unfold utf8_char. if_false. if_false. if_true. if_false. subst c. f_equal. repeat f_equal; lia. }
  destruct l2 as [|b3 l3]; [discriminate|]. cbn [forallb] in HB. apply andb_prop in HB as [B3 HB].
  destruct ((240 <=? b0) && (b0 <? 248)) eqn:E3; [|discriminate].
  set (c := (b0 - 240) * 262144 + (b1 - 128) * 4096 + (b2 - 128) * 64 + (b3 - 128)) in *.
  destruct (cont b1 && cont b2 && cont b3 && (65536 <=? c) && (c <? 1114112)) eqn:E4; [|discriminate].
  unfold cont in E4.
  apply (G c l3 [b0; b1; b2; b3]); auto; [|cbn [List.length]; lia].
  unfold utf8_char. if_false. if_false. if_false. if_true. subst c. f_equal. repeat f_equal; lia.
Qed.

(** ASCII text is its own encoding. *)
Definition ascii (s : list N) : bool := forallb (fun c => c <? 128) s.

Lemma utf8_enc_ascii s : ascii s = true -> utf8_enc s = Some s.
Proof.
  induction s as [|c s IH]; intro H; [reflexivity|]. cbn in H. apply andb_prop in H as [H1 H2].
  cbn [utf8_enc]. rewrite (IH H2). unfold utf8_char. now rewrite H1.
Qed.

Lemma utf8_dec_ascii s : ascii s = true -> utf8_dec s = Some s.
Proof. intro H. apply utf8_enc_dec, utf8_enc_ascii, H. Qed.

Example ex_utf8 : utf8_enc [233; 8364; 128512; 65] = Some [195; 169; 226; 130; 172; 240; 159; 152; 128; 65].
Proof. vm_compute. reflexivity. Qed.
Example ex_utf8_dec : utf8_dec [195; 169; 226; 130; 172; 240; 159; 152; 128; 65] = Some [233; 8364; 128512; 65].
Proof. vm_compute. reflexivity. Qed.
(** Over-long form, surrogate, lone continuation, truncated sequence. *)
Example ex_utf8_bad : map utf8_dec [[192; 175]; [237; 160; 128]; [128]; [226; 130]; [245; 128; 128; 128]]
  = [None; None; None; None; None].
Proof. vm_compute. reflexivity. Qed.
