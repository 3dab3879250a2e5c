(** What is written, field by field, and when writing succeeds (C55). *)
From Verif Require Import Base BaseLemmas Engine Wf EngineLemmas Codec RoundTrip Rewrite Literal
  Positions Keys Deps Assign Update TextSpec Spec Decimal P_Codec P_Expr.
From Coq Require Import ZifyBool ZifyNat ZifyN.
Open Scope list_scope.
Ltac Zify.zify_post_hook ::= idtac.

(** ** What is claimed *)
Section Claim.
Variable FO : FloatOps.
Variable fs : fstruct.
Variable s : state FO.
Notation pyval := (pyval FO).
Notation holding := (holding FO s).
Notation means := (means FO fs s).

(** What a field is written from: its computed value, or what it holds. *)
Definition content (f : field) (k : list Z) (x : sval FO) : Prop :=
  match fd_value (f_d f) with Some e => exists w, means k e w /\ x = SVal w | None => holding f k x end.
(** [l], then as many [c] as wanted. *)
Definition filled (l : list N) (c : N) (b : list N) : Prop := exists m, b = l ++ repeat c m.
Definition one_byte (b : list N) : Prop := Forall (fun c => (c < 256)%N) b.
Definition of_text (d : fdesc) : Prop := fd_ty d = TStr \/ fd_ty d = TInt \/ fd_ty d = TFloat.
Definition of_bytes (d : fdesc) : Prop := fd_ty d = TBytes \/ exists dk, fd_ty d = TData dk.

(** [b] is [z] printed with the flags of [df]: a sign if negative or asked for, padded to the
    width with blanks behind or before, or with zeros after the sign. *)
Definition printed (df : dfmt) (z : Z) (b : list N) : Prop :=
  exists sg ds m, numeral (Z.abs_N z) ds
    /\ sg = (if (z <? 0)%Z then [45%N] else if df_plus df then [43%N] else [])
    /\ b = (if df_left df then sg ++ ds ++ repeat 32%N m else if df_zero df then sg ++ repeat 48%N m ++ ds else repeat 32%N m ++ sg ++ ds)
    /\ List.length b = Nat.max (df_width df) (List.length sg + List.length ds).

(** [b] is the value as text for a field of [n] characters. *)
Inductive formatted (d : fdesc) (n : Z) : pyval -> list N -> Prop :=
| fm_str t b : fd_ty d = TStr -> fd_frmt d = FrNone -> filled t 32 b -> formatted d n (VStr t) b
| fm_int z b : fd_ty d = TInt -> fd_frmt d = FrNone -> zero_padded (Z.to_nat n) z b -> formatted d n (VInt z) b
| fm_intf df z b : fd_ty d = TInt -> fd_frmt d = FrD df -> printed df z b -> formatted d n (VInt z) b
| fm_float x t b : fd_ty d = TFloat -> fd_frmt d = FrNone -> fl_fmt FO (FsFit n) x = Some t -> filled t 32 b -> formatted d n (VFloat x) b
| fm_floatf fsp x t b : fd_ty d = TFloat -> fd_frmt d = FrF fsp -> fl_fmt FO fsp x = Some t -> filled t 32 b -> formatted d n (VFloat x) b.

(** [b] is what is written for a field of size [n] that is there. *)
Inductive encoded (f : field) (k : list Z) (n : Z) : list N -> Prop :=
| ec_literal l b : holding f k (SLit l) -> filled l 32 b -> encoded f k n b
| ec_reserved y b : holding f k (SVal y) -> fd_name (f_d f) = None -> formatted (f_d f) n (VStr []) b -> one_byte b -> encoded f k n b
| ec_none y x m : holding f k (SVal y) -> fd_name (f_d f) <> None -> content f k x -> nothing FO (f_d f) x -> of_text (f_d f) ->
    one_byte (repeat (fd_optchar (f_d f)) m) -> encoded f k n (repeat (fd_optchar (f_d f)) m)
| ec_text y x v b : holding f k (SVal y) -> fd_name (f_d f) <> None -> content f k x -> typed FO fs s f k x v -> formatted (f_d f) n v b ->
    one_byte b -> encoded f k n b
| ec_bytes y x w b : holding f k (SVal y) -> fd_name (f_d f) <> None -> content f k x -> ~ nothing FO (f_d f) x -> plain FO x w ->
    of_bytes (f_d f) -> as_bytes FO w b -> encoded f k n b.
(** The block of a position: nothing if the field is not there. *)
Definition written (p : field * list Z) (b : list N) : Prop :=
  (condition FO fs s (fst p) (snd p) false /\ b = [])
  \/ (condition FO fs s (fst p) (snd p) true /\ exists n, size_of FO fs s (fst p) (snd p) n /\ Z.of_nat (List.length b) = n /\ encoded (fst p) (snd p) n b).
End Claim.

(** ** Text *)
Lemma filled_ljust l b n : filled l 32 b -> Z.of_nat (List.length b) = n -> b = ljust (Z.to_nat n) l.
Proof.
  intros (m & ->) H. unfold ljust, spaces. f_equal. f_equal. rewrite app_length, repeat_length in H. lia.
Qed.
Lemma ljust_filled l n : filled l 32 (ljust n l).
Proof. exists (n - List.length l)%nat. reflexivity. Qed.
Lemma one_byte_iff b : all_bytes b = true <-> one_byte b.
Proof. unfold all_bytes, one_byte. rewrite forallb_forall, Forall_forall. split; intros H c Hc; specialize (H c Hc); lia. Qed.
Lemma printed_iff df z b : printed df z b <-> b = fmt_d df z.
Proof.
  unfold fmt_d. set (sg := if (z <? 0)%Z then [45%N] else if df_plus df then [43%N] else []). split.
  - intros (sg' & ds & m & HN & -> & -> & HL). apply numeral_unique in HN. subst ds. fold sg in HL |- *.
    assert (E : m = (df_width df - (List.length sg + List.length (digits (Z.abs_N z))))%nat).
    { destruct (df_left df); [|destruct (df_zero df)]; rewrite !app_length, repeat_length in HL; lia. }
    rewrite <- E. unfold spaces. reflexivity.
  - intros ->. exists sg, (digits (Z.abs_N z)), (df_width df - (List.length sg + List.length (digits (Z.abs_N z))))%nat.
    split; [apply numeral_digits|]. split; [reflexivity|]. split; [reflexivity|]. unfold spaces.
    destruct (df_left df); [|destruct (df_zero df)]; rewrite !app_length, repeat_length; lia.
Qed.

Section Write.
Variable FO : FloatOps.
Variable rows : list row.
Variable s : state FO.
Notation fs := (mk_fs rows).
Notation g := (G FO fs s).
Hypothesis Hwf : wf_rows rows = true.

Lemma fm_iff d n v b : Z.of_nat (List.length b) = n -> of_text d ->
  (match fd_ty d with TStr => exists t, v = VStr t | TInt => exists z, v = VInt z | _ => exists x, v = VFloat x end) ->
  (format_val FO d v n = Ok b <-> formatted FO d n v b).
Proof.
  intros L T V. unfold format_val. split.
  - destruct T as [T|[T|T]]; rewrite T in V |- *; destruct V as (x & ->).
    + destruct (fd_frmt d) eqn:F; try discriminate. intro H. injection H as <-. apply fm_str; auto. apply ljust_filled.
    + destruct (fd_frmt d) eqn:F; try discriminate; intro H; injection H as <-.
      * apply fm_int; auto. now apply zero_padded_iff.
      * eapply fm_intf; eauto. now apply printed_iff.
    + destruct (fd_frmt d) eqn:F; try discriminate.
      * destruct (fl_fmt FO (FsFit n) x) as [t|] eqn:E; [|discriminate]. intro H. injection H as <-. eapply fm_float; eauto. apply ljust_filled.
      * destruct (fl_fmt FO _ x) as [t|] eqn:E; [|discriminate]. intro H. injection H as <-. eapply fm_floatf; eauto. apply ljust_filled.
  - intro H. destruct H as [t b T' F H|z b T' F H|df z b T' F H|x t b T' F E H|fsp x t b T' F E H]; rewrite T', F.
    + cbn [conv_str]. f_equal. symmetry. now apply filled_ljust.
    + apply zero_padded_iff in H. now rewrite H.
    + apply printed_iff in H. now rewrite H.
    + rewrite E. f_equal. symmetry. now apply filled_ljust.
    + rewrite E. f_equal. symmetry. now apply filled_ljust.
Qed.

Lemma named_base f k : fd_name (f_d f) <> None -> check_index FO g fs f k = Ok tt -> check_condition FO g fs f k = Ok true -> forall v,
  get_base FO g fs s f k = Ok v <-> exists x, content FO fs s f k x /\ convert FO (f_d f) x = Ok v.
Proof.
  intros N I C v. unfold get_base, content. destruct (fd_name (f_d f)); [|contradiction]. rewrite I, C. cbn [bind negb].
  destruct (fd_value (f_d f)) as [e|].
  - split.
    + intro H. destruct (eval FO g fs k e) as [w|] eqn:W; cbn [bind] in H; [|discriminate H]. exists (SVal w). split.
      * exists w. split; [now apply C51_means|reflexivity].
      * destruct (convert FO (f_d f) (SVal w)); congruence.
    + intros (x & (w & W & ->) & H). apply C51_means in W; [|exact Hwf]. rewrite W. cbn [bind]. now rewrite H.
  - split.
    + intro H. exists (stored FO s f k). split; [now apply holding_iff|]. destruct (convert FO (f_d f) (stored FO s f k)); congruence.
    + intros (x & X & H). apply holding_iff in X. subst x. now rewrite H.
Qed.

Lemma typed_text f k x v : of_text (f_d f) -> (convert FO (f_d f) x = Ok v <-> typed FO fs s f k x v).
Proof.
  intro T. assert (R : reads_as FO fs g f k x = convert FO (f_d f) x).
  { unfold reads_as, unpacked. destruct (convert FO (f_d f) x) as [u|]; [|reflexivity]. cbn [bind]. destruct T as [T|[T|T]]; rewrite T; reflexivity. }
  rewrite <- R. split.
  - apply reads_typed. intros n Hn. apply C51_uses; [exact Hwf|]. now apply size_is_fsize.
  - destruct (meaning_sound FO fs s g) as (_ & S & _); [|apply S]. intros nm f' L k'. now apply (G_again FO rows s Hwf nm).
Qed.

Lemma ty_cases d : of_text d \/ of_bytes d.
Proof. unfold of_text, of_bytes. destruct (fd_ty d) eqn:T; eauto. Qed.

(** One field. *)
Lemma field_iff f k b : check_index FO g fs f k = Ok tt -> condition FO fs s f k true ->
  (field_bytes FO g fs s f k = Ok b <-> exists n, size_of FO fs s f k n /\ Z.of_nat (List.length b) = n /\ encoded FO fs s f k n b).
Proof.
  intros I C. assert (SZ : forall n, fsize_of FO g fs f k = Ok n <-> size_of FO fs s f k n).
  { intro n. rewrite <- size_is_fsize. now apply C51_uses. }
  assert (C' : check_condition FO g fs f k = Ok true) by (apply cond_is_check; now apply C51_uses).
  assert (Q : forall n, fsize_of FO g fs f k = Ok n -> (field_bytes FO g fs s f k = Ok b <-> Z.of_nat (List.length b) = n /\ encoded FO fs s f k n b)).
  2:{ split.
      - intro H. destruct (field_bytes_fsize _ _ _ _ _ _ _ H) as (n & Hn). exists n. rewrite <- SZ. split; [exact Hn|]. now apply Q.
      - intros (n & Hn & H). apply SZ in Hn. now apply Q in H. }
  intros n Hn. unfold field_bytes. rewrite Hn. cbn [bind].
  destruct (stored FO s f k) as [y|l] eqn:S.
  2:{ assert (HL : holding FO s f k (SLit l)) by (apply holding_iff; congruence).
      assert (NV : forall y, ~ holding FO s f k (SVal y)) by (intros y Hy; apply holding_iff in Hy; congruence). unfold has_len. split.
      - destruct (_ =? n)%Z eqn:E; [|discriminate]. intro H. injection H as <-. split; [lia|]. eapply ec_literal; [exact HL|apply ljust_filled].
      - intros (L & H). destruct H as [l' b Hl F|y b Hy|y x m Hy|y x v b Hy|y x w b Hy]; try (exfalso; eapply NV; eassumption).
        apply holding_iff in Hl. rewrite S in Hl. injection Hl as ->. rewrite <- (filled_ljust _ _ _ F L). rewrite (proj2 (Z.eqb_eq _ _) L). reflexivity. }
  assert (HY : holding FO s f k (SVal y)) by (apply holding_iff; congruence).
  assert (NL : forall l, ~ holding FO s f k (SLit l)) by (intros l Hl; apply holding_iff in Hl; congruence).
  assert (FIN : forall v, of_text (f_d f) -> (match fd_ty (f_d f) with TStr => exists t, v = VStr t | TInt => exists z, v = VInt z | _ => exists x, v = VFloat x end) ->
    ((do t <- format_val FO (f_d f) v n; if has_len t n then encode_latin1 t else Err ERuntime) = Ok b
      <-> Z.of_nat (List.length b) = n /\ formatted FO (f_d f) n v b /\ one_byte b)).
  { intros v T V. unfold has_len, encode_latin1. split.
    - intro H. apply bind_ok_elim in H as (t & F & H). destruct (_ =? n)%Z eqn:E; [|discriminate H]. destruct (all_bytes t) eqn:A; [|discriminate H]. injection H as ->.
      apply Z.eqb_eq in E. split; [exact E|]. split; [now apply fm_iff|now apply one_byte_iff].
    - intros (L & F & O). apply fm_iff in F; auto. rewrite F. cbn [bind]. rewrite (proj2 (Z.eqb_eq _ _) L). apply one_byte_iff in O. now rewrite O. }
  destruct (fd_name (f_d f)) as [nm|] eqn:NM.
  2:{ assert (NN : ~ fd_name (f_d f) <> None) by congruence. unfold get_base. rewrite NM. cbn [bind].
      assert (K : Z.of_nat (List.length b) = n /\ encoded FO fs s f k n b <-> Z.of_nat (List.length b) = n /\ formatted FO (f_d f) n (VStr []) b /\ one_byte b).
      { split; intros (L & H); (split; [exact L|]).
        - destruct H as [l' b Hl F|y' b Hy _ F O|y' x m Hy N'|y' x v b Hy N'|y' x w b Hy N']; try (exfalso; eapply NL; eassumption); try contradiction. auto.
        - destruct H as (F & O). eapply ec_reserved; eauto. }
      rewrite K. destruct (fd_ty (f_d f)) eqn:T; try (split; [discriminate|intros (_ & F & _); inversion F; congruence]).
      - rewrite <- (FIN (VStr []) (or_introl T) (ex_intro _ [] eq_refl)). destruct (fd_optional (f_d f)); reflexivity.
      - split; [destruct (fd_optional (f_d f)); unfold format_val; rewrite T; discriminate|]. intros (_ & F & _). inversion F; congruence.
      - split; [destruct (fd_optional (f_d f)); unfold format_val; rewrite T; discriminate|]. intros (_ & F & _). inversion F; congruence. }
  assert (NN : fd_name (f_d f) <> None) by congruence.
  assert (B := named_base f k NN I C').
  destruct (get_base FO g fs s f k) as [v|e] eqn:GB.
  2:{ cbn [bind]. split; [discriminate|]. intros (L & H). exfalso.
      assert (X : forall x v, content FO fs s f k x -> convert FO (f_d f) x = Ok v -> False).
      { intros x v X1 X2. assert (Z : Err e = Ok v) by (apply B; eauto). discriminate Z. }
      destruct H as [l' b Hl F|y' b Hy N'|y' x m Hy N' X1 X2|y' x v b Hy N' X1 X2 F|y' x w b Hy N' X1 X2 P T A]; try (eapply NL; eassumption); try congruence.
      - apply (X x VNone X1). now apply convert_nothing.
      - apply (X x v X1). apply (typed_text f k); auto. inversion F; unfold of_text; auto.
      - assert (E : convert FO (f_d f) x = as_type FO (f_d f) w) by (now apply convert_plain). unfold as_type in E. apply as_bytes_iff in A. rewrite A in E.
        destruct T as [T|(dk & T)]; rewrite T in E; eapply X; eauto. }
  cbn [bind]. destruct (proj1 (B v) eq_refl) as (x & X1 & X2).
  assert (U : forall x', content FO fs s f k x' -> x' = x).
  { intros x' X'. unfold content in X1, X'. destruct (fd_value (f_d f)) as [e|].
    - destruct X1 as (w1 & W1 & ->), X' as (w2 & W2 & ->). apply C51_means in W1, W2; auto. congruence.
    - apply holding_iff in X1, X'. congruence. }
  destruct (nothing_dec FO (f_d f) x) as [NO|NO].
  - rewrite (convert_nothing FO _ _ NO) in X2. injection X2 as <-. destruct NO as (OP & NO'). rewrite OP. assert (NO := conj OP NO').
    destruct (ty_cases (f_d f)) as [T|T].
    + assert (E : (if has_len (repeat (fd_optchar (f_d f)) (Z.to_nat n)) n then encode_latin1 (repeat (fd_optchar (f_d f)) (Z.to_nat n)) else Err ERuntime) = Ok b
              <-> Z.of_nat (List.length b) = n /\ encoded FO fs s f k n b).
      { unfold has_len, encode_latin1. split.
        - destruct (_ =? n)%Z eqn:E; [|discriminate]. destruct (all_bytes _) eqn:A; [|discriminate]. intro H. injection H as <-. split; [lia|].
          eapply ec_none; eauto. now apply one_byte_iff.
        - intros (L & H). destruct H as [l' b Hl F|y' b Hy N'|y' x' m Hy N' Y1 Y2 _ O|y' x' v b Hy N' Y1 Y2 F|y' x' w b Hy N' Y1 Y2 P T' A]; try (exfalso; eapply NL; eassumption); try congruence.
          + rewrite repeat_length in L. assert (m = Z.to_nat n) as -> by lia. rewrite repeat_length. replace (Z.of_nat (Z.to_nat n) =? n)%Z with true by lia.
            apply one_byte_iff in O. now rewrite O.
          + exfalso. apply U in Y1. subst x'. apply (typed_text f k) in Y2; [|exact T]. rewrite (convert_nothing FO _ _ NO) in Y2. injection Y2 as <-. inversion F.
          + exfalso. destruct T as [T|[T|T]], T' as [T'|(dk & T')]; congruence. }
      destruct T as [T|[T|T]]; rewrite T; exact E.
    + assert (E : forall e, Err e = Ok b <-> Z.of_nat (List.length b) = n /\ encoded FO fs s f k n b).
      { intro e. split; [discriminate|]. intros (L & H). exfalso.
        destruct H as [l' b Hl F|y' b Hy N'|y' x' m Hy N' Y1 Y2 T'|y' x' v b Hy N' Y1 Y2 F|y' x' w b Hy N' Y1 Y2 P T' A]; try (eapply NL; eassumption); try congruence.
        - destruct T as [T|(dk & T)], T' as [T'|[T'|T']]; congruence.
        - destruct T as [T|(dk & T)]; inversion F; congruence.
        - apply U in Y1. now subst x'. }
      destruct T as [T|(dk & T)]; rewrite T; apply E.
  - destruct (plain_ex FO x) as (w & P). assert (AT := convert_plain FO _ _ _ NO P). rewrite X2 in AT. unfold as_type in AT.
    destruct (ty_cases (f_d f)) as [T|T].
    + assert (V : match fd_ty (f_d f) with TStr => exists t, v = VStr t | TInt => exists z, v = VInt z | _ => exists x, v = VFloat x end).
      { destruct T as [T|[T|T]]; rewrite T in AT |- *; symmetry in AT.
        - injection AT as <-. eauto.
        - apply bind_ok_elim in AT as (z & _ & AT). injection AT as <-. eauto.
        - apply bind_ok_elim in AT as (z & _ & AT). injection AT as <-. eauto. }
      assert (E : Z.of_nat (List.length b) = n /\ formatted FO (f_d f) n v b /\ one_byte b <-> Z.of_nat (List.length b) = n /\ encoded FO fs s f k n b).
      { split; intros (L & H); (split; [exact L|]).
        - destruct H as (F & O). eapply ec_text; eauto. now apply typed_text.
        - destruct H as [l' b Hl F|y' b Hy N'|y' x' m Hy N' Y1 Y2|y' x' v' b Hy N' Y1 Y2 F O|y' x' w' b Hy N' Y1 Y2 P' T' A]; try (exfalso; eapply NL; eassumption); try congruence.
          + apply U in Y1. subst x'. contradiction.
          + apply U in Y1. subst x'. apply (typed_text f k) in Y2; [|exact T]. assert (v' = v) as -> by congruence. auto.
          + exfalso. destruct T as [T|[T|T]], T' as [T'|(dk & T')]; congruence. }
      rewrite <- E, <- (FIN v T V). destruct T as [T|[T|T]]; rewrite T in V |- *; destruct V as (u & ->); destruct (fd_optional (f_d f)); reflexivity.
    + assert (exists c, v = VBytes c /\ as_bytes FO w c) as (c & -> & A).
      { destruct T as [T|(dk & T)]; rewrite T in AT; symmetry in AT; apply bind_ok_elim in AT as (c & A & AT); injection AT as <-; exists c; split; auto; now apply as_bytes_iff. }
      assert (E : (if has_len c n then Ok c else Err ERuntime) = Ok b <-> Z.of_nat (List.length b) = n /\ encoded FO fs s f k n b).
      { unfold has_len. split.
        - destruct (_ =? n)%Z eqn:E; [|discriminate]. intro H. injection H as <-. split; [lia|]. eapply ec_bytes; eauto.
        - intros (L & H). destruct H as [l' b Hl F|y' b Hy N'|y' x' m Hy N' Y1 Y2|y' x' v' b Hy N' Y1 Y2 F O|y' x' w' b Hy N' Y1 Y2 P' T' A']; try (exfalso; eapply NL; eassumption); try congruence.
          + apply U in Y1. subst x'. contradiction.
          + exfalso. destruct T as [T|(dk & T)]; inversion F; congruence.
          + apply U in Y1. subst x'. assert (w' = w) as ->. { destruct P as [P|(q & P & ->)], P' as [P'|(q' & P' & ->)]; congruence. }
            apply as_bytes_iff in A, A'. assert (b = c) as -> by congruence. rewrite (proj2 (Z.eqb_eq _ _) L). reflexivity. }
      destruct T as [T|(dk & T)]; rewrite T; destruct (fd_optional (f_d f)); exact E.
Qed.
End Write.

(** ** All positions *)
Section All.
Variable FO : FloatOps.
Variable rows : list row.
Variable s : state FO.
Notation fs := (mk_fs rows).
Hypothesis Hwf : wf_rows rows = true.

Lemma unrolled_positions it : forall lead ps, unrolled FO fs s lead it ps -> positions_item FO fs s lead it = Ok ps.
Proof.
  induction it as [f|sh its IH] using item_ind'; intros lead ps H; inversion H; subst.
  - reflexivity.
  - rewrite positions_item_loop. match goal with X : count_is _ _ _ _ _ _ |- _ => apply count_is_shape in X; rewrite X end. cbn [bind].
    assert (A : forall its, Forall (fun it => forall lead ps, unrolled FO fs s lead it ps -> positions_item FO fs s lead it = Ok ps) its ->
                forall lead ps, unrolled_all FO fs s its lead ps -> positions_items FO fs s lead its = Ok ps).
    { clear. induction its as [|it its IHi]; intros F lead ps H; inversion H; subst; [reflexivity|]. inversion F; subst. unfold positions_items. apply concat_map_res_cons_iff.
      exists a, b. repeat split; auto. now apply IHi. }
    match goal with X : Forall2 _ _ _ |- _ => revert X end. clear H. revert pss. generalize (zrange n). intros l. clear - A IH.
    induction l as [|i l IHl]; intros pss F; inversion F; subst; [reflexivity|]. cbn [List.concat]. apply concat_map_res_cons_iff. do 2 eexists. split; [apply A; eauto|]. split; [|reflexivity].
    now apply IHl.
Qed.
Lemma unrolled_all_positions ps : unrolled_all FO fs s (fs_items fs) [] ps <-> positions FO fs s = Ok ps.
Proof.
  split; [|apply positions_unrolled_all]. unfold positions, positions_items. revert ps. induction (fs_items fs) as [|it its IH]; intros ps H; inversion H; subst; [reflexivity|].
  apply concat_map_res_cons_iff. exists a, b. repeat split; auto. now apply unrolled_positions.
Qed.
Lemma position_index ps f k : positions FO fs s = Ok ps -> In (f, k) ps -> check_index FO (G FO fs s) fs f k = Ok tt.
Proof.
  intros HP I. assert (If := positions_in_fields FO rows s ps f k HP I). assert (K := positions_keys FO rows s ps f HP If).
  apply in_shape_check. apply (proj1 (field_keys_in FO fs s f _ k K)). unfold of_field. apply in_map_iff. exists (f, k). split; [reflexivity|].
  apply filter_In. split; [exact I|]. cbn [fst]. apply Nat.eqb_refl.
Qed.
Lemma block_written p b : check_index FO (G FO fs s) fs (fst p) (snd p) = Ok tt -> (block FO fs s p b <-> written FO fs s p b).
Proof.
  intro I. assert (C : forall c, check_condition FO (G FO fs s) fs (fst p) (snd p) = Ok c <-> condition FO fs s (fst p) (snd p) c).
  { intro c. rewrite <- cond_is_check. now apply C51_uses. }
  unfold block, written. rewrite !C. split.
  - intros [H|(H1 & _ & H3)]; [now left|right]. split; [exact H1|]. now apply field_iff in H3.
  - intros [H|(H1 & H3)]; [now left|right]. split; [exact H1|]. assert (H2 := H3). apply field_iff in H3; auto. split; [|exact H3].
    destruct H2 as (n & Hn & -> & _). apply size_is_fsize. now apply C51_uses.
Qed.
End All.

(** ** C55 *)
(** What is written is, position by position with the loops unrolled, exactly what the
    table says: nothing for a field that is not there, a literal padded with blanks, the fill
    for a value that is None, bytes as they are, and a value in its format padded to the
    size; and writing fails exactly if there is no such thing. *)
Theorem C55_bytes FO rows (s : state FO) out : wf_rows rows = true ->
  (write FO (mk_fs rows) s = Ok out <->
   exists ps bs, unrolled_all FO (mk_fs rows) s (fs_items (mk_fs rows)) [] ps /\ Forall2 (written FO (mk_fs rows) s) ps bs /\ out = List.concat bs).
Proof.
  intro Hwf.
  assert (T : forall ps, positions FO (mk_fs rows) s = Ok ps -> forall bs, Forall2 (block FO (mk_fs rows) s) ps bs <-> Forall2 (written FO (mk_fs rows) s) ps bs).
  { intros ps HP. assert (I : forall p, In p ps -> check_index FO (G FO (mk_fs rows) s) (mk_fs rows) (fst p) (snd p) = Ok tt).
    { intros [f k] Hp. exact (position_index FO rows s ps f k HP Hp). }
    clear HP. induction ps as [|p ps IH]; intro bs.
    - split; intro H; inversion H; constructor.
    - split; intro H; inversion H; subst; (constructor; [apply (block_written FO rows s Hwf p); auto; apply I; now left|apply IH; auto; intros; apply I; now right]). }
  split.
  - intro H. apply write_blocks in H as (ps & bs & HP & HB & ->). exists ps, bs. split; [now apply unrolled_all_positions|]. split; [now apply (T ps)|reflexivity].
  - intros (ps & bs & HP & HB & ->). apply unrolled_all_positions in HP. apply blocks_write with ps; [exact HP|]. now apply (T ps).
Qed.

(** *** When it succeeds *)
(** An integer that has room in [n] characters. *)
Definition int_fits (n z : Z) : Prop := ((0 <= z < 10 ^ n /\ 1 <= n) \/ (z < 0 /\ - z < 10 ^ (n - 1)))%Z.
(** The value has room in a field of [n] characters. *)
Definition room FO (d : fdesc) (n : Z) (v : pyval FO) : Prop :=
  (exists t, v = VStr t /\ fd_ty d = TStr /\ fd_frmt d = FrNone /\ (Z.of_nat (List.length t) <= n)%Z /\ one_byte t)
  \/ (exists z, v = VInt z /\ fd_ty d = TInt /\
       (fd_frmt d = FrNone /\ int_fits n z
        \/ exists df ds, fd_frmt d = FrD df /\ numeral (Z.abs_N z) ds
             /\ n = Z.max (Z.of_nat (df_width df)) (Z.of_nat (List.length ds) + (if (z <? 0)%Z || df_plus df then 1 else 0))))
  \/ (exists x t fsp, v = VFloat x /\ fd_ty d = TFloat /\ (fd_frmt d = FrNone /\ fsp = FsFit n \/ fd_frmt d = FrF fsp)
       /\ fl_fmt FO fsp x = Some t /\ (Z.of_nat (List.length t) <= n)%Z /\ one_byte t).
Definition fits FO fs (s : state FO) (p : field * list Z) : Prop :=
  let d := f_d (fst p) in
  condition FO fs s (fst p) (snd p) false
  \/ condition FO fs s (fst p) (snd p) true /\ exists n, size_of FO fs s (fst p) (snd p) n /\ (0 <= n)%Z /\
     ((exists l, holding FO s (fst p) (snd p) (SLit l) /\ (Z.of_nat (List.length l) <= n)%Z)
      \/ (exists y, holding FO s (fst p) (snd p) (SVal y)) /\
         (fd_name d = None /\ fd_ty d = TStr /\ fd_frmt d = FrNone
          \/ fd_name d <> None /\ exists x, content FO fs s (fst p) (snd p) x /\
             (nothing FO d x /\ of_text d /\ (n = 0%Z \/ (fd_optchar d < 256)%N)
              \/ (exists v, typed FO fs s (fst p) (snd p) x v /\ room FO d n v)
              \/ ~ nothing FO d x /\ of_bytes d /\ exists w b, plain FO x w /\ as_bytes FO w b /\ Z.of_nat (List.length b) = n))).

Lemma filled_ex l c n : (Z.of_nat (List.length l) <= n)%Z -> exists b, filled l c b /\ Z.of_nat (List.length b) = n.
Proof. intro H. exists (l ++ repeat c (Z.to_nat n - List.length l)). split; [eexists; reflexivity|]. rewrite app_length, repeat_length. lia. Qed.
Lemma filled_len l c b n : filled l c b -> Z.of_nat (List.length b) = n -> (Z.of_nat (List.length l) <= n)%Z.
Proof. intros (m & ->) H. rewrite app_length in H. lia. Qed.
Lemma filled_bytes l c b : filled l c b -> one_byte b -> one_byte l.
Proof. intros (m & ->) H. now apply Forall_app in H. Qed.
Lemma bytes_filled l b : one_byte l -> filled l 32 b -> one_byte b.
Proof. intros H (m & ->). apply Forall_app. split; [exact H|]. apply Forall_forall. intros c Hc. apply repeat_spec in Hc. subst c. reflexivity. Qed.
Lemma numeral_len n ds w : numeral n ds -> (1 <= w)%nat -> (List.length ds <= w)%nat <-> (n < 10 ^ N.of_nat w)%N.
Proof.
  intros H W. pose proof H as (D & V & NE & Z0). split.
  - intro L. rewrite <- V. eapply N.lt_le_trans; [now apply text_val_lt|]. apply N.pow_le_mono_r; lia.
  - intro L. destruct ds as [|c ds]; [cbn; lia|]. cbn [hd] in Z0. destruct (N.eq_dec c 48) as [->|C]; [rewrite (Z0 eq_refl); cbn; lia|].
    destruct (Nat.le_gt_cases (List.length (c :: ds)) w) as [G|G]; [exact G|]. exfalso. inversion_clear D as [|? ? D1 D2]. cbn [text_val List.length] in V, G.
    assert (10 ^ N.of_nat w <= 10 ^ N.of_nat (List.length ds))%N by (apply N.pow_le_mono_r; lia).
    set (t := (10 ^ N.of_nat (List.length ds))%N) in *. nia.
Qed.
Lemma int_fits_iff n z : (0 <= n)%Z -> int_fits n z <-> exists b, zero_padded (Z.to_nat n) z b /\ Z.of_nat (List.length b) = n.
Proof.
  intro N0. destruct (C16_format (Z.to_nat n) z) as (t & ZP & FT & LT & _).
  assert (E : (exists b, zero_padded (Z.to_nat n) z b /\ Z.of_nat (List.length b) = n) <-> List.length t = Z.to_nat n).
  { split; [intros (b & B & L)|intro L; exists t; split; [exact ZP|lia]]. apply zero_padded_iff in B. rewrite FT in B. subst b. lia. }
  rewrite E, LT. clear E LT ZP FT t. assert (ND := numeral_digits (Z.abs_N z)). set (ds := digits (Z.abs_N z)) in *.
  assert (E : (forall ds', numeral (Z.abs_N z) ds' -> (List.length ds' + (if (z <? 0)%Z then 1 else 0) <= Z.to_nat n)%nat) <-> (List.length ds + (if (z <? 0)%Z then 1 else 0) <= Z.to_nat n)%nat).
  { split; [intro H; now apply H|]. intros H ds' H'. now rewrite (numeral_unique _ _ H'). }
  rewrite E. clear E. assert (P : (1 <= List.length ds)%nat) by (destruct ND as (_ & _ & NE & _); destruct ds; [contradiction|cbn; lia]).
  assert (PW : forall w, Z.of_N (10 ^ N.of_nat w) = (10 ^ Z.of_nat w)%Z) by (intro w; rewrite N2Z.inj_pow, nat_N_Z; reflexivity).
  unfold int_fits. destruct (z <? 0)%Z eqn:S.
  - destruct (Z.le_gt_cases n 1) as [G|G].
    + split; [|lia]. intros [H|(_ & H)]; [lia|]. assert (n - 1 = 0 \/ n - 1 = -1)%Z as [X|X] by lia; rewrite X in H; cbn in H; lia.
    + assert (X := numeral_len _ _ (Z.to_nat n - 1) ND ltac:(lia)). specialize (PW (Z.to_nat n - 1)%nat). replace (Z.of_nat (Z.to_nat n - 1)) with (n - 1)%Z in PW by lia.
      split; [intros [H|(_ & H)]; [lia|]; assert (List.length ds <= Z.to_nat n - 1)%nat by (apply X; lia); lia|].
      intro H. right. split; [lia|]. assert (Z.abs_N z < 10 ^ N.of_nat (Z.to_nat n - 1))%N by (apply X; lia). lia.
  - destruct (Z.le_gt_cases n 0) as [G|G]; [split; lia|].
    assert (X := numeral_len _ _ (Z.to_nat n) ND ltac:(lia)). specialize (PW (Z.to_nat n)). replace (Z.of_nat (Z.to_nat n)) with n in PW by lia.
    split; [intros [(H & _)|H]; [|lia]; assert (List.length ds <= Z.to_nat n)%nat by (apply X; lia); lia|].
    intro H. left. assert (Z.abs_N z < 10 ^ N.of_nat (Z.to_nat n))%N by (apply X; lia). lia.
Qed.
Lemma room_iff FO d n v : (0 <= n)%Z -> room FO d n v <-> exists b, formatted FO d n v b /\ one_byte b /\ Z.of_nat (List.length b) = n.
Proof.
  intro N0. split.
  - intros [(t & -> & T & F & L & O)|[(z & -> & T & H)|(x & t & fsp & -> & T & F & E & L & O)]].
    + destruct (filled_ex t 32 n L) as (b & B & LB). exists b. split; [now apply fm_str with (t := t)|]. split; [now apply (bytes_filled t)|exact LB].
    + assert (O : forall b, formatted FO d n (VInt z) b -> one_byte b).
      { assert (DG : forall ds m, numeral m ds -> one_byte ds). { intros ds m (D & _). eapply Forall_impl; [|exact D]. cbv beta. intros c Hc. lia. }
        assert (RP : forall c m, (c < 256)%N -> one_byte (repeat c m)). { intros c m Hc. apply Forall_forall. intros c' H'. apply repeat_spec in H'. now subst c'. }
        assert (SG : forall df, one_byte (if (z <? 0)%Z then [45%N] else if df_plus df then [43%N] else [])).
        { intro df. destruct (z <? 0)%Z; [|destruct (df_plus df)]; repeat constructor. }
        intros b B. inversion B as [|z' b' _ _ P| df z' b' _ _ P| |]; subst.
        - apply zero_padded_iff in P. assert (P' := proj2 (printed_iff (dfmt_zero (Z.to_nat n)) z b) P). destruct P' as (sg & ds & m & D & -> & -> & _). cbn [df_left df_zero dfmt_zero].
          apply Forall_app. split; [apply (SG (dfmt_zero 0))|]. apply Forall_app. split; [now apply RP|eapply DG; eauto].
        - destruct P as (sg & ds & m & D & -> & -> & _). destruct (df_left df); [|destruct (df_zero df)]; repeat (apply Forall_app; split); first [apply SG|now apply RP|eapply DG; eauto]. }
      destruct H as [(F & H)|(df & ds & F & D & H)].
      * apply int_fits_iff in H as (b & B & L); [|exact N0]. exists b. assert (X : formatted FO d n (VInt z) b) by now apply fm_int. auto.
      * exists (fmt_d df z). assert (P : printed df z (fmt_d df z)) by now apply printed_iff. assert (X : formatted FO d n (VInt z) (fmt_d df z)) by now apply fm_intf with (df := df).
        split; [exact X|]. split; [now apply O|]. destruct P as (sg & ds' & m & D' & -> & _ & L). rewrite L. rewrite (numeral_unique _ _ D'), <- (numeral_unique _ _ D).
        rewrite H. destruct (z <? 0)%Z; [|destruct (df_plus df)]; cbn [List.length orb]; lia.
    + destruct (filled_ex t 32 n L) as (b & B & LB). exists b. split; [|split; [now apply (bytes_filled t)|exact LB]]. destruct F as [(F & ->)|F].
      * eapply fm_float; eauto.
      * eapply fm_floatf; eauto.
  - intros (b & B & O & L). destruct B as [t b T F B|z b T F B|df z b T F B|x t b T F E B|fsp x t b T F E B].
    + left. exists t. repeat split; auto; [eapply filled_len; eauto|eapply filled_bytes; eauto].
    + right. left. exists z. repeat split; auto. left. split; [exact F|]. apply int_fits_iff; eauto.
    + right. left. exists z. repeat split; auto. right. destruct B as (sg & ds & m & D & -> & _ & LB). exists df, ds. split; [exact F|]. split; [exact D|]. rewrite <- L, LB.
      destruct (z <? 0)%Z; [|destruct (df_plus df)]; cbn [List.length orb]; lia.
    + right. right. exists x, t, (FsFit n). repeat split; auto; [eapply filled_len; eauto|eapply filled_bytes; eauto].
    + right. right. exists x, t, fsp. repeat split; auto; [eapply filled_len; eauto|eapply filled_bytes; eauto].
Qed.
Lemma fits_iff FO fs s p : fits FO fs s p <-> exists b, written FO fs s p b.
Proof.
  destruct p as [f k]. unfold fits, written. cbn [fst snd]. split.
  - intros [C|(C & n & S & N0 & H)]; [exists []; auto|].
    cut (exists b, encoded FO fs s f k n b /\ Z.of_nat (List.length b) = n). { intros (b & B & L). exists b. right. split; [exact C|]. exists n. auto. }
    destruct H as [(l & Hl & L)|((y & Hy) & [(NM & T & F)|(NM & x & X & [(NO & T & O)|[(v & V & R)|(NO & T & w & b & P & A & L)]])])].
    + destruct (filled_ex l 32 n L) as (b & B & LB). exists b. split; [eapply ec_literal; eauto|exact LB].
    + assert (R : room FO (f_d f) n (VStr [])) by (left; exists []; repeat split; auto; constructor).
      apply room_iff in R as (b & B & O & L); [|exact N0]. exists b. split; [eapply ec_reserved; eauto|exact L].
    + exists (repeat (fd_optchar (f_d f)) (Z.to_nat n)). split; [|rewrite repeat_length; lia]. eapply ec_none; eauto.
      apply Forall_forall. intros c Hc. destruct O as [->|O]; [cbn in Hc; contradiction|]. apply repeat_spec in Hc. now subst c.
    + apply room_iff in R as (b & B & O & L); [|exact N0]. exists b. split; [eapply ec_text; eauto|exact L].
    + exists b. split; [eapply ec_bytes; eauto|exact L].
  - intros (b & [(C & _)|(C & n & S & L & B)]); [now left|right]. split; [exact C|]. exists n. split; [exact S|]. split; [lia|].
    assert (N0 : (0 <= n)%Z) by lia.
    destruct B as [l b Hl F|y b Hy NM F O|y x m Hy NM X NO T O|y x v b Hy NM X V F O|y x w b Hy NM X NO P T A].
    + left. exists l. split; [exact Hl|]. eapply filled_len; eauto.
    + right. split; [eauto|]. left. inversion F; subst. auto.
    + right. split; [eauto|]. right. split; [exact NM|]. exists x. split; [exact X|]. left. split; [exact NO|]. split; [exact T|]. rewrite repeat_length in L.
      destruct m as [|m]; [left; lia|right]. cbn [repeat] in O. now inversion O.
    + right. split; [eauto|]. right. split; [exact NM|]. exists x. split; [exact X|]. right. left. exists v. split; [exact V|]. apply room_iff; eauto.
    + right. split; [eauto|]. right. split; [exact NM|]. exists x. split; [exact X|]. right. right. repeat split; auto. exists w, b. auto.
Qed.

(** A structure can be written exactly if its loop counts have values and everything in it
    fits its field. *)
Theorem C55_fits FO rows (s : state FO) : wf_rows rows = true ->
  ((exists out, write FO (mk_fs rows) s = Ok out) <->
   exists ps, unrolled_all FO (mk_fs rows) s (fs_items (mk_fs rows)) [] ps /\ Forall (fits FO (mk_fs rows) s) ps).
Proof.
  intro Hwf. split.
  - intros (out & H). apply C55_bytes in H as (ps & bs & U & F & _); [|exact Hwf]. exists ps. split; [exact U|].
    clear U. induction F; constructor; auto. apply fits_iff. eauto.
  - intros (ps & U & F). assert (exists bs, Forall2 (written FO (mk_fs rows) s) ps bs) as (bs & B).
    { clear U. induction F as [|p ps H F (bs & IH)]; [exists []; constructor|]. apply fits_iff in H as (b & H). exists (b :: bs). now constructor. }
    exists (List.concat bs). apply C55_bytes; eauto.
Qed.

(** *** Limits *)
Lemma more_groups_len gs : (List.length (List.concat gs) <= List.length (more_groups gs))%nat.
Proof. induction gs as [|a gs IH]; [auto|]. cbn [List.concat more_groups List.length]. rewrite !app_length. lia. Qed.
(** A number in text has room for itself. *)
Lemma int_text_fits blank l z n : int_text blank l z -> (Z.of_nat (List.length l) <= n)%Z -> int_fits n z.
Proof.
  intros (pre & sg & a & gs & post & -> & _ & _ & D & K) L. assert (LG := more_groups_len gs). rewrite !app_length in L.
  assert (A : all_digits (a ++ List.concat gs)).
  { inversion_clear D as [|? ? (_ & D1) D2]. apply Forall_app. split; [exact D1|]. clear - D2. induction D2 as [|b gs (_ & H) _ IH]; [constructor|]. cbn. apply Forall_app. split; [exact H|exact IH]. }
  assert (V := text_val_lt _ A). rewrite app_length in V.
  assert (LA : (1 <= List.length a)%nat) by (inversion_clear D as [|? ? (NE & _) _]; destruct a; [contradiction|cbn; lia]).
  set (v := text_val (a ++ List.concat gs)) in *. set (m := (List.length a + List.length (List.concat gs))%nat) in *.
  assert (VZ : (Z.of_N v < 10 ^ Z.of_nat m)%Z). { replace (10 ^ Z.of_nat m)%Z with (Z.of_N (10 ^ N.of_nat m)) by (rewrite N2Z.inj_pow, nat_N_Z; reflexivity). lia. }
  assert (P : forall j, (Z.of_nat m <= j)%Z -> (Z.of_N v < 10 ^ j)%Z). { intros j Hj. eapply Z.lt_le_trans; [exact VZ|]. apply Z.pow_le_mono_r; lia. }
  unfold int_fits. destruct K as [(_ & ->)|(-> & ->)].
  - left. split; [split; [lia|apply P; lia]|lia].
  - cbn [List.length] in L. destruct (N.eq_dec v 0) as [->|NV].
    + left. cbn. split; [split; [lia|]|lia]. apply Z.pow_pos_nonneg; lia.
    + right. split; [lia|]. rewrite Z.opp_involutive. apply P. lia.
Qed.

(** So no field of a structure that was written shows more than it has room for: a text is at
    most as long as the field, and an integer in the usual format has at most as many digits,
    one less if it is negative.  (Computed fields excepted: with a literal put there they show
    the computed value and are written as the literal.) *)
Theorem C55_range FO rows (s : state FO) out nm f k n : wf_rows rows = true -> write FO (mk_fs rows) s = Ok out ->
  refers (mk_fs rows) nm f -> valid_index FO (mk_fs rows) s f k -> condition FO (mk_fs rows) s f k true -> size_of FO (mk_fs rows) s f k n ->
  fd_value (f_d f) = None ->
  (forall t, fd_ty (f_d f) = TStr -> get FO (mk_fs rows) s nm k = Ok (VStr t) -> (Z.of_nat (List.length t) <= n)%Z)
  /\ (forall z, fd_ty (f_d f) = TInt -> fd_frmt (f_d f) = FrNone -> get FO (mk_fs rows) s nm k = Ok (VInt z) -> int_fits n z).
Proof.
  intros Hwf HW R VI C SZ NV. set (fs := mk_fs rows) in *.
  assert (L := proj1 (refers_iff fs nm f) R).
  destruct (proj1 (C55_fits FO rows s Hwf) (ex_intro _ out HW)) as (ps & U & F). apply unrolled_all_positions in U.
  assert (I : In (f, k) ps).
  { assert (If := lookup_in _ _ _ L). assert (K := positions_keys FO rows s ps f U If). apply (in_positions FO rows s ps f _ k U If K). now apply (valid_key FO fs s f _ k K). }
  rewrite Forall_forall in F. specialize (F _ I). unfold fits in F. cbn [fst snd] in F.
  assert (CU : forall c, condition FO fs s f k c -> c = true).
  { intros c Hc. apply (C51_uses FO rows s Hwf f k), cond_is_check in Hc. apply (C51_uses FO rows s Hwf f k), cond_is_check in C. congruence. }
  destruct F as [F|(_ & n' & S' & N0 & F)]; [apply CU in F; discriminate F|].
  assert (n' = n) as ->. { apply (C51_uses FO rows s Hwf f k), size_is_fsize in S'. apply (C51_uses FO rows s Hwf f k), size_is_fsize in SZ. congruence. }
  assert (SH : forall v, get FO fs s nm k = Ok v -> exists x, holding FO s f k x /\ typed FO fs s f k x v).
  { intros v G. apply C52_shows in G as (f' & R' & S); [|exact Hwf]. assert (f' = f) as -> by (apply refers_iff in R'; fold fs in R'; congruence).
    inversion S as [? ? _ C0|? ? e w ? _ _ V|? ? x ? _ _ _ X T]; subst; [apply CU in C0; discriminate C0|congruence|eauto]. }
  assert (HU : forall x y, holding FO s f k x -> holding FO s f k y -> x = y). { intros x y Hx Hy. apply holding_iff in Hx, Hy. congruence. }
  assert (RM : forall v, of_text (f_d f) -> v <> VNone -> (exists y, holding FO s f k (SVal y)) -> get FO fs s nm k = Ok v -> room FO (f_d f) n v).
  { intros v T NE (y & Hy) G. destruct (SH v G) as (x & X & TV). assert (x = SVal y) as -> by now apply HU. 
    destruct F as [(l & Hl & _)|(_ & [(NM & _)|(NM & x' & X' & H)])].
    - assert (E := HU _ _ Hl Hy). discriminate E.
    - destruct R as (b0 & a0 & _ & NM' & _). congruence.
    - unfold content in X'. rewrite NV in X'. assert (x' = SVal y) as -> by now apply HU. apply (typed_text FO rows s Hwf f k _ _ T) in TV. destruct H as [(NO & _)|[(v' & TV' & RM)|(NO & TB & _)]].
      + rewrite (convert_nothing FO _ _ NO) in TV. congruence.
      + apply (typed_text FO rows s Hwf f k _ _ T) in TV'. congruence.
      + exfalso. destruct T as [T|[T|T]], TB as [TB|(dk & TB)]; congruence. }
  assert (LH : forall v, get FO fs s nm k = Ok v -> (exists y, holding FO s f k (SVal y)) \/ exists l, (Z.of_nat (List.length l) <= n)%Z /\ typed FO fs s f k (SLit l) v).
  { intros v G. destruct (SH v G) as (x & X & TV). destruct x as [y|l]; [left; eauto|right]. exists l. split; [|exact TV].
    destruct F as [(l' & Hl & LL)|((y & Hy) & _)]; [|assert (E := HU _ _ X Hy); discriminate E]. assert (E := HU _ _ X Hl). injection E as ->. exact LL. }
  split.
  - intros t T G. destruct (LH _ G) as [Y|(l & LL & TV)].
    + apply RM in G; [|now left|discriminate|exact Y]. destruct G as [(t' & E & _ & _ & LT & _)|[(z & E & _)|(x & t' & fsp & E & _)]]; try discriminate E. injection E as ->. exact LT.
    + inversion TV as [|? ? ? w t' r _ P _ A S| | | | | |]; subst; try congruence.
      destruct P as [P|(b & P & ->)]; [discriminate P|]. injection P as ->. apply as_text_iff in A. cbn [conv_str] in A. subst t'.
      destruct S as (e & -> & _). rewrite app_length in LL. lia.
  - intros z T FN G. destruct (LH _ G) as [Y|(l & LL & TV)].
    + apply RM in G; [|right; now left|discriminate|exact Y]. destruct G as [(t' & E & _)|[(z' & E & _ & [(_ & H)|(df & ds & FD & _)])|(x & t' & fsp & E & _)]]; try discriminate E; [injection E as ->; exact H|congruence].
    + inversion TV as [| |? ? ? w z' _ P _ A| | | | |]; subst; try congruence.
      destruct P as [P|(b & P & ->)]; [discriminate P|]. injection P as ->.
      destruct A as [A|[(t & A & _)|[(t & A & H)|(x & A & _)]]]; try discriminate A.
      * destruct A as [A|[(A & _)|(A & _)]]; discriminate A.
      * injection A as ->. eapply int_text_fits; eauto.
Qed.

(** For a field of fixed size outside of nested loops: whatever index it is read at. *)
Theorem C55_limit FO rows (s : state FO) out nm f n : wf_rows rows = true -> write FO (mk_fs rows) s = Ok out ->
  refers (mk_fs rows) nm f -> (List.length (f_loops f) <= 1)%nat -> fd_value (f_d f) = None ->
  fd_size (f_d f) = SzInt n -> fd_size_offset (f_d f) = 0%Z ->
  (forall k t, fd_ty (f_d f) = TStr -> get FO (mk_fs rows) s nm k = Ok (VStr t) -> (Z.of_nat (List.length t) <= n)%Z)
  /\ (forall k z, fd_ty (f_d f) = TInt -> fd_frmt (f_d f) = FrNone -> get FO (mk_fs rows) s nm k = Ok (VInt z) -> int_fits n z).
Proof.
  intros Hwf HW R D NV SZ OF. set (fs := mk_fs rows) in *.
  assert (S : forall k, size_of FO fs s f k n). { intro k. eapply sz_int; [exact SZ|]. rewrite OF. lia. }
  assert (K : forall k v, get FO fs s nm k = Ok v -> v <> VNone -> valid_index FO fs s f k /\ condition FO fs s f k true).
  { intros k v G NE. apply C52_shows in G as (f' & R' & H); [|exact Hwf]. assert (f' = f) as -> by (apply refers_iff in R', R; fold fs in R'; congruence).
    assert (IR : in_range_of FO fs s f k /\ condition FO fs s f k true) by (inversion H; subst; [contradiction|split; assumption|split; assumption]).
    destruct IR as (IR & C). split; [|exact C]. clear - IR D Hwf. inversion IR as [? E|? outer sh lead i m E L CT I]; subst.
    - split; [now rewrite E|]. rewrite E. intros j Hj. cbn in Hj. lia.
    - assert (outer = []) as ->. { rewrite E, app_length in D. cbn in D. destruct outer; [reflexivity|cbn in D; lia]. }
      destruct lead; [|discriminate L]. cbn [app] in *. split; [now rewrite E|]. rewrite E. intros j Hj. destruct j as [|j]; [|cbn in Hj; lia].
      cbn [firstn nth]. exists m. split; [|exact I]. now apply (C51_uses FO rows s Hwf f []). }
  split.
  - intros k t T G. destruct (K k _ G) as (V & C); [discriminate|]. eapply (C55_range FO rows s out nm f k n); eauto.
  - intros k z T FN G. destruct (K k _ G) as (V & C); [discriminate|]. eapply (C55_range FO rows s out nm f k n); eauto.
Qed.

(** A small case: three numbers of two characters, one negative.  A negative number of two
    digits, a longer text and a character that is not one byte do not fit. *)
Example ex_c55 FO : write FO (mk_fs expr_rows) (expr_state FO) = Ok (str "003AB  00-700")
  /\ (exists ps, unrolled_all FO (mk_fs expr_rows) (expr_state FO) (fs_items (mk_fs expr_rows)) [] ps /\ Forall (fits FO (mk_fs expr_rows) (expr_state FO)) ps)
  /\ ~ (exists ps, unrolled_all FO (mk_fs expr_rows) (set_val FO (expr_state FO) 2 [0%Z] (SVal (VInt (-10)))) (fs_items (mk_fs expr_rows)) [] ps /\ Forall (fits FO (mk_fs expr_rows) (set_val FO (expr_state FO) 2 [0%Z] (SVal (VInt (-10))))) ps)
  /\ (exists ps, unrolled_all FO (mk_fs expr_rows) (set_val FO (expr_state FO) 2 [0%Z] (SVal (VInt 99))) (fs_items (mk_fs expr_rows)) [] ps /\ Forall (fits FO (mk_fs expr_rows) (set_val FO (expr_state FO) 2 [0%Z] (SVal (VInt 99)))) ps)
  /\ ~ (exists ps, unrolled_all FO (mk_fs expr_rows) (set_val FO (expr_state FO) 1 [] (SVal (VStr (str "ABCDE")))) (fs_items (mk_fs expr_rows)) [] ps /\ Forall (fits FO (mk_fs expr_rows) (set_val FO (expr_state FO) 1 [] (SVal (VStr (str "ABCDE"))))) ps)
  /\ ~ (exists ps, unrolled_all FO (mk_fs expr_rows) (set_val FO (expr_state FO) 1 [] (SVal (VStr [8364%N]))) (fs_items (mk_fs expr_rows)) [] ps /\ Forall (fits FO (mk_fs expr_rows) (set_val FO (expr_state FO) 1 [] (SVal (VStr [8364%N])))) ps).
Proof.
  assert (W : wf_rows expr_rows = true) by (vm_compute; reflexivity).
  split; [vm_compute; reflexivity|]. repeat split; rewrite <- (C55_fits FO expr_rows _ W); try (intros (out & H); vm_compute in H; discriminate H); eexists; vm_compute; reflexivity.
Qed.

Print Assumptions C55_bytes.
Print Assumptions C55_fits.
Print Assumptions C55_range.
Print Assumptions C55_limit.
