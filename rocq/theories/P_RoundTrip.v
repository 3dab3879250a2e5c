(** Properties C01 - C05 and C18: writing and reading a field structure.

    Statements use [read], [write], [get], [deepcopy] of the model (Engine.v) and the vocabulary
    of Spec.v ([valid_index], [size_is], [block_is], [unrolled_all]); [FO] is any floating point
    codec satisfying [FloatLaws] (three facts about python's [float], Codec.v), and [DecF]
    (Decimal.v) is a concrete one for which they are proved. *)
From Verif Require Import Base BaseLemmas Engine Wf EngineLemmas Codec RoundTrip Rewrite Literal
  Positions Keys Deps Assign Update Spec Reach Decimal DecimalLemmas DecimalFit Ex.
From Coq Require Import ZifyBool ZifyNat ZifyN.
Open Scope list_scope.

(** C01.  [s0] is the earlier state of the object read into, [lit] the literal mode. *)
Theorem C01_round_trip FO rows (st s0 : state FO) (lit : bool) b rest :
  FloatLaws FO -> wf_rows rows = true -> literals_ok FO (mk_fs rows) st ->
  write FO (mk_fs rows) st = Ok b ->
  exists st1, read FO (mk_fs rows) lit s0 (b ++ rest) = Ok (st1, rest)
    /\ (forall f k, In f (fs_fields (mk_fs rows)) ->
          (valid_index FO (mk_fs rows) st1 f k <-> valid_index FO (mk_fs rows) st f k))
    /\ (forall nm f k v, lookup (mk_fs rows) nm = Some f -> valid_index FO (mk_fs rows) st f k ->
          get FO (mk_fs rows) st nm k = Ok v ->
          exists v' sz, get FO (mk_fs rows) st1 nm k = Ok v'
            /\ (v' = v \/ size_is FO (mk_fs rows) st f k sz /\ survives FO (f_d f) sz v v')).
Proof.
  intros laws Hwf HL HW. destruct (round_trip FO laws rows st lit HL s0 b rest Hwf HW) as (st1 & HR & HK & HG).
  exists st1. split; [exact HR|]. split.
  - intros f k Hf. destruct (HK f Hf) as (ks & K1 & K2).
    rewrite <- (valid_key FO _ st1 f ks k K2), <- (valid_key FO _ st f ks k K1). reflexivity.
  - intros nm f k v Hl Hv Hg. assert (Hf := lookup_in _ _ _ Hl). destruct (HK f Hf) as (ks & K1 & K2).
    destruct (HG nm f ks k v Hl K1) as (v' & E & Hs); auto; [now apply (valid_key FO _ st f ks k K1)|].
    destruct Hs as [->|(sz & Hsz & Hs)]; [exists v, 0%Z; auto|].
    exists v', sz. split; auto. right. split; auto. now apply size_is_fsize.
Qed.

(** With exact decimals and the default format (nitf_field.py:20-34), a float read back is
    within half a unit of the last decimal printed. *)
Theorem C01_round_trip_decimal rows (st s0 : state DecF) (lit : bool) b rest :
  wf_rows rows = true -> literals_ok DecF (mk_fs rows) st ->
  write DecF (mk_fs rows) st = Ok b ->
  exists st1, read DecF (mk_fs rows) lit s0 (b ++ rest) = Ok (st1, rest)
    /\ (forall nm f k x sz, lookup (mk_fs rows) nm = Some f -> valid_index DecF (mk_fs rows) st f k ->
          fd_ty (f_d f) = TFloat -> fd_frmt (f_d f) = FrNone ->
          get DecF (mk_fs rows) st nm k = Ok (@VFloat DecF x) ->
          size_is DecF (mk_fs rows) st f k sz ->
          exists y, get DecF (mk_fs rows) st1 nm k = Ok (@VFloat DecF y) /\
            (y = x \/ exists p t, (0 <= Z.of_nat p <= sz - 2)%Z /\ t = fmt_fixed p x
               /\ (Z.of_nat (List.length t) <= sz)%Z
               /\ (QArith_base.Qle (Qabs.Qabs (QArith_base.Qminus (dec_Q y) (dec_Q x)))
                     (QArith_base.Qmult (QArith_base.Qmake 1 2) (QArith_base.Qpower (QArith_base.Qmake 10 1) (- Z.of_nat p))))
               /\ (forall r, (p < r)%nat -> (Z.of_nat r <= sz - 2)%Z -> (sz < Z.of_nat (List.length (fmt_fixed r x)))%Z))).
Proof.
  intros Hwf HL HW. destruct (C01_round_trip DecF rows st s0 lit b rest DecF_laws Hwf HL HW) as (st1 & HR & _ & HG).
  exists st1. split; [exact HR|]. intros nm f k x sz Hl Hv HT HF Hg Hsz.
  destruct (HG nm f k _ Hl Hv Hg) as (v' & sz' & E & [->|(Hsz' & Hs)]); [eauto|].
  assert (sz' = sz) by (apply size_is_fsize in Hsz, Hsz'; congruence). subst sz'.
  destruct Hs as [->|[(x0 & t & y & _ & Ex & Ht & Hy & ->)|(t & HT' & _)]]; [eauto| |congruence].
  injection Ex as <-. exists y. split; auto. right. unfold float_spec in Ht. rewrite HF in Ht.
  change (fit_width sz x = Some t) in Ht. change (parse_float t = Some y) in Hy.
  pose proof (fit_width_best sz x) as B. rewrite Ht in B. destruct B as (p & P1 & P2 & P3 & P4 & z & P5 & P6).
  rewrite Hy in P5. injection P5 as <-. exists p, t. auto.
Qed.

(** C02. *)
Theorem C02_length FO rows (st : state FO) b :
  write FO (mk_fs rows) st = Ok b ->
  exists ps bs, unrolled_all FO (mk_fs rows) st (fs_items (mk_fs rows)) [] ps
    /\ Forall2 (block_is FO (mk_fs rows) st) ps bs /\ b = List.concat bs.
Proof.
  intro HW. apply write_blocks in HW as (ps & bs & HP & HF & ->). exists ps, bs.
  split; [now apply positions_unrolled_all|]. split; [|reflexivity].
  eapply Forall2_impl; [|exact HF]. apply block_block_is.
Qed.

(** C03.  [reachable s0]: the object read into was made by the library's own operations. *)
Theorem C03_rewrite_identical FO rows (st s0 st1 : state FO) b rest rest' :
  FloatLaws FO -> FloatStable FO (mk_fs rows) -> wf_rows rows = true ->
  no_literals FO (mk_fs rows) st -> no_fill_text FO (mk_fs rows) st -> reachable FO rows s0 ->
  write FO (mk_fs rows) st = Ok b ->
  read FO (mk_fs rows) false s0 (b ++ rest) = Ok (st1, rest') ->
  write FO (mk_fs rows) st1 = Ok b.
Proof.
  intros laws HS Hwf HL HF Hr HW HR.
  exact (rewrite_identical FO laws rows st s0 b rest st1 rest' Hwf HS HL HF (reachable_clean FO rows s0 Hr) HW HR).
Qed.

(** The float condition holds for exact decimals in every table whose named formats are used
    with fields of at most 12 bytes. *)
Theorem C03_rewrite_identical_decimal rows (st s0 st1 : state DecF) b rest rest' :
  ext_sized (mk_fs rows) = true -> wf_rows rows = true ->
  no_literals DecF (mk_fs rows) st -> no_fill_text DecF (mk_fs rows) st -> reachable DecF rows s0 ->
  write DecF (mk_fs rows) st = Ok b ->
  read DecF (mk_fs rows) false s0 (b ++ rest) = Ok (st1, rest') ->
  write DecF (mk_fs rows) st1 = Ok b.
Proof.
  intros HE Hwf HL HF Hr HW HR.
  exact (C03_rewrite_identical DecF rows st s0 st1 b rest rest' DecF_laws (DecF_stable _ HE) Hwf HL HF Hr HW HR).
Qed.

(** C04.  [bs] are the blocks consumed; each comes back unchanged, except that the blocks of
    reserved (unnamed) fields come back as blanks. *)
Theorem C04_literal FO rows (s s' : state FO) inp rest :
  wf_rows rows = true -> reachable FO rows s ->
  read FO (mk_fs rows) true s inp = Ok (s', rest) ->
  exists ps bs, unrolled_all FO (mk_fs rows) s' (fs_items (mk_fs rows)) [] ps
    /\ Forall2 (block_is FO (mk_fs rows) s') ps bs
    /\ inp = List.concat bs ++ rest
    /\ (exists bs', write FO (mk_fs rows) s' = Ok (List.concat bs')
          /\ Forall2 (fun pb b' => if fd_name (f_d (fst (fst pb))) then b' = snd pb
                                   else b' = repeat 32%N (List.length (snd pb))) (combine ps bs) bs')
    /\ ((forall p b, In (p, b) (combine ps bs) -> fd_name (f_d (fst p)) = None -> Forall (eq 32%N) b) ->
        write FO (mk_fs rows) s' = Ok (List.concat bs)).
Proof.
  intros Hwf Hr HR.
  destruct (literal_blocks FO rows s inp s' rest Hwf (reachable_clean FO rows s Hr) HR) as (ps & bs & H1 & H2 & H3 & H4).
  exists ps, bs. split; [exact H1|]. split; [exact H2|]. split; [exact H3|]. split.
  - exists (map blanked (combine ps bs)). split; [exact H4|].
    generalize (combine ps bs). intro l. induction l as [|pb l IH]; [constructor|]. cbn [map].
    constructor; [|exact IH]. unfold blanked. destruct (fd_name (f_d (fst (fst pb)))); reflexivity.
  - intro HB. rewrite H4. f_equal. apply blanked_same; [clear -H2; induction H2; cbn; congruence|].
    intros p b Hin Hn. specialize (HB p b Hin Hn). clear -HB. induction HB as [|c l <- _ IH]; cbn; congruence.
Qed.

(** C05. *)
Theorem C05_truncated FO rows (st : state FO) p q :
  FloatLaws FO -> wf_rows rows = true -> literals_ok FO (mk_fs rows) st ->
  write FO (mk_fs rows) st = Ok (p ++ q) -> q <> [] ->
  forall lit (s0 : state FO), exists e, read FO (mk_fs rows) lit s0 p = Err e.
Proof.
  intros laws Hwf HL HW Hq lit s0.
  destruct (round_trip FO laws rows st lit HL s0 (p ++ q) [] Hwf HW) as (st1 & HR & _).
  rewrite app_nil_r in HR. exact (read_prefix FO (mk_fs rows) lit s0 p q st1 HR Hq).
Qed.

(** ** Examples: each theorem on the table of Ex.v *)

Lemma ex_plain : no_literals DecF ex_fs ex_st.
Proof.
  apply (no_literals_assign_all DecF ex_rows); [apply no_literals_init|].
  repeat constructor.
Qed.
Lemma ex_literals_ok : literals_ok DecF ex_fs ex_st.
Proof. apply no_literals_ok, ex_plain. Qed.
Lemma ex_reachable : reachable DecF ex_rows ex_st.
Proof. apply assign_all_reachable, rc_init. Qed.

(** Two iterations of the outer loop, 1 and 2 of the inner one; read into a used object. *)
Example C01_case :
  let st1 := match read DecF ex_fs false ex_st (ex_bytes ++ str "tail") with
             | Ok (s, r) => if list_eqb r (str "tail") then Some s else None | _ => None end in
  match st1 with
  | Some s =>
      ex_get s "b" [0; 0]%Z = SeeDec true 31416 (-4)
      /\ ex_get ex_st "b" [0; 0]%Z = SeeDec true 314159 (-5)
      /\ ex_get s "flag" [1; 1]%Z = (SeeStr (str "xy"))
      /\ ex_get s "data" [] = (SeeByt [1; 2; 255]%N)
      /\ ex_get s "k" [] = (SeeInt (-2))
  | None => False
  end.
Proof. vm_compute. repeat split. Qed.
Example C01_case_hyps : FloatLaws DecF /\ wf_rows ex_rows = true /\ literals_ok DecF ex_fs ex_st
  /\ write DecF ex_fs ex_st = Ok ex_bytes.
Proof. split; [apply DecF_laws|]. split; [exact ex_wf|]. split; [apply ex_literals_ok|exact ex_write]. Qed.

(** 19 positions: the condition of [c] holds, [opt] is None. *)
Example C02_case : match positions DecF ex_fs ex_st with Ok ps => List.length ps = 19%nat | _ => False end
  /\ List.length ex_bytes = 66%nat.
Proof. vm_compute. split; reflexivity. Qed.

Example C03_case : ext_sized ex_fs = true /\ write DecF ex_fs ex_read = Ok ex_bytes.
Proof. vm_compute. split; reflexivity. Qed.

(** The condition on fill text is needed: a field with fill character '-' holding "" is
    written as blanks, read as None and written again as dashes. *)
Example C03_fill_text_needed :
  let s := fst (set DecF ex_fs ex_st "flag" [1; 0]%Z (SVal (VStr []))) in
  match write DecF ex_fs s with
  | Ok b => match read DecF ex_fs false (init_state DecF) b with
            | Ok (s1, []) => match write DecF ex_fs s1 with Ok b1 => b1 <> b | _ => False end
            | _ => False
            end
  | _ => False
  end.
Proof. vm_compute. intro H. discriminate H. Qed.

(** Unusual text for numbers: blanks, plus signs, a fill character followed by blanks; the reserved area
    is blank. *)
Definition odd_bytes : list N :=
  str "abc   01 +70" ++ str "1yes -- " ++ str "     +00" ++ [255; 255; 255; 254]%N.
Example C04_case :
  match read DecF ex_fs true (init_state DecF) odd_bytes with
  | Ok (s, []) => write DecF ex_fs s = Ok odd_bytes /\ ex_get s "a" [0%Z] = (SeeInt 7)
       /\ ex_get s "opt" [] = SeeNone
  | _ => False
  end.
Proof. vm_compute. repeat split. Qed.
(** Without literal mode they do not come back. *)
Example C04_literal_needed :
  match read DecF ex_fs false (init_state DecF) odd_bytes with
  | Ok (s, []) => match write DecF ex_fs s with Ok b => b <> odd_bytes | _ => False end
  | _ => False
  end.
Proof. vm_compute. intro H. discriminate H. Qed.
(** Reserved areas are not kept. *)
Example C04_reserved_needed :
  let b := str "abc   001yes ---XYZ00000" ++ [0; 0; 0; 1]%N in
  match read DecF ex_fs true (init_state DecF) b with
  | Ok (s, []) => write DecF ex_fs s = Ok (str "abc   001yes ---   00000" ++ [0; 0; 0; 1]%N)
  | _ => False
  end.
Proof. vm_compute. reflexivity. Qed.

Example C05_case : is_ok (read DecF ex_fs false (init_state DecF) (firstn 20 ex_bytes)) = false
  /\ is_ok (read DecF ex_fs true ex_st (firstn 65 ex_bytes)) = false.
Proof. vm_compute. split; reflexivity. Qed.

Print Assumptions C01_round_trip.
Print Assumptions C01_round_trip_decimal.
Print Assumptions C02_length.
Print Assumptions C03_rewrite_identical.
Print Assumptions C03_rewrite_identical_decimal.
Print Assumptions C04_literal.
Print Assumptions C05_truncated.
