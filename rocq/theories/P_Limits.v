(** Limits that follow from C55: how much a file (C25), an associated DES (C38) and a CSEXRB
    TRE (C54) can hold. *)
From Verif Require Import Base BaseLemmas Engine Wf EngineLemmas Codec RoundTrip Rewrite Literal
  Positions Keys Deps Assign Update TextSpec Spec Decimal DescsHdr DescsTre TrePlace Scalar Security File FileLemmas P_File Assoc P_Assoc Csexrb P_Csexrb P_Codec P_Expr P_Fits.
From Coq Require Import ZifyBool ZifyNat ZifyN.
Open Scope list_scope.
Ltac Zify.zify_post_hook ::= idtac.

(** Field [nm] has [n] characters, no computed value, no format of its own, and is in one loop
    at most. *)
Definition is_fixed (fs : fstruct) (nm : string) (n : Z) (text : bool) : bool :=
  match lookup fs nm with
  | Some f => Nat.leb (List.length (f_loops f)) 1
      && match fd_value (f_d f) with None => true | _ => false end
      && match fd_size (f_d f) with SzInt m => Z.eqb m n | _ => false end
      && Z.eqb (fd_size_offset (f_d f)) 0
      && match fd_ty (f_d f) with TStr => text | TInt => negb text | _ => false end
      && match fd_frmt (f_d f) with FrNone => true | _ => false end
  | None => false
  end.
Lemma fixed_limit FO rows (s : state FO) out nm n (b : bool) : wf_rows rows = true -> write FO (mk_fs rows) s = Ok out -> is_fixed (mk_fs rows) nm n b = true ->
  if b then forall k t, get FO (mk_fs rows) s nm k = Ok (VStr t) -> (Z.of_nat (List.length t) <= n)%Z
  else forall k z, get FO (mk_fs rows) s nm k = Ok (VInt z) -> int_fits n z.
Proof.
  intros Hwf HW F. unfold is_fixed in F. destruct (lookup (mk_fs rows) nm) as [f|] eqn:L; [|discriminate F].
  apply andb_true_iff in F as [F FR]. apply andb_true_iff in F as [F TY]. apply andb_true_iff in F as [F OF]. apply andb_true_iff in F as [F SZ]. apply andb_true_iff in F as [LP V].
  apply refers_iff in L. apply Nat.leb_le in LP. apply Z.eqb_eq in OF.
  assert (V' : fd_value (f_d f) = None) by (destruct (fd_value (f_d f)); [discriminate V|reflexivity]).
  assert (S' : fd_size (f_d f) = SzInt n) by (destruct (fd_size (f_d f)); [apply Z.eqb_eq in SZ; congruence|discriminate SZ]).
  assert (R' : fd_frmt (f_d f) = FrNone) by (destruct (fd_frmt (f_d f)); [reflexivity|discriminate FR|discriminate FR]).
  destruct (C55_limit FO rows s out nm f n Hwf HW L LP V' S' OF) as (A & B).
  destruct b, (fd_ty (f_d f)) eqn:T; try discriminate TY; [intros k t; apply A; reflexivity|intros k z; apply B; [reflexivity|exact R']].
Qed.

(** ** Files *)
(** How many digits the lengths of a subheader and of the data have. *)
Definition length_digits (k : kind) : Z * Z :=
  match k with KImage => (6, 10) | KGraphic => (4, 6) | KText => (4, 5) | KDes => (4, 9) | KRes => (4, 7) end%Z.
Lemma header_fixed : is_fixed (mk_fs desc_NitfFileHeader) "fl" 12 false = true /\ is_fixed (mk_fs desc_NitfFileHeader) "hl" 6 false = true
  /\ forall k, let '(num, sub, data) := header_names k in is_fixed (mk_fs desc_NitfFileHeader) num 3 false = true
       /\ is_fixed (mk_fs desc_NitfFileHeader) sub (fst (length_digits k)) false = true
       /\ is_fixed (mk_fs desc_NitfFileHeader) data (snd (length_digits k)) false = true.
Proof. split; [vm_compute; reflexivity|]. split; [vm_compute; reflexivity|]. intros [| | | |]; vm_compute; auto. Qed.
Lemma header_wf' : wf_rows desc_NitfFileHeader = true. Proof. vm_compute. reflexivity. Qed.
Lemma fits_below n m : int_fits n (Z.of_nat m) -> (Z.of_nat m < 10 ^ n)%Z.
Proof. intros [((_ & H) & _)|(H & _)]; [exact H|lia]. Qed.

(** Whatever file is written: it has at most 999 segments of each kind, with the DESs made for
    TREs that did not fit, and every length is within what the standard allows.  So writing
    never gives a file with a length that was cut off. *)
Theorem C25_limits FO E f f' bytes : linked FO f -> file_write FO E f = Ok (f', bytes) ->
  (Z.of_nat (List.length bytes) < 10 ^ 12)%Z
  /\ exists ov, Forall (overflow_des FO) ov
  /\ forall k, (List.length (nf_segs FO f' k ++ (if kind_eqb k KDes then ov else [])) <= 999)%nat
     /\ forall s, In s (nf_segs FO f' k ++ (if kind_eqb k KDes then ov else [])) ->
          exists p, segment_bytes FO k s p
            /\ (Z.of_nat (List.length (fst p)) < 10 ^ fst (length_digits k))%Z
            /\ (Z.of_nat (List.length (snd p)) < 10 ^ snd (length_digits k))%Z.
Proof.
  intros HL H. destruct (C25_header_describes_file FO E f f' bytes HL H) as (hb & pieces & ov & HW & _ & _ & FL & KN & SB & OV & _).
  destruct header_fixed as (F1 & _ & F3). unfold header_says in FL, KN.
  assert (LIM : forall nm n k m, is_fixed (mk_fs desc_NitfFileHeader) nm n false = true ->
            get FO (mk_fs desc_NitfFileHeader) (h_st (nf_hdr FO f')) nm k = Ok (VInt (Z.of_nat m)) -> (Z.of_nat m < 10 ^ n)%Z).
  { intros nm n k m F G. apply fits_below. exact (fixed_limit FO _ _ hb nm n false header_wf' HW F k _ G). }
  split; [exact (LIM _ _ _ _ F1 FL)|]. exists ov. split; [exact OV|]. intro k. specialize (KN k). specialize (F3 k). specialize (SB k).
  destruct (header_names k) as [[num sub] data]. destruct KN as (K1 & K2), F3 as (N1 & N2 & N3). split.
  - apply LIM with (1 := N1) in K1. assert (L : List.length (nf_segs FO f' k ++ (if kind_eqb k KDes then ov else [])) = List.length (pieces k)) by (clear - SB; induction SB; cbn; congruence). set (a := List.length (pieces k)) in *. set (c := List.length (nf_segs FO f' k ++ _)) in *.
    change (10 ^ 3)%Z with 1000%Z in K1. lia.
  - intros s Hs. apply In_nth_error in Hs as (j & Hj).
    assert (exists p, nth_error (pieces k) j = Some p /\ segment_bytes FO k s p) as (p & Hp & Sp).
    { clear - SB Hj. revert j Hj. revert SB. generalize (nf_segs FO f' k ++ (if kind_eqb k KDes then ov else [])). intros l0 SB. induction SB as [|x y l l' HH _ IH].
      - intros j Hj. destruct j; discriminate Hj.
      - intros [|j] Hj; [injection Hj as ->; exists y; split; [reflexivity|exact HH]|exact (IH j Hj)]. }
    destruct (K2 j p Hp) as (A & B). exists p. split; [exact Sp|]. split; eapply LIM; eauto.
Qed.

(** ** CSEXRB *)
Lemma x_fixed : is_fixed xfs "num_assoc_des" 3 false = true /\ is_fixed xfs "assoc_des_id" 36 true = true.
Proof. split; vm_compute; reflexivity. Qed.
(** A CSEXRB TRE that was written names at most 999 DESs, by at most 36 characters each. *)
Theorem C54_limits FO (s : state FO) ids out : names FO s ids -> write FO xfs s = Ok out ->
  (List.length ids <= 999)%nat /\ Forall (fun t => (List.length t <= 36)%nat) ids.
Proof.
  intros (N1 & N2) HW. destruct x_fixed as (F1 & F2). split.
  - apply (fixed_limit FO _ _ out _ _ _ xrows_wf HW F1), fits_below in N1. set (a := List.length ids) in *. change (10 ^ 3)%Z with 1000%Z in N1. lia.
  - apply Forall_forall. intros t Ht. apply In_nth_error in Ht as (i & Hi). apply N2 in Hi.
    apply (fixed_limit FO _ _ out _ _ _ xrows_wf HW F2) in Hi. lia.
Qed.

(** ** Associated DESs *)
Ltac destruct_or T := match goal with X : _ \/ _ |- _ => rewrite T in X; destruct X as [X|[X|X]]; discriminate X end.
Notation afs := (mk_fs desc_DesAssociatedUserSubheader).
Lemma a_fixed : is_fixed afs "numais" 3 true = true /\ is_fixed afs "num_assoc_elem" 3 false = true
  /\ is_fixed afs "aisdlvl" 3 false = true /\ is_fixed afs "assoc_elem_id" 36 true = true.
Proof. repeat split; vm_compute; reflexivity. Qed.
Lemma ints_all FO : forall l lv, ints FO l = Ok lv -> l = map (fun z => VInt z) lv.
Proof.
  induction l as [|v l IH]; intros lv H; [injection H as <-; reflexivity|]. cbn [ints] in H. destruct v; try discriminate H.
  apply bind_ok_elim in H as (r & Hr & H). injection H as <-. cbn. now rewrite (IH r Hr).
Qed.
Lemma texts_all FO : forall l lv, texts FO l = Ok lv -> l = map (fun z => VStr z) lv.
Proof.
  induction l as [|v l IH]; intros lv H; [injection H as <-; reflexivity|]. cbn [texts] in H. destruct v; try discriminate H.
  apply bind_ok_elim in H as (r & Hr & H). injection H as <-. cbn. now rewrite (IH r Hr).
Qed.
Lemma seq_list_gets FO s nm l : seq_list FO s nm = Ok l -> forall v, In v l -> exists k, get FO afs s nm k = Ok v.
Proof.
  unfold seq_list. destruct (lookup afs nm) as [f|]; [|discriminate]. destruct (f_loops f) as [|sh [|]]; try discriminate. intro H.
  apply bind_ok_elim in H as (n & _ & H). intros v Hv. apply In_nth_error in Hv as (i & Hi). eexists. exact (walk_gets FO s nm _ _ _ H i v Hi).
Qed.
(** The subheader of an associated DES that was written has at most 999 display levels, each
    from -99 to 999, and at most 999 associated elements, named by at most 36 characters. *)
Theorem C38_limits FO (s : state FO) lv ids out : contents FO s lv ids -> write FO afs s = Ok out ->
  (List.length lv <= 999)%nat /\ Forall (fun z => (-99 <= z <= 999)%Z) lv
  /\ (List.length ids <= 999)%nat /\ Forall (fun t => (List.length t <= 36)%nat) ids.
Proof.
  intros (C1 & C2 & C3 & C4) HW. destruct a_fixed as (F1 & F2 & F3 & F4).
  unfold aisdlvl in C1. apply bind_ok_elim in C1 as (l1 & L1 & C1). apply ints_all in C1 as ->.
  unfold assoc_elem_id in C2. apply bind_ok_elim in C2 as (l2 & L2 & C2). apply texts_all in C2 as ->.
  split; [|split; [|split]].
  - unfold numais in C3. apply bind_ok_elim in C3 as (v & G & C3). assert (X := fixed_limit FO _ _ out _ _ _ arows_wf HW F1 []). cbv beta in X.
    assert (TV : v = VNone \/ exists t, v = VStr t).
    { assert (T := proj1 numais_ty). apply C52_shows in G as (f & R & S); [|exact arows_wf]. apply refers_iff in R.
      rewrite (proj1 numais_scalar) in R. injection R as <-.
      inversion S as [|? ? e w v' _ _ _ _ Y|? ? x v' _ _ _ _ Y]; subst; [now left| |]; inversion Y; subst; eauto; try congruence; destruct_or T. }
    destruct TV as [->|(t & ->)]; [discriminate C3|]. specialize (X t G). apply as_int_iff in C3.
    destruct C3 as [[C3|[(C3 & _)|(C3 & _)]]|[(t' & C3 & H)|[(t' & C3 & _)|(y & C3 & _)]]]; try discriminate C3. injection C3 as <-.
    apply (int_text_fits _ _ _ 3) in H; [|exact X]. apply fits_below in H. set (a := List.length lv) in *. change (10 ^ 3)%Z with 1000%Z in H. lia.
  - apply Forall_forall. intros z Hz. destruct (seq_list_gets FO s _ _ L1 (VInt z)) as (k & G); [apply in_map_iff; eauto|].
    apply (fixed_limit FO _ _ out _ _ _ arows_wf HW F3) in G. unfold int_fits in G. change (10 ^ 3)%Z with 1000%Z in G. change (10 ^ (3 - 1))%Z with 100%Z in G. lia.
  - unfold nassoc in C4. apply bind_ok_elim in C4 as (v & G & C4). destruct v; try discriminate C4. injection C4 as ->.
    apply (fixed_limit FO _ _ out _ _ _ arows_wf HW F2), fits_below in G. set (a := List.length ids) in *. change (10 ^ 3)%Z with 1000%Z in G. lia.
  - apply Forall_forall. intros t Ht. destruct (seq_list_gets FO s _ _ L2 (VStr t)) as (k & G); [apply in_map_iff; eauto|].
    apply (fixed_limit FO _ _ out _ _ _ arows_wf HW F4) in G. lia.
Qed.

(** ** Cases at the limits *)
(** Whether the file with one text of [n] characters can be written. *)
Definition text_of (n : Z) FO : nfile FO :=
  append_seg FO (fst (new_file FO (sec_default FO))) KText (ex_seg FO (new_hdr FO) (DStr FO (repeat 65%N (Z.to_nat n))) []).
Example ex_c25_limits FO : linked FO (text_of 99999 FO)
  /\ match file_write FO ex_env (text_of 99999 FO) with Ok _ => true | Err _ => false end = true
  /\ match file_write FO ex_env (text_of 100000 FO) with Ok _ => true | Err _ => false end = false.
Proof.
  split; [|split; vm_compute; reflexivity]. apply linked_append; [apply linked_new|vm_compute; reflexivity].
Qed.
Definition xlong FO n := fst (ex_add_all FO [ExId (repeat 65%N n)] (init_state FO)).
Example ex_c54_limits FO : names FO (xlong FO 36) [repeat 65%N 36] /\ names FO (xlong FO 37) [repeat 65%N 37]
  /\ match write FO xfs (xlong FO 36) with Ok _ => true | Err _ => false end = true
  /\ match write FO xfs (xlong FO 37) with Ok _ => true | Err _ => false end = false.
Proof.
  assert (C : forall n t, (n = 36 \/ n = 37)%nat -> t = repeat 65%N n -> names FO (xlong FO n) [t]).
  { intros n t Hn ->. destruct (C54_added_partial FO [ExId (repeat 65%N n)] (init_state FO) []) as (s' & E & R & _); [reflexivity|apply x_new| |].
    - constructor; [|constructor]. cbn. destruct Hn as [->|Hn]; [vm_compute; reflexivity|rewrite Hn; vm_compute; reflexivity].
    - unfold xlong. rewrite E. exact R. }
  split; [apply C; auto|]. split; [apply C; auto|]. split; vm_compute; reflexivity.
Qed.
Definition alevel FO z := fst (add_all FO [AddLevel z] (init_state FO)).
Example ex_c38_limits FO : match write FO afs (alevel FO 999) with Ok _ => true | Err _ => false end = true
  /\ match write FO afs (alevel FO 1000) with Ok _ => true | Err _ => false end = false
  /\ match write FO afs (alevel FO (-99)) with Ok _ => true | Err _ => false end = true
  /\ aisdlvl FO (alevel FO 1000) = Ok [1000%Z].
Proof. split; [|split; [|split]]; vm_compute; reflexivity. Qed.

Print Assumptions C25_limits.
Print Assumptions C38_limits.
Print Assumptions C54_limits.
