(** Property C42: the tables shipped with the library. *)
From Verif Require Import Base BaseLemmas Engine Wf EngineLemmas Codec RoundTrip Rewrite Decimal DecimalFit
  Spec Reach P_RoundTrip DescsHdr DescsDes DescsTre DescsTre2.
From Coq Require Import ZifyBool ZifyNat.
Open Scope list_scope.

(** Every description of a class of the library (all but TreILLUMA, which has none: its fields
    live in an XML text). *)
Definition shipped : list (string * list row) := all_DescsHdr ++ all_DescsDes ++ all_DescsTre ++ all_DescsTre2.

(** [nm], used with the first [m] of [i] available indices of [f], is a field before [f], in the
    same [m] outermost loops, which is always there and whose text gives back its value. *)
Definition resolves (fs : fstruct) (f : field) (i : nat) (nm : string) (m : nat) : Prop :=
  exists g, lookup fs nm = Some g /\ (f_id g < f_id f)%nat /\ (m <= i)%nat
    /\ f_loops g = firstn m (f_loops f) /\ List.length (f_loops g) = m
    /\ fd_optional (f_d g) = false /\ fd_ty (f_d g) <> TFloat /\ fd_ty (f_d g) <> TData KFloat
    /\ fd_ty (f_d g) <> TData KExt.

(** The condition, size and value of a field, and the counts of the loops around it. *)
Definition refers_well (fs : fstruct) (f : field) : Prop :=
  (forall e, fd_cond (f_d f) = Some e \/ fd_size (f_d f) = SzExpr e \/ fd_value (f_d f) = Some e ->
     forall nm m, In (nm, m) (expr_refs e) -> resolves fs f (List.length (f_loops f)) nm m)
  /\ (forall i sh, nth_error (f_loops f) i = Some sh ->
        forall nm m, In (nm, m) (expr_refs sh) -> resolves fs f i nm m).

(** *** Decision of the above *)

Fixpoint expr_eqb (a b : expr) : bool :=
  match a, b with
  | EInt x, EInt y => Z.eqb x y
  | EFld n m, EFld n' m' => String.eqb n n' && Nat.eqb m m'
  | EAdd a b, EAdd a' b' | ESub a b, ESub a' b' | EMul a b, EMul a' b' | EFloorDiv a b, EFloorDiv a' b'
  | EHalfMul a b, EHalfMul a' b' | EBitAnd a b, EBitAnd a' b' => expr_eqb a a' && expr_eqb b b'
  | EIf c a b, EIf c' a' b' => expr_eqb c c' && expr_eqb a a' && expr_eqb b b'
  | EIntOf a, EIntOf a' | ERstrip a, ERstrip a' => expr_eqb a a'
  | EStr x, EStr y => list_eqb x y
  | EAnd a b, EAnd a' b' => expr_eqb a a' && expr_eqb b b'
  | ECmp o a b, ECmp o' a' b' =>
      match o, o' with CEq, CEq | CNe, CNe | CLt, CLt | CLe, CLe | CGt, CGt | CGe, CGe => true | _, _ => false end
      && expr_eqb a a' && expr_eqb b b'
  | _, _ => false
  end.
Lemma expr_eqb_eq a : forall b, expr_eqb a b = true -> a = b.
Proof.
  induction a; intros [] H; try discriminate; cbn [expr_eqb] in H;
    repeat match goal with
           | H : _ && _ = true |- _ => apply andb_true_iff in H as [? ?]
           | H : Z.eqb _ _ = true |- _ => apply Z.eqb_eq in H
           | H : Nat.eqb _ _ = true |- _ => apply Nat.eqb_eq in H
           | H : String.eqb _ _ = true |- _ => apply String.eqb_eq in H
           | H : list_eqb _ _ = true |- _ => apply list_eqb_spec in H
           | H : expr_eqb _ _ = true, IH : forall b, expr_eqb ?a b = true -> ?a = b |- _ => apply IH in H
           end; subst; try reflexivity.
  all: idtac. match goal with |- ECmp ?a _ _ = ECmp ?b _ _ => destruct a, b; congruence end.
Qed.

Fixpoint exprs_eqb (a b : list expr) : bool :=
  match a, b with
  | [], [] => true
  | x :: a', y :: b' => expr_eqb x y && exprs_eqb a' b'
  | _, _ => false
  end.
Lemma exprs_eqb_eq a : forall b, exprs_eqb a b = true -> a = b.
Proof.
  induction a as [|x a IH]; intros [|y b] H; try discriminate; [reflexivity|]. cbn [exprs_eqb] in H.
  apply andb_true_iff in H as [H1 H2]. apply expr_eqb_eq in H1. apply IH in H2. congruence.
Qed.

Definition resolvesb (fs : fstruct) (f : field) (i : nat) (r : string * nat) : bool :=
  match lookup fs (fst r) with
  | Some g => (f_id g <? f_id f)%nat && (snd r <=? i)%nat && exprs_eqb (f_loops g) (firstn (snd r) (f_loops f))
              && Nat.eqb (List.length (f_loops g)) (snd r) && exact g
  | None => false
  end.
Lemma resolvesb_ok fs f i nm m : resolvesb fs f i (nm, m) = true -> resolves fs f i nm m.
Proof.
  unfold resolvesb, resolves. cbn [fst snd]. destruct (lookup fs nm) as [g|]; [|discriminate].
  rewrite !andb_true_iff. intros [[[[H1 H2] H3] H4] H5]. exists g. apply exprs_eqb_eq in H3.
  unfold exact in H5. apply andb_true_iff in H5 as [H5 H6]. apply negb_true_iff in H5.
  repeat split; auto; try lia; intro E; rewrite E in H6; discriminate.
Qed.

Fixpoint loops_ok (fs : fstruct) (f : field) (i : nat) (l : list expr) : bool :=
  match l with
  | [] => true
  | sh :: l' => forallb (resolvesb fs f i) (expr_refs sh) && loops_ok fs f (S i) l'
  end.
Lemma loops_ok_nth fs f l : forall i j sh, loops_ok fs f i l = true -> nth_error l j = Some sh ->
  forallb (resolvesb fs f (i + j)) (expr_refs sh) = true.
Proof.
  induction l as [|e l IH]; intros i j sh H Hn; [destruct j; discriminate|]. cbn [loops_ok] in H.
  apply andb_true_iff in H as [H1 H2]. destruct j as [|j]; cbn [nth_error] in Hn.
  - injection Hn as <-. now rewrite Nat.add_0_r.
  - specialize (IH (S i) j sh H2 Hn). now rewrite Nat.add_succ_r.
Qed.

Definition refers_wellb (fs : fstruct) (f : field) : bool :=
  forallb (resolvesb fs f (List.length (f_loops f))) (own_refs f) && loops_ok fs f 0 (f_loops f).
Lemma refers_wellb_ok fs f : refers_wellb fs f = true -> refers_well fs f.
Proof.
  unfold refers_wellb, own_refs. rewrite andb_true_iff. intros [H1 H2]. split.
  - rewrite !forallb_app, !andb_true_iff in H1. destruct H1 as (A & B & C). intros e He nm m Hm. apply resolvesb_ok.
    destruct He as [He|[He|He]]; rewrite He in *; cbn [opt_refs size_refs] in *;
      (eapply forallb_forall; [|exact Hm]); assumption.
  - intros i sh Hi nm m Hm. apply resolvesb_ok. eapply loops_ok_nth in H2; [|exact Hi]. cbn in H2.
    eapply forallb_forall in H2; [exact H2|exact Hm].
Qed.

(** *** The theorems *)

Theorem C42_scope : forall cls rows, In (cls, rows) shipped ->
  forall f, In f (fs_fields (mk_fs rows)) -> refers_well (mk_fs rows) f.
Proof.
  assert (H : forallb (fun p => forallb (refers_wellb (mk_fs (snd p))) (fs_fields (mk_fs (snd p)))) shipped = true)
    by (vm_compute; reflexivity).
  intros cls rows Hin f Hf. rewrite forallb_forall in H. specialize (H _ Hin). cbn [snd] in H.
  rewrite forallb_forall in H. now apply refers_wellb_ok, H.
Qed.

(** The hypotheses of the generic theorems. *)
Lemma shipped_wf : forall cls rows, In (cls, rows) shipped -> wf_rows rows = true /\ ext_sized (mk_fs rows) = true.
Proof.
  assert (H : forallb (fun p => wf_rows (snd p) && ext_sized (mk_fs (snd p))) shipped = true) by (vm_compute; reflexivity).
  intros cls rows Hin. rewrite forallb_forall in H. specialize (H _ Hin). cbn [snd] in H. now apply andb_true_iff in H.
Qed.

(** What C01, C03 and C05 say of each of them. *)
Theorem C42_round_trip : forall cls rows, In (cls, rows) shipped ->
  forall FO, FloatLaws FO -> forall (st s0 : state FO) b, literals_ok FO (mk_fs rows) st ->
    write FO (mk_fs rows) st = Ok b ->
    (forall lit rest, exists st1, read FO (mk_fs rows) lit s0 (b ++ rest) = Ok (st1, rest)
      /\ forall nm f k v, lookup (mk_fs rows) nm = Some f -> valid_index FO (mk_fs rows) st f k ->
          get FO (mk_fs rows) st nm k = Ok v ->
          exists v' sz, get FO (mk_fs rows) st1 nm k = Ok v'
            /\ (v' = v \/ size_is FO (mk_fs rows) st f k sz /\ survives FO (f_d f) sz v v'))
    /\ forall p q lit, b = p ++ q -> q <> [] -> exists e, read FO (mk_fs rows) lit s0 p = Err e.
Proof.
  intros cls rows Hin FO laws st s0 b HL HW. destruct (shipped_wf cls rows Hin) as [Hwf _]. split.
  - intros lit rest. destruct (C01_round_trip FO rows st s0 lit b rest laws Hwf HL HW) as (st1 & A & _ & B). eauto.
  - intros p q lit -> Hq. exact (C05_truncated FO rows st p q laws Hwf HL HW Hq lit s0).
Qed.

Theorem C42_rewrite : forall cls rows, In (cls, rows) shipped ->
  forall (st s0 st1 : state DecF) b rest rest',
    no_literals DecF (mk_fs rows) st -> no_fill_text DecF (mk_fs rows) st -> reachable DecF rows s0 ->
    write DecF (mk_fs rows) st = Ok b ->
    read DecF (mk_fs rows) false s0 (b ++ rest) = Ok (st1, rest') ->
    write DecF (mk_fs rows) st1 = Ok b.
Proof.
  intros cls rows Hin st s0 st1 b rest rest' H1 H2 H3 HW HR. destruct (shipped_wf cls rows Hin) as [Hwf He].
  exact (C03_rewrite_identical_decimal rows st s0 st1 b rest rest' He Hwf H1 H2 H3 HW HR).
Qed.

(** Names: unique in all tables but two. *)
Definition names (rows : list row) : list string :=
  flat_map (fun f => match fd_name (f_d f) with Some n => [n] | None => [] end) (fs_fields (mk_fs rows)).

Fixpoint nodupb (l : list string) : bool :=
  match l with [] => true | x :: l' => negb (existsb (String.eqb x) l') && nodupb l' end.
Lemma nodupb_ok l : nodupb l = true -> NoDup l.
Proof.
  induction l as [|x l IH]; intro H; [constructor|]. cbn [nodupb] in H. apply andb_true_iff in H as [H1 H2].
  constructor; auto. intro Hx. apply negb_true_iff in H1. assert (existsb (String.eqb x) l = true); [|congruence].
  apply existsb_exists. exists x. split; auto. apply String.eqb_refl.
Qed.

Theorem C42_names_partial : forall cls rows, In (cls, rows) shipped ->
  cls <> "TreSENSRB"%string -> cls <> "DesCSCSDB"%string -> NoDup (names rows).
Proof.
  assert (H : forallb (fun p => String.eqb (fst p) "TreSENSRB" || String.eqb (fst p) "DesCSCSDB" || nodupb (names (snd p))) shipped = true)
    by (vm_compute; reflexivity).
  intros cls rows Hin H1 H2. rewrite forallb_forall in H. specialize (H _ Hin). cbn [fst snd] in H.
  apply orb_true_iff in H as [H|H]; [|now apply nodupb_ok].
  apply orb_true_iff in H as [H|H]; apply String.eqb_eq in H; contradiction.
Qed.

Fixpoint occurs (x : string) (l : list string) : nat :=
  match l with [] => O | y :: l' => ((if String.eqb x y then 1 else 0) + occurs x l')%nat end.
Lemma nodup_occurs x l : NoDup l -> (occurs x l <= 1)%nat.
Proof.
  induction 1 as [|y l Hy _ IH]; cbn [occurs]; [lia|]. destruct (String.eqb x y) eqn:E; [|lia].
  apply String.eqb_eq in E. subst y. replace (occurs x l) with O; [lia|].
  clear IH. induction l as [|z l IH]; [reflexivity|]. cbn [occurs]. destruct (String.eqb x z) eqn:E.
  - apply String.eqb_eq in E. subst z. exfalso. apply Hy. now left.
  - apply IH. intro. apply Hy. now right.
Qed.

(** [pixel_reference_value] of SENSRB names 28 fields, [tsrc] of CSCSDB two. *)
Theorem C42_names_refuted :
  (exists rows, In ("TreSENSRB"%string, rows) shipped /\ ~ NoDup (names rows))
  /\ (exists rows, In ("DesCSCSDB"%string, rows) shipped /\ ~ NoDup (names rows)).
Proof.
  split.
  - exists desc_TreSENSRB. split; [unfold shipped; rewrite !in_app_iff; do 3 right; cbn; tauto|].
    intro H. apply (nodup_occurs "pixel_reference_value") in H.
    assert (E : occurs "pixel_reference_value" (names desc_TreSENSRB) = 28%nat) by (vm_compute; reflexivity). lia.
  - exists desc_DesCSCSDB. split; [unfold shipped; rewrite !in_app_iff; right; left; cbn; tauto|].
    intro H. apply (nodup_occurs "tsrc") in H.
    assert (E : occurs "tsrc" (names desc_DesCSCSDB) = 2%nat) by (vm_compute; reflexivity). lia.
Qed.

(** The consequence for SENSRB: with a pixel reference of type "06a" the value is written, but
    cannot be assigned, since the name stands for the value of type "10c". *)
Definition sensrb_ops : list (string * list Z * sval DecF) :=
  [("pixel_referenced_data_sets"%string, [], SVal (VInt 1));
   ("pixel_reference_type"%string, [0%Z], SVal (VStr (str "06a")));
   ("pixel_reference_count"%string, [0%Z], SVal (VInt 1))].
Theorem C42_sensrb_refuted :
  let fs := mk_fs desc_TreSENSRB in
  let st := Assign.assign_all DecF desc_TreSENSRB (init_state DecF) sensrb_ops in
  exists out f, write DecF fs st = Ok out /\ In f (fs_fields fs)
    /\ fd_name (f_d f) = Some "pixel_reference_value"%string
    /\ check_condition DecF (G DecF fs st) fs f [0; 0]%Z = Ok true
    /\ snd (set DecF fs st "pixel_reference_value" [0; 0]%Z (SVal (VInt 7))) = Err ERuntime.
Proof.
  intros fs st.
  assert (E : existsb (fun f => match fd_name (f_d f) with Some n => String.eqb n "pixel_reference_value" | None => false end
    && match check_condition DecF (G DecF fs st) fs f [0; 0]%Z with Ok b => b | _ => false end) (fs_fields fs) = true)
    by (vm_compute; reflexivity).
  apply existsb_exists in E as (f & Hf & HE). apply andb_true_iff in HE as [H1 H2].
  assert (C : is_ok (write DecF fs st) = true) by (vm_compute; reflexivity).
  destruct (write DecF fs st) as [out|e] eqn:W; [clear C|discriminate C].
  assert (S : snd (set DecF fs st "pixel_reference_value" [0; 0]%Z (SVal (VInt 7))) = Err ERuntime) by (vm_compute; reflexivity).
  clearbody st. clearbody fs.
  exists out, f. split; [reflexivity|]. split; [exact Hf|]. destruct (fd_name (f_d f)) as [n|]; [|discriminate].
  apply String.eqb_eq in H1. subst n. split; [reflexivity|].
  destruct (check_condition _ _ _ _ _) as [[]|]; try discriminate. split; [reflexivity|exact S].
Qed.

(** The list, and two tables of it. *)
Example C42_case :
  List.length shipped = 49%nat /\ In ("TreICHIPB"%string, desc_TreICHIPB) shipped
  /\ is_ok (write DecF (mk_fs desc_TreICHIPB) (init_state DecF)) = true
  /\ List.length (names desc_NitfImageSubheader) = 62%nat.
Proof. split; [reflexivity|]. split; [apply (nth_error_In _ 26); reflexivity|]. vm_compute. split; reflexivity. Qed.

Print Assumptions C42_scope.
Print Assumptions C42_round_trip.
Print Assumptions C42_rewrite.
Print Assumptions C42_names_partial.
Print Assumptions C42_names_refuted.
Print Assumptions C42_sensrb_refuted.
