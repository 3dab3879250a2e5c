(** Property C18: copies are equal and independent. *)
From Verif Require Import Base BaseLemmas Engine Wf EngineLemmas Codec RoundTrip Rewrite Decimal DecimalFit
  Spec Reach Delayed Assign Copy P_RoundTrip Ex.
From Coq Require Import ZifyBool ZifyNat.
Open Scope list_scope.

(** The copy has the same indices and the same value everywhere, up to what printing does to
    the value (as C01). *)
Theorem C18_equal FO rows (st : state FO) b :
  FloatLaws FO -> wf_rows rows = true -> literals_ok FO (mk_fs rows) st ->
  write FO (mk_fs rows) st = Ok b ->
  exists st1, deepcopy FO (mk_fs rows) st = Ok st1 /\ pickled FO (Some rows) rows st = Ok st1
    /\ (forall f k, In f (fs_fields (mk_fs rows)) ->
          (valid_index FO (mk_fs rows) st1 f k <-> valid_index FO (mk_fs rows) st f k))
    /\ (forall nm f k v, lookup (mk_fs rows) nm = Some f -> valid_index FO (mk_fs rows) st f k ->
          get FO (mk_fs rows) st nm k = Ok v ->
          exists v' sz, get FO (mk_fs rows) st1 nm k = Ok v'
            /\ (v' = v \/ size_is FO (mk_fs rows) st f k sz /\ survives FO (f_d f) sz v v')).
Proof.
  intros laws Hwf HL HW. destruct (C01_round_trip FO rows st (init_state FO) false b [] laws Hwf HL HW) as (st1 & HR & H).
  rewrite app_nil_r in HR. exists st1. unfold deepcopy, pickled. rewrite HW. cbn [bind]. rewrite HR. cbn [bind fst]. auto.
Qed.

(** It writes the same bytes. *)
Theorem C18_same_bytes FO rows (st st1 : state FO) b :
  FloatLaws FO -> FloatStable FO (mk_fs rows) -> wf_rows rows = true ->
  no_literals FO (mk_fs rows) st -> no_fill_text FO (mk_fs rows) st ->
  write FO (mk_fs rows) st = Ok b -> deepcopy FO (mk_fs rows) st = Ok st1 ->
  write FO (mk_fs rows) st1 = Ok b.
Proof.
  intros laws HS Hwf HL HF HW HD. unfold deepcopy in HD. rewrite HW in HD. cbn [bind] in HD.
  destruct (read FO (mk_fs rows) false (init_state FO) b) as [[st2 r]|] eqn:HR; [|discriminate].
  cbn [bind fst] in HD. injection HD as <-. rewrite <- (app_nil_r b) in HR.
  exact (C03_rewrite_identical FO rows st (init_state FO) st2 b [] r laws HS Hwf HL HF (rc_init FO rows) HW HR).
Qed.

(** After [x = copy.deepcopy(y)], at any point of any program: whatever follows without using
    [x] leaves the object [x] names as it is, and whatever follows using only [x] leaves every
    other object as it is. *)
Theorem C18_independent FO before (x y : nat) rows s s' :
  let c := exec_all FO (cfg0 FO) before in
  x <> y -> obj FO c y = Some (rows, s) -> deepcopy FO (mk_fs rows) s = Ok s' ->
  let c1 := fst (exec FO c (SCopy FO x y)) in
  obj FO c1 x = Some (rows, s')
  /\ (forall z, z <> x -> obj FO c1 z = obj FO c z)
  /\ (forall after, (forall st, In st after -> ~ In x (mentions FO st)) ->
        obj FO (exec_all FO c1 after) x = Some (rows, s'))
  /\ (forall after z, z <> x -> (forall st v, In st after -> In v (mentions FO st) -> v = x) ->
        obj FO (exec_all FO c1 after) z = obj FO c z).
Proof.
  intros c Hxy Hy HD c1. 
  assert (HB : bounded FO c) by (apply exec_all_bounded; intros ? ? E; discriminate E).
  assert (E1 : c1 = alloc FO c x (rows, s')) by (unfold c1; cbn [exec]; now rewrite Hy, HD).
  assert (Ex : c_env FO c1 x = Some (hp_next FO (c_heap FO c))) by (rewrite E1; cbn; now rewrite Nat.eqb_refl).
  assert (Ox : hp_obj FO (c_heap FO c1) (hp_next FO (c_heap FO c)) = Some (rows, s')) by (rewrite E1; cbn; now rewrite Nat.eqb_refl).
  assert (Ez : forall z, z <> x -> c_env FO c1 z = c_env FO c z).
  { intros z Hz. rewrite E1. cbn. now replace (Nat.eqb x z) with false by lia. }
  assert (Oa : forall a, (a < hp_next FO (c_heap FO c))%nat -> hp_obj FO (c_heap FO c1) a = hp_obj FO (c_heap FO c) a).
  { intros a Ha. rewrite E1. cbn. now replace (Nat.eqb (hp_next FO (c_heap FO c)) a) with false by lia. }
  assert (N1 : hp_next FO (c_heap FO c1) = S (hp_next FO (c_heap FO c))) by (rewrite E1; reflexivity).
  split; [unfold obj; now rewrite Ex|]. split; [|split].
  - intros z Hz. unfold obj. rewrite Ez by exact Hz. destruct (c_env FO c z) as [a|] eqn:Ea; [|reflexivity].
    apply Oa. eapply HB; eauto.
  - intros after HM.
    destruct (exec_all_apart FO (fun z => z <> x) (hp_next FO (c_heap FO c)) after c1) as [A1 A2].
    + split; [lia|]. intros z Hz. rewrite Ez by exact Hz. intro C. apply HB in C. lia.
    + intros st v Hst Hv ->. exact (HM st Hst Hv).
    + unfold obj. rewrite (A2 x) by tauto. rewrite Ex, A1. exact Ox.
  - intros after z Hz HM. unfold obj. destruct (c_env FO c z) as [a|] eqn:Ea.
    + pose proof (HB _ _ Ea) as La.
      destruct (exec_all_apart FO (fun v => v = x) a after c1) as [A1 A2].
      * split; [lia|]. intros v ->. rewrite Ex. intro C. injection C as C. lia.
      * exact HM.
      * rewrite (A2 z) by exact Hz. rewrite Ez by exact Hz. rewrite Ea, A1. apply Oa, La.
    + rewrite exec_all_env by (intros st Hst Hin; exact (Hz (HM st z Hst Hin))). rewrite Ez by exact Hz. now rewrite Ea.
Qed.

(** Pickling an object made from a description given to the constructor fails
    ([__setstate__] calls [__init__] without it). *)
Theorem C18_pickle_refuted :
  exists rows (st : state DecF), is_ok (deepcopy DecF (mk_fs rows) st) = true
    /\ is_ok (pickled DecF None rows st) = false.
Proof. exists ex_rows, ex_st. vm_compute. split; reflexivity. Qed.

(** A copy made while a delayed read is pending copies the object as it was before that read:
    [write_to_file] does not trigger it. *)
Definition delayed_copy FO fs (d : dstate FO) : res (state FO) := deepcopy FO fs (ds_st FO d).
Theorem C18_delayed_refuted :
  exists rows (d : dstate DecF) nm,
    let read_first := fst (force DecF (mk_fs rows) d) in
    see (get DecF (mk_fs rows) (ds_st DecF read_first) nm []) = SeeStr (str "abc")
    /\ match delayed_copy DecF (mk_fs rows) d with
       | Ok s => see (get DecF (mk_fs rows) s nm []) = SeeStr []
       | Err _ => False
       end.
Proof.
  exists ex_rows, {| ds_st := init_state DecF; ds_pending := Some (false, ex_bytes) |}, "id"%string.
  vm_compute. split; reflexivity.
Qed.

(** ** Examples *)

Example C18_case :
  match deepcopy DecF ex_fs ex_st with
  | Ok s => write DecF ex_fs s = Ok ex_bytes /\ ex_get s "id" [] = SeeStr (str "abc")
            /\ ex_get ex_st "b" [0; 0]%Z = SeeDec true 314159 (-5) /\ ex_get s "b" [0; 0]%Z = SeeDec true 31416 (-4)
  | Err _ => False
  end.
Proof. vm_compute. repeat split. Qed.

(** [o0 = FieldStruct(..); o0.id = "p"; o1 = deepcopy(o0); o2 = o0; o2.id = "q"]: the alias sees the
    change, the copy does not. *)
Definition ex_prog : list (stmt DecF) :=
  [SNew DecF 0 ex_rows; SSet DecF 0 "id" [] (SVal (VStr (str "p"))); SCopy DecF 1 0; SAlias DecF 2 0;
   SSet DecF 2 "id" [] (SVal (VStr (str "q")))].
Definition ex_see (c : cfg DecF) (x : nat) : seen :=
  match obj DecF c x with Some (rows, s) => see (get DecF (mk_fs rows) s "id" []) | None => SeeNone end.
Example C18_independent_case :
  let c := exec_all DecF (cfg0 DecF) ex_prog in
  ex_see c 0 = SeeStr (str "q") /\ ex_see c 1 = SeeStr (str "p") /\ ex_see c 2 = SeeStr (str "q").
Proof. vm_compute. repeat split. Qed.

Print Assumptions C18_equal.
Print Assumptions C18_same_bytes.
Print Assumptions C18_independent.
Print Assumptions C18_pickle_refuted.
Print Assumptions C18_delayed_refuted.
