(** Comparing structures: cases of the theorems of P_Diff.v, and where the full statements
    are false (C40). *)
From Verif Require Import Base BaseLemmas Engine Wf EngineLemmas Assign Decimal Ex Diff P_Diff.
From Coq Require Import QArith.
Open Scope list_scope.

(** ** Exact comparison of decimals *)

(** The number a decimal stands for. *)
Definition dec_q (x : dec) : Q :=
  let m := if d_neg x then (- Z.of_N (d_man x))%Z else Z.of_N (d_man x) in
  if (0 <=? d_ex x)%Z then inject_Z (m * 10 ^ d_ex x) else (m # Z.to_pos (10 ^ (- d_ex x))).
Definition qmax (a b : Q) : Q := if Qle_bool a b then b else a.
Definition qabs (a : Q) : Q := qmax a (- a).
(** [math.isclose]: |x - y| <= max(rel * max(|x|, |y|), abs), computed exactly; negative
    tolerances are refused. *)
Definition dec_close (rel ab : option dec) (x y : dec) : res bool :=
  let r := match rel with Some r => dec_q r | None => 1 # 1000000000 end in
  let a := match ab with Some a => dec_q a | None => 0 end in
  if Qle_bool 0 r && Qle_bool 0 a
  then Ok (Qle_bool (qabs (dec_q x - dec_q y)) (qmax (r * qmax (qabs (dec_q x)) (qabs (dec_q y))) a))
  else Err EValue.
Definition DecC : CmpOps DecF := {|
  fl_eq := fun (x y : fl DecF) => Qeq_bool (dec_q x) (dec_q y);
  fl_eq_Z := fun (x : fl DecF) z => Qeq_bool (dec_q x) (inject_Z z);
  fl_close := dec_close;
|}.

Lemma qmax_le_l a b : a <= qmax a b.
Proof. unfold qmax. destruct (Qle_bool a b) eqn:E; [now apply Qle_bool_iff|apply Qle_refl]. Qed.
Lemma qmax_le_r a b : b <= qmax a b.
Proof.
  unfold qmax. destruct (Qle_bool a b) eqn:E; [apply Qle_refl|]. apply not_true_iff_false in E. rewrite Qle_bool_iff in E.
  apply Qnot_le_lt in E. now apply Qlt_le_weak.
Qed.
Lemma qabs_zero a : a == 0 -> qabs a == 0.
Proof. intro E. unfold qabs, qmax. destruct (Qle_bool a (- a)); rewrite E; reflexivity. Qed.
Lemma dec_close_refl rel ab x : (forall r, rel = Some r -> Qle_bool 0 (dec_q r) = true) -> (forall a, ab = Some a -> Qle_bool 0 (dec_q a) = true) ->
  dec_close rel ab x x = Ok true.
Proof.
  intros Hr Ha. unfold dec_close.
  set (r := match rel with Some r => dec_q r | None => 1 # 1000000000 end). set (a := match ab with Some a => dec_q a | None => 0 end).
  assert (R : Qle_bool 0 r = true) by (unfold r; destruct rel; [now apply Hr|reflexivity]).
  assert (A : Qle_bool 0 a = true) by (unfold a; destruct ab; [now apply Ha|reflexivity]).
  rewrite R, A. cbn [andb]. f_equal. apply Qle_bool_iff. rewrite qabs_zero by ring.
  apply Qle_bool_iff in A. eapply Qle_trans; [exact A|]. apply qmax_le_r.
Qed.
(** Without tolerances of its own a configuration treats equal values as equal. *)
Lemma dec_agrees (c : config DecF) fs s : (forall nm, c_eq DecF c nm = None) -> (forall nm, c_rel DecF c nm = None) -> (forall nm, c_abs DecF c nm = None) ->
  agrees_on_equal DecF DecC c fs s.
Proof.
  intros E R A nm f k v _ _. rewrite E, R, A. split; [discriminate|]. intros x _. split; [apply Qeq_bool_iff; reflexivity|].
  apply dec_close_refl; discriminate.
Qed.

(** ** A structure read from text *)
Definition from_text (fs : fstruct) (t : list N) : state DecF :=
  match read DecF fs false (init_state DecF) t with Ok (s, _) => s | Err _ => init_state DecF end.
(** What the examples see of a comparison. *)
Definition cmp (rows : list row) (c : config DecF) (t1 t2 : string) : res (bool * list report) :=
  compare DecF DecC (mk_fs rows) (mk_fs rows) (from_text (mk_fs rows) (str t1)) (from_text (mk_fs rows) (str t2)) c.
Definition only (l : list string) : config DecF :=
  {| c_exclude := []; c_warn := []; c_include := l; c_eq := fun _ => None; c_rel := fun _ => None; c_abs := fun _ => None |}.
Definition without (l : list string) : config DecF :=
  {| c_exclude := l; c_warn := []; c_include := []; c_eq := fun _ => None; c_rel := fun _ => None; c_abs := fun _ => None |}.
Definition warned (l : list string) : config DecF :=
  {| c_exclude := []; c_warn := l; c_include := []; c_eq := fun _ => None; c_rel := fun _ => None; c_abs := fun _ => None |}.

(** The hypotheses about readability, decided. *)
Definition readable_b (fs : fstruct) (s : state DecF) (f : field) : bool :=
  match field_keys DecF fs s f with
  | Ok ks => forallb (fun k => match fget DecF fs s f k with Ok _ => true | Err _ => false end) ks
  | Err _ => false
  end.
Lemma readable_dec fs s f : readable_b fs s f = true -> readable DecF fs s f.
Proof.
  unfold readable_b, readable. destruct (field_keys DecF fs s f) as [ks|]; [|discriminate]. intro H. exists ks. split; [reflexivity|].
  rewrite forallb_forall in H. intros k I. specialize (H k I). cbv beta in H. destruct (fget DecF fs s f k) as [v|]; [eauto|discriminate].
Qed.
Lemma all_readable fs s : forallb (readable_b fs s) (fs_fields fs) = true -> forall nm f, lookup fs nm = Some f -> readable DecF fs s f.
Proof. intros H nm f L. apply readable_dec. rewrite forallb_forall in H. apply H. eapply lookup_in; eauto. Qed.

Lemma ex_readable : forall nm f, lookup ex_fs nm = Some f -> readable DecF ex_fs ex_st f.
Proof. apply all_readable. vm_compute. reflexivity. Qed.

(** The table of Ex.v: two dimensions, floating point numbers, absent and optional fields. *)
Example C40_itself_case : compare DecF DecC ex_fs ex_fs ex_st ex_st (no_config DecF) = Ok (true, []).
Proof. apply C40_itself; [apply ex_readable|now apply dec_agrees]. Qed.
(** The object read back differs in the sixth digit of [b[0, 0]] only. *)
Example C40_float_case : compare DecF DecC ex_fs ex_fs ex_st ex_read (no_config DecF) = Ok (false, [RDiff "b"]).
Proof. vm_compute. reflexivity. Qed.
Example C40_excluded_case : compare DecF DecC ex_fs ex_fs ex_st ex_read (without ["b"%string]) = Ok (true, []).
Proof. vm_compute. reflexivity. Qed.
Example C40_ignored_case : compare DecF DecC ex_fs ex_fs ex_st ex_read (warned ["b"%string]) = Ok (true, [RIgnored "b"]).
Proof. vm_compute. reflexivity. Qed.
(** With a relative tolerance of 1e-5 for [b] they are the same. *)
Example C40_tolerance_case : compare DecF DecC ex_fs ex_fs ex_st ex_read
  {| c_exclude := []; c_warn := []; c_include := []; c_eq := fun _ => None;
     c_rel := fun nm => if String.eqb nm "b" then Some (D false 1 (-5) : fl DecF) else None; c_abs := fun _ => None |} = Ok (true, []).
Proof. vm_compute. reflexivity. Qed.

(** A structure whose table is longer, in either order; a table with another name. *)
Definition long_rows : list row := [RField (ex_field "n" 1 TInt); RField (ex_field "v" 1 TStr)].
Definition short_rows : list row := [RField (ex_field "n" 1 TInt)].
Definition named_rows : list row := [RField (ex_field "n" 1 TInt); RField (ex_field "w" 1 TStr)].
Example C40_other_case :
  let go r1 r2 (t1 t2 : string) := compare DecF DecC (mk_fs r1) (mk_fs r2) (from_text (mk_fs r1) (str t1)) (from_text (mk_fs r2) (str t2)) (no_config DecF) in
  go short_rows long_rows "1"%string "1a"%string = Ok (false, [RStop "No_field" "v"])
  /\ go long_rows short_rows "2a"%string "1"%string = Ok (false, [RDiff "n"; RStop "v" "No_field"])
  /\ go long_rows named_rows "1a"%string "1a"%string = Ok (false, [RStop "v" "w"]).
Proof. vm_compute. repeat split; reflexivity. Qed.

(** ** A table with loops of two dimensions *)
Definition two_rows : list row := [
  RField (ex_field "n" 1 TInt);
  RLoop (EFld "n" 0) [RField (ex_field "m" 1 TInt); RLoop (EFld "m" 1) [RField (ex_field "v" 1 TStr)]]].
Example two_wf : wf_rows two_rows = true. Proof. vm_compute. reflexivity. Qed.

(** Real differences, reported: the counts, the values, one of each. *)
Example C40_reported_case :
  cmp two_rows (no_config DecF) "11a" "11b" = Ok (false, [RDiff "v"])
  /\ cmp two_rows (no_config DecF) "11a" "12ab" = Ok (false, [RDiff "m"; RDiff "v"])
  /\ cmp two_rows (only ["n"%string; "m"%string]) "11a" "11b" = Ok (true, [])
  /\ cmp two_rows (warned ["v"%string]) "11a" "11b" = Ok (true, [RIgnored "v"]).
Proof. vm_compute. repeat split. Qed.
(** Everything compared and found the same. *)
Example C40_same_case : cmp two_rows (no_config DecF) "22ab1c" "22ab1c" = Ok (true, []) /\ cmp two_rows (no_config DecF) "22ab1c" "21a2bc" = Ok (false, [RDiff "m"; RDiff "v"]).
Proof. vm_compute. repeat split. Qed.
Example C40_symmetric_case : cmp two_rows (no_config DecF) "21a1b" "21a1c" = cmp two_rows (no_config DecF) "21a1c" "21a1b"
  /\ cmp two_rows (no_config DecF) "21a1b" "21a1c" = Ok (false, [RDiff "v"]).
Proof. vm_compute. repeat split. Qed.

(** ** Where the full statements are false *)

(** A comparison of two well formed structures read from a file, with the default
    configuration, can raise: where the second has more values than the first, and the
    counts over the first agree, the fill value cannot be unpacked. *)
Theorem C40_raises_refuted : exists rows t1 t2,
  wf_rows rows = true
  /\ (exists s, read DecF (mk_fs rows) false (init_state DecF) (str t1) = Ok (s, []))
  /\ (exists s, read DecF (mk_fs rows) false (init_state DecF) (str t2) = Ok (s, []))
  /\ cmp rows (no_config DecF) t1 t2 = Err EType.
Proof.
  exists two_rows, "11a"%string, "21a1b"%string. split; [reflexivity|].
  assert (X : forall t, match read DecF (mk_fs two_rows) false (init_state DecF) t with Ok (_, []) => true | _ => false end = true ->
    exists s, read DecF (mk_fs two_rows) false (init_state DecF) t = Ok (s, [])).
  { intros t H. destruct (read DecF (mk_fs two_rows) false (init_state DecF) t) as [[s [|x l]]|]; try discriminate. eauto. }
  split; [apply X; vm_compute; reflexivity|]. split; [apply X; vm_compute; reflexivity|]. vm_compute. reflexivity.
Qed.
(** The other way round there is an answer. *)
Example C40_raises_other_order : cmp two_rows (no_config DecF) "21a1b" "11a" = Ok (false, [RDiff "n"; RDiff "m"; RDiff "v"]).
Proof. vm_compute. reflexivity. Qed.

(** The result depends on the order. *)
Theorem C40_symmetric_refuted : exists rows nms t1 t2 r r', wf_rows rows = true
  /\ cmp rows (only nms) t1 t2 = Ok r /\ cmp rows (only nms) t2 t1 = Ok r' /\ fst r <> fst r'.
Proof.
  exists two_rows, ["v"%string], "12ab"%string, "22ab0"%string, (true, []), (false, [RDiff "v"]). split; [reflexivity|].
  split; [vm_compute; reflexivity|]. split; [vm_compute; reflexivity|discriminate].
Qed.

(** A difference can be missed: the second has fewer values, and those missing are absent. *)
Definition opt_rows : list row := [
  RField (ex_field "n" 1 TInt);
  RLoop (EFld "n" 0) [RLoop (EInt 1) [
    RField (Build_fdesc (Some "v"%string) (SzInt 1) TStr FrNone DfNone None true 32%N false None 0 false)]]].
Theorem C40_missed_refuted : exists rows nms t1 t2 f ks1 ks2, wf_rows rows = true
  /\ lookup (mk_fs rows) "v" = Some f /\ In "v"%string nms
  /\ field_keys DecF (mk_fs rows) (from_text (mk_fs rows) (str t1)) f = Ok ks1
  /\ field_keys DecF (mk_fs rows) (from_text (mk_fs rows) (str t2)) f = Ok ks2 /\ ks1 <> ks2
  /\ cmp rows (only nms) t1 t2 = Ok (true, []).
Proof.
  exists opt_rows, ["v"%string], "25 "%string, "15"%string. eexists. eexists. eexists. split; [reflexivity|]. split; [reflexivity|].
  split; [now left|]. split; [vm_compute; reflexivity|]. split; [vm_compute; reflexivity|]. split; [discriminate|]. vm_compute. reflexivity.
Qed.

(** A number that is not equal to itself: decimals, and [None] for NaN. *)
Definition NanF : FloatOps := {|
  fl := option dec;
  fl_parse := fun t => if list_eqb t (str "nan") then Some None else option_map Some (parse_float t);
  fl_fmt := fun sp x => match x with Some d => fl_fmt DecF sp d | None => Some (str "nan") end;
  fl_of_Z := fun z => option_map Some (fl_of_Z DecF z);
  fl_to_Z := fun x => match x with Some d => Some (dec_trunc d) | None => None end;
  fl_str := fun x => match x with Some d => fl_str DecF d | None => str "nan" end;
  fl_nonzero := fun x => match x with Some d => fl_nonzero DecF d | None => true end;
  fl_pack32 := fun _ => None;
  fl_unpack32 := fun _ => None;
|}.
Definition NanC : CmpOps NanF := {|
  fl_eq := fun (x y : fl NanF) => match x, y with Some a, Some b => fl_eq DecC a b | _, _ => false end;
  fl_eq_Z := fun (x : fl NanF) z => match x with Some a => fl_eq_Z DecC a z | None => false end;
  fl_close := fun (r a : option (fl NanF)) (x y : fl NanF) =>
    match x, y with
    | Some x', Some y' => dec_close match r with Some r' => r' | None => None end match a with Some a' => a' | None => None end x' y'
    | _, _ => Ok false
    end;
|}.
(** A structure read from a file can differ from itself. *)
Theorem C40_nan_refuted : exists rows t s, wf_rows rows = true /\ read NanF (mk_fs rows) false (init_state NanF) t = Ok (s, [])
  /\ compare NanF NanC (mk_fs rows) (mk_fs rows) s s (no_config NanF) = Ok (false, [RDiff "x"]).
Proof.
  pose (rows := [RField (ex_field "x" 3 TFloat)]). exists rows, (str "nan").
  pose (r := read NanF (mk_fs rows) false (init_state NanF) (str "nan")).
  assert (X : match r with Ok (s, []) => compare NanF NanC (mk_fs rows) (mk_fs rows) s s (no_config NanF) | _ => Err EType end = Ok (false, [RDiff "x"]))
    by (vm_compute; reflexivity).
  fold r. clearbody r. destruct r as [[s [|b l]]|]; try discriminate. exists s. split; [reflexivity|]. split; [reflexivity|exact X].
Qed.

Print Assumptions C40_log. Print Assumptions C40_no_false_alarm. Print Assumptions C40_itself. Print Assumptions C40_only_real.
Print Assumptions C40_reported_partial. Print Assumptions C40_float. Print Assumptions C40_float_array. Print Assumptions C40_same_means_same.
Print Assumptions C40_other_table. Print Assumptions C40_excluded. Print Assumptions C40_symmetric_partial. Print Assumptions C40_raises_refuted. Print Assumptions C40_symmetric_refuted.
Print Assumptions C40_missed_refuted. Print Assumptions C40_nan_refuted.
