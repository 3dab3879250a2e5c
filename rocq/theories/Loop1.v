(** Fields in one loop. *)
From Verif Require Import Base BaseLemmas Engine Wf EngineLemmas Codec RoundTrip Rewrite Literal
  Positions Keys Deps Assign Update Spec Utf8 Tre TreLemmas TrePlace TrePlaceLemmas Scalar Security P_Security Image ImageLemmas.
From Coq Require Import ZifyBool ZifyNat ZifyN.
Open Scope list_scope.
Ltac Zify.zify_post_hook ::= idtac.

(** [nm] is an unconditional field in one loop with count [sh]. *)
Definition column (rows : list row) (sh : expr) (nm : string) (f : field) : Prop :=
  lookup (mk_fs rows) nm = Some f /\ f_loops f = [sh] /\ fd_cond (f_d f) = None
  /\ fd_hard (f_d f) = false.

Section Loop1.
Variable FO : FloatOps.
Variable rows : list row.
Hypothesis wf : wf_rows rows = true.
Let fs := mk_fs rows.
Notation st := (state FO).

Section Count.
Variables (cnt : string) (cf : field).
Hypothesis Hc : scalar rows cnt cf.
Hypothesis Hct : fd_ty (f_d cf) = TInt.

(** A count that is a plain integer field. *)
Lemma get_count (s : st) n : stored FO s cf [] = SVal (VInt n) -> get FO fs s cnt [] = Ok (VInt n).
Proof.
  intro H. unfold fs. rewrite (get_scalar FO rows s cnt cf Hc), H. unfold conv_of, convert. rewrite Hct. reflexivity.
Qed.

Lemma shape_count (s : st) n k : stored FO s cf [] = SVal (VInt n) -> eval_shape FO (G FO fs s) fs k (EFld cnt 0) = Ok n.
Proof.
  intro H. unfold eval_shape. pose proof Hc as (L & LL & _).
  unfold fs. rewrite (eval_fld0 FO rows wf s k cnt cf L LL). fold fs. rewrite (get_count s n H). reflexivity.
Qed.
End Count.

Variable sh : expr.
(** The number of times round the loop. *)
Definition times (s : st) (n : Z) : Prop := eval_shape FO (G FO fs s) fs [] sh = Ok n.

Lemma col_index s n nm f i : column rows sh nm f -> times s n -> (0 <= i < n)%Z ->
  check_index FO (G FO fs s) fs f [i] = Ok tt.
Proof.
  intros (L & LL & _) H Hi. unfold check_index, depth. rewrite LL. cbn [List.length Nat.eqb negb last removelast].
  replace (i <? 0)%Z with false by lia. rewrite H. cbn [bind].
  replace (n <=? i)%Z with false by lia. reflexivity.
Qed.

Lemma col_key nm f i : column rows sh nm f -> key_shape_ok f [i] = true.
Proof. intros (L & LL & _). unfold key_shape_ok, depth. now rewrite LL. Qed.

Lemma col_get s n nm f i : column rows sh nm f -> fd_value (f_d f) = None -> is_data_ty (fd_ty (f_d f)) = false ->
  times s n -> (0 <= i < n)%Z -> get FO fs s nm [i] = conv_of FO (f_d f) (stored FO s f [i]).
Proof.
  intros C V T H Hi. unfold get. pose proof C as (L & LL & LC & LH). unfold fs. rewrite L, (col_key nm f i C).
  unfold fget, get_pub, get_base. fold fs. rewrite (col_index s n nm f i C H Hi).
  unfold check_condition. rewrite LC, V, (has_name_lookup rows nm f L). cbn [bind negb].
  unfold conv_of. destruct (convert FO (f_d f) (stored FO s f [i])) as [x|e]; cbn; auto.
  destruct (fd_ty (f_d f)); auto; discriminate.
Qed.

Lemma col_int s n nm f i z : column rows sh nm f -> fd_value (f_d f) = None -> fd_ty (f_d f) = TInt ->
  times s n -> (0 <= i < n)%Z -> stored FO s f [i] = SVal (VInt z) -> get FO fs s nm [i] = Ok (VInt z).
Proof.
  intros C V T H Hi E. rewrite (col_get s n nm f i) by (auto; now rewrite T). rewrite E. unfold conv_of, convert. now rewrite T.
Qed.

Lemma col_str s n nm f i t : column rows sh nm f -> fd_value (f_d f) = None -> fd_ty (f_d f) = TStr ->
  times s n -> (0 <= i < n)%Z -> stored FO s f [i] = SVal (VStr t) -> get FO fs s nm [i] = Ok (VStr (rstrip_by ws_str t)).
Proof.
  intros C V T H Hi E. rewrite (col_get s n nm f i) by (auto; now rewrite T). rewrite E. unfold conv_of, convert. now rewrite T.
Qed.

(** A field holding bytes. *)
Lemma col_data s n nm f i b : column rows sh nm f -> fd_value (f_d f) = None ->
  (fd_ty (f_d f) = TData KString \/ fd_ty (f_d f) = TData KBytes \/ fd_ty (f_d f) = TData KExt) ->
  times s n -> (0 <= i < n)%Z -> stored FO s f [i] = SVal (VBytes b) ->
  get FO fs s nm [i] = Ok (match fd_ty (f_d f) with TData KString => VStr b | _ => VBytes b end).
Proof.
  intros C V T H Hi E. unfold get. pose proof C as (L & LL & LC & LH). unfold fs. rewrite L, (col_key nm f i C).
  unfold fget, get_pub, get_base. fold fs. rewrite (col_index s n nm f i C H Hi).
  unfold check_condition. rewrite LC, V, (has_name_lookup rows nm f L). cbn [bind negb].
  rewrite E. unfold convert, unpack. destruct T as [-> | [-> | ->]]; reflexivity.
Qed.

Lemma col_may s n nm f i v : column rows sh nm f -> fd_value (f_d f) = None -> st_impl FO s = false ->
  times s n -> (0 <= i < n)%Z -> v <> SVal VNone -> may_assign FO fs s f [i] v.
Proof.
  intros C V HI H Hi Hv. pose proof C as (L & LL & LC & LH). unfold may_assign.
  rewrite (has_name_lookup rows nm f L). split; [discriminate|]. split; [now apply (col_index s n nm)|].
  split; [unfold check_condition; now rewrite LC|]. repeat split; auto.
Qed.

Lemma col_set s n nm f i v : column rows sh nm f -> fd_value (f_d f) = None -> is_data_ty (fd_ty (f_d f)) = false ->
  st_impl FO s = false -> times s n -> (0 <= i < n)%Z -> v <> VNone ->
  set FO fs s nm [i] (SVal v) = (assigned FO s f [i] (SVal v), Ok tt).
Proof.
  intros C V T HI H Hi Hv. apply (set_allowed FO rows s nm f [i] (SVal v)); auto.
  - apply C.
  - now apply (col_key nm).
  - apply (col_may s n nm); auto. congruence.
Qed.

(** A text field whose length is in the column [ln]. *)
Lemma col_set_text s n nm f ln lf i t : column rows sh nm f -> fd_value (f_d f) = None -> fd_ty (f_d f) = TData KString ->
  fd_size (f_d f) = SzExpr (EFld ln 1) -> fd_size_not_updated (f_d f) = false -> fd_size_offset (f_d f) = 0%Z ->
  column rows sh ln lf -> fd_value (f_d lf) = None -> fd_ty (f_d lf) = TInt ->
  st_impl FO s = false -> times s n -> (0 <= i < n)%Z -> all_bytes t = true ->
  times (assigned FO s f [i] (SVal (VBytes t))) n ->
  set FO fs s nm [i] (SVal (VStr t))
  = (assigned FO (assigned FO s f [i] (SVal (VBytes t))) lf [i] (SVal (VInt (Z.of_nat (List.length t)))), Ok tt).
Proof.
  intros C V T SZ SN SO CL VL TL HI H Hi Ht H1.
  pose proof C as (L & LL & LC & LH). pose proof CL as (L' & LL' & LC' & LH').
  assert (Hf := lookup_in _ _ _ L).
  set (s1 := assigned FO s f [i] (SVal (VBytes t))).
  fold s1 in H1.
  unfold set, fs. rewrite L, (col_key nm f i C). unfold fset, fuel. cbn [setf]. rewrite T. unfold pack. rewrite T.
  assert (EL : encode_latin1 t = Ok t) by (unfold encode_latin1; now rewrite Ht). rewrite EL.
  fold fs. assert (Hpos : exists m, List.length (fs_fields fs) = S m).
  { destruct (fs_fields fs) eqn:E; [unfold fs in E; rewrite E in Hf; destruct Hf|eexists; reflexivity]. }
  destruct Hpos as (m & Em). rewrite Em. unfold set_base. rewrite (has_name_lookup rows nm f L), (col_index s n nm f i C H Hi).
  unfold check_condition. rewrite LC, LH, V, HI, T, SN, SZ, SO. cbn [orb].
  fold (assigned FO s f [i] (SVal (VBytes t))). fold s1. unfold fs. rewrite L'. fold fs.
  unfold depth. rewrite LL'. cbn [List.length Nat.ltb Nat.leb firstn].
  replace (if (Z.of_nat (List.length t) =? 0)%Z then 0%Z else (Z.of_nat (List.length t) + 0)%Z) with (Z.of_nat (List.length t)) by (destruct (_ =? 0)%Z eqn:?; lia).
  cbn [setf]. rewrite TL. unfold set_base. rewrite (has_name_lookup rows ln lf L'), (col_index s1 n ln lf i CL H1 Hi).
  unfold check_condition. rewrite LC', LH', VL, TL. cbn [orb]. unfold s1 at 1. cbn [st_impl assigned set_raw set_val]. rewrite HI. reflexivity.
Qed.

(** A reference to a column, and a column that is computed. *)
Lemma eval_col s i nm f : column rows sh nm f -> eval FO (G FO fs s) fs [i] (EFld nm 1) = get FO fs s nm [i].
Proof.
  intros C. pose proof C as (L & LL & _). cbn [eval]. unfold eval_ref, get, fs. rewrite L, (col_key nm f i C). unfold depth. rewrite LL.
  cbn [List.length Nat.ltb Nat.leb firstn]. apply (G_get_pub FO rows s f [i] wf). eapply lookup_in; eauto.
Qed.

Lemma col_computed s n nm f i e z : column rows sh nm f -> fd_value (f_d f) = Some e -> fd_ty (f_d f) = TInt ->
  times s n -> (0 <= i < n)%Z -> eval FO (G FO fs s) fs [i] e = Ok (VInt z) -> get FO fs s nm [i] = Ok (VInt z).
Proof.
  intros C V T H Hi E. unfold get. pose proof C as (L & LL & LC & LH). unfold fs. rewrite L, (col_key nm f i C).
  unfold fget, get_pub, get_base. fold fs. rewrite (col_index s n nm f i C H Hi).
  unfold check_condition. rewrite LC, V, E, (has_name_lookup rows nm f L). cbn [bind negb convert].
  rewrite T. reflexivity.
Qed.
End Loop1.
