(** Properties C06 - C13: single fields, indices, assignment, in-place update. *)
From Verif Require Import Base BaseLemmas Engine Wf EngineLemmas Codec RoundTrip Rewrite Literal
  Positions Keys Deps Assign Update Spec Reach Decimal DecimalLemmas DecimalFit Ex.
From Coq Require Import ZifyBool ZifyNat ZifyN Sorted.
Open Scope list_scope.

(** ** C06 Conditional fields *)

Lemma valid_shape FO fs (s : state FO) f k : valid_index FO fs s f k -> key_shape_ok f k = true.
Proof.
  intros [HL _]. unfold key_shape_ok, depth. destruct (f_loops f); [|reflexivity]. now destruct k.
Qed.

(** Absent: reads as None. *)
Theorem C06_absent_get FO rows (s : state FO) nm f k :
  lookup (mk_fs rows) nm = Some f -> valid_index FO (mk_fs rows) s f k ->
  cond_is FO (mk_fs rows) s f k false ->
  get FO (mk_fs rows) s nm k = Ok VNone.
Proof.
  intros HL HV HC. unfold get. rewrite HL, (valid_shape _ _ _ _ _ HV). unfold fget, get_pub, get_base.
  rewrite (lookup_name _ _ _ HL), (valid_check _ _ _ _ _ HV). cbn [bind].
  apply cond_is_check in HC. rewrite HC. cbn [bind negb]. destruct (fd_ty (f_d f)); reflexivity.
Qed.

(** Absent: cannot be assigned, and the attempt changes nothing. *)
Theorem C06_absent_set FO rows (s : state FO) nm f k v :
  lookup (mk_fs rows) nm = Some f -> cond_is FO (mk_fs rows) s f k false ->
  exists e, set FO (mk_fs rows) s nm k v = (s, Err e).
Proof.
  intros HL HC. apply cond_is_check in HC. unfold set. rewrite HL. destruct (key_shape_ok f k); [|eauto].
  assert (B : forall sub w, exists e, set_base FO sub (mk_fs rows) s f k w = (s, Err e)).
  { intros sub w. destruct (set_base FO sub (mk_fs rows) s f k w) as [s' r] eqn:E.
    apply set_base_cases in E as [(-> & (e & ->) & _)|((_ & _ & A & _) & _)]; [eauto|congruence]. }
  unfold fset, fuel. cbn [setf]. destruct (fd_ty (f_d f)); try apply B.
  destruct v as [v|b]; [|eauto]. destruct (pack FO _ _ f k v); [apply B|eauto].
Qed.

(** Written: no bytes if absent, the declared number of bytes if present. *)
Theorem C06_write FO rows (s : state FO) out f k :
  write FO (mk_fs rows) s = Ok out -> In f (fs_fields (mk_fs rows)) ->
  valid_index FO (mk_fs rows) s f k ->
  (cond_is FO (mk_fs rows) s f k false /\ block_at FO (mk_fs rows) s out f k [])
  \/ (cond_is FO (mk_fs rows) s f k true /\ exists b, block_at FO (mk_fs rows) s out f k b
        /\ size_is FO (mk_fs rows) s f k (Z.of_nat (List.length b))).
Proof.
  intros HW Hf HV. destruct (write_block_at FO rows s out f k HW Hf HV) as (b & HB & HK).
  apply block_block_is in HK as [[HC ->]|[HC HS]]; cbn [fst snd] in *; [left|right]; eauto.
Qed.

(** Read: likewise for the bytes consumed. *)
Theorem C06_read FO rows lit (s s' : state FO) inp rest :
  wf_rows rows = true -> read FO (mk_fs rows) lit s inp = Ok (s', rest) ->
  exists used, inp = used ++ rest /\
    forall f k, In f (fs_fields (mk_fs rows)) -> valid_index FO (mk_fs rows) s' f k ->
      (cond_is FO (mk_fs rows) s' f k false /\ block_at FO (mk_fs rows) s' used f k [])
      \/ (cond_is FO (mk_fs rows) s' f k true /\ exists b, block_at FO (mk_fs rows) s' used f k b
            /\ size_is FO (mk_fs rows) s' f k (Z.of_nat (List.length b))).
Proof.
  intros Hwf HR. destruct (read_block_at FO rows lit s inp s' rest Hwf HR) as (used & E & H).
  exists used. split; [exact E|]. intros f k Hf HV. destruct (H f k Hf HV) as (b & HB & HK & _).
  destruct HK as [[HC ->]|[HC HS]]; cbn [fst snd] in *; [left|right]; eauto.
Qed.

(** ** C07 Optional fields *)

Definition holds_literal {FO} (s : state FO) (f : field) (k : list Z) : Prop :=
  exists b, st_val FO s (f_id f) k = Some (SLit b).

(** None is written as copies of the fill character. *)
Theorem C07_none_written FO rows (s : state FO) out nm f k :
  wf_rows rows = true -> write FO (mk_fs rows) s = Ok out -> lookup (mk_fs rows) nm = Some f ->
  fd_optional (f_d f) = true -> valid_index FO (mk_fs rows) s f k ->
  cond_is FO (mk_fs rows) s f k true -> ~ holds_literal s f k ->
  get FO (mk_fs rows) s nm k = Ok VNone ->
  exists n, size_is FO (mk_fs rows) s f k (Z.of_nat n)
    /\ block_at FO (mk_fs rows) s out f k (repeat (fd_optchar (f_d f)) n).
Proof.
  intros Hwf HW HL Ho HV HC Hlit HG. assert (Hf := lookup_in _ _ _ HL).
  destruct (write_block_at FO rows s out f k HW Hf HV) as (b & HB & HK).
  assert (HC' := HC). apply cond_is_check in HC'.
  destruct HK as [[HC2 _]|(_ & HS & HFB)]; cbn [fst snd] in *; [congruence|].
  exists (List.length b). split; [now apply size_is_fsize|].
  replace (repeat _ _) with b; [exact HB|].
  assert (Hbase : get_base FO (G FO (mk_fs rows) s) (mk_fs rows) s f k = Ok VNone).
  { unfold get in HG. rewrite HL, (valid_shape _ _ _ _ _ HV) in HG. unfold fget, get_pub in HG.
    apply bind_ok_elim in HG as (w & Hw & HG). rewrite Hw. destruct (fd_ty (f_d f)) eqn:T; try congruence.
    destruct w; try congruence. unfold unpack in HG. rewrite T in HG.
    destruct k0; try discriminate HG; [destruct (Nat.eqb _ _); discriminate|].
    apply bind_ok_elim in HG as (sz & _ & HG). unfold unpack_int in HG.
    repeat (match type of HG with context [if ?c then _ else _] => destruct c end; try discriminate). }
  unfold field_bytes in HFB. rewrite HS in HFB. cbn [bind] in HFB.
  destruct (stored FO s f k) as [v|t] eqn:ES.
  - rewrite Hbase in HFB. cbn [bind] in HFB. rewrite Ho in HFB.
    assert (E : (if has_len (repeat (fd_optchar (f_d f)) (Z.to_nat (Z.of_nat (List.length b)))) (Z.of_nat (List.length b))
                 then encode_latin1 (repeat (fd_optchar (f_d f)) (Z.to_nat (Z.of_nat (List.length b)))) else Err ERuntime) = Ok b).
    { destruct (fd_ty (f_d f)); try discriminate; exact HFB. }
    destruct (has_len _ _); [|discriminate]. apply encode_ok in E as [-> _]. now rewrite Nat2Z.id, repeat_length.
  - exfalso. apply Hlit. exists t. now apply stored_lit.
Qed.

(** A field that was read is None exactly when its bytes are fill characters and blanks. *)
Theorem C07_none_read FO rows lit (s s' : state FO) inp rest :
  wf_rows rows = true -> read FO (mk_fs rows) lit s inp = Ok (s', rest) ->
  exists used, inp = used ++ rest /\
    forall nm f k, lookup (mk_fs rows) nm = Some f -> fd_optional (f_d f) = true ->
      fd_value (f_d f) = None ->
      valid_index FO (mk_fs rows) s' f k -> cond_is FO (mk_fs rows) s' f k true ->
      exists b, block_at FO (mk_fs rows) s' used f k b /\
        (get FO (mk_fs rows) s' nm k = Ok VNone
         <-> Forall (fun c => c = fd_optchar (f_d f) \/ c = 32%N) b).
Proof.
  intros Hwf HR. destruct (read_block_at FO rows lit s inp s' rest Hwf HR) as (used & E & H).
  exists used. split; [exact E|]. intros nm f k HL Ho Hval HV HC. assert (Hf := lookup_in _ _ _ HL).
  destruct (H f k Hf HV) as (b & HB & _ & HP). cbn [fst snd] in HP. exists b. split; [exact HB|].
  destruct (HP HC) as [HPf _]; [rewrite (lookup_name _ _ _ HL); discriminate|].
  assert (EF : Forall (fun c => c = fd_optchar (f_d f) \/ c = 32%N) b <-> is_blank (f_d f) b = true).
  { rewrite is_blank_fill. unfold fill_only. rewrite forallb_forall, Forall_forall.
    split; intros HH c Hc; specialize (HH c Hc); lia. }
  rewrite EF. unfold get. rewrite HL, (valid_shape _ _ _ _ _ HV). unfold fget, get_pub, get_base.
  rewrite (lookup_name _ _ _ HL), (valid_check _ _ _ _ _ HV). cbn [bind].
  apply cond_is_check in HC. rewrite HC, Hval. cbn [bind negb].
  assert (HNB : is_bytes_ty (fd_ty (f_d f)) = false).
  { apply wf_optional_not_bytes with (rows := rows); auto. }
  unfold parse_field in HPf. destruct lit.
  - injection HPf as HPf. rewrite <- HPf. cbn [convert]. rewrite Ho. cbn [andb].
    destruct (is_blank (f_d f) b); [destruct (fd_ty (f_d f)); now split|].
    destruct (fd_ty (f_d f)); try discriminate HNB; try (split; discriminate);
      [destruct (conv_int FO (VBytes b))|destruct (conv_float FO (VBytes b))]; cbn [bind]; split; discriminate.
  - rewrite Ho in HPf. cbn [andb] in HPf. destruct (is_blank (f_d f) b).
    + injection HPf as HPf. rewrite <- HPf. cbn [convert]. rewrite Ho.
      destruct (fd_ty (f_d f)); now split.
    + split; [|discriminate]. intro HG. exfalso. destruct (fd_ty (f_d f)) eqn:T; try discriminate HNB.
      * injection HPf as HPf. rewrite <- HPf in HG. cbn [convert] in HG. rewrite T in HG. discriminate HG.
      * destruct (rstrip_by ws_byte b); [discriminate|]. destruct (conv_int FO _) as [z|]; [|discriminate].
        injection HPf as HPf. rewrite <- HPf in HG. cbn [convert] in HG. rewrite T in HG. discriminate HG.
      * destruct (rstrip_by ws_byte b); [discriminate|]. destruct (conv_float FO _) as [z|]; [|discriminate].
        injection HPf as HPf. rewrite <- HPf in HG. cbn [convert] in HG. rewrite T in HG. discriminate HG.
Qed.

(** A number never reads back as None. *)
Theorem C07_number_kept FO rows (st s0 st1 : state FO) lit b rest nm f k v :
  FloatLaws FO -> wf_rows rows = true -> literals_ok FO (mk_fs rows) st ->
  write FO (mk_fs rows) st = Ok b -> read FO (mk_fs rows) lit s0 (b ++ rest) = Ok (st1, rest) ->
  lookup (mk_fs rows) nm = Some f -> valid_index FO (mk_fs rows) st f k ->
  get FO (mk_fs rows) st nm k = Ok v -> (exists z, v = VInt z) \/ (exists x, v = VFloat x) ->
  match v with
  | VInt z => get FO (mk_fs rows) st1 nm k = Ok (VInt z)
  | _ => exists y, get FO (mk_fs rows) st1 nm k = Ok (VFloat y)
  end.
Proof.
  intros laws Hwf HL HW HR Hl Hv Hg Hnum.
  destruct (round_trip FO laws rows st lit HL s0 b rest Hwf HW) as (st1' & HR' & HK & HG).
  rewrite HR in HR'. injection HR' as <-. assert (Hf := lookup_in _ _ _ Hl). destruct (HK f Hf) as (ks & K1 & K2).
  destruct (HG nm f ks k v Hl K1) as (v' & E & Hs); auto; [now apply (valid_key FO _ st f ks k K1)|].
  rewrite E. destruct Hnum as [[z ->]|[x ->]].
  - destruct Hs as [->|(sz & _ & [->|[(? & ? & ? & _ & A & _)|(? & _ & _ & A & _)]])]; auto; discriminate.
  - destruct Hs as [->|(sz & _ & [->|[(? & ? & y & _ & A & _ & _ & ->)|(? & _ & _ & A & _)]])]; eauto; discriminate.
Qed.

(** ** C08 Assignment *)

(** [x.nm = v] or [x.nm[k] = v] for a field other than sized data: either everything the
    library requires holds, and exactly that slot changes, or it raises and nothing changes. *)
Theorem C08_assign FO rows (s : state FO) nm f k v :
  lookup (mk_fs rows) nm = Some f -> is_data_ty (fd_ty (f_d f)) = false ->
  let allowed := (f_loops f = [] -> k = []) /\ assignable FO (mk_fs rows) s f k v in
  (allowed /\ exists s', set FO (mk_fs rows) s nm k v = (s', Ok tt) /\ only_changed FO s s' f k v)
  \/ (~ allowed /\ exists e, set FO (mk_fs rows) s nm k v = (s, Err e)).
Proof.
  intros HL HT allowed.
  assert (E : allowed <-> key_shape_ok f k = true /\ may_assign FO (mk_fs rows) s f k v).
  { unfold allowed. rewrite assignable_may. unfold key_shape_ok, depth. destruct (f_loops f); cbn [List.length].
    - destruct k; [tauto|]. split; intros [A _]; [specialize (A eq_refl)|]; discriminate.
    - split; intros [_ A]; (split; [|exact A]); [reflexivity|discriminate]. }
  destruct (set_plain FO (mk_fs rows) s nm f k v HL HT) as [(A & B & C)|[A C]].
  - left. split; [now apply E|]. eexists. split; [exact C|apply only_changed_assigned].
  - right. split; [now rewrite E|exact C].
Qed.

(** No other value changes, except of fields that depend on the one assigned. *)
Theorem C08_frame FO rows (s s' : state FO) nm f k v :
  lookup (mk_fs rows) nm = Some f -> is_data_ty (fd_ty (f_d f)) = false ->
  set FO (mk_fs rows) s nm k v = (s', Ok tt) ->
  forall nm' f' k', lookup (mk_fs rows) nm' = Some f' -> ~ reaches (mk_fs rows) f' f ->
    (f' <> f \/ k' <> k) -> get FO (mk_fs rows) s' nm' k' = get FO (mk_fs rows) s nm' k'.
Proof.
  intros HL HT HS nm' f' k' HL' HR Hne.
  destruct (set_plain FO (mk_fs rows) s nm f k v HL HT) as [(_ & _ & C)|[_ (e & C)]]; [|congruence].
  rewrite C in HS. injection HS as <-. apply (assigned_frame FO rows s f k v nm' f' k'); auto. eapply lookup_in; eauto.
Qed.

(** Sequences of assignments of any kind, succeeding or not. *)
Theorem C08_sequence FO rows nm f k ops (s : state FO) :
  lookup (mk_fs rows) nm = Some f ->
  (forall op, In op ops -> ~ aims_at FO rows f k op) ->
  (forall op y p, In op ops -> reaches (mk_fs rows) f y -> ~ aims_at FO rows y p op) ->
  get FO (mk_fs rows) (assign_all FO rows s ops) nm k = get FO (mk_fs rows) s nm k.
Proof. intros HL H1 H2. now apply assign_all_frame with (f := f). Qed.

(** Sized data is the exception: an assignment that raises may have stored the value. *)
Definition fixed_data : list row :=
  [RField (Build_fdesc (Some "d"%string) (SzInt 4) (TData KBytes) FrNone (DfBytes [0; 0; 0; 0]%N) None
             false 32%N false None 0 true)].
Theorem C08_data_refuted : exists rows (s s' : state DecF) nm k v e,
  wf_rows rows = true /\ reachable DecF rows s /\ set DecF (mk_fs rows) s nm k v = (s', Err e)
  /\ get DecF (mk_fs rows) s nm k <> get DecF (mk_fs rows) s' nm k.
Proof.
  exists fixed_data, (init_state DecF), (fst (set DecF (mk_fs fixed_data) (init_state DecF) "d" [] (SVal (VBytes [1; 2]%N)))),
    "d"%string, [], (SVal (VBytes [1; 2]%N)), ERuntime.
  split; [vm_compute; reflexivity|]. split; [apply rc_init|]. split.
  - rewrite (surjective_pairing (set _ _ _ _ _ _)) at 1. f_equal.
  - intro H. apply (f_equal see) in H. vm_compute in H. discriminate H.
Qed.

(** ** C09 Reading back an assignment *)

(** [t'] is [t] without the trailing white space (as python's [str.rstrip()]). *)
Definition stripped (t t' : list N) : Prop :=
  exists u, t = t' ++ u /\ Forall (fun c => ws_str c = true) u
    /\ (t' <> [] -> ws_str (last t' 0%N) = false).

Theorem C09_read_back FO rows (s s' : state FO) nm f k v :
  wf_rows rows = true -> lookup (mk_fs rows) nm = Some f -> is_data_ty (fd_ty (f_d f)) = false ->
  set FO (mk_fs rows) s nm k (SVal v) = (s', Ok tt) ->
  match v, fd_ty (f_d f) with
  | VNone, _ => get FO (mk_fs rows) s' nm k = Ok VNone
  | VInt z, TInt => get FO (mk_fs rows) s' nm k = Ok (VInt z)
  | VFloat x, TFloat => get FO (mk_fs rows) s' nm k = Ok (VFloat x)
  | VInt z, TFloat => forall x, fl_of_Z FO z = Some x -> get FO (mk_fs rows) s' nm k = Ok (VFloat x)
  | VBytes b, TBytes => get FO (mk_fs rows) s' nm k = Ok (VBytes b)
  | VStr t, TStr => exists t', stripped t t' /\ get FO (mk_fs rows) s' nm k = Ok (VStr t')
  | VStr t, TInt => forall z, parse_int ws_str t = Some z -> get FO (mk_fs rows) s' nm k = Ok (VInt z)
  | VStr t, TFloat => forall x, fl_parse FO t = Some x -> get FO (mk_fs rows) s' nm k = Ok (VFloat x)
  | _, _ => True
  end.
Proof.
  intros Hwf HL HT HS.
  destruct (set_plain FO (mk_fs rows) s nm f k (SVal v) HL HT) as [(A & B & C)|[_ (e & C)]]; [|congruence].
  rewrite C in HS. injection HS as <-. rewrite (get_assigned FO rows s nm f k (SVal v) Hwf HL HT A B).
  destruct B as (_ & _ & _ & _ & _ & _ & Hopt).
  destruct v as [|b|z|t|b|x]; cbn [convert].
  - rewrite (Hopt eq_refl). reflexivity.
  - exact I.
  - destruct (fd_ty (f_d f)); auto. intros x Hx. cbn [conv_float]. now rewrite Hx.
  - destruct (fd_ty (f_d f)); auto.
    + exists (rstrip_by ws_str t). split; [|reflexivity]. destruct (rstrip_decomp ws_str t) as (u & E & Hu).
      exists u. split; [exact E|]. split; [now apply Forall_forall; intros c Hc; rewrite forallb_forall in Hu; apply Hu|].
      apply rstrip_ends.
    + intros z Hz. cbn [conv_int]. now rewrite Hz.
    + intros x Hx. cbn [conv_float]. now rewrite Hx.
  - destruct (fd_ty (f_d f)); auto.
  - destruct (fd_ty (f_d f)); auto.
Qed.

(** ** C10 Indices *)

Theorem C10_keys FO fs (s : state FO) f ks :
  field_keys FO fs s f = Ok ks ->
  (forall k, In k ks <-> valid_index FO fs s f k) /\ StronglySorted lex_lt ks /\ NoDup ks.
Proof.
  intro H. split; [intro k; now apply valid_key|]. now apply field_keys_sorted in H.
Qed.

(** Wrong number of indices, negative, or not below the count of the innermost loop:
    IndexError. *)
Theorem C10_reject_partial FO fs (s : state FO) f nm k :
  lookup fs nm = Some f -> f_loops f <> [] ->
  (List.length k <> List.length (f_loops f)
   \/ (last k 0 < 0)%Z
   \/ exists n, count_is FO fs s (removelast k) (last (f_loops f) (EInt 0)) n /\ (n <= last k 0)%Z) ->
  get FO fs s nm k = Err EIndex
  /\ forall v, is_data_ty (fd_ty (f_d f)) = false -> set FO fs s nm k v = (s, Err EIndex).
Proof.
  intros HL Hlo H. assert (HC : check_index FO (G FO fs s) fs f k = Err EIndex).
  { unfold check_index, depth. destruct (f_loops f) as [|sh shs]; [congruence|].
    destruct (Nat.eqb (List.length k) (List.length (sh :: shs))) eqn:E1; [|reflexivity]. apply Nat.eqb_eq in E1.
    destruct (last k 0 <? 0)%Z eqn:E2; [reflexivity|]. cbn [negb].
    destruct H as [H|[H|(n & Hn & H)]]; [congruence|lia|]. rewrite last_default in Hn.
    apply count_is_shape in Hn. rewrite Hn. cbn [bind]. now replace (n <=? last k 0)%Z with true by lia. }
  assert (HK : key_shape_ok f k = true) by (unfold key_shape_ok, depth; destruct (f_loops f); [congruence|reflexivity]).
  assert (HN := lookup_name _ _ _ HL). split.
  - unfold get. rewrite HL, HK. unfold fget, get_pub, get_base. now rewrite HN, HC.
  - intros v HT. unfold set. rewrite HL, HK. unfold fset, fuel. cbn [setf].
    destruct (fd_ty (f_d f)); try discriminate HT; unfold set_base; now rewrite HN, HC.
Qed.

(** With one loop around the field that is every index that does not exist. *)
Theorem C10_reject_one_loop FO fs (s : state FO) f nm k sh n :
  lookup fs nm = Some f -> f_loops f = [sh] -> count_is FO fs s [] sh n ->
  ~ valid_index FO fs s f k ->
  get FO fs s nm k = Err EIndex
  /\ forall v, is_data_ty (fd_ty (f_d f)) = false -> set FO fs s nm k v = (s, Err EIndex).
Proof.
  intros HL Hlo Hn Hv. apply (C10_reject_partial FO fs s f nm k HL); [congruence|]. rewrite Hlo.
  destruct (Nat.eq_dec (List.length k) 1) as [E|E]; [|left; exact E]. right.
  destruct k as [|i [|]]; try discriminate. cbn [last removelast].
  destruct (i <? 0)%Z eqn:Ei; [left; lia|]. right. exists n. split; [exact Hn|].
  destruct (n <=? i)%Z eqn:En; [lia|]. exfalso. apply Hv. split; [rewrite Hlo; reflexivity|]. rewrite Hlo.
  intros [|j] Hj; [|cbn in Hj; lia]. exists n. split; [exact Hn|cbn; lia].
Qed.

(** With nested loops a leading index out of range can be accepted: only the last component is
    compared with its count (nitf_field.py:590-600). *)
Definition nested_rows : list row :=
  [RField (ex_field "n" 2 TInt); RLoop (EFld "n" 0) [RLoop (EInt 3) [RField (ex_field "x" 2 TInt)]]].
Theorem C10_leading_index_refuted : exists rows (s : state DecF) nm f k v,
  wf_rows rows = true /\ reachable DecF rows s /\ lookup (mk_fs rows) nm = Some f
  /\ ~ valid_index DecF (mk_fs rows) s f k
  /\ get DecF (mk_fs rows) s nm k = Ok (VInt 0)
  /\ snd (set DecF (mk_fs rows) s nm k v) = Ok tt.
Proof.
  set (s := fst (set DecF (mk_fs nested_rows) (init_state DecF) "n" [] (SVal (VInt 2)))).
  assert (HL : exists f, lookup (mk_fs nested_rows) "x" = Some f /\ f_loops f = [EFld "n" 0; EInt 3]).
  { eexists. split; [reflexivity|reflexivity]. }
  destruct HL as (f & HL & Hlo).
  exists nested_rows, s, "x"%string, f, [7; 0]%Z, (SVal (VInt 5)).
  split; [vm_compute; reflexivity|]. split; [apply rc_set, rc_init|]. split; [exact HL|]. split.
  - intros [_ H]. rewrite Hlo in H. destruct (H O) as (n & Hn & Hb); [cbn; lia|].
    apply count_is_shape in Hn. cbn [firstn nth] in Hn, Hb.
    assert (E : eval_shape DecF (G DecF (mk_fs nested_rows) s) (mk_fs nested_rows) [] (EFld "n" 0) = Ok 2%Z)
      by (vm_compute; reflexivity).
    rewrite E in Hn. injection Hn as <-. lia.
  - split; [|vm_compute; reflexivity].
    assert (E : see (get DecF (mk_fs nested_rows) s "x" [7; 0]%Z) = SeeInt 0) by (vm_compute; reflexivity).
    destruct (get DecF (mk_fs nested_rows) s "x" [7; 0]%Z) as [v|e]; [|discriminate].
    destruct v; try discriminate E. cbn in E. congruence.
Qed.

(** ** C11 Data sized by another field *)

(** [f] is data whose size is field [sf] (plus an offset): after assigning [v], the size field
    is right, the data reads back, and the written structure contains the data. *)
Theorem C11_data FO rows (s s' : state FO) nm f k v snm m sf dk :
  wf_rows rows = true -> lookup (mk_fs rows) nm = Some f -> fd_ty (f_d f) = TData dk ->
  dk = KString \/ dk = KBytes ->
  fd_size (f_d f) = SzExpr (EFld snm m) -> (0 <= fd_size_offset (f_d f))%Z ->
  fd_size_not_updated (f_d f) = false ->
  lookup (mk_fs rows) snm = Some sf -> fd_ty (f_d sf) = TInt ->
  set FO (mk_fs rows) s nm k (SVal v) = (s', Ok tt) ->
  exists b,
    (v = VBytes b \/ (v = VStr b /\ Forall (fun c => (c < 256)%N) b)) /\
    get FO (mk_fs rows) s' snm (firstn m k)
      = Ok (VInt (match b with [] => 0 | _ => Z.of_nat (List.length b) + fd_size_offset (f_d f) end)) /\
    (valid_index FO (mk_fs rows) s' f k -> cond_is FO (mk_fs rows) s' f k true ->
     get FO (mk_fs rows) s' nm k = Ok (match dk with KString => VStr b | _ => VBytes b end)
     /\ forall out, write FO (mk_fs rows) s' = Ok out -> block_at FO (mk_fs rows) s' out f k b).
Proof.
  intros Hwf HL HT Hdk Hsz Hoff Hnu HLs Hst H.
  destruct (data_assigned FO rows s s' nm f k v snm m sf dk Hwf HL HT Hdk Hsz Hoff Hnu HLs Hst H) as (b & Hv & Hg & Hd).
  exists b. split; [|split].
  - destruct Hv as [->|(t & -> & Ht)]; [now left|right]. apply encode_ok in Ht as [-> Hb]. split; auto.
    apply Forall_forall. intros c Hc. unfold all_bytes in Hb. rewrite forallb_forall in Hb. specialize (Hb c Hc). lia.
  - rewrite Hg. destruct b; reflexivity.
  - intros HV HC. destruct (Hd (valid_check _ _ _ _ _ HV) (proj1 (cond_is_check _ _ _ _ _ _) HC)) as [G1 G2].
    split; [exact G1|]. intros out HW.
    destruct (write_block_at FO rows s' out f k HW (lookup_in _ _ _ HL) HV) as (b' & HB & HK).
    apply cond_is_check in HC. destruct HK as [[HC2 _]|(_ & _ & HF)]; cbn [fst snd] in *; [congruence|].
    rewrite G2 in HF. injection HF as <-. exact HB.
Qed.

(** Data whose declared size must not change: another length is refused. *)
Theorem C11_fixed FO rows (s : state FO) nm f k v dk :
  wf_rows rows = true -> lookup (mk_fs rows) nm = Some f -> fd_ty (f_d f) = TData dk ->
  dk = KString \/ dk = KBytes -> fd_size_not_updated (f_d f) = true ->
  (exists b, (v = VBytes b \/ v = VStr b)
     /\ ~ size_is FO (mk_fs rows) s f k (Z.of_nat (List.length b))) ->
  exists s' e, set FO (mk_fs rows) s nm k (SVal v) = (s', Err e).
Proof.
  intros Hwf HL HT Hdk Hnu (b & Hv & Hs). rewrite size_is_fsize in Hs.
  assert (HP : (exists e, pack FO (G FO (mk_fs rows) s) (mk_fs rows) f k v = Err e)
    \/ pack FO (G FO (mk_fs rows) s) (mk_fs rows) f k v = Ok b).
  { unfold pack. rewrite HT. destruct Hdk as [->| ->], Hv as [->| ->]; auto;
      unfold encode_latin1; destruct (all_bytes b); eauto. }
  destruct HP as [(e & HP)|HP].
  - unfold set. rewrite HL. destruct (key_shape_ok f k); [|eauto]. unfold fset, fuel. cbn [setf]. rewrite HT, HP. eauto.
  - exact (data_fixed FO rows s nm f k v dk b Hwf HL HT Hnu HP Hs).
Qed.

(** ** C12 In-place update *)

(** After writing a structure at the end of [pre] and [tail] after it, any successful sequence
    of [update_field] on fields nothing else depends on leaves the file as if the structure had
    been written with the new values. *)
Theorem C12_update FO rows (s s1 s' : state FO) pre file tail ops file' :
  wf_rows rows = true ->
  write_file FO (mk_fs rows) s pre = Ok (s1, file) ->
  (forall nm k v, In (nm, k, v) ops -> exists f, lookup (mk_fs rows) nm = Some f
     /\ unreferenced (mk_fs rows) f /\ is_data_ty (fd_ty (f_d f)) = false
     /\ valid_index FO (mk_fs rows) s f k) ->
  update_all FO rows s1 (file ++ tail) ops = (s', Ok file') ->
  exists b, write FO (mk_fs rows) s' = Ok b /\ file' = pre ++ b ++ tail.
Proof.
  intros Hwf HW Hops HU. assert (HF := write_file_in_file FO rows s s1 pre file tail HW).
  assert (HF' : in_file FO (mk_fs rows) s' pre file' tail).
  { apply (updates_in_file FO rows ops s1 s' pre (file ++ tail) tail file' Hwf); auto.
    intros nm k v Hin. destruct (Hops nm k v Hin) as (f & HL & Hun & HT & HV). exists f.
    destruct HF as (cs & Hcs & _). apply write_chunks_positions in Hcs as (ps & Hps & _).
    assert (HK := positions_keys FO rows s1 ps f Hps (lookup_in _ _ _ HL)). eexists. repeat (split; [eassumption|]).
    apply (valid_key FO (mk_fs rows) s1 f _ k HK).
    unfold write_file in HW. apply bind_ok_elim in HW as (cs1 & _ & HW). injection HW as <- _.
    destruct HV as (V1 & V2). split; [exact V1|]. intros j Hj. destruct (V2 j Hj) as (n & A & B). exists n. split; auto.
    apply count_is_shape. apply count_is_shape in A. rewrite <- A. apply eval_shape_ext. apply val_refs.
    now destruct (record_locs_val FO cs1 s (Z.of_nat (List.length pre))). }
  destruct (in_file_written FO rows s' pre file' tail HF') as (b & Hb & E). exists b. auto.
Qed.

(** ** C13 Raw bytes *)

(** After a read, [get_raw_bytes] gives the bytes read, whatever is assigned to other fields. *)
Theorem C13_raw_read FO rows lit (s s' : state FO) inp rest :
  wf_rows rows = true -> read FO (mk_fs rows) lit s inp = Ok (s', rest) ->
  exists used, inp = used ++ rest /\
    forall nm f k ops, lookup (mk_fs rows) nm = Some f -> valid_index FO (mk_fs rows) s' f k ->
      cond_is FO (mk_fs rows) s' f k true ->
      (forall op, In op ops -> ~ aims_at FO rows f k op) ->
      exists b, block_at FO (mk_fs rows) s' used f k b
        /\ raw_bytes FO (mk_fs rows) (assign_all FO rows s' ops) nm k = Ok b.
Proof.
  intros Hwf HR. destruct (read_block_at FO rows lit s inp s' rest Hwf HR) as (used & E & H).
  exists used. split; [exact E|]. intros nm f k ops HL HV HC HO.
  destruct (H f k (lookup_in _ _ _ HL) HV) as (b & HB & _ & HP). exists b. split; [exact HB|].
  cbn [fst snd] in HP. destruct (HP HC) as [_ Hraw]; [rewrite (lookup_name _ _ _ HL); discriminate|].
  now apply raw_kept with (f := f).
Qed.

(** After an assignment it gives the bytes the new value is written as. *)
Theorem C13_raw_assigned FO rows (s s' : state FO) nm f k v out :
  lookup (mk_fs rows) nm = Some f -> is_data_ty (fd_ty (f_d f)) = false ->
  set FO (mk_fs rows) s nm k v = (s', Ok tt) -> write FO (mk_fs rows) s' = Ok out ->
  valid_index FO (mk_fs rows) s' f k -> cond_is FO (mk_fs rows) s' f k true ->
  exists b, raw_bytes FO (mk_fs rows) s' nm k = Ok b /\ block_at FO (mk_fs rows) s' out f k b.
Proof.
  intros HL HT HS HW HV HC.
  destruct (set_plain FO (mk_fs rows) s nm f k v HL HT) as [(_ & _ & C)|[_ (e & C)]]; [|congruence].
  rewrite C in HS. injection HS as HS.
  destruct (write_block_at FO rows s' out f k HW (lookup_in _ _ _ HL) HV) as (b & HB & HK).
  apply cond_is_check in HC. destruct HK as [[HC2 _]|(_ & _ & HF)]; cbn [fst snd] in *; [congruence|].
  exists b. split; [|exact HB]. unfold raw_bytes. rewrite HL.
  replace (st_raw FO s' (f_id f) k) with (@None (list N)); [exact HF|].
  rewrite <- HS. unfold assigned. cbn [st_raw set_raw]. now rewrite upd_eq.
Qed.

(** ** Examples, on the table of Ex.v *)

Lemma ex_valid s nm ks k : field_keys DecF ex_fs s (ex_f nm) = Ok ks ->
  existsb (keyeqb k) ks = true -> valid_index DecF ex_fs s (ex_f nm) k.
Proof.
  intros H HE. apply (valid_key DecF ex_fs s (ex_f nm) ks k H). apply existsb_exists in HE as (k' & Hk & E).
  apply keyeqb_spec in E. now subst.
Qed.

(** A state in which the conditional field is absent. *)
Definition ex_absent : state DecF := fst (set DecF ex_fs ex_st "has" [] (SVal (VInt 0))).
Example C06_case :
  ex_get ex_absent "c" [] = SeeNone /\ ex_get ex_st "c" [] = SeeStr (str "yes")
  /\ snd (set DecF ex_fs ex_absent "c" [] (SVal (VStr (str "no")))) = Err ERuntime
  /\ ex_get (fst (set DecF ex_fs ex_absent "c" [] (SVal (VStr (str "no"))))) "c" [] = SeeNone
  /\ (match write DecF ex_fs ex_absent with Ok b => List.length b = 62%nat | Err _ => False end)
  /\ List.length ex_bytes = 66%nat.
Proof. vm_compute. repeat split. Qed.
Example C06_case_valid : valid_index DecF ex_fs ex_absent (ex_f "c") []
  /\ cond_is DecF ex_fs ex_absent (ex_f "c") [] false /\ cond_is DecF ex_fs ex_st (ex_f "c") [] true.
Proof.
  split; [eapply ex_valid; [vm_compute; reflexivity|reflexivity]|].
  split; apply cond_is_check; vm_compute; reflexivity.
Qed.

(** [opt] is None and written as "---"; "- -" is read as None, "-07" is not. *)
Definition opt_text (t : list N) : list N :=
  str "abc   00" ++ str "0" ++ t ++ str "   00000" ++ [0; 0; 0; 0]%N.
Example C07_case :
  ex_get ex_st "opt" [] = SeeNone /\ firstn 3 (skipn 48 ex_bytes) = str "---"
  /\ (match read DecF ex_fs false ex_st (opt_text (str "- -")) with Ok (s, _) => ex_get s "opt" [] | _ => SeeErr EKey end) = SeeNone
  /\ (match read DecF ex_fs false ex_st (opt_text (str "-07")) with Ok (s, _) => ex_get s "opt" [] | _ => SeeErr EKey end) = SeeInt (-7).
Proof. vm_compute. repeat split. Qed.

Example C08_case :
  let '(s1, r1) := set DecF ex_fs ex_st "a" [1%Z] (SVal (VInt 5)) in
  let '(s2, r2) := set DecF ex_fs ex_st "a" [2%Z] (SVal (VInt 5)) in
  let '(s3, r3) := set DecF ex_fs ex_st "id" [] (SVal VNone) in
  r1 = Ok tt /\ ex_get s1 "a" [1%Z] = SeeInt 5 /\ ex_get s1 "a" [0%Z] = SeeInt 12
  /\ r2 = Err EIndex /\ r3 = Err ERuntime /\ ex_get s3 "id" [] = SeeStr (str "abc").
Proof. vm_compute. repeat split. Qed.
(** Assigning the loop count shows and hides entries, which depend on it. *)
Example C08_dependent : reaches ex_fs (ex_f "b") (ex_f "n") /\ ~ reaches ex_fs (ex_f "id") (ex_f "n").
Proof.
  split.
  - apply reach_more with (y := ex_f "m").
    + exists ("m"%string, 1%nat). split; [vm_compute; now left|reflexivity].
    + apply reach_one. exists ("n"%string, 0%nat). split; [vm_compute; now left|reflexivity].
  - intro H. inversion H as [(r & Hr & _)|y (r & Hr & _) _]; vm_compute in Hr; destruct Hr.
Qed.

Example C09_case :
  let s1 := fst (set DecF ex_fs ex_st "id" [] (SVal (VStr (str " ab  ")))) in
  let s2 := fst (set DecF ex_fs ex_st "a" [0%Z] (SVal (VStr (str " -17 ")))) in
  let s3 := fst (set DecF ex_fs ex_st "opt" [] (SVal (VInt 3))) in
  let s4 := fst (set DecF ex_fs s3 "opt" [] (SVal VNone)) in
  ex_get s1 "id" [] = SeeStr (str " ab") /\ ex_get s2 "a" [0%Z] = SeeInt (-17)
  /\ ex_get s3 "opt" [] = SeeInt 3 /\ ex_get s4 "opt" [] = SeeNone.
Proof. vm_compute. repeat split. Qed.

Example C10_case :
  field_keys DecF ex_fs ex_st (ex_f "b") = Ok [[0; 0]; [1; 0]; [1; 1]]%Z
  /\ ex_get ex_st "b" [0; 1]%Z = SeeErr EIndex /\ ex_get ex_st "b" [2; 0]%Z = SeeErr EIndex
  /\ ex_get ex_st "a" [(-1)%Z] = SeeErr EIndex /\ ex_get ex_st "a" [0; 0]%Z = SeeErr EIndex.
Proof. vm_compute. repeat split. Qed.

Example C11_case :
  let s := fst (set DecF ex_fs ex_st "data" [] (SVal (VBytes [9; 9; 9; 9; 9]%N))) in
  let s' := fst (set DecF ex_fs s "data" [] (SVal (VBytes []))) in
  ex_get s "dlen" [] = SeeInt 8 /\ ex_get s "data" [] = SeeByt [9; 9; 9; 9; 9]%N
  /\ ex_get s' "dlen" [] = SeeInt 0 /\ ex_get s' "data" [] = SeeByt []
  /\ write DecF ex_fs s = Ok (firstn 54 ex_bytes ++ str "00008" ++ [9; 9; 9; 9; 9; 255; 255; 255; 254]%N).
Proof. vm_compute. repeat split. Qed.
Example C11_fixed_case :
  snd (set DecF (mk_fs fixed_data) (init_state DecF) "d" [] (SVal (VBytes [1; 2]%N))) = Err ERuntime
  /\ snd (set DecF (mk_fs fixed_data) (init_state DecF) "d" [] (SVal (VBytes [1; 2; 3; 4]%N))) = Ok tt.
Proof. vm_compute. split; reflexivity. Qed.

(** Two updates of a structure written after 5 bytes and followed by 4. *)
Definition ex_upd : list (string * list Z * sval DecF) :=
  [("b"%string, [1; 1]%Z, SVal (@VFloat DecF (D false 75 (-2)))); ("id"%string, [], SVal (VStr (str "zz")))].
Example C12_case :
  match write_file DecF ex_fs ex_st (str "HEAD:") with
  | Ok (s1, file) =>
      match update_all DecF ex_rows s1 (file ++ str "TAIL") ex_upd with
      | (s', Ok file') => match write DecF ex_fs s' with
                          | Ok b => file' = str "HEAD:" ++ b ++ str "TAIL" /\ b <> ex_bytes
                          | _ => False end
      | _ => False
      end
  | _ => False
  end.
Proof. vm_compute. split; [reflexivity|]. intro H. discriminate H. Qed.
Example C12_case_hyps : forall nm k v, In (nm, k, v) ex_upd -> exists f, lookup ex_fs nm = Some f
     /\ unreferenced ex_fs f /\ is_data_ty (fd_ty (f_d f)) = false /\ valid_index DecF ex_fs ex_st f k.
Proof.
  intros nm k v [H|[H|[]]]; injection H as <- <- <-.
  - exists (ex_f "b"). split; [reflexivity|]. split; [apply unreferencedb_ok; vm_compute; reflexivity|].
    split; [reflexivity|]. eapply ex_valid; [vm_compute; reflexivity|reflexivity].
  - exists (ex_f "id"). split; [reflexivity|]. split; [apply unreferencedb_ok; vm_compute; reflexivity|].
    split; [reflexivity|]. eapply ex_valid; [vm_compute; reflexivity|reflexivity].
Qed.

Example C13_case :
  match read DecF ex_fs false (init_state DecF) (str "abc   01 +700" ++ str "- -" ++ str "   00000" ++ [0; 0; 0; 0]%N) with
  | Ok (s, []) =>
      raw_bytes DecF ex_fs s "a" [0%Z] = Ok (str " +7")
      /\ raw_bytes DecF ex_fs (fst (set DecF ex_fs s "id" [] (SVal (VStr (str "q"))))) "a" [0%Z] = Ok (str " +7")
      /\ raw_bytes DecF ex_fs (fst (set DecF ex_fs s "a" [0%Z] (SVal (VInt 7)))) "a" [0%Z] = Ok (str "007")
  | _ => False
  end.
Proof. vm_compute. repeat split. Qed.

Print Assumptions C06_absent_get.
Print Assumptions C06_absent_set.
Print Assumptions C06_write.
Print Assumptions C06_read.
Print Assumptions C07_none_written.
Print Assumptions C07_none_read.
Print Assumptions C07_number_kept.
Print Assumptions C08_assign.
Print Assumptions C08_frame.
Print Assumptions C08_sequence.
Print Assumptions C08_data_refuted.
Print Assumptions C09_read_back.
Print Assumptions C10_keys.
Print Assumptions C10_reject_partial.
Print Assumptions C10_reject_one_loop.
Print Assumptions C10_leading_index_refuted.
Print Assumptions C11_data.
Print Assumptions C11_fixed.
Print Assumptions C12_update.
Print Assumptions C13_raw_read.
Print Assumptions C13_raw_assigned.
