(** Engineering data behaves as a map (C37). *)
From Verif Require Import Base BaseLemmas Engine Wf EngineLemmas Codec RoundTrip Rewrite Literal
  Positions Keys Deps Assign Update Spec DescsTre Utf8 Tre TreLemmas TrePlace TrePlaceLemmas Scalar P_RoundTrip Image ImageLemmas Loop1 Engrda.
From Coq Require Import ZifyBool ZifyNat ZifyN.
Open Scope list_scope.
Ltac Zify.zify_post_hook ::= idtac.

(** ** What is claimed *)
(** One assignment: label, data, units. *)
Definition entry : Type := list N * edata * list N.
Definition e_label (e : entry) : list N := fst (fst e).
Definition e_data (e : entry) : edata := snd (fst e).
Definition e_units (e : entry) : list N := snd e.

(** The number an element stands for, as big-endian bytes. *)
Definition number_of (a : narr) (e : list N) : list N := if na_big a then e else swap (na_ty a) e.

(** What a lookup should give: the text, the bytes, or an array with the same numbers; one
    dimensional arrays are rows. *)
Definition value_of (d : edata) : eout :=
  match d with
  | EdStr t => EoStr t
  | EdBytes b => EoBytes b
  | EdArr a =>
      let '(r, c) := match na_shape a with [n] => (1%Z, n) | [r; c] => (r, c) | _ => (0%Z, 0%Z) end in
      let '(k, n) := match ety_code (na_ty a) with Some x => x | None => (0%N, 0%Z) end in
      EoArr k n r c (map (number_of a) (na_mem a))
  end.

(** Arrays of a supported type with as many elements as the shape says. *)
Definition array_ok (a : narr) : Prop :=
  exists k n, ety_code (na_ty a) = Some (k, n)
    /\ Forall (fun e => Z.of_nat (List.length e) = n) (na_mem a)
    /\ match na_shape a with
       | [m] => m = Z.of_nat (List.length (na_mem a))
       | [r; c] => (0 <= r)%Z /\ (0 <= c)%Z /\ (r * c)%Z = Z.of_nat (List.length (na_mem a))
       | _ => False
       end.
(** Text is ASCII, labels are Latin-1; arrays are little-endian (the usual order in
    memory) or of single bytes. *)
Definition entry_ok (e : entry) : Prop :=
  all_bytes (e_label e) = true
  /\ match e_data e with
     | EdStr t => ascii t = true
     | EdBytes _ => True
     | EdArr a => array_ok a /\ (na_big a = true -> na_ty a = U1 \/ na_ty a = I1)
     end.

(** The last assignment to a label. *)
Definition last_to (key : list N) (h : list entry) : option entry :=
  find (fun e => list_eqb (e_label e) key) (rev h).
(** The labels in the order in which they were first assigned. *)
Definition first_order (h : list entry) : list (list N) :=
  fold_left (fun acc e => if existsb (list_eqb (e_label e)) acc then acc else acc ++ [e_label e]) h [].

(** ** Facts about the table *)
Notation rows := desc_TreENGRDA.
Notation fs := (mk_fs desc_TreENGRDA).
Definition ef (nm : string) : field :=
  match lookup fs nm with Some f => f | None => {| f_id := 0; f_d := Build_fdesc None (SzInt 0) TStr FrNone DfNone None false 32%N false None 0%Z false; f_loops := [] |} end.
Lemma erows_wf : wf_rows rows = true. Proof. vm_compute. reflexivity. Qed.
Lemma recnt_scalar : scalar rows "recnt" (ef "recnt"). Proof. repeat split; vm_compute; reflexivity. Qed.
Lemma recnt_ty : fd_ty (f_d (ef "recnt")) = TInt. Proof. vm_compute. reflexivity. Qed.
Notation cnt := (EFld "recnt" 0).
Definition ecols : list string := ["engln"; "englbl"; "engmtxc"; "engmtxr"; "engtyp"; "engdts"; "engdatu"; "engdatc"; "engdata"]%string.
Lemma col_ok nm : In nm ecols -> column rows cnt nm (ef nm).
Proof. cbn. intros [<-|[<-|[<-|[<-|[<-|[<-|[<-|[<-|[<-|[]]]]]]]]]]; repeat split; vm_compute; reflexivity. Qed.
Lemma int_col nm : In nm ["engln"; "engmtxc"; "engmtxr"; "engdts"]%string -> fd_ty (f_d (ef nm)) = TInt /\ fd_value (f_d (ef nm)) = None.
Proof. cbn. intros [<-|[<-|[<-|[<-|[]]]]]; vm_compute; auto. Qed.
Lemma str_col nm : In nm ["engtyp"; "engdatu"]%string -> fd_ty (f_d (ef nm)) = TStr /\ fd_value (f_d (ef nm)) = None.
Proof. cbn. intros [<-|[<-|[]]]; vm_compute; auto. Qed.
Lemma lbl_desc : f_d (ef "englbl") = Build_fdesc (Some "englbl"%string) (SzExpr (EFld "engln" 1)) (TData KString) FrNone DfNone None false 32%N false None 0%Z false.
Proof. vm_compute. reflexivity. Qed.
Lemma data_desc : f_d (ef "engdata") = Build_fdesc (Some "engdata"%string) (SzExpr (EMul (EFld "engdatc" 1) (EFld "engdts" 1))) (TData KExt) FrNone DfNone None false 32%N false None 0%Z true.
Proof. vm_compute. reflexivity. Qed.
Lemma datc_desc : f_d (ef "engdatc") = Build_fdesc (Some "engdatc"%string) (SzInt 8%Z) TInt FrNone DfNone None false 32%N false (Some (EMul (EFld "engmtxc" 1) (EFld "engmtxr" 1))) 0%Z false.
Proof. vm_compute. reflexivity. Qed.
Lemma ef_ne nm nm' : lookup fs nm = Some (ef nm) -> lookup fs nm' = Some (ef nm') -> nm <> nm' -> ef nm <> ef nm'.
Proof. intros. eapply (lookup_ne rows nm nm'); eauto. Qed.
Lemma init_recnt FO : stored FO (init_state FO) (ef "recnt") [] = SVal (VInt 0).
Proof. vm_compute. reflexivity. Qed.
Opaque ef.

Lemma name_lookup nm : In nm ("recnt"%string :: ecols) -> lookup fs nm = Some (ef nm).
Proof. intros [<-|H]; [apply recnt_scalar|apply (col_ok nm H)]. Qed.

(** ** Records *)
(** Type letter, element size and bytes of the data. *)
Definition code_of (d : edata) : N * Z :=
  match d with EdStr _ => (65%N, 1%Z) | EdBytes _ => (66%N, 1%Z)
  | EdArr a => match ety_code (na_ty a) with Some x => x | None => (0%N, 0%Z) end end.
Definition bytes_of (d : edata) : list N :=
  match d with EdStr t => t | EdBytes b => b | EdArr a => arr_bytes a end.
Definition cols_rows (d : edata) : Z * Z :=
  match d with
  | EdStr t => (Z.of_nat (List.length t), 1%Z) | EdBytes b => (Z.of_nat (List.length b), 1%Z)
  | EdArr a => match na_shape a with [n] => (n, 1%Z) | [r; c] => (c, r) | _ => (0%Z, 0%Z) end
  end.

Lemma swap_len t e : List.length (swap t e) = List.length e.
Proof.
  destruct t; cbn [swap]; rewrite ?app_length, ?rev_length; auto. rewrite <- app_length. now rewrite firstn_skipn.
Qed.

Lemma concat_len {A} (n : Z) (l : list (list A)) : Forall (fun e => Z.of_nat (List.length e) = n) l ->
  Z.of_nat (List.length (List.concat l)) = (Z.of_nat (List.length l) * n)%Z.
Proof. induction 1 as [|e l H _ IH]; auto. cbn [List.concat List.length]. rewrite app_length. lia. Qed.

Lemma swaps_len t n (l : list (list N)) : Forall (fun e => Z.of_nat (List.length e) = n) l ->
  Forall (fun e => Z.of_nat (List.length e) = n) (map (swap t) l).
Proof. induction 1; cbn; constructor; auto. now rewrite swap_len. Qed.

Lemma arr_bytes_len a k n : ety_code (na_ty a) = Some (k, n) -> Forall (fun e => Z.of_nat (List.length e) = n) (na_mem a) ->
  Z.of_nat (List.length (arr_bytes a)) = (Z.of_nat (List.length (na_mem a)) * n)%Z.
Proof.
  intros E F. unfold arr_bytes. destruct (na_ty a); try (now apply concat_len); try (cbn [map];
    rewrite (concat_len n) by (now apply swaps_len); now rewrite map_length).
Qed.

Lemma size_ok e : entry_ok e -> (fst (cols_rows (e_data e)) * snd (cols_rows (e_data e)) * snd (code_of (e_data e)))%Z
  = Z.of_nat (List.length (bytes_of (e_data e))).
Proof.
  intros (_ & H). destruct (e_data e) as [t|b|a]; cbn [cols_rows code_of bytes_of fst snd]; try lia.
  destruct H as ((k & n & E & F & S) & _). rewrite E. cbn [snd]. rewrite (arr_bytes_len a k n E F).
  destruct (na_shape a) as [|x [|y [|]]]; try contradiction; cbn [fst snd]; lia.
Qed.

Section Map.
Variable FO : FloatOps.
Notation st := (state FO).
Notation asg s nm i v := (assigned FO s (ef nm) [i] (SVal v)).
Notation sto s nm i := (stored FO s (ef nm) [i]).

Lemma sel_ne s nm k v nm' p : In nm ("recnt"%string :: ecols) -> In nm' ("recnt"%string :: ecols) -> nm <> nm' ->
  stored FO (assigned FO s (ef nm) k v) (ef nm') p = stored FO s (ef nm') p.
Proof.
  intros H H' Hne. apply (assigned_same FO rows).
  - eapply lookup_in, name_lookup, H.
  - eapply lookup_in, name_lookup, H'.
  - apply (ef_ne nm' nm); auto using name_lookup.
Qed.
Lemma sel_key s nm i v nm' p : In nm ecols -> In nm' ("recnt"%string :: ecols) -> p <> [i] ->
  stored FO (assigned FO s (ef nm) [i] v) (ef nm') p = stored FO s (ef nm') p.
Proof.
  intros H H' Hne. destruct (assigned_stored FO rows s (ef nm) [i] v (ef nm') p) as [|[_ E]]; auto; [| |congruence].
  - eapply lookup_in, name_lookup; now right.
  - eapply lookup_in, name_lookup, H'.
Qed.

Definition has (s : st) (n : Z) : Prop := stored FO s (ef "recnt") [] = SVal (VInt n) /\ st_impl FO s = false.

Lemma has_times s n : has s n -> times FO rows cnt s n.
Proof. intros [H _]. apply (shape_count FO rows erows_wf "recnt" (ef "recnt") recnt_scalar recnt_ty s n []); auto. Qed.

Lemma has_set s n nm i v : In nm ecols -> has s n -> has (assigned FO s (ef nm) [i] v) n.
Proof.
  intros Hn [H1 H2]. split; [|exact H2]. rewrite sel_key; auto; [now left|discriminate].
Qed.

Lemma has_recnt s n : has s n -> recnt FO s = Ok n.
Proof.
  intros [H _]. unfold recnt. rewrite (get_count FO rows "recnt" (ef "recnt") recnt_scalar recnt_ty s n H). reflexivity.
Qed.

Lemma eset_int s n nm i z : In nm ["engln"; "engmtxc"; "engmtxr"; "engdts"]%string -> has s n -> (0 <= i < n)%Z ->
  eset FO nm i (VInt z) s = (asg s nm i (VInt z), Ok tt).
Proof.
  intros Hn H Hi. destruct (int_col nm Hn) as [T V]. unfold eset.
  apply (col_set FO rows cnt s n nm (ef nm)); auto; try discriminate.
  - apply col_ok. cbn in *. tauto.
  - now rewrite T.
  - apply H.
  - now apply has_times.
Qed.
Lemma eset_str s n nm i t : In nm ["engtyp"; "engdatu"]%string -> has s n -> (0 <= i < n)%Z ->
  eset FO nm i (VStr t) s = (asg s nm i (VStr t), Ok tt).
Proof.
  intros Hn H Hi. destruct (str_col nm Hn) as [T V]. unfold eset.
  apply (col_set FO rows cnt s n nm (ef nm)); auto; try discriminate.
  - apply col_ok. cbn in *. tauto.
  - now rewrite T.
  - apply H.
  - now apply has_times.
Qed.
Lemma eset_lbl s n i t : all_bytes t = true -> has s n -> (0 <= i < n)%Z ->
  eset FO "englbl" i (VStr t) s = (asg (asg s "englbl" i (VBytes t)) "engln" i (VInt (Z.of_nat (List.length t))), Ok tt).
Proof.
  intros Ht H Hi. unfold eset. destruct (int_col "engln" ltac:(cbn; tauto)) as [T V].
  apply (col_set_text FO rows cnt s n "englbl" (ef "englbl") "engln" (ef "engln")); auto; try (rewrite lbl_desc; reflexivity).
  - apply col_ok. cbn; tauto.
  - apply col_ok. cbn; tauto.
  - apply H.
  - now apply has_times.
  - apply has_times. apply has_set; auto. cbn; tauto.
Qed.

Lemma get_int s n nm i z : In nm ["engln"; "engmtxc"; "engmtxr"; "engdts"]%string -> has s n -> (0 <= i < n)%Z ->
  sto s nm i = SVal (VInt z) -> get FO fs s nm [i] = Ok (VInt z).
Proof.
  intros Hn H Hi E. destruct (int_col nm Hn) as [T V]. apply (col_int FO rows cnt s n nm (ef nm)); auto.
  - apply col_ok. cbn in *. tauto.
  - now apply has_times.
Qed.
Lemma get_str s n nm i t : In nm ["engtyp"; "engdatu"]%string -> has s n -> (0 <= i < n)%Z ->
  sto s nm i = SVal (VStr t) -> get FO fs s nm [i] = Ok (VStr (rstrip_by ws_str t)).
Proof.
  intros Hn H Hi E. destruct (str_col nm Hn) as [T V]. apply (col_str FO rows cnt s n nm (ef nm)); auto.
  - apply col_ok. cbn in *. tauto.
  - now apply has_times.
Qed.

(** The record after an assignment. *)
Definition filled (s : st) (i : Z) (e : entry) : st :=
  let '(c, r) := cols_rows (e_data e) in let '(k, n) := code_of (e_data e) in
  asg (asg (asg (asg (asg (asg (asg (asg s "englbl" i (VBytes (e_label e))) "engln" i (VInt (Z.of_nat (List.length (e_label e)))))
    "engdatu" i (VStr (e_units e))) "engmtxc" i (VInt c)) "engmtxr" i (VInt r)) "engtyp" i (VStr [k])) "engdts" i (VInt n))
    "engdata" i (VBytes (bytes_of (e_data e))).

Lemma set_data_ok s n i e : entry_ok e -> has s n -> (0 <= i < n)%Z ->
  sto s "engmtxc" i = SVal (VInt (fst (cols_rows (e_data e)))) -> sto s "engmtxr" i = SVal (VInt (snd (cols_rows (e_data e)))) ->
  set_data FO i (e_data e) s
  = (asg (asg (asg s "engtyp" i (VStr [fst (code_of (e_data e))])) "engdts" i (VInt (snd (code_of (e_data e)))))
       "engdata" i (VBytes (bytes_of (e_data e))), Ok tt).
Proof.
  intros He H Hi EC ER. pose proof (size_ok e He) as SZ. unfold set_data. rewrite (name_lookup "engdata") by (cbn; tauto).
  set (d := e_data e) in *. set (s1 := asg s "engtyp" i (VStr [fst (code_of d)])). set (s2 := asg s1 "engdts" i (VInt (snd (code_of d)))).
  assert (H1 : has s1 n) by (apply has_set; [cbn; tauto|exact H]).
  assert (H2 : has s2 n) by (apply has_set; [cbn; tauto|exact H1]).
  assert (P : epack FO i d s = (s2, Ok (bytes_of d))).
  { destruct He as (_ & He). fold d in He. unfold epack.
    assert (Q : forall c m, andthen FO (eset FO "engtyp" i (VStr [c]) s) (eset FO "engdts" i (VInt m))
        = (asg (asg s "engtyp" i (VStr [c])) "engdts" i (VInt m), Ok tt)).
    { intros c m. rewrite (eset_str s n "engtyp" i [c]) by (auto; cbn; tauto). cbn [andthen].
      apply (eset_int _ n); [cbn; tauto| |exact Hi]. apply has_set; [cbn; tauto|exact H]. }
    destruct d as [t|b|a] eqn:Ed.
    - rewrite (utf8_enc_ascii t He). rewrite Q. reflexivity.
    - rewrite Q. reflexivity.
    - destruct He as ((k & m & Ec & _) & _). unfold s2, s1, code_of. rewrite Ec. rewrite Q. reflexivity. }
  rewrite P. set (s3 := asg s2 "engdata" i (VBytes (bytes_of d))).
  assert (H3 : has s3 n) by (apply has_set; [cbn; tauto|exact H2]).
  unfold set_base. pose proof (col_ok "engdata" ltac:(cbn; tauto)) as C. pose proof C as (L & LL & LC & LH).
  rewrite (col_index FO rows cnt s2 n "engdata" (ef "engdata") i C (has_times _ _ H2) Hi).
  unfold check_condition. rewrite data_desc. cbn [fd_name fd_cond fd_hard fd_value fd_ty fd_size_not_updated orb].
  rewrite (proj2 H2). fold (assigned FO s2 (ef "engdata") [i] (SVal (VBytes (bytes_of d)))). fold s3.
  unfold fsize_of. rewrite data_desc. cbn [fd_size fd_size_offset].
  assert (EV : eval FO (G FO fs s3) fs [i] (EMul (EFld "engdatc" 1) (EFld "engdts" 1))
      = Ok (VInt (fst (cols_rows d) * snd (cols_rows d) * snd (code_of d)))).
  { cbn [eval]. change (eval_ref FO (G FO fs s3) fs [i] "engdatc" 1) with (eval FO (G FO fs s3) fs [i] (EFld "engdatc" 1)).
    change (eval_ref FO (G FO fs s3) fs [i] "engdts" 1) with (eval FO (G FO fs s3) fs [i] (EFld "engdts" 1)).
    rewrite (eval_col FO rows erows_wf cnt s3 i "engdatc" (ef "engdatc")) by (apply col_ok; cbn; tauto).
    rewrite (eval_col FO rows erows_wf cnt s3 i "engdts" (ef "engdts")) by (apply col_ok; cbn; tauto).
    assert (GD : get FO fs s3 "engdts" [i] = Ok (VInt (snd (code_of d)))).
    { apply (get_int s3 n); [cbn; tauto|exact H3|exact Hi|]. unfold s3. rewrite sel_ne by (try discriminate; cbn; tauto). apply assigned_self. }
    assert (GC : get FO fs s3 "engmtxc" [i] = Ok (VInt (fst (cols_rows d)))).
    { apply (get_int s3 n); [cbn; tauto|exact H3|exact Hi|]. unfold s3, s2, s1. rewrite !sel_ne by (try discriminate; cbn; tauto). exact EC. }
    assert (GR : get FO fs s3 "engmtxr" [i] = Ok (VInt (snd (cols_rows d)))).
    { apply (get_int s3 n); [cbn; tauto|exact H3|exact Hi|]. unfold s3, s2, s1. rewrite !sel_ne by (try discriminate; cbn; tauto). exact ER. }
    rewrite GD.
    rewrite (col_computed FO rows cnt s3 n "engdatc" (ef "engdatc") i (EMul (EFld "engmtxc" 1) (EFld "engmtxr" 1)) (fst (cols_rows d) * snd (cols_rows d))%Z).
    - reflexivity.
    - apply col_ok. cbn; tauto.
    - now rewrite datc_desc.
    - now rewrite datc_desc.
    - now apply has_times.
    - exact Hi.
    - cbn [eval]. change (eval_ref FO (G FO fs s3) fs [i] "engmtxc" 1) with (eval FO (G FO fs s3) fs [i] (EFld "engmtxc" 1)).
      change (eval_ref FO (G FO fs s3) fs [i] "engmtxr" 1) with (eval FO (G FO fs s3) fs [i] (EFld "engmtxr" 1)).
      rewrite (eval_col FO rows erows_wf cnt s3 i "engmtxc" (ef "engmtxc")) by (apply col_ok; cbn; tauto).
      rewrite (eval_col FO rows erows_wf cnt s3 i "engmtxr" (ef "engmtxr")) by (apply col_ok; cbn; tauto).
      rewrite GC, GR. reflexivity. }
  rewrite EV. cbn [bind as_Z]. rewrite SZ.
  replace (if (Z.of_nat (List.length (bytes_of d)) =? 0)%Z then Z.of_nat (List.length (bytes_of d)) else (Z.of_nat (List.length (bytes_of d)) - 0)%Z)
    with (Z.of_nat (List.length (bytes_of d))) by (destruct (_ =? 0)%Z; lia).
  rewrite Z.eqb_refl. reflexivity.
Qed.

Lemma fill_ok s n i e : entry_ok e -> has s n -> (0 <= i < n)%Z ->
  (andthen FO (eset FO "englbl" i (VStr (e_label e)) s) (fun s2 =>
   andthen FO (eset FO "engdatu" i (VStr (e_units e)) s2) (fun s3 =>
      match shape_of (e_data e) with
      | Err x => (s3, Err x)
      | Ok (c, r) =>
          andthen FO (eset FO "engmtxc" i (VInt c) s3) (fun s4 =>
          andthen FO (eset FO "engmtxr" i (VInt r) s4) (fun s5 => set_data FO i (e_data e) s5))
      end))) = (filled s i e, Ok tt).
Proof.
  intros He H Hi.
  assert (SH : shape_of (e_data e) = Ok (cols_rows (e_data e))).
  { destruct He as (_ & He). destruct (e_data e) as [t|b|a]; auto. destruct He as ((k & m & _ & _ & S) & _).
    unfold shape_of, cols_rows. destruct (na_shape a) as [|x [|y [|]]]; auto; contradiction. }
  rewrite (eset_lbl s n i (e_label e) (proj1 He) H Hi). cbn [andthen].
  set (s1 := asg (asg s "englbl" i _) "engln" i _).
  assert (H1 : has s1 n) by (apply has_set; [cbn; tauto|]; apply has_set; [cbn; tauto|exact H]).
  rewrite (eset_str s1 n "engdatu" i) by (auto; cbn; tauto). cbn [andthen]. rewrite SH.
  destruct (cols_rows (e_data e)) as [c r] eqn:ECR.
  assert (H2 : has (asg s1 "engdatu" i (VStr (e_units e))) n) by (apply has_set; [cbn; tauto|exact H1]).
  rewrite (eset_int _ n "engmtxc" i c) by (auto; cbn; tauto). cbn [andthen].
  assert (H3 : has (asg (asg s1 "engdatu" i (VStr (e_units e))) "engmtxc" i (VInt c)) n) by (apply has_set; [cbn; tauto|exact H2]).
  rewrite (eset_int _ n "engmtxr" i r) by (auto; cbn; tauto). cbn [andthen].
  rewrite (set_data_ok _ n i e); [|exact He| |exact Hi| |].
  - unfold filled. rewrite ECR. fold s1. destruct (code_of (e_data e)) as [k m]. reflexivity.
  - apply has_set; [cbn; tauto|exact H3].
  - rewrite sel_ne by (try discriminate; cbn; tauto). rewrite ECR. apply assigned_self.
  - rewrite ECR. apply assigned_self.
Qed.

(** What a record holds. *)
Definition holds (s : st) (i : Z) (e : entry) : Prop :=
  entry_ok e
  /\ sto s "englbl" i = SVal (VBytes (e_label e)) /\ sto s "engdatu" i = SVal (VStr (e_units e))
  /\ sto s "engmtxc" i = SVal (VInt (fst (cols_rows (e_data e)))) /\ sto s "engmtxr" i = SVal (VInt (snd (cols_rows (e_data e))))
  /\ sto s "engtyp" i = SVal (VStr [fst (code_of (e_data e))]) /\ sto s "engdts" i = SVal (VInt (snd (code_of (e_data e))))
  /\ sto s "engdata" i = SVal (VBytes (bytes_of (e_data e))).

Lemma filled_holds s i e : entry_ok e -> holds (filled s i e) i e.
Proof.
  intro He. unfold holds, filled. destruct (cols_rows (e_data e)) as [c r]. destruct (code_of (e_data e)) as [k n]. cbn [fst snd].
  split; [exact He|].
  repeat split; repeat (rewrite sel_ne by (try discriminate; cbn; tauto)); apply assigned_self.
Qed.

Lemma filled_other s i e nm p : In nm ("recnt"%string :: ecols) -> p <> [i] -> stored FO (filled s i e) (ef nm) p = stored FO s (ef nm) p.
Proof.
  intros Hn Hp. unfold filled. destruct (cols_rows (e_data e)) as [c r]. destruct (code_of (e_data e)) as [k n].
  repeat (rewrite sel_key; [|cbn; tauto|exact Hn|exact Hp]). reflexivity.
Qed.

Lemma lits_assigned s f k v : no_literals FO fs s -> no_literals FO fs (assigned FO s f k (SVal v)).
Proof.
  intros N g p b Hg. unfold assigned. cbn [set_raw set_val st_val]. unfold upd. destruct (_ && _); [discriminate|]. now apply N.
Qed.
Lemma filled_lits s i e : no_literals FO fs s -> no_literals FO fs (filled s i e).
Proof.
  intros H. unfold filled. destruct (cols_rows (e_data e)) as [c r]. destruct (code_of (e_data e)) as [k m].
  repeat apply lits_assigned. exact H.
Qed.

Lemma filled_has s n i e : has s n -> has (filled s i e) n.
Proof.
  intros H. unfold filled. destruct (cols_rows (e_data e)) as [c r]. destruct (code_of (e_data e)) as [k m].
  repeat (apply has_set; [cbn; tauto|]). exact H.
Qed.

Lemma holds_same s s' i e : (forall nm, In nm ecols -> sto s' nm i = sto s nm i) -> holds s i e -> holds s' i e.
Proof. unfold holds. intros E H. rewrite !E by (cbn; tauto). exact H. Qed.

(** ** Reading a record *)
Lemma cut_concat n (l : list (list N)) : (0 < n)%nat -> Forall (fun e => List.length e = n) l ->
  forall f, (List.length l <= f)%nat -> cut f n (List.concat l) = l.
Proof.
  intros Hn. induction 1 as [|e l He _ IH]; intros f Hf; [destruct f; reflexivity|].
  destruct f as [|f]; [cbn in Hf; lia|]. cbn [List.concat cut].
  destruct (e ++ List.concat l) as [|x y] eqn:E.
  - apply app_eq_nil in E as [-> _]. cbn in He. lia.
  - rewrite <- E. rewrite firstn_app, <- He, firstn_all, Nat.sub_diag. cbn [firstn]. rewrite app_nil_r.
    rewrite skipn_app, skipn_all, Nat.sub_diag. cbn [skipn app]. f_equal. rewrite He. apply IH. cbn in Hf. lia.
Qed.

Lemma numbers_bytes a k n : ety_code (na_ty a) = Some (k, n) -> Forall (fun e => Z.of_nat (List.length e) = n) (na_mem a) ->
  (na_big a = true -> na_ty a = U1 \/ na_ty a = I1) ->
  arr_bytes a = List.concat (map (number_of a) (na_mem a)) /\ Forall (fun e => Z.of_nat (List.length e) = n) (map (number_of a) (na_mem a)).
Proof.
  intros E F B.
  assert (X : Forall (fun e => Z.of_nat (List.length e) = n) (map (number_of a) (na_mem a))).
  { clear - F. induction F; cbn; constructor; auto. unfold number_of. destruct (na_big a); [|rewrite swap_len]; assumption. }
  split; [|exact X].
  assert (Y : n = 1%Z -> map (number_of a) (na_mem a) = na_mem a).
  { intros ->. clear - F. induction F as [|e l H _ IH]; auto. cbn [map]. rewrite IH. f_equal.
    unfold number_of. destruct (na_big a); auto. destruct e as [|x [|y e]]; cbn in H; try lia. destruct (na_ty a); reflexivity. }
  unfold arr_bytes. destruct (na_big a) eqn:BB.
  - destruct (B eq_refl) as [T|T]; rewrite T in *; cbn [ety_code] in E; rewrite Y by congruence; reflexivity.
  - assert (Z : map (swap (na_ty a)) (na_mem a) = map (number_of a) (na_mem a)).
    { apply map_ext. intro e. unfold number_of. now rewrite BB. }
    destruct (na_ty a) eqn:T; try (now rewrite <- Z); cbn [ety_code] in E; rewrite Y by congruence; reflexivity.
Qed.

Lemma code_rstrip (e : entry) : entry_ok e -> rstrip_by ws_str [fst (code_of (e_data e))] = [fst (code_of (e_data e))].
Proof.
  intros (_ & H). destruct (e_data e) as [t|b|a]; try reflexivity. destruct H as ((k & n & E & _) & _). cbn [code_of]. rewrite E.
  destruct (na_ty a); cbn [ety_code] in E; try discriminate; injection E as <- <-; reflexivity.
Qed.

Lemma holds_lbl s n i e : has s n -> (0 <= i < n)%Z -> holds s i e -> estr FO s "englbl" i = Ok (e_label e).
Proof.
  intros H Hi (_ & E & _). unfold estr.
  rewrite (col_data FO rows cnt s n "englbl" (ef "englbl") i (e_label e));
    [now rewrite lbl_desc|apply col_ok; cbn; tauto|now rewrite lbl_desc|rewrite lbl_desc; now left|now apply has_times|exact Hi|exact E].
Qed.

Lemma holds_get s n i e : has s n -> (0 <= i < n)%Z -> holds s i e ->
  get_data FO s i = Ok (value_of (e_data e)) /\ estr FO s "engdatu" i = Ok (rstrip_by ws_str (e_units e)).
Proof.
  intros H Hi (He & E1 & E2 & E3 & E4 & E5 & E6 & E7). split.
  2:{ unfold estr. rewrite (get_str s n "engdatu" i (e_units e)); auto. cbn; tauto. }
  unfold get_data.
  rewrite (col_data FO rows cnt s n "engdata" (ef "engdata") i (bytes_of (e_data e)));
    [|apply col_ok; cbn; tauto|now rewrite data_desc|rewrite data_desc; auto|now apply has_times|exact Hi|exact E7].
  rewrite data_desc. cbn [fd_ty bind]. unfold eunpack, estr, eint.
  rewrite (get_str s n "engtyp" i _ ltac:(cbn; tauto) H Hi E5), (code_rstrip e He). cbn [bind].
  rewrite (get_int s n "engdts" i _ ltac:(cbn; tauto) H Hi E6). cbn [bind].
  rewrite (get_int s n "engmtxr" i _ ltac:(cbn; tauto) H Hi E4), (get_int s n "engmtxc" i _ ltac:(cbn; tauto) H Hi E3).
  pose proof (size_ok e He) as SZ. destruct He as (_ & He).
  destruct (e_data e) as [t|b|a]; cbn [code_of fst snd bytes_of value_of cols_rows] in *.
  - cbn [list_eqb N.eqb Pos.eqb andb Z.eqb]. now rewrite (utf8_dec_ascii t He).
  - reflexivity.
  - destruct He as ((k & m & Ec & F & S) & B). rewrite Ec in *. cbn [fst snd] in *.
    destruct (numbers_bytes a k m Ec F B) as (EB & F').
    assert (Hm : (0 < m)%Z /\ np_size_ok k m = true /\ (k =? 65)%N = false /\ (k =? 66)%N = false
       /\ ((k =? 73)%N || (k =? 83)%N || (k =? 82)%N || (k =? 67)%N) = true).
    { destruct (na_ty a); cbn [ety_code] in Ec; try discriminate; injection Ec as <- <-; vm_compute; auto. }
    destruct Hm as (Hm & Hs & K1 & K2 & K3). cbn [list_eqb]. rewrite K1, K2, K3, Hs. cbn [andb negb bind].
    assert (LEN := arr_bytes_len a k m Ec F). set (q := Z.of_nat (List.length (na_mem a))) in *.
    rewrite LEN, Z.mod_mul by lia. cbn [Z.eqb negb]. rewrite Z.div_mul by lia.
    assert (SH : exists r c, na_shape a = [c] /\ r = 1%Z /\ c = q \/ na_shape a = [r; c] /\ (0 <= r)%Z /\ (0 <= c)%Z /\ (r * c)%Z = q).
    { destruct (na_shape a) as [|x [|y [|]]]; try contradiction; [exists 1%Z, x; left; auto|exists x, y; right; tauto]. }
    assert (CUT : cut (List.length (arr_bytes a)) (Z.to_nat m) (arr_bytes a) = map (number_of a) (na_mem a)).
    { rewrite EB at 2. apply cut_concat; [lia| |].
      - eapply Forall_impl; [|exact F']. cbn. intros x Hx. lia.
      - rewrite map_length. fold q in LEN. nia. }
    destruct SH as (r & c & [(-> & -> & ->)|(-> & Hr & Hcc & Hq)]); cbn [fst snd].
    + replace (1 <? 0)%Z with false by lia. replace (q <? 0)%Z with false by lia. replace (1 * q =? q)%Z with true by lia.
      cbn [orb negb bind]. now rewrite CUT.
    + replace (r <? 0)%Z with false by lia. replace (c <? 0)%Z with false by lia. replace (r * c =? q)%Z with true by lia.
      cbn [orb negb bind]. now rewrite CUT.
Qed.

(** ** The records as a list of entries *)
Lemma leq_spec a b : Bool.reflect (a = b) (list_eqb a b).
Proof. apply Bool.iff_reflect. symmetry. apply list_eqb_spec. Qed.

Definition rep (s : st) (m : list entry) : Prop :=
  has s (Z.of_nat (List.length m))
  /\ (forall i e, nth_error m i = Some e -> holds s (Z.of_nat i) e)
  /\ NoDup (map e_label m) /\ no_literals FO fs s.

Fixpoint put (m : list entry) (e : entry) : list entry :=
  match m with
  | [] => [e]
  | x :: m' => if list_eqb (e_label x) (e_label e) then e :: m' else x :: put m' e
  end.

Lemma rep_lbl s m i e : rep s m -> nth_error m i = Some e -> estr FO s "englbl" (Z.of_nat i) = Ok (e_label e).
Proof.
  intros (H & R & _) E. apply (holds_lbl s (Z.of_nat (List.length m))); auto.
  assert (i < List.length m)%nat by (apply nth_error_Some; congruence). lia.
Qed.

Lemma find_last_spec s m key : rep s m -> forall m' pre acc, m = pre ++ m' ->
  exists j, find_last FO s key (map Z.of_nat (seq (List.length pre) (List.length m'))) acc = Ok j
    /\ (j = acc /\ ~ In key (map e_label m')
        \/ exists k e, nth_error m k = Some e /\ e_label e = key /\ j = Z.of_nat k).
Proof.
  intro R. induction m' as [|x m' IH]; intros pre acc E; [exists acc; cbn; auto|].
  cbn [List.length seq map find_last].
  assert (N : nth_error m (List.length pre) = Some x).
  { rewrite E, nth_error_app2, Nat.sub_diag by lia. reflexivity. }
  rewrite (rep_lbl s m _ x R N). cbn [bind].
  destruct (IH (pre ++ [x]) (if list_eqb (e_label x) key then Z.of_nat (List.length pre) else acc)) as (j & F & C).
  { now rewrite <- app_assoc. }
  rewrite app_length in F. cbn [List.length] in F. rewrite Nat.add_1_r in F. exists j. split; [exact F|].
  destruct (leq_spec (e_label x) key) as [K|K].
  - destruct C as [(-> & _)|C]; right; eauto.
  - destruct C as [(-> & C)|C]; [left|right; exact C]. split; auto. cbn. intros [?|?]; auto.
Qed.

Lemma find_first_spec s m key : rep s m -> forall m' pre, m = pre ++ m' ->
  find_first FO s key (map Z.of_nat (seq (List.length pre) (List.length m')))
  = match find (fun e => list_eqb (e_label e) key) m' with
    | Some e => Ok (value_of (e_data e), rstrip_by ws_str (e_units e))
    | None => Err EKey
    end.
Proof.
  intro R. induction m' as [|x m' IH]; intros pre E; [reflexivity|].
  cbn [List.length seq map find_first find].
  assert (N : nth_error m (List.length pre) = Some x).
  { rewrite E, nth_error_app2, Nat.sub_diag by lia. reflexivity. }
  rewrite (rep_lbl s m _ x R N). cbn [bind]. destruct (list_eqb (e_label x) key).
  - destruct R as (H & R & _).
    assert (List.length pre < List.length m)%nat by (apply nth_error_Some; congruence).
    assert (HI : (0 <= Z.of_nat (List.length pre) < Z.of_nat (List.length m))%Z) by lia.
    destruct (holds_get s _ _ x H HI (R _ _ N)) as (G1 & G2). rewrite G1, G2. reflexivity.
  - specialize (IH (pre ++ [x])). rewrite <- app_assoc in IH. specialize (IH E).
    rewrite app_length in IH. cbn [List.length] in IH. rewrite Nat.add_1_r in IH. exact IH.
Qed.

Lemma labels_spec s m : rep s m -> forall m' pre, m = pre ++ m' ->
  elabels FO s (map Z.of_nat (seq (List.length pre) (List.length m'))) = Ok (map e_label m').
Proof.
  intro R. induction m' as [|x m' IH]; intros pre E; [reflexivity|].
  cbn [List.length seq map elabels].
  assert (N : nth_error m (List.length pre) = Some x).
  { rewrite E, nth_error_app2, Nat.sub_diag by lia. reflexivity. }
  rewrite (rep_lbl s m _ x R N). cbn [bind].
  specialize (IH (pre ++ [x])). rewrite <- app_assoc in IH. specialize (IH E).
  rewrite app_length in IH. cbn [List.length] in IH. rewrite Nat.add_1_r in IH. rewrite IH. reflexivity.
Qed.

Lemma put_new m e : ~ In (e_label e) (map e_label m) -> put m e = m ++ [e].
Proof.
  induction m as [|x m IH]; auto. cbn. intro H. destruct (leq_spec (e_label x) (e_label e)); [tauto|].
  now rewrite IH by tauto.
Qed.
Lemma put_labels m e : In (e_label e) (map e_label m) -> map e_label (put m e) = map e_label m.
Proof.
  induction m as [|x m IH]; [contradiction|]. cbn. intros [H|H]; destruct (leq_spec (e_label x) (e_label e)) as [K|K]; cbn; try congruence.
  now rewrite IH.
Qed.
Lemma put_len m e : In (e_label e) (map e_label m) -> List.length (put m e) = List.length m.
Proof. intro H. rewrite <- (map_length e_label), put_labels, map_length; auto. Qed.
Lemma put_nth m : NoDup (map e_label m) -> forall k x e j, nth_error m k = Some x -> e_label x = e_label e ->
  nth_error (put m e) j = if (j =? k)%nat then Some e else nth_error m j.
Proof.
  induction m as [|y m IH]; intros N k x e j E L; [destruct k; discriminate|].
  cbn in N. apply NoDup_cons_iff in N as [N1 N2]. cbn [put]. destruct k as [|k]; cbn in E.
  - injection E as ->. rewrite L. destruct (leq_spec (e_label e) (e_label e)); [|congruence]. destruct j; reflexivity.
  - destruct (leq_spec (e_label y) (e_label e)) as [K|K].
    + exfalso. apply N1. rewrite K, <- L. apply in_map. now apply (nth_error_In m k).
    + destruct j as [|j]; [reflexivity|]. cbn [nth_error]. rewrite (IH N2 k x e j E L). reflexivity.
Qed.
Lemma put_nodup m e : NoDup (map e_label m) -> NoDup (map e_label (put m e)).
Proof.
  intro N. destruct (in_dec (list_eq_dec N.eq_dec) (e_label e) (map e_label m)) as [H|H]; [now rewrite put_labels|].
  rewrite put_new, map_app by auto. cbn. apply NoDup_rev in N. rewrite <- (rev_involutive (_ ++ [_])).
  apply NoDup_rev. rewrite rev_app_distr. cbn. constructor; auto. now rewrite <- in_rev.
Qed.

Lemma step_ok s m e : rep s m -> entry_ok e ->
  exists s', add_or_update FO (e_label e) (e_data e) (e_units e) s = (s', Ok tt) /\ rep s' (put m e).
Proof.
  intros R He. pose proof R as (H & HH & ND & NL). unfold add_or_update. rewrite (has_recnt s _ H). cbn [bind]. unfold zrange. rewrite Nat2Z.id.
  destruct (find_last_spec s m (e_label e) R m [] (-1)%Z eq_refl) as (j & F & C). cbn [List.length] in F. rewrite F. cbn [bind].
  destruct C as [(-> & C)|(k & x & N & L & ->)].
  - cbn [Z.eqb Pos.eqb]. rewrite (set_scalar FO rows s "recnt" (ef "recnt")) by (try discriminate; first [exact recnt_scalar|apply H]).
    cbn [andthen]. set (n := Z.of_nat (List.length m)) in *. set (s1 := assigned FO s (ef "recnt") [] (SVal (VInt (n + 1)))).
    assert (H1 : has s1 (n + 1)) by (split; [apply assigned_self|apply H]).
    assert (Hn : (0 <= n < n + 1)%Z) by lia.
    rewrite (fill_ok s1 (n + 1) n e He H1 Hn). eexists. split; [reflexivity|]. rewrite put_new by exact C.
    split; [|split; [|split]].
    + rewrite app_length. cbn [List.length]. replace (Z.of_nat (List.length m + 1)) with (n + 1)%Z by lia. now apply filled_has.
    + intros i y E. destruct (Nat.eq_dec i (List.length m)) as [->|Hi].
      * rewrite nth_error_app2, Nat.sub_diag in E by lia. injection E as <-. now apply filled_holds.
      * assert (i < List.length (m ++ [e]))%nat by (apply nth_error_Some; congruence). rewrite app_length in H0. cbn in H0.
        rewrite nth_error_app1 in E by lia. apply (holds_same s); [|now apply HH].
        intros nm Hnm. rewrite filled_other; [|now right|intro Q; injection Q as Q; lia].
        unfold s1. apply sel_ne; [now left|now right|]. cbn in Hnm. intro Q. subst nm. repeat (destruct Hnm as [Hnm|Hnm]; [discriminate|]). contradiction.
    + rewrite <- put_new by exact C. now apply put_nodup.
    + apply filled_lits. unfold s1. now apply lits_assigned.
  - replace (Z.of_nat k =? -1)%Z with false by lia. cbn [andthen].
    assert (Hk : (k < List.length m)%nat) by (apply nth_error_Some; congruence).
    rewrite (fill_ok s _ (Z.of_nat k) e He H ltac:(lia)). eexists. split; [reflexivity|].
    assert (IN : In (e_label e) (map e_label m)) by (rewrite <- L; apply in_map; now apply (nth_error_In m k)).
    split; [|split; [|split]].
    + rewrite put_len by exact IN. now apply filled_has.
    + intros i y E. rewrite (put_nth m ND k x e i N L) in E. destruct (Nat.eqb_spec i k) as [->|Hi].
      * injection E as <-. now apply filled_holds.
      * apply (holds_same s); [|now apply HH]. intros nm Hnm. apply filled_other; [now right|]. intro Q. injection Q as Q. lia.
    + now apply put_nodup.
    + now apply filled_lits.
Qed.

Lemma init_rep : rep (init_state FO) [].
Proof.
  split; [split; [apply init_recnt|reflexivity]|]. split; [intros i e E; destruct i; discriminate|split; [constructor|]].
  intros f k b _. discriminate.
Qed.

Lemma assign_all_rep h : forall s m, rep s m -> Forall entry_ok h ->
  exists s', assign_all FO h s = (s', Ok tt) /\ rep s' (fold_left put h m).
Proof.
  induction h as [|e h IH]; intros s m R F; [exists s; auto|]. apply Forall_cons_iff in F as [He F].
  destruct (step_ok s m e R He) as (s1 & E1 & R1). destruct (IH s1 _ R1 F) as (s2 & E2 & R2).
  exists s2. split; [|exact R2]. destruct e as [[k d] u]. cbn [assign_all]. unfold e_label, e_data, e_units in E1. cbn [fst snd] in E1.
  rewrite E1. exact E2.
Qed.
End Map.

Lemma find_put key m e : find (fun x => list_eqb (e_label x) key) (put m e)
  = if list_eqb (e_label e) key then Some e else find (fun x => list_eqb (e_label x) key) m.
Proof.
  induction m as [|x m IH]; cbn; [destruct (list_eqb (e_label e) key); auto|].
  destruct (leq_spec (e_label x) (e_label e)) as [K|K]; cbn; [rewrite K; destruct (list_eqb (e_label e) key); auto|].
  rewrite IH. destruct (leq_spec (e_label x) key) as [K1|K1]; auto. destruct (leq_spec (e_label e) key); auto. congruence.
Qed.
Lemma find_puts key h : find (fun x => list_eqb (e_label x) key) (fold_left put h []) = last_to key h.
Proof.
  induction h as [|e h IH] using rev_ind; [reflexivity|]. rewrite fold_left_app. cbn [fold_left]. rewrite find_put, IH.
  unfold last_to. rewrite rev_app_distr. reflexivity.
Qed.
Lemma labels_puts h : map e_label (fold_left put h []) = first_order h.
Proof.
  induction h as [|e h IH] using rev_ind; [reflexivity|]. unfold first_order in *. rewrite !fold_left_app. cbn [fold_left]. rewrite <- IH.
  destruct (existsb (list_eqb (e_label e)) (map e_label (fold_left put h []))) eqn:X.
  - apply existsb_exists in X as (y & Y1 & Y2). destruct (leq_spec (e_label e) y); [subst y|discriminate]. now apply put_labels.
  - rewrite put_new, map_app; [reflexivity|]. intro C. apply Bool.not_true_iff_false in X. apply X. apply existsb_exists. exists (e_label e). split; auto.
    destruct (leq_spec (e_label e) (e_label e)); congruence.
Qed.

(** ** The records of a TRE written and read *)
Section File.
Variable FO : FloatOps.
Notation st := (state FO).
Definition agree (s s1 : st) (n : Z) : Prop :=
  forall nm i, In nm ["englbl"; "engmtxc"; "engmtxr"; "engtyp"; "engdts"; "engdatu"; "engdata"]%string -> (0 <= i < n)%Z ->
    get FO fs s1 nm [i] = get FO fs s nm [i].

Lemma agree_data s s1 n i : agree s s1 n -> (0 <= i < n)%Z -> get_data FO s1 i = get_data FO s i.
Proof.
  intros A Hi. unfold get_data, eunpack, estr, eint. rewrite !A by (auto; cbn; tauto). reflexivity.
Qed.
Lemma agree_first s s1 n key : agree s s1 n -> forall l, (forall i, In i l -> (0 <= i < n)%Z) -> find_first FO s1 key l = find_first FO s key l.
Proof.
  intros A. induction l as [|i l IH]; intro HL; auto. cbn [find_first].
  assert (Hi : (0 <= i < n)%Z) by (apply HL; now left).
  rewrite (agree_data s s1 n i A Hi). unfold estr. rewrite !A by (auto; cbn; tauto). rewrite IH by (intros; apply HL; now right). reflexivity.
Qed.
Lemma agree_labels s s1 n : agree s s1 n -> forall l, (forall i, In i l -> (0 <= i < n)%Z) -> elabels FO s1 l = elabels FO s l.
Proof.
  intros A. induction l as [|i l IH]; intro HL; auto. cbn [elabels].
  assert (Hi : (0 <= i < n)%Z) by (apply HL; now left).
  unfold estr. rewrite !A by (auto; cbn; tauto). rewrite IH by (intros; apply HL; now right). reflexivity.
Qed.

Lemma rep_gets s m nm i : rep FO s m -> In nm ["englbl"; "engmtxc"; "engmtxr"; "engtyp"; "engdts"; "engdatu"; "engdata"]%string ->
  (0 <= i < Z.of_nat (List.length m))%Z ->
  exists v, get FO fs s nm [i] = Ok v.
Proof.
  intros (H & R & _) Hnm Hi. destruct (nth_error m (Z.to_nat i)) as [e|] eqn:E; [|apply nth_error_None in E; lia].
  apply R in E. rewrite Z2Nat.id in E by lia. destruct E as (_ & E1 & E2 & E3 & E4 & E5 & E6 & E7).
  cbn in Hnm. repeat (destruct Hnm as [<-|Hnm]).
  - eexists. eapply (col_data FO rows cnt s (Z.of_nat (List.length m)) "englbl" (ef "englbl") i _ (col_ok "englbl" ltac:(cbn; tauto)));
      [now rewrite lbl_desc|rewrite lbl_desc; now left|apply has_times; exact H|exact Hi|exact E1].
  - eexists. apply (get_int FO s _ "engmtxc" i _ ltac:(cbn; tauto) H Hi E3).
  - eexists. apply (get_int FO s _ "engmtxr" i _ ltac:(cbn; tauto) H Hi E4).
  - eexists. apply (get_str FO s _ "engtyp" i _ ltac:(cbn; tauto) H Hi E5).
  - eexists. apply (get_int FO s _ "engdts" i _ ltac:(cbn; tauto) H Hi E6).
  - eexists. apply (get_str FO s _ "engdatu" i _ ltac:(cbn; tauto) H Hi E2).
  - eexists. eapply (col_data FO rows cnt s (Z.of_nat (List.length m)) "engdata" (ef "engdata") i _ (col_ok "engdata" ltac:(cbn; tauto)));
      [now rewrite data_desc|rewrite data_desc; auto|apply has_times; exact H|exact Hi|exact E7].
  - contradiction.
Qed.

Lemma col_survives nm sz v v' : In nm ("recnt"%string :: ecols) -> survives FO (f_d (ef nm)) sz v v' -> v' = v.
Proof.
  intros Hn [->|[(x & t & y & T & _)|(t & _ & O & _)]]; auto; exfalso; revert T || revert O;
    cbn in Hn; repeat (destruct Hn as [<-|Hn]; [vm_compute; discriminate|]); contradiction.
Qed.

Lemma rep_read (s : st) m s0 lit b rest : FloatLaws FO -> rep FO s m -> write FO fs s = Ok b ->
  exists s1, read FO fs lit s0 (b ++ rest) = Ok (s1, rest)
    /\ recnt FO s1 = recnt FO s /\ agree s s1 (Z.of_nat (List.length m)).
Proof.
  intros laws R HW. pose proof R as (H & _ & _ & NL).
  destruct (C01_round_trip FO rows s s0 lit b rest laws erows_wf (no_literals_ok FO rows s NL) HW) as (s1 & HR & _ & HG).
  exists s1. split; [exact HR|].
  assert (X : forall nm k v, In nm ("recnt"%string :: ecols) -> valid_index FO fs s (ef nm) k -> get FO fs s nm k = Ok v -> get FO fs s1 nm k = Ok v).
  { intros nm k v Hn Hv Hg. destruct (HG nm (ef nm) k v (name_lookup nm Hn) Hv Hg) as (v' & sz & E & [->|(_ & S)]); [exact E|].
    rewrite (col_survives nm sz v v' Hn S) in E. exact E. }
  split.
  - unfold recnt. pose proof (get_count FO rows "recnt" (ef "recnt") recnt_scalar recnt_ty s _ (proj1 H)) as G1.
    rewrite G1, (X "recnt"%string [] _ ltac:(now left) ltac:(split; [now rewrite (proj1 (proj2 recnt_scalar))|intros j Hj; rewrite (proj1 (proj2 recnt_scalar)) in Hj; cbn in Hj; lia]) G1).
    reflexivity.
  - intros nm i Hn Hi. destruct (rep_gets s m nm i R Hn Hi) as (v & Hg). rewrite Hg. apply X; [cbn in *; tauto| |exact Hg].
    assert (C : column rows cnt nm (ef nm)) by (apply col_ok; cbn in *; tauto). pose proof C as (L & LL & _).
    split; [now rewrite LL|]. rewrite LL. intros j Hj. destruct j as [|j]; [|cbn in Hj; lia]. cbn [firstn nth].
    exists (Z.of_nat (List.length m)). split; [|exact Hi].
    pose proof (has_times FO s _ H) as T. unfold times, eval_shape in T. unfold count_is.
    destruct (eval FO (G FO fs s) fs [] cnt) as [v0|]; [|discriminate]. cbn [bind] in T.
    destruct v0; first [left; split; [reflexivity|congruence]|right; eexists; split; [reflexivity|exact T]].
Qed.
End File.

(** ** C37 *)
(** Any history of assignments to a new ENGRDA TRE. *)
Theorem C37_map_partial FO (h : list entry) : Forall entry_ok h ->
  exists s, assign_all FO h (init_state FO) = (s, Ok tt)
    /\ (forall key, getitem FO s key = match last_to key h with
                                       | Some e => Ok (value_of (e_data e), rstrip_by ws_str (e_units e))
                                       | None => Err EKey
                                       end)
    /\ labels FO s = Ok (first_order h)
    /\ elen FO s = Ok (Z.of_nat (List.length (first_order h))).
Proof.
  intro F. destruct (assign_all_rep FO h (init_state FO) [] (init_rep FO) F) as (s & E & R). exists s. split; [exact E|].
  pose proof R as (H & _). rewrite <- labels_puts, map_length. unfold getitem, labels, elen. rewrite (has_recnt FO s _ H). cbn [bind].
  unfold zrange. rewrite Nat2Z.id. split; [|split].
  - intro key. rewrite <- find_puts. apply (find_first_spec FO s _ key R _ [] eq_refl).
  - apply (labels_spec FO s _ R _ [] eq_refl).
  - reflexivity.
Qed.

(** [first_order] is the set of labels assigned, each once. *)
Theorem C37_labels (h : list entry) : NoDup (first_order h) /\ (forall k, In k (first_order h) <-> In k (map e_label h)).
Proof.
  induction h as [|e h (IH1 & IH2)] using rev_ind; [split; [constructor|reflexivity]|]. unfold first_order in *.
  rewrite fold_left_app, map_app. cbn [fold_left map].
  destruct (existsb (list_eqb (e_label e)) (fold_left _ h [])) eqn:X.
  - split; auto. intro k. rewrite in_app_iff, IH2. cbn. split; auto. intros [|[<-|[]]]; auto.
    apply existsb_exists in X as (y & Y1 & Y2). destruct (leq_spec (e_label e) y); [subst y|discriminate]. now apply IH2.
  - split.
    + rewrite <- (rev_involutive (_ ++ [_])). apply NoDup_rev. rewrite rev_app_distr. cbn. constructor; [|now apply NoDup_rev].
      rewrite <- in_rev. intro C. apply Bool.not_true_iff_false in X. apply X. apply existsb_exists. exists (e_label e). split; auto.
      destruct (leq_spec (e_label e) (e_label e)); congruence.
    + intro k. rewrite !in_app_iff, IH2. reflexivity.
Qed.

(** The map survives writing and reading. *)
Theorem C37_file_partial FO (h : list entry) s s0 lit b rest : FloatLaws FO -> Forall entry_ok h ->
  assign_all FO h (init_state FO) = (s, Ok tt) -> write FO fs s = Ok b ->
  exists s1, read FO fs lit s0 (b ++ rest) = Ok (s1, rest)
    /\ (forall key, getitem FO s1 key = match last_to key h with
                                       | Some e => Ok (value_of (e_data e), rstrip_by ws_str (e_units e))
                                       | None => Err EKey
                                       end)
    /\ labels FO s1 = Ok (first_order h)
    /\ elen FO s1 = Ok (Z.of_nat (List.length (first_order h))).
Proof.
  intros laws F E HW. destruct (C37_map_partial FO h F) as (s' & E' & M1 & M2 & M3). rewrite E in E'. injection E' as <-.
  destruct (assign_all_rep FO h (init_state FO) [] (init_rep FO) F) as (s' & E' & R). rewrite E in E'. injection E' as <-.
  destruct (rep_read FO s _ s0 lit b rest laws R HW) as (s1 & HR & HC & A). exists s1. split; [exact HR|].
  pose proof R as (H & _). assert (Z : forall i, In i (zrange (Z.of_nat (List.length (fold_left put h [])))) -> (0 <= i < Z.of_nat (List.length (fold_left put h [])))%Z)
    by (intros; now apply in_zrange).
  split; [|split].
  - intro key. rewrite <- M1. unfold getitem. rewrite HC, (has_recnt FO s _ H). cbn [bind]. now apply (agree_first FO s s1 _ key A).
  - rewrite <- M2. unfold labels. rewrite HC, (has_recnt FO s _ H). cbn [bind]. now apply (agree_labels FO s s1 _ A).
  - rewrite <- M3. exact HC.
Qed.

(** ** Cases *)
Definition lblA : list N := [84; 69; 77; 80]%N.
Definition lblB : list N := [78; 79; 84; 69]%N.
Definition arr2 : narr := {| na_ty := I2; na_big := false; na_shape := [2; 3]%Z; na_mem := [[1; 0]; [2; 0]; [3; 0]; [4; 0]; [5; 1]; [255; 255]]%N |}.
Definition ex_hist : list entry :=
  [(lblA, EdStr [97; 98]%N, [67]%N); (lblB, EdBytes [0; 200]%N, [78; 65]%N); (lblA, EdArr arr2, [109]%N)].

Example C37_nonvacuous : Forall entry_ok ex_hist /\ last_to lblA ex_hist = Some (lblA, EdArr arr2, [109]%N)
  /\ first_order ex_hist = [lblA; lblB]
  /\ value_of (EdArr arr2) = EoArr 83 2 2 3 [[0; 1]; [0; 2]; [0; 3]; [0; 4]; [1; 5]; [255; 255]]%N.
Proof.
  split; [|vm_compute; auto].
  apply Forall_cons; [split; vm_compute; auto|]. apply Forall_cons; [split; vm_compute; auto|]. apply Forall_cons; [|apply Forall_nil].
  split; [reflexivity|]. cbn [e_data fst snd]. split; [|discriminate]. exists 83%N, 2%Z. split; [reflexivity|]. split; [|vm_compute; intuition discriminate].
  repeat (apply Forall_cons; [reflexivity|]). apply Forall_nil.
Qed.

(** The bytes written for this history, from the code itself (vm_compute), so that C37_file_partial has
    a case. *)
Example C37_nonvacuous_file FO :
  (match assign_all FO ex_hist (init_state FO) with
   | (s, Ok _) => match write FO fs s with Ok b => Z.of_nat (List.length b) | Err _ => (-1)%Z end
   | _ => (-2)%Z
   end) = (20 + 3 + (2 + 4 + 4 + 4 + 1 + 1 + 2 + 8 + 12) + (2 + 4 + 4 + 4 + 1 + 1 + 2 + 8 + 2))%Z.
Proof. vm_compute. reflexivity. Qed.

Example C37_case FO :
  (match assign_all FO ex_hist (init_state FO) with
   | (s, Ok _) => (getitem FO s lblA, getitem FO s lblB, getitem FO s [65]%N, elen FO s)
   | _ => (Err EKey, Err EKey, Err EKey, Err EKey)
   end) = (Ok (EoArr 83 2 2 3 [[0; 1]; [0; 2]; [0; 3]; [0; 4]; [1; 5]; [255; 255]]%N, [109]%N), Ok (EoBytes [0; 200]%N, [78; 65]%N), Err EKey, Ok 2%Z).
Proof. vm_compute. reflexivity. Qed.

(** ** Where the full statement fails *)
(** An array in big-endian order is stored with the bytes of its numbers reversed. *)
Theorem C37_big_endian_refuted FO : exists a s v u, array_ok a
  /\ assign_all FO [(lblA, EdArr a, [])] (init_state FO) = (s, Ok tt)
  /\ getitem FO s lblA = Ok (v, u) /\ v <> value_of (EdArr a).
Proof.
  set (a := {| na_ty := U2; na_big := true; na_shape := [1]%Z; na_mem := [[0; 7]]%N |}).
  pose (r := assign_all FO [(lblA, EdArr a, [])] (init_state FO)).
  assert (X : (match snd r with Ok _ => getitem FO (fst r) lblA | Err e => Err e end) = Ok (EoArr 73 2 1 1 [[7; 0]]%N, [])).
  { unfold r, a. vm_compute. reflexivity. }
  exists a, (fst r), (EoArr 73 2 1 1 [[7; 0]]%N), [].
  split; [exists 73%N, 2%Z; repeat split; repeat constructor|].
  fold r. clearbody r. destruct r as [s [[]|e]]; cbn [fst snd] in X; [|discriminate].
  split; [reflexivity|]. split; [exact X|]. vm_compute. discriminate.
Qed.

(** Text that is not ASCII is refused, and the refused assignment has added a record. *)
Theorem C37_text_refuted FO : exists t s, all_bytes t = true
  /\ assign_all FO [(lblA, EdStr t, [])] (init_state FO) = (s, Err ERuntime) /\ elen FO s = Ok 1%Z.
Proof.
  pose (r := assign_all FO [(lblA, EdStr [233]%N, [])] (init_state FO)).
  assert (X : (snd r, elen FO (fst r)) = (Err ERuntime, Ok 1%Z)) by (vm_compute; reflexivity).
  exists [233]%N, (fst r). split; [reflexivity|]. fold r. clearbody r. destruct r as [s x]. cbn [fst snd] in X. injection X as -> X. split; [reflexivity|exact X].
Qed.

(** A TRE read from a file can hold a label twice; assignment then changes the last record and
    lookup finds the first. *)
Definition dup_rec (d : N) : list N :=
  ([48; 49; 65] ++ [48; 48; 48; 49] ++ [48; 48; 48; 49] ++ [66; 49; 32; 32] ++ [48; 48; 48; 48; 48; 48; 48; 49] ++ [d])%N.
Definition dup_file : list N := (repeat 32 20 ++ [48; 48; 50] ++ dup_rec 1 ++ dup_rec 2)%N.
Theorem C37_duplicates_refuted FO : exists s s' key d u v u',
  read FO fs false (init_state FO) dup_file = Ok (s, [])
  /\ add_or_update FO key d u s = (s', Ok tt) /\ getitem FO s' key = Ok (v, u') /\ v <> value_of d.
Proof.
  pose (r := read FO fs false (init_state FO) dup_file).
  pose (q := match r with Ok (s, _) => add_or_update FO [65]%N (EdBytes [9]%N) [] s | Err e => (init_state FO, Err e) end).
  assert (X : (match r with Ok (_, l) => Ok l | Err e => Err e end, snd q, getitem FO (fst q) [65]%N) = (Ok [], Ok tt, Ok (EoBytes [1]%N, []))).
  { vm_compute. reflexivity. }
  unfold q in X. fold r. clearbody r. clear q. destruct r as [[s l]|e]; [|discriminate X].
  destruct (add_or_update FO [65]%N (EdBytes [9]%N) [] s) as [s' x] eqn:E. cbn [fst snd] in X. injection X as -> -> G.
  exists s, s', [65]%N, (EdBytes [9]%N), [], (EoBytes [1]%N), []. split; [reflexivity|]. split; [exact E|]. split; [exact G|]. discriminate.
Qed.

Print Assumptions C37_map_partial.
Print Assumptions C37_labels.
Print Assumptions C37_file_partial.
Print Assumptions C37_big_endian_refuted.
Print Assumptions C37_text_refuted.
Print Assumptions C37_duplicates_refuted.
