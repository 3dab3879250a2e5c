(** Facts about the placement of TREs. *)
From Verif Require Import Base BaseLemmas Engine Wf EngineLemmas Codec RoundTrip Rewrite Literal
  Positions Keys Deps Assign Utf8 Tre TrePlace.
From Coq Require Import ZifyBool ZifyNat ZifyN Permutation.
Open Scope list_scope.

(** ** Vocabulary *)

(** The three fields of an area as every header declares them: five digit length, three digit
    overflow number present when the length is not 0, and data of that length less 3. *)
Definition len_desc (a : tarea) : fdesc :=
  Build_fdesc (Some (ta_len a)) (SzInt 5) TInt FrNone DfNone None false 32 false None 0 false.
Definition ofl_desc (a : tarea) : fdesc :=
  Build_fdesc (Some (ta_ofl a)) (SzInt 3) TInt FrNone DfNone
    (Some (ECmp CNe (EFld (ta_len a) 0) (EInt 0))) false 32 false None 0 false.
Definition data_desc (a : tarea) : fdesc :=
  Build_fdesc (Some (ta_data a)) (SzExpr (EFld (ta_len a) 0)) (TData KBytes) FrNone DfNone None false 32 false None 3 false.

Definition declares (rows : list row) (nm : string) (d : fdesc) : Prop :=
  exists i, lookup (mk_fs rows) nm = Some {| f_id := i; f_d := d; f_loops := [] |}.

Definition area_ok (rows : list row) (a : tarea) : Prop :=
  declares rows (ta_len a) (len_desc a) /\ declares rows (ta_ofl a) (ofl_desc a)
  /\ declares rows (ta_data a) (data_desc a).

Definition area_names (a : tarea) : list string := [ta_len a; ta_ofl a; ta_data a].

(** A header type with these areas. *)
Definition areas_ok (rows : list row) (areas : list tarea) : Prop :=
  wf_rows rows = true /\ Forall (area_ok rows) areas /\ NoDup (flat_map area_names areas).

(** Where each record goes: a list of (number of the area, record).  [part ps i] are the
    bytes of area [i]. *)
Definition part (ps : list (nat * list N)) (i : nat) : list N :=
  List.concat (map snd (filter (fun p => Nat.eqb (fst p) i) ps)).

(** [ps] puts every record in the first of [n] areas with room for it next to the records
    before it, and otherwise under number [n]. *)
Definition room (ps : list (nat * list N)) (i : nat) (r : list N) : Prop :=
  (Z.of_nat (List.length (part ps i)) + Z.of_nat (List.length r) < 99996)%Z.
Inductive first_fit (n : nat) : list (nat * list N) -> Prop :=
| ff_nil : first_fit n []
| ff_snoc ps i r : first_fit n ps -> (i <= n)%nat ->
    (forall j, (j < i)%nat -> ~ room ps j r) -> ((i < n)%nat -> room ps i r) ->
    first_fit n (ps ++ [(i, r)]).

(** ** First fit *)

Lemma part_snoc ps i r j : part (ps ++ [(i, r)]) j = part ps j ++ (if Nat.eqb i j then r else []).
Proof.
  unfold part. rewrite filter_app, map_app, concat_app. f_equal. cbn.
  destruct (Nat.eqb i j); cbn; auto. apply app_nil_r.
Qed.

Lemma put_spec t heads : 
  (forall heads', put t heads = Some heads' -> exists i, (i < List.length heads)%nat
     /\ (forall j, (j < i)%nat -> (Z.of_nat (List.length (nth j heads [])) + Z.of_nat (List.length t) >= 99996)%Z)
     /\ (Z.of_nat (List.length (nth i heads [])) + Z.of_nat (List.length t) < 99996)%Z
     /\ List.length heads' = List.length heads
     /\ forall j, nth j heads' [] = nth j heads [] ++ (if Nat.eqb i j then t else []))
  /\ (put t heads = None -> forall j, (j < List.length heads)%nat ->
        (Z.of_nat (List.length (nth j heads [])) + Z.of_nat (List.length t) >= 99996)%Z).
Proof.
  induction heads as [|h hs [IH1 IH2]]; cbn [put].
  - split; [discriminate|]. cbn. lia.
  - destruct (Z.of_nat (List.length h) + Z.of_nat (List.length t) <? 99999 - 3)%Z eqn:E; split.
    + intros heads' [= <-]. exists 0%nat. cbn [List.length nth]. split; [lia|]. split; [lia|]. split; [lia|].
      split; [reflexivity|]. intros [|j]; cbn; auto. now rewrite app_nil_r.
    + discriminate.
    + intros heads' H. destruct (put t hs) as [hs'|]; [|discriminate]. injection H as <-.
      destruct (IH1 hs' eq_refl) as (i & H1 & H2 & H3 & H4 & H5). exists (S i). cbn [List.length nth].
      split; [lia|]. split; [intros [|j] Hj; cbn; [lia|apply H2; lia]|]. split; [exact H3|].
      split; [lia|]. intros [|j]; cbn; auto. now rewrite app_nil_r.
    + intros H j Hj. destruct (put t hs) as [hs'|]; [discriminate|]. destruct j as [|j]; cbn [nth]; [lia|].
      apply IH2; auto. cbn in Hj. lia.
Qed.

Section Place.
Variable FO : FloatOps.

(** The records of the TREs. *)
Definition records (ts : list (tre FO)) (rs : list (list N)) : Prop :=
  Forall2 (fun t r => tre_write FO t = Ok r) ts rs.

Lemma place_spec ts : forall heads des ps heads' des',
  first_fit (List.length heads) ps ->
  (forall j, (j < List.length heads)%nat -> nth j heads [] = part ps j) -> des = part ps (List.length heads) ->
  place FO ts heads des = Ok (heads', des') ->
  exists qs, records ts (map snd qs) /\ first_fit (List.length heads) (ps ++ qs)
    /\ List.length heads' = List.length heads
    /\ (forall j, (j < List.length heads)%nat -> nth j heads' [] = part (ps ++ qs) j)
    /\ des' = part (ps ++ qs) (List.length heads).
Proof.
  induction ts as [|t ts IH]; intros heads des ps heads' des' HF HH HD H; cbn [place] in H.
  - injection H as <- <-. exists []. rewrite app_nil_r. split; [constructor|]. auto.
  - apply bind_ok_elim in H as (r & Hr & H). destruct (put_spec r heads) as [P1 P2].
    destruct (put r heads) as [heads1|] eqn:EP.
    + destruct (P1 heads1 eq_refl) as (i & Hi & Hno & Hroom & HL & Hnth).
      assert (HF1 : first_fit (List.length heads1) (ps ++ [(i, r)])).
      { rewrite HL. constructor; auto; [lia|..].
        - intros j Hj. unfold room. rewrite <- HH by lia. specialize (Hno j Hj). lia.
        - intros _. unfold room. rewrite <- HH by lia. lia. }
      edestruct (IH heads1 des (ps ++ [(i, r)])) as (qs & Q1 & Q2 & Q3 & Q4 & Q5); eauto.
      * intros j Hj. rewrite HL in Hj. rewrite Hnth, part_snoc, HH by lia. reflexivity.
      * rewrite part_snoc, HL, <- HD. replace (Nat.eqb i (List.length heads)) with false by (symmetry; apply Nat.eqb_neq; lia).
        now rewrite app_nil_r.
      * rewrite HL in *. exists ((i, r) :: qs). rewrite <- app_assoc in Q2, Q4, Q5. cbn [app] in Q2, Q4, Q5.
        split; [cbn; constructor; auto|]. auto.
    + assert (HF1 : first_fit (List.length heads) (ps ++ [(List.length heads, r)])).
      { constructor; auto; [|lia]. intros j Hj. unfold room. rewrite <- HH by lia. specialize (P2 eq_refl j Hj). lia. }
      edestruct (IH heads (des ++ r) (ps ++ [(List.length heads, r)])) as (qs & Q1 & Q2 & Q3 & Q4 & Q5); eauto.
      * intros j Hj. rewrite part_snoc, HH by lia.
        replace (Nat.eqb (List.length heads) j) with false by (symmetry; apply Nat.eqb_neq; lia). now rewrite app_nil_r.
      * rewrite part_snoc, HD, Nat.eqb_refl. reflexivity.
      * exists ((List.length heads, r) :: qs). rewrite <- app_assoc in Q2, Q4, Q5. cbn [app] in Q2, Q4, Q5.
        split; [cbn; constructor; auto|]. auto.
Qed.

Lemma place_total ts : forall rs heads des, records ts rs -> exists x, place FO ts heads des = Ok x.
Proof.
  induction ts as [|t ts IH]; intros rs heads des H; inversion_clear H; cbn [place]; [eauto|].
  rewrite H0. cbn [bind]. destruct (put y heads); eauto.
Qed.

(** Same records, same placement. *)
Lemma place_start ts n heads des : place FO ts (repeat [] n) [] = Ok (heads, des) ->
  exists ps, records ts (map snd ps) /\ first_fit n ps /\ List.length heads = n
    /\ (forall j, (j < n)%nat -> nth j heads [] = part ps j) /\ des = part ps n.
Proof.
  intro H. destruct (place_spec ts (repeat [] n) [] [] heads des) as (qs & Q); auto.
  - constructor.
  - intros j _. unfold part. cbn. apply nth_repeat.
  - rewrite repeat_length in Q. exists qs. tauto.
Qed.

Lemma first_fit_bound n ps i : first_fit n ps -> (i < n)%nat -> (Z.of_nat (List.length (part ps i)) < 99996)%Z.
Proof.
  intros H Hi. induction H as [|ps j r HF IH Hj Hno Hroom]; [cbn; lia|].
  rewrite part_snoc, app_length. destruct (Nat.eqb j i) eqn:E; cbn [List.length]; [|lia].
  apply Nat.eqb_eq in E. subst j. specialize (Hroom Hi). unfold room in Hroom. lia.
Qed.

Lemma part_cons j r ps i : part ((j, r) :: ps) i = (if Nat.eqb j i then r else []) ++ part ps i.
Proof. unfold part. cbn [filter fst]. destruct (Nat.eqb j i); reflexivity. Qed.

Lemma part_concat ps i : part ps i = List.concat (map snd (filter (fun p => Nat.eqb (fst p) i) ps)).
Proof. reflexivity. Qed.

Lemma Forall2_nth {X Y} (R : X -> Y -> Prop) l r d : Forall2 R l r ->
  forall i x, nth_error l i = Some x -> R x (nth i r d).
Proof.
  induction 1 as [|x y l r Hxy _ IH]; intros [|i] z Hz; try discriminate.
  - injection Hz as <-. exact Hxy.
  - cbn. now apply IH.
Qed.

Lemma first_fit_number n ps p : first_fit n ps -> In p ps -> (fst p <= n)%nat.
Proof.
  induction 1 as [|ps i r _ IH Hi _ _]; [intros []|]. intro H. apply in_app_or in H as [H|[<-|[]]]; auto.
Qed.

Lemma part_nil ps i : (forall p, In p ps -> snd p <> []) ->
  (part ps i = [] <-> forall p, In p ps -> fst p <> i).
Proof.
  intro HN. induction ps as [|[j r] ps IH].
  - cbn. split; [intros _ p []|reflexivity].
  - rewrite part_cons. assert (Hr := HN (j, r) (or_introl eq_refl)). cbn in Hr.
    rewrite <- Forall_forall, Forall_cons_iff, Forall_forall. cbn [fst]. rewrite <- IH by (intros; apply HN; now right).
    destruct (Nat.eqb j i) eqn:E.
    + apply Nat.eqb_eq in E. subst. split; [|intros [[] _]; reflexivity].
      intro H. apply app_eq_nil in H as [H _]. contradiction.
    + apply Nat.eqb_neq in E. cbn. tauto.
Qed.

Lemma tre_write_nonempty t r : tre_write FO t = Ok r -> r <> [].
Proof.
  unfold tre_write. destruct (utf8_enc (ljust 6 (tre_tag FO t))) as [tag|]; [|discriminate]. intro H.
  apply bind_ok_elim in H as (b & _ & H). destruct (99999 <? _)%Z in H; [discriminate|].
  intros ->. injection H as H. apply app_eq_nil in H as [_ H]. apply app_eq_nil in H as [H _].
  assert (K : List.length (len5 (List.length b)) = 0%nat) by now rewrite H.
  unfold len5, fmt_d, dfmt_zero in K. cbn [df_left df_zero df_plus df_width] in K.
  rewrite !app_length, repeat_length in K. lia.
Qed.

Lemma records_nonempty ts (ps : list (nat * list N)) : records ts (map snd ps) -> forall p, In p ps -> snd p <> [].
Proof.
  intros H p Hp. apply (in_map snd) in Hp. revert Hp. generalize (snd p). revert H. generalize (map snd ps).
  induction 1 as [|t r ts rs Ht _ IH]; intros x Hx; [destruct Hx|]. destruct Hx as [<-|Hx]; auto.
  eapply tre_write_nonempty; eauto.
Qed.

(** ** The header *)

Section Header.
Variable rows : list row.
Let fs := mk_fs rows.
Notation st := (state FO).

Definition conv_of (d : fdesc) (v : sval FO) : res (pyval FO) :=
  match convert FO d v with Ok x => Ok x | Err _ => Err ERuntime end.

Lemma has_name_lookup nm f : lookup fs nm = Some f -> fd_name (f_d f) = Some nm.
Proof.
  unfold lookup. intro H. apply find_some in H as [_ H]. unfold has_name in H.
  destruct (fd_name (f_d f)); [|discriminate]. apply String.eqb_eq in H. congruence.
Qed.

Lemma lookup_ne nm nm' f f' : lookup fs nm = Some f -> lookup fs nm' = Some f' -> nm <> nm' -> f <> f'.
Proof. intros H H' N ->. apply has_name_lookup in H, H'. congruence. Qed.

(** An area with its field objects. *)
Record afields (a : tarea) (lf of df : field) : Prop := {
  af_len : lookup fs (ta_len a) = Some lf; af_lend : f_d lf = len_desc a; af_lenl : f_loops lf = [];
  af_ofl : lookup fs (ta_ofl a) = Some of; af_ofld : f_d of = ofl_desc a; af_ofll : f_loops of = [];
  af_dat : lookup fs (ta_data a) = Some df; af_datd : f_d df = data_desc a; af_datl : f_loops df = [] }.

Lemma area_fields a : area_ok rows a -> exists lf of df, afields a lf of df.
Proof.
  intros ((i & Hi) & (j & Hj) & (k & Hk)). do 3 eexists. constructor; eauto.
Qed.

Lemma afields_ne a lf of df : afields a lf of df -> lf <> df /\ of <> df /\ of <> lf.
Proof.
  intros []. repeat split; intros ->; [rewrite af_datd0 in af_lend0|rewrite af_datd0 in af_ofld0|rewrite af_lend0 in af_ofld0];
    discriminate.
Qed.

Section OneArea.
Variable a : tarea.
Variables lf of df : field.
Hypothesis A : afields a lf of df.
Hypothesis Hwf : wf_rows rows = true.

Lemma get_len (s : st) : get FO fs s (ta_len a) [] = conv_of (len_desc a) (stored FO s lf []).
Proof.
  unfold get. rewrite (af_len _ _ _ _ A). unfold key_shape_ok, depth. rewrite (af_lenl _ _ _ _ A). cbn [List.length].
  unfold fget, get_pub, get_base, check_index, check_condition. rewrite (af_lend _ _ _ _ A), (af_lenl _ _ _ _ A). cbn.
  unfold conv_of. destruct (convert FO _ (stored FO s lf [])) as [x|e]; reflexivity.
Qed.

Lemma G_len (s : st) : G FO fs s lf [] = get FO fs s (ta_len a) [].
Proof.
  unfold get. rewrite (af_len _ _ _ _ A). unfold key_shape_ok, depth. rewrite (af_lenl _ _ _ _ A).
  cbn [List.length]. apply (G_get_pub FO rows s lf [] Hwf). eapply lookup_in. apply A.
Qed.

Lemma ofl_cond (s : st) n : get FO fs s (ta_len a) [] = Ok (VInt n) ->
  check_condition FO (G FO fs s) fs of [] = Ok (negb (n =? 0)%Z).
Proof.
  intro H. unfold check_condition. rewrite (af_ofld _ _ _ _ A). cbn [ofl_desc fd_cond eval]. unfold eval_ref.
  rewrite (af_len _ _ _ _ A). unfold depth. rewrite (af_lenl _ _ _ _ A). cbn [List.length].
  rewrite G_len, H. cbn. now destruct (n =? 0)%Z.
Qed.

Lemma ofl_index (s : st) : check_index FO (G FO fs s) fs of [] = Ok tt.
Proof. unfold check_index. now rewrite (af_ofll _ _ _ _ A). Qed.

Lemma get_ofl (s : st) n : get FO fs s (ta_len a) [] = Ok (VInt n) ->
  get FO fs s (ta_ofl a) [] = if (n =? 0)%Z then Ok VNone else conv_of (ofl_desc a) (stored FO s of []).
Proof.
  intro H. unfold get at 1. rewrite (af_ofl _ _ _ _ A). unfold key_shape_ok, depth. rewrite (af_ofll _ _ _ _ A).
  cbn [List.length]. unfold fget, get_pub, get_base. rewrite ofl_index, (ofl_cond s n H).
  rewrite (af_ofld _ _ _ _ A). cbn [ofl_desc fd_name bind fd_value fd_ty].
  destruct (n =? 0)%Z; cbn [negb bind]; [reflexivity|]. unfold conv_of.
  fold (ofl_desc a). destruct (convert FO (ofl_desc a) (stored FO s of [])); reflexivity.
Qed.

Lemma get_data (s : st) b : stored FO s df [] = SVal (VBytes b) ->
  get FO fs s (ta_data a) [] = Ok (VBytes b).
Proof.
  intro H. unfold get. rewrite (af_dat _ _ _ _ A). unfold key_shape_ok, depth. rewrite (af_datl _ _ _ _ A).
  cbn [List.length]. unfold fget, get_pub, get_base, check_index, check_condition.
  rewrite (af_datd _ _ _ _ A), (af_datl _ _ _ _ A). cbn. rewrite H. cbn.
  unfold unpack. rewrite (af_datd _ _ _ _ A). reflexivity.
Qed.

(** The value of a data field depends only on its own slot. *)
Lemma get_data_same (s s' : st) : stored FO s df [] = stored FO s' df [] ->
  get FO fs s (ta_data a) [] = get FO fs s' (ta_data a) [].
Proof.
  intro H. unfold get. rewrite (af_dat _ _ _ _ A). unfold key_shape_ok, depth. rewrite (af_datl _ _ _ _ A).
  cbn [List.length]. unfold fget, get_pub, get_base, check_index, check_condition.
  rewrite (af_datd _ _ _ _ A), (af_datl _ _ _ _ A). cbn. rewrite H.
  destruct (convert FO _ (stored FO s' df [])); cbn; auto.
  unfold unpack. rewrite (af_datd _ _ _ _ A). reflexivity.
Qed.

Lemma set_ofl (s : st) n z : st_impl FO s = false -> get FO fs s (ta_len a) [] = Ok (VInt n) -> n <> 0%Z ->
  set FO fs s (ta_ofl a) [] (SVal (VInt z)) = (assigned FO s of [] (SVal (VInt z)), Ok tt).
Proof.
  intros HI HL Hn. destruct (set_plain FO fs s (ta_ofl a) of [] (SVal (VInt z)) (af_ofl _ _ _ _ A)) as [(_ & _ & H)|(H & _)].
  - now rewrite (af_ofld _ _ _ _ A).
  - exact H.
  - exfalso. apply H. split; [unfold key_shape_ok, depth; now rewrite (af_ofll _ _ _ _ A)|].
    unfold may_assign. rewrite (af_ofld _ _ _ _ A). cbn [ofl_desc fd_name fd_hard fd_value fd_optional].
    split; [discriminate|]. split; [apply ofl_index|]. split.
    + rewrite (ofl_cond s n HL). replace (n =? 0)%Z with false by lia. reflexivity.
    + repeat split; auto. discriminate.
Qed.

(** Overflow fields of an empty area cannot be set. *)
Lemma set_ofl_empty (s : st) z : get FO fs s (ta_len a) [] = Ok (VInt 0) ->
  exists e, set FO fs s (ta_ofl a) [] (SVal (VInt z)) = (s, Err e).
Proof.
  intros HL. destruct (set_plain FO fs s (ta_ofl a) of [] (SVal (VInt z)) (af_ofl _ _ _ _ A)) as [(_ & H & _)|(_ & H)].
  - now rewrite (af_ofld _ _ _ _ A).
  - exfalso. destruct H as (_ & _ & H & _). rewrite (ofl_cond s 0 HL) in H. discriminate.
  - exact H.
Qed.

Definition with_data (s : st) (b : list N) : st :=
  assigned FO (assigned FO s df [] (SVal (VBytes b))) lf []
    (SVal (VInt (if (Z.of_nat (List.length b) =? 0)%Z then 0 else Z.of_nat (List.length b) + 3))).

Lemma set_data (s : st) b : st_impl FO s = false ->
  set FO fs s (ta_data a) [] (SVal (VBytes b)) = (with_data s b, Ok tt).
Proof.
  intro HI. unfold set. rewrite (af_dat _ _ _ _ A). unfold key_shape_ok, depth. rewrite (af_datl _ _ _ _ A).
  cbn [List.length]. unfold fset, fuel.
  assert (Hdf := lookup_in _ _ _ (af_dat _ _ _ _ A)).
  destruct (fs_fields fs) as [|f0 l0] eqn:EL; [destruct Hdf|]. cbn [List.length setf].
  rewrite (af_datd _ _ _ _ A). cbn [data_desc fd_ty].
  unfold pack. rewrite (af_datd _ _ _ _ A). cbn [data_desc fd_ty].
  unfold set_base, check_index, check_condition.
  rewrite !(af_datd _ _ _ _ A), !(af_datl _ _ _ _ A), HI.
  cbn [data_desc fd_name fd_cond fd_hard fd_value fd_ty fd_size_not_updated fd_size fd_optional orb bind fd_size_offset].
  fold (assigned FO s df [] (SVal (VBytes b))). rewrite (af_len _ _ _ _ A). unfold depth.
  rewrite !(af_lenl _ _ _ _ A). cbn [List.length].
  rewrite !(af_lend _ _ _ _ A).
  cbn [len_desc fd_name fd_cond fd_hard fd_value fd_ty fd_size_not_updated fd_size fd_optional orb bind fd_size_offset].
  replace (st_impl FO (assigned FO s df [] (SVal (VBytes b)))) with (st_impl FO s) by reflexivity. rewrite HI.
  reflexivity.
Qed.

End OneArea.

(** ** Several areas *)

Hypothesis Hwf : wf_rows rows = true.

(** The length field shows [n]. *)
Definition len_is (s : st) (a : tarea) (n : Z) : Prop := get FO fs s (ta_len a) [] = Ok (VInt n).

(** Giving the area content makes its overflow field show 0. *)
Definition quiet (s : st) (a : tarea) : Prop :=
  forall b s', b <> [] -> set FO fs s (ta_data a) [] (SVal (VBytes b)) = (s', Ok tt) ->
    get FO fs s' (ta_ofl a) [] = Ok (VInt 0).

Definition area_result (s s' : st) (a : tarea) (b : list N) : Prop :=
  match b with
  | [] => get FO fs s' (ta_len a) [] = get FO fs s (ta_len a) []
          /\ get FO fs s' (ta_data a) [] = get FO fs s (ta_data a) []
  | _ => len_is s' a (Z.of_nat (List.length b) + 3) /\ get FO fs s' (ta_data a) [] = Ok (VBytes b)
  end
  /\ (forall n n', len_is s a n -> len_is s' a n' -> n' <> 0%Z -> (n > 0)%Z \/ (b <> [] /\ quiet s a) ->
       get FO fs s' (ta_ofl a) [] = Ok (VInt 0))
  /\ (forall n, len_is s a n -> (n <= 0)%Z -> b = [] -> quiet s a -> quiet s' a).

(** [f] is a field of one of the areas. *)
Definition area_field (areas : list tarea) (f : field) : Prop :=
  exists a nm, In a areas /\ In nm (area_names a) /\ lookup fs nm = Some f.

Lemma stored_assigned_ne (s : st) f k v y : In f (fs_fields fs) -> In y (fs_fields fs) -> y <> f ->
  stored FO (assigned FO s f k v) y [] = stored FO s y [].
Proof. intros. now apply (assigned_same FO rows). Qed.

Lemma same_view a lf of df (s s' : st) : afields a lf of df ->
  stored FO s' lf [] = stored FO s lf [] -> stored FO s' of [] = stored FO s of [] -> stored FO s' df [] = stored FO s df [] ->
  get FO fs s' (ta_len a) [] = get FO fs s (ta_len a) []
  /\ get FO fs s' (ta_data a) [] = get FO fs s (ta_data a) []
  /\ (forall n, len_is s a n -> get FO fs s' (ta_ofl a) [] = get FO fs s (ta_ofl a) [])
  /\ (st_impl FO s = false -> st_impl FO s' = false -> quiet s a -> quiet s' a).
Proof.
  intros A E1 E2 E3. unfold len_is, quiet. split; [|split; [|split]].
  - rewrite !(get_len a lf of df A). now rewrite E1.
  - now apply (get_data_same a lf of df A).
  - intros n H. assert (H' : get FO fs s' (ta_len a) [] = Ok (VInt n))
      by (rewrite (get_len a lf of df A) in *; now rewrite E1).
    rewrite (get_ofl a lf of df A Hwf s' n H'), (get_ofl a lf of df A Hwf s n H). now rewrite E2.
  - intros I1 I2 Q b t Hb Ht. rewrite (set_data a lf of df A s' b I2) in Ht. injection Ht as <-.
    specialize (Q b _ Hb (set_data a lf of df A s b I1)).
    destruct (afields_ne a lf of df A) as (N1 & N2 & N3).
    assert (I : forall nm f, lookup fs nm = Some f -> In f (fs_fields fs)) by (intros nm f HL; eapply lookup_in; eauto).
    assert (K : forall u : st, get FO fs (with_data lf df u b) (ta_len a) [] = Ok (VInt (Z.of_nat (List.length b) + 3))).
    { intro u. rewrite (get_len a lf of df A). unfold with_data. rewrite assigned_self. unfold conv_of, convert. cbn.
      destruct b; [congruence|]. cbn [List.length]. replace (_ =? 0)%Z with false by lia. reflexivity. }
    rewrite (get_ofl a lf of df A Hwf _ _ (K s)) in Q. rewrite (get_ofl a lf of df A Hwf _ _ (K s')).
    rewrite <- Q. destruct (_ =? 0)%Z; auto. f_equal. unfold with_data.
    pose proof (I _ _ (af_len _ _ _ _ A)). pose proof (I _ _ (af_ofl _ _ _ _ A)). pose proof (I _ _ (af_dat _ _ _ _ A)).
    now rewrite !stored_assigned_ne by auto.
Qed.

Lemma hget_st h nm f : lookup fs nm = Some f -> hget FO rows h nm = get FO fs (h_st h) nm [].
Proof. intro H. unfold hget. now fold fs; rewrite H. Qed.

Lemma hset_st h nm f v : lookup fs nm = Some f ->
  hset FO rows h nm v = let '(s, r) := set FO fs (h_st h) nm [] (SVal v) in
                        ({| h_st := s; h_attr := h_attr h |}, r).
Proof. intro H. unfold hset. now fold fs; rewrite H. Qed.

(** One area. *)
Lemma store_one a lf of df h n b : afields a lf of df ->
  st_impl FO (h_st h) = false -> len_is (h_st h) a n ->
  exists s', 
    (let '(h1, r1) := if (n >? 0)%Z then hset FO rows h (ta_ofl a) (VInt 0) else (h, Ok tt) in
     match r1 with
     | Err e => (h1, Err e)
     | Ok _ => match b with [] => (h1, Ok tt) | _ => hset FO rows h1 (ta_data a) (VBytes b) end
     end) = ({| h_st := s'; h_attr := h_attr h |}, Ok tt)
    /\ st_impl FO s' = false /\ area_result (h_st h) s' a b
    /\ (forall y, In y (fs_fields fs) -> y <> lf -> y <> of -> y <> df -> forall k, stored FO s' y k = stored FO (h_st h) y k).
Proof.
  intros A HI HL. set (s := h_st h) in *.
  destruct (afields_ne a lf of df A) as (N1 & N2 & N3).
  assert (I1 := lookup_in _ _ _ (af_len _ _ _ _ A)). assert (I2 := lookup_in _ _ _ (af_ofl _ _ _ _ A)).
  assert (I3 := lookup_in _ _ _ (af_dat _ _ _ _ A)).
  (* after the overflow field *)
  assert (S1 : exists s1, (if (n >? 0)%Z then hset FO rows h (ta_ofl a) (VInt 0) else (h, Ok tt))
                = ({| h_st := s1; h_attr := h_attr h |}, Ok tt)
      /\ st_impl FO s1 = false
      /\ (forall y, In y (fs_fields fs) -> y <> of -> forall k, stored FO s1 y k = stored FO s y k)
      /\ ((n > 0)%Z -> conv_of (ofl_desc a) (stored FO s1 of []) = Ok (VInt 0))
      /\ (~ (n > 0)%Z -> s1 = s)).
  { destruct (n >? 0)%Z eqn:En.
    - exists (assigned FO s of [] (SVal (VInt 0))). rewrite (hset_st h _ of) by apply A. fold s.
      rewrite (set_ofl a lf of df A Hwf s n 0 HI HL) by lia. split; [reflexivity|]. split; [exact HI|]. split.
      + intros y Hy Ny k. now apply (assigned_same FO rows).
      + split; [|lia]. intros _. now rewrite assigned_self.
    - exists s. split; [destruct h; reflexivity|]. split; [exact HI|]. split; [auto|]. split; [lia|auto]. }
  destruct S1 as (s1 & -> & HI1 & F1 & Q1 & Q2).
  assert (L1 : get FO fs s1 (ta_len a) [] = Ok (VInt n)).
  { unfold len_is in HL. rewrite (get_len a lf of df A) in *. rewrite F1 by auto. exact HL. }
  destruct b as [|b0 b1] eqn:Eb.
  - exists s1. split; [reflexivity|]. split; [exact HI1|]. split.
    + split; [split|split].
      * rewrite L1. symmetry. exact HL.
      * apply (get_data_same a lf of df A). now apply F1; auto.
      * intros m m' Hm Hm' Hne [Hp|[Hp _]]; [|congruence]. unfold len_is in *.
        assert (m = n) by congruence. assert (m' = n) by congruence. subst m m'.
        rewrite (get_ofl a lf of df A Hwf s1 n L1). replace (n =? 0)%Z with false by lia. auto.
      * intros m Hm Hle _ Hq. unfold len_is in *. assert (m = n) by congruence. subst m.
        rewrite Q2 by lia. exact Hq.
    + intros y Hy _ Ny _ k. now apply F1.
  - rewrite <- Eb. assert (Hb : b <> []) by (subst; discriminate).
    exists (with_data lf df s1 b). rewrite (hset_st _ _ df) by apply A. cbn [h_st h_attr].
    rewrite (set_data a lf of df A s1 b HI1). split; [reflexivity|]. split; [exact HI1|].
    assert (K : get FO fs (with_data lf df s1 b) (ta_len a) [] = Ok (VInt (Z.of_nat (List.length b) + 3))).
    { rewrite (get_len a lf of df A). unfold with_data. rewrite assigned_self. unfold conv_of, convert. cbn.
      subst b. cbn [List.length]. replace (_ =? 0)%Z with false by lia. reflexivity. }
    assert (KO : stored FO (with_data lf df s1 b) of [] = stored FO s1 of []).
    { unfold with_data. now rewrite !stored_assigned_ne by auto. }
    split.
    + assert (KD : get FO fs (with_data lf df s1 b) (ta_data a) [] = Ok (VBytes b)).
      { apply (get_data a lf of df A). unfold with_data. rewrite stored_assigned_ne by auto. apply assigned_self. }
      split; [clear Eb; destruct b; [congruence|split; assumption]|split].
      * intros m m' Hm Hm' Hne Hq. unfold len_is in *. assert (m = n) by congruence. subst m.
        assert (m' = (Z.of_nat (List.length b) + 3)%Z) by congruence. subst m'.
        rewrite (get_ofl a lf of df A Hwf _ _ K). replace (_ =? 0)%Z with false by lia. rewrite KO.
        destruct (Z_gt_dec n 0) as [Hn|Hn]; [now apply Q1|]. destruct Hq as [Hq|[_ Hq]]; [contradiction|].
        rewrite (Q2 Hn) in *. specialize (Hq b _ Hb (set_data a lf of df A s b HI)).
        rewrite (get_ofl a lf of df A Hwf _ _ K), KO in Hq. destruct (_ =? 0)%Z in Hq; [discriminate|exact Hq].
      * intros; contradiction.
    + intros y Hy Ny1 Ny2 Ny3 k. unfold with_data. rewrite !(assigned_same FO rows) by auto. now apply F1.
Qed.

Lemma area_field_cons a areas lf of df : afields a lf of df -> area_field (a :: areas) lf
  /\ area_field (a :: areas) of /\ area_field (a :: areas) df.
Proof.
  intro A. destruct A. unfold area_field, area_names.
  repeat split; [exists a, (ta_len a)|exists a, (ta_ofl a)|exists a, (ta_data a)]; cbn; tauto.
Qed.

Lemma area_field_more a areas f : area_field areas f -> area_field (a :: areas) f.
Proof. intros (a' & nm & H & H'). exists a', nm. split; [now right|auto]. Qed.

(** The fields of the first area are not fields of the others. *)
Lemma area_field_apart a areas f nm : NoDup (flat_map area_names (a :: areas)) ->
  In nm (area_names a) -> lookup fs nm = Some f -> ~ area_field areas f.
Proof.
  intros ND Hnm HL (a' & nm' & Ha' & Hnm' & HL'). cbn [flat_map] in ND.
  assert (nm = nm').
  { apply has_name_lookup in HL, HL'. congruence. }
  subst nm'. assert (In nm (flat_map area_names areas)) by (apply in_flat_map; eauto).
  clear - ND Hnm H. induction (area_names a) as [|x l IH]; [destruct Hnm|].
  cbn in ND. inversion_clear ND as [|? ? N1 N2]. destruct Hnm as [->|Hnm]; auto. apply N1, in_or_app. now right.
Qed.

Lemma store_areas_ok areas : Forall (area_ok rows) areas -> NoDup (flat_map area_names areas) ->
  forall heads h, List.length heads = List.length areas -> st_impl FO (h_st h) = false ->
  (forall a, In a areas -> exists n, len_is (h_st h) a n) ->
  exists s', store_areas FO rows h areas heads = ({| h_st := s'; h_attr := h_attr h |}, Ok tt)
    /\ st_impl FO s' = false
    /\ (forall y, In y (fs_fields fs) -> ~ area_field areas y -> forall k, stored FO s' y k = stored FO (h_st h) y k)
    /\ Forall2 (area_result (h_st h) s') areas heads.
Proof.
  induction areas as [|a areas IH]; intros HA ND heads h HLen HI HLs.
  - destruct heads; [|discriminate]. exists (h_st h). destruct h. cbn. auto 6.
  - destruct heads as [|b heads]; [discriminate|]. inversion_clear HA as [|? ? Ha HA'].
    destruct (area_fields a Ha) as (lf & of & df & A).
    destruct (HLs a (or_introl eq_refl)) as (n & Hn).
    destruct (store_one a lf of df h n b A HI Hn) as (s1 & E1 & HI1 & R1 & F1).
    cbn [store_areas]. unfold hint. rewrite (hget_st h _ lf) by apply A. unfold len_is in Hn. rewrite Hn. cbn [bind].
    destruct (if (n >? 0)%Z then _ else _) as [h1 [[]|e]]; [|discriminate]. rewrite E1.
    assert (ND' : NoDup (flat_map area_names areas)).
    { cbn [flat_map] in ND. clear - ND. induction (area_names a); auto. cbn in ND. inversion_clear ND. auto. }
    assert (Apart : forall a', In a' areas -> forall lf' of' df', afields a' lf' of' df' ->
              forall y, In y [lf'; of'; df'] -> In y (fs_fields fs) /\ y <> lf /\ y <> of /\ y <> df).
    { intros a' Ha' lf' of' df' A' y Hy.
      assert (Hin : area_field areas y /\ In y (fs_fields fs)).
      { destruct A'. destruct Hy as [<-|[<-|[<-|[]]]]; (split; [|eapply lookup_in; eauto]).
        - exists a', (ta_len a'). cbn. tauto.
        - exists a', (ta_ofl a'). cbn. tauto.
        - exists a', (ta_data a'). cbn. tauto. }
      destruct Hin as [Hin Hy']. destruct A. split; [exact Hy'|].
      repeat split; intros ->; revert Hin; eapply area_field_apart; eauto; cbn; auto. }
    assert (Pres : forall a', In a' areas ->
        get FO fs s1 (ta_len a') [] = get FO fs (h_st h) (ta_len a') []
        /\ get FO fs s1 (ta_data a') [] = get FO fs (h_st h) (ta_data a') []
        /\ (quiet (h_st h) a' -> quiet s1 a')).
    { intros a' Ha'. rewrite Forall_forall in HA'. destruct (area_fields a' (HA' a' Ha')) as (lf' & of' & df' & A').
      destruct (same_view a' lf' of' df' (h_st h) s1 A') as (V1 & V2 & _ & V4);
        [apply F1; apply (Apart a' Ha' lf' of' df' A'); cbn; auto ..|].
      split; [exact V1|]. split; [exact V2|]. auto. }
    destruct (IH HA' ND' heads {| h_st := s1; h_attr := h_attr h |}) as (s' & E' & HI' & F' & R'); auto.
    { intros a' Ha'. destruct (Pres a' Ha') as (V & _). destruct (HLs a' (or_intror Ha')) as (m & Hm).
      exists m. unfold len_is in *. cbn [h_st]. congruence. }
    cbn [h_st h_attr] in *. exists s'. split; [exact E'|]. split; [exact HI'|]. split.
    + intros y Hy Ny k. destruct (area_field_cons a areas lf of df A) as (X1 & X2 & X3).
      rewrite F'; auto; [|intro H; apply Ny; now apply area_field_more].
      apply F1; auto; intros ->; contradiction.
    + constructor.
      * (* the first area is left alone by the rest *)
        destruct (same_view a lf of df s1 s' A) as (V1 & V2 & V3 & V4).
        1-3: apply F'; [destruct A; eapply lookup_in; eauto|destruct A; eapply area_field_apart; eauto; cbn; auto].
        destruct R1 as (R1 & R2 & R3). split; [|split].
        -- destruct b; [|destruct R1; split; unfold len_is in *; congruence]. destruct R1; split; congruence.
        -- intros m m' Hm Hm' Hne Hq. assert (Hm1 : len_is s1 a m') by (unfold len_is in *; congruence).
           rewrite (V3 _ Hm1). eauto.
        -- intros m Hm Hle Hb Hq. apply V4; eauto.
      * clear - R' Pres.
        induction R' as [|a' b' as' bs' R _ IHR]; constructor; [|apply IHR; intros; apply Pres; now right].
        destruct (Pres a' (or_introl eq_refl)) as (V1 & V2 & V3). destruct R as (R1 & R2 & R3). split; [|split].
        -- destruct b'; [destruct R1; split; congruence|exact R1].
        -- intros m m' Hm Hm' Hne Hq. apply (R2 m m'); auto; [unfold len_is in *; congruence|].
           destruct Hq as [|[]]; auto.
        -- intros m Hm Hle Hb Hq. apply (R3 m); auto. unfold len_is in *; congruence.
Qed.


(** ** The whole preparation *)

(** A header whose length fields can be read, as in every header made or read by the code. *)
Definition sound_header (areas : list tarea) (h : hdr FO) : Prop :=
  st_impl FO (h_st h) = false /\ forall a, In a areas -> exists n, (0 <= n)%Z /\ len_is (h_st h) a n.

Section Prepare.
Variable areas : list tarea.
Hypothesis HA : Forall (area_ok rows) areas.
Hypothesis ND : NoDup (flat_map area_names areas).

(** What preparation does when it ends well. *)
Definition prepared (idx : Z) (h h' : hdr FO) (ov : option over) (ndes : nat) (ps : list (nat * list N)) : Prop :=
  h_attr h' = h_attr h /\ st_impl FO (h_st h') = false
  /\ (forall y, In y (fs_fields fs) -> ~ area_field areas y -> forall k, stored FO (h_st h') y k = stored FO (h_st h) y k)
  /\ (forall i a, nth_error areas i = Some a ->
        match part ps i with
        | [] => get FO fs (h_st h') (ta_len a) [] = get FO fs (h_st h) (ta_len a) []
                /\ get FO fs (h_st h') (ta_data a) [] = get FO fs (h_st h) (ta_data a) []
        | b => len_is (h_st h') a (Z.of_nat (List.length b) + 3) /\ get FO fs (h_st h') (ta_data a) [] = Ok (VBytes b)
        end
        /\ forall n n', len_is (h_st h) a n -> len_is (h_st h') a n' -> n' <> 0%Z ->
             (n > 0)%Z \/ (part ps i <> [] /\ quiet (h_st h) a) -> (i <> 0%nat \/ ov = None) ->
             get FO fs (h_st h') (ta_ofl a) [] = Ok (VInt 0))
  /\ (forall i a, nth_error areas i = Some a -> len_is (h_st h) a 0 -> part ps i = [] ->
        quiet (h_st h) a -> quiet (h_st h') a)
  /\ match ov with
     | None => part ps (List.length areas) = []
     | Some o => ov_data o = part ps (List.length areas) /\ part ps (List.length areas) <> []
         /\ exists a, nth_error areas 0 = Some a /\ ov_item o = (idx + 1)%Z
              /\ ov_oflw o = map upper_char (str (ta_data a))
              /\ get FO fs (h_st h') (ta_ofl a) [] = Ok (VInt (Z.of_nat (S ndes)))
              /\ exists n', len_is (h_st h') a n' /\ n' <> 0%Z
     end.

Lemma prepare_ok idx h ts ndes rs : sound_header areas h -> records ts rs ->
  exists ps, map snd ps = rs /\ first_fit (List.length areas) ps /\
   ((exists h' ov, prepare FO rows areas idx h ts ndes = (h', ov, Ok tt) /\ prepared idx h h' ov ndes ps)
    \/ (exists h' ov e, prepare FO rows areas idx h ts ndes = (h', ov, Err e)
          /\ part ps (List.length areas) <> []
          /\ (areas = [] \/ exists a, nth_error areas 0 = Some a /\ part ps 0 = [] /\ len_is (h_st h) a 0))).
Proof.
  intros [HI HL] HR. destruct (place_total ts rs (map (fun _ => []) areas) [] HR) as ([heads des] & HP).
  assert (HM : map (fun _ : tarea => @nil N) areas = repeat [] (List.length areas)).
  { clear. induction areas; cbn; auto. now f_equal. }
  unfold prepare. rewrite HP. rewrite HM in HP.
  destruct (place_start _ _ _ _ HP) as (ps & P1 & P2 & P3 & P4 & P5). exists ps.
  split. { revert HR P1. clear. unfold records. generalize (map snd ps). intros l H1 H2. revert l H2.
    induction H1; intros l2 H2; inversion H2; subst; auto. f_equal; [congruence|auto]. }
  split; [exact P2|]. subst des.
  destruct (store_areas_ok areas HA ND heads h P3 HI) as (s1 & -> & HI1 & F1 & R1).
  { intros a Ha. destruct (HL a Ha) as (n & _ & Hn). eauto. }
  assert (R : forall i a, nth_error areas i = Some a -> area_result (h_st h) s1 a (part ps i)).
  { intros i a Hi. rewrite <- P4 by (apply nth_error_Some; congruence). now apply (Forall2_nth _ _ _ [] R1). }
  destruct (part ps (List.length areas)) as [|d0 d1] eqn:ED.
  - left. do 2 eexists. split; [reflexivity|]. split; [reflexivity|]. cbn [h_st h_attr]. split; [exact HI1|].
    split; [exact F1|]. split; [|split; [|exact ED]]; intros i a Hi; destruct (R i a Hi) as (X & Y & W).
    + split; [destruct (part ps i); exact X|].
      intros n n' H1 H2 H3 H4 _. now apply (Y n n').
    + intros H0 Hp. apply (W 0%Z); auto. lia.
  - destruct areas as [|a0 areas'] eqn:EA.
    { right. do 3 eexists. split; [reflexivity|]. split; [discriminate|now left]. }
    rewrite <- EA in *. assert (H0 : nth_error areas 0 = Some a0) by now rewrite EA.
    assert (Ha0 : In a0 areas) by (rewrite EA; now left).
    assert (OK0 : area_ok rows a0) by (rewrite Forall_forall in HA; auto).
    destruct (area_fields a0 OK0) as (lf & of & df & A).
    destruct (HL a0 Ha0) as (n0 & Hn0 & HL0).
    assert (L1 : exists n1, len_is s1 a0 n1 /\ (n1 = 0%Z -> part ps 0 = [] /\ n0 = 0%Z)).
    { destruct (R 0%nat a0 H0) as (X & _). destruct (part ps 0) as [|c0 c1] eqn:EP.
      - exists n0. destruct X as [X _]. split; [unfold len_is in *; congruence|auto].
      - exists (Z.of_nat (List.length (c0 :: c1)) + 3)%Z. split; [apply X|]. lia. }
    destruct L1 as (n1 & L1 & Z1).
    rewrite (hset_st _ _ of) by apply A. cbn [h_st h_attr].
    destruct (Z.eq_dec n1 0) as [->|Nz].
    + right. destruct (set_ofl_empty a0 lf of df A Hwf s1 (Z.of_nat (S ndes)) L1) as (e & ->).
      do 3 eexists. split; [reflexivity|]. split; [discriminate|]. right. exists a0. destruct (Z1 eq_refl) as [? ->]. auto.
    + left. rewrite (set_ofl a0 lf of df A Hwf s1 n1 (Z.of_nat (S ndes)) HI1 L1 Nz).
      do 2 eexists. split; [reflexivity|].
      set (s2 := assigned FO s1 of [] (SVal (VInt (Z.of_nat (S ndes))))).
      destruct (afields_ne a0 lf of df A) as (N1 & N2 & N3).
      assert (Iof := lookup_in _ _ _ (af_ofl _ _ _ _ A)). assert (Ilf := lookup_in _ _ _ (af_len _ _ _ _ A)).
      assert (Idf := lookup_in _ _ _ (af_dat _ _ _ _ A)).
      assert (E1 : get FO fs s2 (ta_len a0) [] = get FO fs s1 (ta_len a0) []).
      { rewrite !(get_len a0 lf of df A). unfold s2. now rewrite stored_assigned_ne by auto. }
      assert (E2 : get FO fs s2 (ta_data a0) [] = get FO fs s1 (ta_data a0) []).
      { apply (get_data_same a0 lf of df A). unfold s2. now rewrite stored_assigned_ne by auto. }
      assert (EO : forall i a, i <> 0%nat -> nth_error areas i = Some a ->
          get FO fs s2 (ta_len a) [] = get FO fs s1 (ta_len a) []
          /\ get FO fs s2 (ta_data a) [] = get FO fs s1 (ta_data a) []
          /\ (forall n, len_is s1 a n -> get FO fs s2 (ta_ofl a) [] = get FO fs s1 (ta_ofl a) [])
          /\ (quiet s1 a -> quiet s2 a)).
      { intros i a Hi0 Hi. assert (Ha : In a areas') by (destruct i; [congruence|]; rewrite EA in Hi; eapply nth_error_In; eauto).
        assert (OKa : area_ok rows a) by (rewrite Forall_forall in HA; apply HA; rewrite EA; now right).
        destruct (area_fields a OKa) as (lf' & of' & df' & A').
        assert (Np : forall y nm, In nm (area_names a) -> lookup fs nm = Some y -> In y (fs_fields fs) /\ y <> of).
        { intros y nm Hnm Hy. split; [eapply lookup_in; eauto|]. intros ->.
          eapply (area_field_apart a0 areas' of (ta_ofl a0)); [rewrite <- EA; exact ND|cbn; auto|apply A|].
          exists a, nm. auto. }
        destruct (same_view a lf' of' df' s1 s2 A') as (V1 & V2 & V3 & V4).
        1-3: unfold s2; destruct A'; apply stored_assigned_ne; auto; eapply Np; eauto; cbn; auto.
        auto. }
      split; [reflexivity|]. cbn [h_st h_attr]. split; [exact HI1|]. split; [|split; [|split]].
      * intros y Hy Ny k. unfold s2. rewrite (assigned_same FO rows); auto.
        intros ->. apply Ny. exists a0, (ta_ofl a0). cbn. destruct A. tauto.
      * intros i a Hi. destruct (R i a Hi) as (X & Y & _). destruct (Nat.eq_dec i 0) as [->|Hi0].
        -- assert (a = a0) by congruence. subst a. split.
           ++ destruct (part ps 0); destruct X; split; unfold len_is in *; congruence.
           ++ intros n n' _ _ _ _ [|]; congruence.
        -- destruct (EO i a Hi0 Hi) as (V1 & V2 & V3 & _). split.
           ++ destruct (part ps i); destruct X; split; unfold len_is in *; congruence.
           ++ intros n n' H1 H2 H3 H4 _. assert (H2' : len_is s1 a n') by (unfold len_is in *; congruence).
              rewrite (V3 n' H2'). now apply (Y n n').
      * intros i a Hi HL1 Hp Hq. destruct (R i a Hi) as (X & _ & W). destruct (Nat.eq_dec i 0) as [->|Hi0].
        -- exfalso. assert (a = a0) by congruence. subst a. apply Nz. rewrite Hp in X. destruct X as [X _].
           unfold len_is in *. congruence.
        -- destruct (EO i a Hi0 Hi) as (_ & _ & _ & V4). apply V4, (W 0%Z); auto. lia.
      * cbn [ov_data ov_item ov_oflw]. split; [symmetry; exact ED|]. split; [rewrite ED; discriminate|]. exists a0.
        split; [exact H0|]. split; [reflexivity|]. split; [reflexivity|].
        assert (L2 : len_is s2 a0 n1) by (unfold len_is in *; congruence).
        split; [|eauto]. rewrite (get_ofl a0 lf of df A Hwf s2 n1 L2).
        replace (n1 =? 0)%Z with false by lia. unfold s2. rewrite assigned_self. reflexivity.
Qed.

End Prepare.
End Header.
End Place.
