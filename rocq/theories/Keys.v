(** Indices of looped fields. *)
From Verif Require Import Base BaseLemmas Engine Wf EngineLemmas Codec RoundTrip Rewrite Literal Positions.
From Coq Require Import ZifyBool ZifyNat ZifyN Sorted.
Open Scope list_scope.

(** C (row major) order on index tuples. *)
Fixpoint lex_lt (a b : list Z) : Prop :=
  match a, b with
  | [], _ :: _ => True
  | x :: a', y :: b' => (x < y)%Z \/ (x = y /\ lex_lt a' b')
  | _, _ => False
  end.

(** Every component of [k] is between 0 and the loop count at that position. *)
Definition in_shape FO fs (s : state FO) (shs : list expr) (k : list Z) : Prop :=
  List.length k = List.length shs /\
  forall j, (j < List.length shs)%nat ->
    exists n, eval_shape FO (G FO fs s) fs (firstn j k) (nth j shs (EInt 0)) = Ok n
              /\ (0 <= nth j k 0 < n)%Z.

Section Keys.
Variable FO : FloatOps.
Variable fs : fstruct.
Variable s : state FO.

Lemma keys_from_in shs : forall lead ks k, keys_from FO fs s lead shs = Ok ks ->
  (In k ks <-> exists q, k = lead ++ q /\ List.length q = List.length shs /\
     forall j, (j < List.length shs)%nat ->
       exists n, eval_shape FO (G FO fs s) fs (lead ++ firstn j q) (nth j shs (EInt 0)) = Ok n
              /\ (0 <= nth j q 0 < n)%Z).
Proof.
  induction shs as [|sh shs IH]; intros lead ks k H; cbn [keys_from] in H.
  - injection H as <-. split.
    + intros [<-|[]]. exists []. rewrite app_nil_r. repeat split; auto. intros j Hj. cbn in Hj. lia.
    + intros (q & -> & Hq & _). destruct q; [|discriminate]. rewrite app_nil_r. now left.
  - apply bind_ok_elim in H as (n & Hn & H). split.
    + intro Hk. destruct (concat_map_res_in _ _ _ _ H Hk) as (i & ra & Hi & Hra & Hin).
      apply (IH _ _ _ Hra) in Hin as (q & -> & Hq & Hr). exists (i :: q).
      rewrite <- app_assoc. split; auto. split; [cbn; lia|]. intros [|j] Hj.
      * cbn [firstn nth]. rewrite app_nil_r. exists n. split; auto. apply in_zrange in Hi. lia.
      * cbn [firstn nth]. destruct (Hr j) as (m & Hm & Hb); [cbn in Hj; lia|].
        rewrite <- app_assoc in Hm. eauto.
    + intros (q & -> & Hq & Hr). destruct q as [|i q]; [discriminate|].
      destruct (Hr O) as (m & Hm & Hb); [cbn; lia|]. cbn [firstn nth] in Hm, Hb.
      rewrite app_nil_r in Hm. rewrite Hn in Hm. injection Hm as <-.
      assert (Hi : In i (zrange n)) by (apply in_zrange; lia).
      assert (exists ra, keys_from FO fs s (lead ++ [i]) shs = Ok ra /\ incl ra ks) as (ra & Hra & Hinc).
      { clear -H Hi. revert ks H. induction (zrange n) as [|j l IHl]; intros ks H; [destruct Hi|].
        apply concat_map_res_ok_cons in H as (x & y & Hx & Hy & ->). destruct Hi as [->|Hi].
        - exists x. split; auto. now apply incl_appl, incl_refl.
        - destruct (IHl Hi _ Hy) as (ra & A & B). exists ra. split; auto. now apply incl_appr. }
      apply Hinc. apply (IH _ _ _ Hra). exists q. rewrite <- app_assoc. split; auto.
      split; [cbn in Hq; lia|]. intros j Hj. destruct (Hr (S j)) as (m & Hm & Hb'); [cbn; lia|].
      cbn [firstn nth] in Hm, Hb'. exists m. rewrite <- app_assoc. auto.
Qed.

Theorem field_keys_in f ks k : field_keys FO fs s f = Ok ks ->
  (In k ks <-> in_shape FO fs s (f_loops f) k).
Proof.
  intro H. rewrite (keys_from_in _ _ _ _ H). unfold in_shape. cbn [app]. split.
  - intros (q & -> & A & B). auto.
  - intros (A & B). eauto.
Qed.

Lemma StronglySorted_app {A} (R : A -> A -> Prop) a b :
  StronglySorted R a -> StronglySorted R b -> (forall x y, In x a -> In y b -> R x y) ->
  StronglySorted R (a ++ b).
Proof.
  induction 1 as [|x a Ha IH Hx]; cbn; intros Hb Hab; auto. constructor; auto.
  apply Forall_app. split; auto. apply Forall_forall. auto.
Qed.

Lemma lex_pre lead i j a b : (i < j)%Z -> pre (lead ++ [i]) a -> pre (lead ++ [j]) b -> lex_lt a b.
Proof.
  intros Hij (qa & ->) (qb & ->). rewrite <- !app_assoc. induction lead as [|z l IH]; cbn; auto.
Qed.

Lemma zrange_sorted n : StronglySorted Z.lt (zrange n).
Proof.
  unfold zrange. generalize O. induction (Z.to_nat n) as [|m IH]; intro a; cbn; constructor; auto.
  apply Forall_forall. intros x Hx. apply in_map_iff in Hx as (y & <- & Hy). apply in_seq in Hy. lia.
Qed.

Lemma keys_from_sorted shs : forall lead ks, keys_from FO fs s lead shs = Ok ks ->
  StronglySorted lex_lt ks.
Proof.
  induction shs as [|sh shs IH]; intros lead ks H; cbn [keys_from] in H.
  - injection H as <-. constructor; constructor.
  - apply bind_ok_elim in H as (n & _ & H). assert (HS := zrange_sorted n).
    revert ks H. induction HS as [|i l HS IHl Hi]; intros ks H.
    + injection H as <-. constructor.
    + apply concat_map_res_ok_cons in H as (x & y & Hx & Hy & ->).
      apply StronglySorted_app; eauto. intros a b Ha Hb.
      destruct (concat_map_res_in _ _ _ _ Hy Hb) as (j & rb & Hj & Hrb & Hbj).
      apply (keys_from_in _ _ _ _ Hx) in Ha as (qa & Ea & _).
      apply (keys_from_in _ _ _ _ Hrb) in Hbj as (qb & Eb & _).
      rewrite Forall_forall in Hi. eapply lex_pre; [apply Hi; exact Hj|exists qa; exact Ea|exists qb; exact Eb].
Qed.

Lemma lex_irrefl a : ~ lex_lt a a.
Proof. induction a; cbn; auto. intros [H|[_ H]]; [lia|auto]. Qed.

Lemma sorted_nodup l : StronglySorted lex_lt l -> NoDup l.
Proof.
  induction 1 as [|a l H IH Ha]; constructor; auto. intro Hin. rewrite Forall_forall in Ha.
  eapply lex_irrefl; eauto.
Qed.

Theorem field_keys_sorted f ks : field_keys FO fs s f = Ok ks -> StronglySorted lex_lt ks /\ NoDup ks.
Proof. intro H. apply keys_from_sorted in H. split; auto. now apply sorted_nodup. Qed.

Lemma last_default {A} (l : list A) a d : last (a :: l) d = last l a.
Proof. revert a. induction l as [|b l IH]; intro a; auto. cbn [last] in *. destruct l; auto. Qed.

(** [check_index] accepts exactly the tuples of the right length whose last component is in
    range; the other components are not looked at. *)
Theorem check_index_spec f k : check_index FO (G FO fs s) fs f k = Ok tt <->
  f_loops f = [] \/
  (List.length k = depth f /\ exists n, 
     eval_shape FO (G FO fs s) fs (removelast k) (last (f_loops f) (EInt 0)) = Ok n
     /\ (0 <= last k 0 < n)%Z).
Proof.
  unfold check_index, depth. destruct (f_loops f) as [|sh shs] eqn:L.
  - split; auto.
  - rewrite last_default.
    destruct (Nat.eqb (List.length k) (List.length (sh :: shs))) eqn:E; cbn [negb];
      [apply Nat.eqb_eq in E|apply Nat.eqb_neq in E].
    + destruct (last k 0 <? 0)%Z eqn:E1.
      * split; [discriminate|]. intros [H|(_ & n & _ & H)]; [discriminate|lia].
      * destruct (eval_shape FO (G FO fs s) fs (removelast k) (last shs sh)) as [n|e]; cbn [bind].
        -- destruct (n <=? last k 0)%Z eqn:E2.
           ++ split; [discriminate|]. intros [H|(_ & m & Hm & H)]; [discriminate|].
              injection Hm as <-. lia.
           ++ split; auto. intros _. right. split; auto. exists n. split; auto. lia.
        -- split; [discriminate|]. intros [H|(_ & m & Hm & H)]; discriminate.
    + split; [discriminate|]. intros [H|(H & _)]; [discriminate|contradiction].
Qed.

(** Valid indices pass. *)
Lemma in_shape_check f k : in_shape FO fs s (f_loops f) k -> check_index FO (G FO fs s) fs f k = Ok tt.
Proof.
  intros (HL & H). apply check_index_spec. destruct (f_loops f) as [|sh shs] eqn:L; auto. right.
  split; [unfold depth; now rewrite L|].
  destruct (H (List.length shs)) as (n & Hn & Hb); [cbn; lia|].
  exists n. assert (Hk : k <> []) by (intros ->; discriminate).
  assert (E1 : removelast k = firstn (List.length shs) k).
  { rewrite (app_removelast_last 0%Z Hk) at 2. 
    assert (List.length (removelast k) = List.length shs).
    { assert (E := f_equal (@List.length Z) (app_removelast_last 0%Z Hk)). rewrite app_length in E.
      cbn in E, HL. lia. }
    rewrite firstn_app, H0 . rewrite <- H0, firstn_all. rewrite Nat.sub_diag. cbn. now rewrite app_nil_r. }
  assert (E2 : last k 0%Z = nth (List.length shs) k 0%Z).
  { rewrite (app_removelast_last 0%Z Hk) at 2.
    assert (List.length (removelast k) = List.length shs).
    { assert (E := f_equal (@List.length Z) (app_removelast_last 0%Z Hk)). rewrite app_length in E.
      cbn in E, HL. lia. }
    rewrite app_nth2, H0, Nat.sub_diag by lia. reflexivity. }
  assert (E3 : last (sh :: shs) (EInt 0) = nth (List.length shs) (sh :: shs) (EInt 0)).
  { rewrite last_default. clear. revert sh. induction shs as [|b l IH]; intro sh; auto.
    rewrite last_default. cbn [List.length nth]. apply IH. }
  rewrite E1, E2, E3. auto.
Qed.

(** With one loop around the field the check is complete. *)
Lemma check_index_one f sh k : f_loops f = [sh] ->
  (check_index FO (G FO fs s) fs f k = Ok tt <-> in_shape FO fs s (f_loops f) k).
Proof.
  intro L. split; [|apply in_shape_check]. intro H. apply check_index_spec in H as [H|(HL & n & Hn & Hb)].
  - congruence.
  - unfold depth in HL. rewrite L in *. destruct k as [|i [|]]; try discriminate. split; auto.
    intros [|j] Hj; [|cbn in Hj; lia]. cbn in Hn, Hb |- *. eauto.
Qed.

(** A rejected index gives an error from reading and from assigning, without effect. *)
Theorem bad_index f nm k e v : lookup fs nm = Some f -> key_shape_ok f k = true ->
  check_index FO (G FO fs s) fs f k = Err e ->
  get FO fs s nm k = Err e /\
  (is_bytes_ty (fd_ty (f_d f)) = false -> set FO fs s nm k v = (s, Err e)).
Proof.
  intros HL HK HC. assert (HN := lookup_name _ _ _ HL). split.
  - unfold get. rewrite HL, HK. unfold fget, get_pub, get_base. rewrite HN, HC. reflexivity.
  - intro HT. unfold set. rewrite HL, HK. unfold fset, fuel. cbn [setf].
    destruct (fd_ty (f_d f)); try discriminate HT; unfold set_base; now rewrite HN, HC.
Qed.

End Keys.
