(** States a structure can be in, and what every one of them satisfies. *)
From Verif Require Import Base BaseLemmas Engine Wf EngineLemmas Codec RoundTrip Rewrite Literal
  Positions Keys Deps Assign Update Spec.
From Coq Require Import ZifyBool ZifyNat ZifyN.
Open Scope list_scope.

Section Reach.
Variable FO : FloatOps.
Variable rows : list row.
Let fs := mk_fs rows.

(** A fresh object (nitf_field.py:787-817) after any assignments, reads, writes and in-place
    updates that returned or (for assignments and updates) raised.  A read that raises is
    left out: the object is not used further by any caller in the package. *)
Inductive reachable : state FO -> Prop :=
| rc_init : reachable (init_state FO)
| rc_set s nm k v : reachable s -> reachable (fst (set FO fs s nm k v))
| rc_read s lit inp s' rest : reachable s -> read FO fs lit s inp = Ok (s', rest) -> reachable s'
| rc_write s file s' file' : reachable s -> write_file FO fs s file = Ok (s', file') -> reachable s'
| rc_update s file nm k v : reachable s -> reachable (fst (update_field FO fs s file nm k v)).

(** Reserved fields hold nothing but their default. *)
Lemma reserved_clean_set s nm k v : reserved_clean FO fs s ->
  reserved_clean FO fs (fst (set FO fs s nm k v)).
Proof.
  intros H y p b Hy Hn. unfold set. destruct (lookup fs nm) as [f|] eqn:HL; [|now apply H].
  destruct (key_shape_ok f k); [|now apply H]. unfold fset.
  destruct (setf FO (fuel fs) fs s f k v) as [s' r] eqn:E. cbn [fst].
  apply setf_touch in E as (_ & _ & E). destruct (E (f_id y) p) as [[-> _]|(z & Hz & Hzn & Hzw & _)]; [now apply H|].
  exfalso. apply (mk_fs_id_inj rows) in Hz; [subst z; auto|exact Hy|].
  destruct Hzw as [[-> _]|[_ Hr]]; [eapply lookup_in; exact HL|eapply (reaches_in rows); exact Hr].
Qed.

Lemma update_field_set s file nm k v :
  fst (update_field FO fs s file nm k v) = s \/
  exists f, lookup fs nm = Some f /\ fst (update_field FO fs s file nm k v) = fst (fset FO fs s f k v).
Proof.
  unfold update_field. destruct (lookup fs nm) as [f|]; auto. right. exists f. split; auto.
  destruct (fset FO fs s f k v) as [s1 [[]|e]]; auto.
  destruct (check_condition _ _ _ _ _) as [[|]|]; auto. destruct (st_loc _ _ _ _); auto.
  destruct (field_bytes _ _ _ _ _ _); auto.
Qed.

Lemma reserved_clean_fset s f k v : In f (fs_fields fs) -> reserved_clean FO fs s ->
  reserved_clean FO fs (fst (fset FO fs s f k v)).
Proof.
  intros Hf H y p b Hy Hn. unfold fset. destruct (setf FO (fuel fs) fs s f k v) as [s' r] eqn:E. cbn [fst].
  apply setf_touch in E as (_ & _ & E). destruct (E (f_id y) p) as [[-> _]|(z & Hz & Hzn & Hzw & _)]; [now apply H|].
  exfalso. apply (mk_fs_id_inj rows) in Hz; [subst z; auto|exact Hy|].
  destruct Hzw as [[-> _]|[_ Hr]]; [exact Hf|eapply (reaches_in rows); exact Hr].
Qed.

Lemma reachable_clean s : reachable s -> reserved_clean FO fs s.
Proof.
  induction 1 as [|s nm k v _ IH|s lit inp s' rest _ IH HR|s file s' file' _ IH HW|s file nm k v _ IH].
  - apply reserved_clean_init.
  - now apply reserved_clean_set.
  - eapply reserved_clean_read; eauto.
  - unfold write_file in HW. apply bind_ok_elim in HW as (cs & _ & HW). injection HW as <- _.
    intros y p b Hy Hn. destruct (record_locs_val FO cs s (Z.of_nat (List.length file))) as (-> & _). now apply IH.
  - destruct (update_field_set s file nm k v) as [->|(f & HL & ->)]; auto.
    apply reserved_clean_fset; auto. eapply lookup_in; eauto.
Qed.

(** ** Without literals *)

Definition plain_value (v : sval FO) : Prop := match v with SVal _ => True | SLit _ => False end.

Lemma no_literals_assigned s f k v : In f (fs_fields fs) -> no_literals FO fs s -> plain_value v ->
  no_literals FO fs (assigned FO s f k v).
Proof.
  intros Hf H Hv y p b Hy E. unfold assigned in E. cbn [st_val set_raw set_val] in E.
  unfold upd in E. destruct (Nat.eqb (f_id f) (f_id y) && keyeqb k p).
  - injection E as ->. exact Hv.
  - exact (H y p b Hy E).
Qed.

Lemma no_literals_setf n : forall s f k v, In f (fs_fields fs) -> no_literals FO fs s -> plain_value v ->
  no_literals FO fs (fst (setf FO n fs s f k v)).
Proof.
  induction n as [|n IH]; intros s f k v Hf H Hv; [exact H|]. cbn [setf].
  assert (B : forall w, plain_value w -> no_literals FO fs (fst (set_base FO (setf FO n fs) fs s f k w))).
  { intros w Hw. destruct (set_base FO (setf FO n fs) fs s f k w) as [s' r] eqn:E. cbn [fst].
    apply set_base_cases in E as [(-> & _)|(_ & [(-> & _)|[(_ & -> & _)|
         (_ & nm & m & b & sf & Hv' & Hsz & Hl & Hnu & Hdm & Hmk & E)]])]; auto;
      try (now apply no_literals_assigned).
    assert (E' : s' = fst (setf FO n fs (assigned FO s f k w) sf (firstn m k)
        (SVal (VInt (if (Z.of_nat (List.length b) =? 0)%Z then 0
                     else Z.of_nat (List.length b) + fd_size_offset (f_d f))%Z)))) by (now rewrite E).
    rewrite E'. apply IH; [eapply lookup_in; eauto|now apply no_literals_assigned|exact I]. }
  destruct (fd_ty (f_d f)); try (apply B; exact Hv). destruct v as [v|b]; [|exact H].
  destruct (pack FO (G FO fs s) fs f k v); [apply B; exact I|exact H].
Qed.

Lemma no_literals_assign_all ops : forall s, no_literals FO fs s ->
  Forall (fun op => plain_value (snd op)) ops -> no_literals FO fs (assign_all FO rows s ops).
Proof.
  induction ops as [|[[nm k] v] ops IH]; intros s H HO; auto. inversion HO as [|? ? Hv HO']; subst.
  unfold assign_all. cbn [fold_left fst snd]. apply IH; auto. unfold set. fold fs.
  destruct (lookup fs nm) as [f|] eqn:HL; auto. destruct (key_shape_ok f k); auto.
  apply no_literals_setf; auto. eapply lookup_in; eauto.
Qed.

Lemma no_literals_init : no_literals FO fs (init_state FO).
Proof. intros f k b _. discriminate. Qed.

Lemma no_literals_read s inp s' rest : no_literals FO fs s ->
  read FO fs false s inp = Ok (s', rest) -> no_literals FO fs s'.
Proof.
  intros H HR. eapply read_items_pres; [| |exact HR|exact H]; [|apply incl_refl].
  intros s1 f k t v Hf Hn HP HL y p b Hy. cbn [st_val set_val set_raw]. unfold upd.
  destruct (Nat.eqb (f_id f) (f_id y) && keyeqb k p); [|now apply HL].
  intro E. injection E as ->. unfold parse_field in HP. destruct (fd_optional (f_d f) && is_blank (f_d f) t); [discriminate|].
  destruct (fd_ty (f_d f)); try discriminate; destruct (rstrip_by ws_byte t); try discriminate;
    [destruct (conv_int _ _)|destruct (conv_float _ _)]; discriminate.
Qed.

Lemma assign_all_reachable ops : forall s, reachable s -> reachable (assign_all FO rows s ops).
Proof.
  induction ops as [|[[nm k] v] ops IH]; intros s H; auto. unfold assign_all. cbn [fold_left fst snd].
  apply IH. now apply rc_set.
Qed.

(** ** Literal mode, block by block *)

(** What a block read in literal mode is written as: itself, blanks if the field is reserved. *)
Definition blanked (pb : (field * list Z) * list N) : list N :=
  match fd_name (f_d (fst (fst pb))) with
  | Some _ => snd pb
  | None => repeat 32%N (List.length (snd pb))
  end.

Lemma literal_blocks s inp s' rest : wf_rows rows = true -> reserved_clean FO fs s ->
  read FO fs true s inp = Ok (s', rest) ->
  exists ps bs, unrolled_all FO fs s' (fs_items fs) [] ps /\ Forall2 (block_is FO fs s') ps bs
    /\ inp = List.concat bs ++ rest
    /\ write FO fs s' = Ok (List.concat (map blanked (combine ps bs))).
Proof.
  intros Hwf HC HR.
  destruct (literal_write FO rows s inp s' rest Hwf HC HR) as (cs & E & HI & (ps & HP & HB) & W).
  assert (K : exists bs, Forall2 (block_is FO fs s') ps bs /\ chunks_bytes cs = List.concat bs
                /\ flat_map blank_reserved cs = List.concat (map blanked (combine ps bs))).
  { clear W E HP. induction HB as [|f k ps cs Hc _ IH|f k b ps cs Hc _ IH].
    - exists []. split; [constructor|]. split; reflexivity.
    - destruct (IH HI) as (bs & A & B & C). exists ([] :: bs). split; [|split; [exact B|]].
      + constructor; auto. left. split; [now apply cond_is_check|reflexivity].
      + cbn [combine map List.concat]. rewrite C. unfold blanked at 2. cbn [fst snd].
        destruct (fd_name (f_d f)); reflexivity.
    - inversion HI as [|? ? Hb HI']; subst. destruct (IH HI') as (bs & A & B & C). exists (b :: bs).
      split; [|split].
      + constructor; auto. destruct Hb as (_ & H1 & H2 & _). cbn [ch_field ch_key ch_bytes] in *.
        right. split; [now apply cond_is_check|now apply size_is_fsize].
      + cbn [chunks_bytes flat_map ch_bytes List.concat]. f_equal. exact B.
      + cbn [flat_map combine map List.concat]. rewrite C. reflexivity. }
  destruct K as (bs & A & B & C). exists ps, bs. split; [now apply positions_unrolled_all|]. split; [exact A|].
  split; [now rewrite <- B|]. fold fs in W. now rewrite W, C.
Qed.

Lemma blanked_same ps bs : List.length ps = List.length bs ->
  (forall p b, In (p, b) (combine ps bs) -> fd_name (f_d (fst p)) = None -> b = repeat 32%N (List.length b)) ->
  List.concat (map blanked (combine ps bs)) = List.concat bs.
Proof.
  revert bs. induction ps as [|p ps IH]; intros [|b bs] HL H; try discriminate; auto.
  cbn [combine map List.concat]. rewrite IH.
  - f_equal. unfold blanked. cbn [fst snd]. destruct (fd_name (f_d (fst p))) eqn:E; auto.
    symmetry. apply (H p b); auto. now left.
  - now injection HL.
  - intros q c Hq. apply H. now right.
Qed.

End Reach.

(** ** Facts about well-formed tables *)

Lemma items_field_ok fs : forall its env d, items_ok fs env d its = true ->
  forall f, In f (flat_map item_fields its) -> exists env' d', field_ok fs env' d' f = true.
Proof.
  assert (H : forall it env d, item_ok fs env d it = true ->
    forall f, In f (item_fields it) -> exists env' d', field_ok fs env' d' f = true).
  { induction it as [f0|sh its IH] using item_ind'; intros env d H f Hf.
    - destruct Hf as [<-|[]]. eauto.
    - cbn [item_ok] in H. apply andb_true_iff in H as [_ H]. cbn [item_fields] in Hf.
      revert env H. induction IH as [|it its Hit _ IHl]; intros env H; [destruct Hf|].
      apply andb_true_iff in H as [H1 H2]. cbn [flat_map] in Hf. apply in_app_or in Hf as [Hf|Hf]; [eauto|].
      eapply IHl; eauto. }
  induction its as [|it its IH]; intros env d HO f Hf; [destruct Hf|]. cbn [items_ok] in HO.
  apply andb_true_iff in HO as [H1 H2]. cbn [flat_map] in Hf. apply in_app_or in Hf as [Hf|Hf]; eauto.
Qed.

Lemma wf_field_ok rows f : wf_rows rows = true -> In f (fs_fields (mk_fs rows)) ->
  exists env d, field_ok (mk_fs rows) env d f = true.
Proof. intros Hwf Hf. eapply items_field_ok; [exact Hwf|exact Hf]. Qed.

Lemma wf_optional_not_bytes rows f : wf_rows rows = true -> In f (fs_fields (mk_fs rows)) ->
  fd_optional (f_d f) = true -> is_bytes_ty (fd_ty (f_d f)) = false.
Proof.
  intros Hwf Hf Ho. destruct (wf_field_ok rows f Hwf Hf) as (env & d & H). unfold field_ok in H.
  rewrite Ho in H. cbn [andb] in H. destruct (is_bytes_ty (fd_ty (f_d f))); auto.
  rewrite andb_false_r in H. discriminate.
Qed.

Lemma rstrip_ends p l : rstrip_by p l <> [] -> p (last (rstrip_by p l) 0%N) = false.
Proof.
  intro H. destruct (rstrip_by p l) as [|c r] eqn:E; [congruence|]. clear H.
  assert (HI : rstrip_by p (c :: r) = c :: r) by (rewrite <- E; apply rstrip_idem). clear E l.
  destruct (p (last (c :: r) 0%N)) eqn:P; auto. exfalso.
  assert (Hne : c :: r <> []) by discriminate. rewrite (app_removelast_last 0%N Hne) in HI at 1.
  rewrite rstrip_app_all in HI by (cbn [forallb]; now rewrite P).
  destruct (rstrip_decomp p (removelast (c :: r))) as (t & E & _). rewrite HI in E.
  apply (f_equal (@List.length N)) in E. pose proof (app_removelast_last 0%N Hne) as L.
  apply (f_equal (@List.length N)) in L. rewrite app_length in E, L. cbn [List.length] in *. lia.
Qed.
