(** Fields outside of loops without a condition. *)
From Verif Require Import Base BaseLemmas Engine Wf EngineLemmas Codec RoundTrip Rewrite Literal
  Positions Keys Deps Assign Update Spec Utf8 Tre TreLemmas TrePlace TrePlaceLemmas.
From Coq Require Import ZifyBool ZifyNat ZifyN.
Open Scope list_scope.
Ltac Zify.zify_post_hook ::= idtac.

(** [nm] is an unconditional field outside of loops that can be assigned. *)
Definition scalar (rows : list row) (nm : string) (f : field) : Prop :=
  lookup (mk_fs rows) nm = Some f /\ f_loops f = [] /\ fd_cond (f_d f) = None
  /\ fd_hard (f_d f) = false /\ fd_value (f_d f) = None /\ is_data_ty (fd_ty (f_d f)) = false.

Definition scalarb (rows : list row) (nm : string) : bool :=
  match lookup (mk_fs rows) nm with
  | Some f => match f_loops f with [] => true | _ => false end
      && match fd_cond (f_d f) with None => true | _ => false end
      && negb (fd_hard (f_d f)) && match fd_value (f_d f) with None => true | _ => false end
      && negb (is_data_ty (fd_ty (f_d f)))
  | None => false
  end.

Lemma scalarb_ok rows nm : scalarb rows nm = true -> exists f, scalar rows nm f.
Proof.
  unfold scalarb, scalar. destruct (lookup (mk_fs rows) nm) as [f|]; [|discriminate]. intro H.
  exists f. repeat (apply andb_true_iff in H as [H ?]). repeat split; auto.
  - now destruct (f_loops f).
  - now destruct (fd_cond (f_d f)).
  - now apply negb_true_iff.
  - now destruct (fd_value (f_d f)).
  - now apply negb_true_iff.
Qed.

Lemma nodup_names (l : list string) :
  (if List.list_eq_dec String.string_dec (nodup String.string_dec l) l then true else false) = true -> NoDup l.
Proof.
  destruct (List.list_eq_dec String.string_dec (nodup String.string_dec l) l) as [E|]; [|discriminate].
  intros _. rewrite <- E. apply NoDup_nodup.
Qed.

Lemma unref_reaches rows f : unreferenced (mk_fs rows) f ->
  forall y, In y (fs_fields (mk_fs rows)) -> ~ reaches (mk_fs rows) y f.
Proof.
  intros Hun y Hy H. induction H as [y f HR|y f z HR _ IH].
  - destruct (unref_reads rows f Hun y Hy HR).
  - apply IH; auto. destruct HR as (r & _ & HL). eapply lookup_in; eauto.
Qed.

Section Scalar.
Variable FO : FloatOps.
Variable rows : list row.
Let fs := mk_fs rows.
Notation st := (state FO).

Lemma get_scalar (s : st) nm f : scalar rows nm f -> get FO fs s nm [] = conv_of FO (f_d f) (stored FO s f []).
Proof.
  intros (HL & H1 & H2 & H3 & H4 & H5). unfold get, fs. rewrite HL. unfold key_shape_ok, depth. rewrite H1. cbn [List.length].
  unfold fget, get_pub, get_base, check_index, check_condition. rewrite H1, H2, H4.
  rewrite (has_name_lookup rows nm f HL). cbn [bind negb].
  unfold conv_of. destruct (convert FO (f_d f) (stored FO s f [])) as [x|e]; cbn; auto.
  destruct (fd_ty (f_d f)); auto; discriminate.
Qed.

Lemma set_scalar (s : st) nm f v : scalar rows nm f -> st_impl FO s = false -> v <> SVal VNone ->
  set FO fs s nm [] v = (assigned FO s f [] v, Ok tt).
Proof.
  intros (HL & H1 & H2 & H3 & H4 & H5) HI HN. destruct (set_plain FO fs s nm f [] v HL H5) as [(_ & _ & H)|(H & _)]; auto.
  exfalso. apply H. split; [unfold key_shape_ok, depth; now rewrite H1|].
  unfold may_assign, check_index, check_condition. rewrite H1, H2, (has_name_lookup rows nm f HL).
  repeat split; auto; try discriminate; contradiction.
Qed.

Lemma hget_scalar (h : hdr FO) nm f : scalar rows nm f ->
  hget FO rows h nm = conv_of FO (f_d f) (stored FO (h_st h) f []).
Proof. intro H. unfold hget. destruct H as (HL & H). rewrite HL. now apply get_scalar. Qed.

Lemma hset_scalar (h : hdr FO) nm f v : scalar rows nm f -> st_impl FO (h_st h) = false -> v <> VNone ->
  hset FO rows h nm v = ({| h_st := assigned FO (h_st h) f [] (SVal v); h_attr := h_attr h |}, Ok tt).
Proof.
  intros H HI HN. unfold hset. destruct H as (HL & H). rewrite HL. fold fs. rewrite (set_scalar _ nm f); auto; [split; auto|congruence].
Qed.

Lemma scalar_in nm f : scalar rows nm f -> In f (fs_fields fs).
Proof. intros (H & _). eapply lookup_in; eauto. Qed.

Lemma scalar_ne nm nm' f f' : scalar rows nm f -> scalar rows nm' f' -> nm <> nm' -> f <> f'.
Proof. intros (H & _) (H' & _). now apply (lookup_ne rows nm nm'). Qed.

End Scalar.
