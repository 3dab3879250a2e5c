(** Properties C33 and C39: the marking of what is not marked otherwise, and the size announced
    for an attached file. *)
From Verif Require Import Base BaseLemmas Engine Spec TextSpec Decimal DescsHdr Tre TrePlace Security P_Security ExtContent P_ExtContent.
From Coq Require Import ZifyBool ZifyNat ZifyN.
Open Scope list_scope.
Ltac Zify.zify_post_hook ::= idtac.

(** C33: a header made with the marking that is the default shows unclassified, zero for the
    numbers and nothing else. *)
Theorem C33_unclassified FO rows prefix (h : hdr FO) :
  In (rows, prefix) sec_headers -> st_impl FO (h_st h) = false -> h_attr h = [] -> sec_readable FO rows prefix h ->
  exists h' s', set_security FO rows h prefix (sec_default FO) = (h', Ok tt) /\ get_security FO rows h' prefix = Ok s'
    /\ s' Classification = VStr [85%N]
    /\ (forall a, is_number a = true -> s' a = VInt 0)
    /\ (forall a, is_number a = false -> a <> Classification -> s' a = VStr []).
Proof.
  intros HH HI HA HR.
  assert (M : marking FO (sec_default FO)) by (intros []; cbn; eauto; eexists; split; reflexivity).
  destruct (C33_round_trip FO rows prefix h (sec_default FO) HH HI HA HR M) as (h' & s' & E1 & E2 & E3 & E4 & _).
  exists h', s'. split; [exact E1|]. split; [exact E2|].
  assert (D : forall a, In a (map snd (sec_names prefix)) -> s' a = sec_default FO a).
  { intros a Ha. apply in_map_iff in Ha as ([nm a'] & <- & Hin). cbn [snd].
    destruct (lookup (mk_fs rows) nm) as [f|] eqn:L.
    - apply E3. exists nm, f. auto.
    - apply E4. intros (nm' & f' & Hin' & L').
      assert (nm' = nm); [|subst; congruence].
      assert (ND : NoDup (map snd (sec_names prefix))) by (apply (sec_tables rows prefix HH)).
      revert ND Hin Hin'. generalize (sec_names prefix). induction l as [|[x y] l IH]; intros ND H1 H2; [destruct H1|].
      cbn in ND. apply NoDup_cons_iff in ND as [N1 N2]. destruct H1 as [H1|H1], H2 as [H2|H2].
      + congruence.
      + injection H1 as -> ->. exfalso. apply N1. apply in_map_iff. exists (nm', a'). auto.
      + injection H2 as -> ->. exfalso. apply N1. apply in_map_iff. exists (nm, a'). auto.
      + auto. }
  assert (A : forall a, s' a = sec_default FO a).
  { intro a. apply D. unfold sec_names. rewrite map_app, map_map. cbn [map snd sec_table fst app]. destruct a; cbn; tauto. }
  split; [rewrite A; reflexivity|]. split; intros a Ha; [|intro N]; rewrite A; destruct a; try discriminate Ha; try reflexivity.
  now destruct N.
Qed.

(** And of a header without a field for it, the same is said. *)
Theorem C33_no_field FO rows prefix (h : hdr FO) s a :
  get_security FO rows h prefix = Ok s -> (forall nm, In (nm, a) (sec_names prefix) -> hget FO rows h nm = Err EAttr) ->
  s a = if is_number a then VInt 0 else match a with Classification => VStr [85%N] | _ => VStr [] end.
Proof.
  unfold get_security. intros E N.
  assert (X : s a = sec_default FO a).
  { revert E N. generalize (sec_default FO). generalize (sec_names prefix).
    induction l as [|[nm b] l IH]; intros s0 E N; cbn [sec_get] in E; [congruence|].
    destruct (hget FO rows h nm) as [v|e] eqn:H.
    - rewrite (IH _ E) by (intros; apply N; now right). unfold sec_put. destruct (sattr_eqb b a) eqn:Q; [|reflexivity].
      apply sattr_eqb_eq in Q. subst b. rewrite N in H by now left. discriminate H.
    - destruct e; try discriminate E. apply (IH _ E). intros; apply N; now right. }
  rewrite X. destruct a; reflexivity.
Qed.

(** C39: of a DES with an attached file, what the content header announces as its length is the
    number of bytes written. *)
Theorem C39_length FO (h : xhdr FO) file : x_des FO h = Some (xd_size (h5_attach file)) ->
  List.length (x_vals FO h) = 10%nat ->
  exists t, In (str "Content-Length", Some t) (combine hnames (x_vals FO (fst (xwrite FO h))))
    /\ numeral (N.of_nat (List.length (h5_write (h5_attach file)))) t.
Proof.
  intros HD HL. exists (str_of_Z (Z.of_nat (List.length file))).
  split; [|cbn [h5_write h5_attach xd_file]].
  - assert (V : x_vals FO (fst (xwrite FO h)) = set_length FO h).
    { unfold xwrite. destruct (set _ _ _ _ _ _). reflexivity. }
    rewrite V. unfold set_length. rewrite HD. cbn [h5_attach xd_size size_text].
    destruct (x_vals FO h) as [|a [|b [|c [|d [|e [|f [|g [|i [|j [|k [|]]]]]]]]]]]; try discriminate HL.
    set (t := str_of_Z _). clearbody t. vm_compute. tauto.
  - unfold str_of_Z. replace (Z.of_nat (List.length file) <? 0)%Z with false by lia. cbn [app].
    replace (Z.abs_N (Z.of_nat (List.length file))) with (N.of_nat (List.length file)) by lia. apply numeral_digits.
Qed.

(** ** Cases *)
Example ex_c33_new FO : let h := fst (set_security FO desc_NitfDesSubheader {| h_st := init_state FO; h_attr := [] |} "des" (sec_default FO)) in
  seen FO (get_security FO desc_NitfDesSubheader h "des") = [Some (VStr (str "U")); Some (VStr []); Some (VInt 0); Some (VInt 0)]
  /\ hget FO desc_NitfDesSubheader h "descop" = Err EAttr.
Proof. vm_compute. auto. Qed.
Example ex_c39_length FO : let h := {| x_st := init_state FO; x_vals := hdefaults; x_des := Some (xd_size (h5_attach (repeat 7%N 12))) |} in
  nth_error (x_vals FO (fst (xwrite FO h))) 4 = Some (Some (str "12")).
Proof. vm_compute. reflexivity. Qed.

Print Assumptions C33_unclassified.
Print Assumptions C33_no_field.
Print Assumptions C39_length.
