(** Content headers of EXT_DEF_CONTENT DESs (C39). *)
From Verif Require Import Base BaseLemmas Engine Wf EngineLemmas Codec RoundTrip Rewrite Literal
  Positions Keys Deps Assign Update Spec Reach P_RoundTrip DescsDes ExtContent.
From Coq Require Import ZifyBool ZifyNat ZifyN.
Open Scope list_scope.

(** ** What is claimed *)
(** The two bytes [a b] occur in [l]. *)
Definition occurs (a b : N) (l : list N) : Prop := exists p q, l = p ++ a :: b :: q.
(** A value that can be stored: neither ": " nor a line end in it. *)
Definition value_ok (v : option (list N)) : Prop :=
  match v with Some t => ~ occurs 58 32 t /\ ~ occurs 13 10 t | None => True end.
(** The values that are there. *)
Definition given (vals : list (option (list N))) : list (list N) :=
  flat_map (fun v => match v with Some t => [t] | None => [] end) vals.
(** There is a last value and it does not end in CR or LF. *)
Definition last_ok (vals : list (option (list N))) : Prop :=
  exists l t, given vals = l ++ [t] /\ forall u c, t = u ++ [c] -> c <> 13%N /\ c <> 10%N.
(** The attributes of a new header: the encoding and the range are None, the length is 0, the
    others are empty. *)
Definition when_new (name : list N) : option (list N) :=
  if list_eqb name (str "Content-Encoding") || list_eqb name (str "Content-Range") then None
  else if list_eqb name (str "Content-Length") then Some (str "0") else Some [].
(** What a new header holds after reading [vals]: an absent value is left as it was. *)
Definition over_defaults (vals : list (option (list N))) : list (option (list N)) :=
  map (fun p => match snd p with Some t => Some t | None => when_new (fst p) end) (combine hnames vals).
Lemma over_defaults_eq vals : over_defaults vals =
  map (fun p => match fst p with Some t => Some t | None => snd p end) (combine vals hdefaults).
Proof.
  unfold over_defaults. change hdefaults with (map when_new hnames). generalize hnames. intro names. revert vals.
  induction names as [|x names IH]; intros [|v vals]; try reflexivity. cbn [combine map fst snd]. now rewrite IH.
Qed.

(** ** Splitting *)
Fixpoint has2 (a b : N) (l : list N) : bool :=
  match l with
  | x :: l' => match l' with y :: _ => ((x =? a)%N && (y =? b)%N) || has2 a b l' | [] => false end
  | [] => false
  end.
Lemma has2_occurs a b l : has2 a b l = true -> occurs a b l.
Proof.
  induction l as [|x l IH]; [discriminate|]. cbn [has2]. destruct l as [|y l]; [discriminate|]. intro H. apply orb_true_iff in H as [H|H].
  - exists [], l. assert (x = a /\ y = b) as [-> ->] by lia. reflexivity.
  - destruct (IH H) as (p & q & E). exists (x :: p), q. cbn. now rewrite E.
Qed.
Lemma not_has2 a b l : ~ occurs a b l -> has2 a b l = false.
Proof. intro H. destruct (has2 a b l) eqn:E; auto. exfalso. now apply H, has2_occurs. Qed.

Lemma split2_none a b : forall l cur, has2 a b l = false -> split2 a b cur l = [rev cur ++ l].
Proof.
  induction l as [|x l IH]; intros cur H; cbn [split2]; [now rewrite app_nil_r|]. destruct l as [|y l]; [reflexivity|].
  cbn [has2] in H. apply orb_false_iff in H as [-> H]. rewrite IH by exact H. cbn [rev]. now rewrite <- app_assoc.
Qed.
Lemma split2_one a b : a <> b -> forall p cur l, has2 a b p = false -> split2 a b cur (p ++ a :: b :: l) = (rev cur ++ p) :: split2 a b [] l.
Proof.
  intro Hab. induction p as [|x p IH]; intros cur l H.
  - cbn [app split2]. rewrite !N.eqb_refl. cbn [andb]. now rewrite app_nil_r.
  - assert (E : split2 a b cur ((x :: p) ++ a :: b :: l) = split2 a b (x :: cur) (p ++ a :: b :: l)).
    { destruct p as [|y p]; cbn [app split2].
      - destruct (N.eqb_spec a b); [contradiction|]. now rewrite andb_false_r.
      - cbn [has2] in H. apply orb_false_iff in H as [-> _]. reflexivity. }
    rewrite E, IH; [cbn [rev]; now rewrite <- app_assoc|]. destruct p as [|y p]; [reflexivity|]. cbn [has2] in H. now apply orb_false_iff in H as [_ H].
Qed.

Lemma has2_app_l a b p q : has2 a b p = false -> has2 a b q = false -> (forall u, p = u ++ [a] -> False) -> has2 a b (p ++ q) = false.
Proof.
  induction p as [|x p IH]; intros H1 H2 H3; auto. destruct p as [|y p].
  - cbn [app]. destruct q as [|z q]; auto. cbn [has2] in *. rewrite H2. destruct (N.eqb_spec x a); [|reflexivity]. subst x. destruct (H3 [] eq_refl).
  - cbn [app has2] in *. apply orb_false_iff in H1 as [-> H1]. apply IH; auto. intros u E. apply (H3 (x :: u)). cbn. now rewrite E.
Qed.

(** One line. *)
Definition line (p : list N * list N) : list N := fst p ++ [58; 32]%N ++ snd p.
Lemma split_line nm v : has2 58 32 nm = false -> has2 58 32 v = false -> split2 58 32 [] (line (nm, v)) = [nm; v].
Proof.
  intros H1 H2. unfold line. cbn [fst snd app]. rewrite split2_one by (auto; discriminate). cbn [rev app]. now rewrite split2_none.
Qed.

Lemma split_lines : forall (ls : list (list N)), ls <> [] -> Forall (fun l => has2 13 10 l = false) ls ->
  split2 13 10 [] (join crlf ls) = ls.
Proof.
  induction ls as [|l ls IH]; [congruence|]. intros _ F. apply Forall_cons_iff in F as [H F]. destruct ls as [|l' ls].
  - cbn [join]. rewrite split2_none by exact H. reflexivity.
  - change (join crlf (l :: l' :: ls)) with (l ++ 13%N :: 10%N :: join crlf (l' :: ls)).
    rewrite split2_one by (auto; discriminate). cbn [rev app]. now rewrite IH by (auto; discriminate).
Qed.

Lemma join_snoc sep : forall ls x, exists pre, join sep (ls ++ [x]) = pre ++ x.
Proof.
  induction ls as [|l ls IH]; intro x; [exists []; reflexivity|]. destruct (IH x) as (pre & E).
  destruct ls as [|l' ls]; cbn [app] in *.
  - exists (l ++ sep). cbn. now rewrite <- app_assoc.
  - exists (l ++ sep ++ pre). change (join sep (l :: l' :: ls ++ [x])) with (l ++ sep ++ join sep (l' :: ls ++ [x])). rewrite E. now rewrite <- !app_assoc.
Qed.

(** ** Storing the values *)
Definition lines_of (names : list (list N)) (vals : list (option (list N))) : list (list N * list N) :=
  flat_map (fun p => match snd p with Some v => [(fst p, v)] | None => [] end) (combine names vals).
Definition put (names : list (list N)) (k v : list N) (vals : list (option (list N))) : list (option (list N)) :=
  map (fun p => if list_eqb k (fst p) then Some v else snd p) (combine names vals).

Lemma lines_bytes vals : flat_map (fun p => match snippet p with Some t => [t] | None => [] end) (combine hnames vals) = map line (lines_of hnames vals).
Proof.
  unfold lines_of. induction (combine hnames vals) as [|[k [v|]] l IH]; cbn; auto. now rewrite IH.
Qed.
Lemma lines_given : forall names vals, List.length names = List.length vals -> map snd (lines_of names vals) = given vals.
Proof.
  induction names as [|k names IH]; intros [|[v|] vals] H; try discriminate; auto; cbn in *; [f_equal|]; apply IH; lia.
Qed.
Lemma lines_names : forall names vals p, In p (lines_of names vals) -> In (fst p) names /\ In (Some (snd p)) vals.
Proof.
  unfold lines_of. intros names vals p H. apply in_flat_map in H as ([k [v|]] & H1 & H2); [|contradiction]. destruct H2 as [<-|[]]. cbn.
  split; [eapply in_combine_l; eauto|eapply in_combine_r; eauto].
Qed.

Lemma puts_skip : forall ls names vals d k, ~ In k (map fst ls) ->
  fold_left (fun acc p => put (k :: names) (fst p) (snd p) acc) ls (d :: vals)
  = d :: fold_left (fun acc p => put names (fst p) (snd p) acc) ls vals.
Proof.
  induction ls as [|[k' v] ls IH]; intros names vals d k H; auto. cbn [fold_left fst snd]. cbn in H.
  unfold put at 2. cbn [combine map fst snd]. destruct (list_eqb k' k) eqn:E; [apply list_eqb_spec in E; tauto|].
  rewrite IH by tauto. reflexivity.
Qed.
Lemma put_len names k v vals : List.length names = List.length vals -> List.length (put names k v vals) = List.length vals.
Proof. intro H. unfold put. rewrite map_length, combine_length. lia. Qed.
Lemma put_absent names k v : forall vals, List.length names = List.length vals -> ~ In k names -> put names k v vals = vals.
Proof.
  induction names as [|n names IH]; intros [|x vals] H Hk; try discriminate; auto. unfold put in *. cbn [combine map fst snd]. cbn in Hk.
  destruct (list_eqb k n) eqn:E; [apply list_eqb_spec in E; subst; tauto|]. f_equal. apply IH; [cbn in H; lia|tauto].
Qed.

Lemma puts_all : forall names vals defs, NoDup names -> List.length names = List.length vals -> List.length names = List.length defs ->
  fold_left (fun acc p => put names (fst p) (snd p) acc) (lines_of names vals) defs
  = map (fun p => match fst p with Some t => Some t | None => snd p end) (combine vals defs).
Proof.
  induction names as [|k names IH]; intros [|v vals] [|d defs] N H1 H2; try discriminate; auto.
  apply NoDup_cons_iff in N as [N1 N2]. cbn in H1, H2.
  assert (K : ~ In k (map fst (lines_of names vals))).
  { intro I. apply in_map_iff in I as (p & <- & I). apply lines_names in I as [I _]. contradiction. }
  cbn [combine map fst snd]. rewrite <- (IH vals defs) by (auto; lia).
  destruct v as [v|]; unfold lines_of; cbn [combine flat_map fst snd app]; fold (lines_of names vals).
  - cbn [fold_left fst snd]. unfold put at 2. cbn [combine map fst snd].
    replace (list_eqb k k) with true by (symmetry; now apply list_eqb_spec).
    change (map (fun p => if list_eqb k (fst p) then Some v else snd p) (combine names defs)) with (put names k v defs).
    rewrite put_absent by (auto; lia). now apply puts_skip.
  - now apply puts_skip.
Qed.

Lemma parse_lines_ok : forall ls vals, Forall (fun p => has2 58 32 (fst p) = false /\ has2 58 32 (snd p) = false) ls ->
  parse_lines (map line ls) vals = Ok (fold_left (fun acc p => put hnames (fst p) (snd p) acc) ls vals).
Proof.
  induction ls as [|[k v] ls IH]; intros vals F; auto. apply Forall_cons_iff in F as [[F1 F2] F]. cbn [map parse_lines].
  rewrite split_line by assumption. now apply IH.
Qed.

Lemma hnames_ok : NoDup hnames /\ Forall (fun k => has2 58 32 k = false /\ has2 13 10 k = false) hnames.
Proof.
  split.
  - unfold hnames. repeat (apply NoDup_cons; [cbn; intuition discriminate|]). apply NoDup_nil.
  - apply Forall_forall. intros k H. cbn in H. repeat (destruct H as [<-|H]; [split; reflexivity|]). contradiction.
Qed.

Lemma parse_bytes vals d0 : List.length vals = List.length hnames -> List.length d0 = List.length hnames -> Forall value_ok vals -> last_ok vals ->
  hparse (hbytes vals) d0 = Ok (map (fun p => match fst p with Some t => Some t | None => snd p end) (combine vals d0)).
Proof.
  intros HL HL0 HV (gl & gt & HG & HE). unfold hparse, hbytes. rewrite lines_bytes.
  destruct hnames_ok as [ND HN]. rewrite Forall_forall in HN, HV.
  assert (P : forall p, In p (lines_of hnames vals) -> has2 58 32 (fst p) = false /\ has2 58 32 (snd p) = false /\ has2 13 10 (line p) = false).
  { intros [k v] I. apply lines_names in I as [I1 I2]. cbn [fst snd] in *. destruct (HN k I1) as [N1 N2]. specialize (HV _ I2). destruct HV as [V1 V2].
    apply not_has2 in V1, V2. split; [exact N1|]. split; [exact V1|].
    unfold line. cbn [fst snd]. apply has2_app_l; [exact N2| |].
    - cbn [app has2]. destruct v; auto.
    - intros u Eu. revert Eu. cbn in I1. clear - I1. repeat (destruct I1 as [<-|I1]; [intro Eu; apply (f_equal (@rev N)) in Eu; rewrite rev_app_distr in Eu; cbn in Eu; discriminate|]). contradiction. }
  assert (GV := lines_given hnames vals (eq_sym HL)). rewrite HG in GV.
  assert (LS : exists ls k, lines_of hnames vals = ls ++ [(k, gt)]).
  { destruct (exists_last (l := lines_of hnames vals)) as (ls & [k v] & E).
    - intro E. rewrite E in GV. destruct gl; discriminate.
    - exists ls, k. rewrite E in *. rewrite map_app in GV. cbn in GV. apply app_inj_tail in GV as [_ ->]. reflexivity. }
  destruct LS as (ls & k & EL).
  assert (RS : rstrip_by is_crlf (join crlf (map line (lines_of hnames vals)) ++ crlf) = join crlf (map line (lines_of hnames vals))).
  { rewrite rstrip_app_all by reflexivity. rewrite EL, map_app. cbn [map]. destruct (join_snoc crlf (map line ls) (line (k, gt))) as (pre & ->).
    destruct (exists_last (l := line (k, gt))) as (u & c & E). { unfold line. destruct k; discriminate. }
    rewrite E, app_assoc. apply rstrip_last.
    unfold line in E. cbn [fst snd] in E. destruct gt as [|g gt] using rev_ind.
    - change ([58; 32]%N ++ []) with ([58] ++ [32])%N in E. rewrite app_assoc in E. apply app_inj_tail in E as [_ <-]. reflexivity.
    - rewrite !app_assoc in E. apply app_inj_tail in E as [_ <-]. destruct (HE gt g eq_refl) as [C1 C2]. unfold is_crlf. lia. }
  rewrite RS, split_lines.
  - rewrite parse_lines_ok.
    + rewrite puts_all; auto.
    + apply Forall_forall. intros p I. destruct (P p I) as (A & B & _). auto.
  - rewrite EL, map_app. destruct (map line ls); discriminate.
  - apply Forall_forall. intros l I. apply in_map_iff in I as (p & <- & I). now apply P.
Qed.

(** ** C39 *)
Notation fs := (mk_fs desc_DesExtContentHeader).

(** Read into a header that holds something already, attributes that were None keep what that
    header has. *)
Theorem C39_again FO (h h' h0 : xhdr FO) b rest : FloatLaws FO ->
  List.length (x_vals FO h) = 10%nat -> List.length (x_vals FO h0) = 10%nat -> no_literals FO fs (x_st FO h) ->
  Forall value_ok (set_length FO h) -> last_ok (set_length FO h) ->
  xwrite FO h = (h', Ok b) ->
  x_vals FO h' = set_length FO h
  /\ exists s, xread FO h0 (b ++ rest)
       = Ok ({| x_st := s; x_vals := map (fun p => match fst p with Some t => Some t | None => snd p end) (combine (set_length FO h) (x_vals FO h0));
                x_des := x_des FO h0 |}, rest).
Proof.
  intros laws HL HL0 NL HV HE HW. unfold xwrite in HW.
  destruct (set FO fs (x_st FO h) "content_headers" [] (SVal (VBytes (hbytes (set_length FO h))))) as [s' r] eqn:ES.
  injection HW as <- HW. split; [reflexivity|]. destruct r as [[]|e]; [|discriminate].
  destruct (lookup fs "content_headers") as [f|] eqn:LF; [|vm_compute in LF; discriminate].
  destruct (lookup fs "content_headers_len") as [sf|] eqn:LS; [|vm_compute in LS; discriminate].
  assert (DF : fd_ty (f_d f) = TData KBytes /\ fd_size (f_d f) = SzExpr (EFld "content_headers_len" 0)
     /\ fd_size_offset (f_d f) = 0%Z /\ fd_size_not_updated (f_d f) = false /\ f_loops f = [] /\ fd_cond (f_d f) = None /\ fd_ty (f_d sf) = TInt).
  { vm_compute in LF, LS. injection LF as <-. injection LS as <-. vm_compute. auto 10. }
  destruct DF as (D1 & D2 & D3 & D4 & D5 & D6 & D7).
  assert (WF : wf_rows desc_DesExtContentHeader = true) by (vm_compute; reflexivity).
  destruct (data_assigned FO desc_DesExtContentHeader (x_st FO h) s' "content_headers" f [] (VBytes (hbytes (set_length FO h)))
     "content_headers_len" 0 sf KBytes WF LF D1 (or_intror eq_refl) D2 ltac:(rewrite D3; lia) D4 LS D7 ES) as (c & Hc & _ & Hg).
  destruct Hc as [Hc|(t & Hc & _)]; [|discriminate]. injection Hc as <-.
  destruct Hg as [Hg _]; [unfold check_index; now rewrite D5|unfold check_condition; now rewrite D6|]. cbn match in Hg.
  assert (NL' : no_literals FO fs s').
  { assert (s' = fst (set FO fs (x_st FO h) "content_headers" [] (SVal (VBytes (hbytes (set_length FO h)))))) as -> by (now rewrite ES).
    unfold set. rewrite LF. destruct (key_shape_ok f []); [|exact NL]. apply (no_literals_setf FO desc_DesExtContentHeader); [eapply lookup_in; eauto|exact NL|exact I]. }
  destruct (C01_round_trip FO desc_DesExtContentHeader s' (x_st FO h0) false b rest laws WF
     (no_literals_ok FO desc_DesExtContentHeader s' NL') HW) as (s1 & HR & _ & HG).
  exists s1. unfold xread. rewrite HR. cbn [bind].
  assert (VI : valid_index FO fs s' f []) by (split; [now rewrite D5|intros j Hj; rewrite D5 in Hj; cbn in Hj; lia]).
  destruct (HG "content_headers"%string f [] _ LF VI Hg) as (v' & sz & E & Hs).
  assert (v' = VBytes (hbytes (set_length FO h))) as ->.
  { destruct Hs as [->|(_ & [->|[(x & y & z & T & _)|(t & T & _)]])]; try reflexivity; rewrite D1 in T; discriminate. }
  rewrite E. cbn [bind]. rewrite parse_bytes; [reflexivity| |exact HL0|exact HV|exact HE].
  unfold set_length. destruct (x_des FO h); [|rewrite HL; reflexivity]. rewrite map_length, combine_length, HL. reflexivity.
Qed.

(** A header whose values hold neither ": " nor line ends is read back as it was (the length
    as set by writing); attributes that were None come back as a new header has them.
    Missing: values with separators in them (refuted below). *)
Theorem C39_round_trip_partial FO (h h' : xhdr FO) b rest : FloatLaws FO ->
  List.length (x_vals FO h) = 10%nat -> no_literals FO fs (x_st FO h) ->
  Forall value_ok (set_length FO h) -> last_ok (set_length FO h) ->
  xwrite FO h = (h', Ok b) ->
  x_vals FO h' = set_length FO h
  /\ exists s, xread FO (new_xhdr FO) (b ++ rest) = Ok ({| x_st := s; x_vals := over_defaults (set_length FO h); x_des := None |}, rest).
Proof.
  intros laws HL NL HV HE HW. rewrite over_defaults_eq. exact (C39_again FO h h' (new_xhdr FO) b rest laws HL eq_refl NL HV HE HW).
Qed.

Lemma over_same : forall vals d : list (option (list N)), List.length vals = List.length d ->
  (forall i, nth_error vals i = Some None -> nth_error d i = Some None) ->
  map (fun p => match fst p with Some t => Some t | None => snd p end) (combine vals d) = vals.
Proof.
  induction vals as [|v vals IH]; intros [|x d] H E; try discriminate; auto. cbn. rewrite IH; [|cbn in H; lia|intros i; apply (E (S i))].
  destruct v; auto. specialize (E 0%nat eq_refl). cbn in E. now injection E as ->.
Qed.
(** So a header comes back unchanged unless an attribute other than the encoding and the range
    is None. *)
Theorem C39_unchanged vals : List.length vals = 10%nat ->
  (forall name, In (name, None) (combine hnames vals) -> name = str "Content-Encoding" \/ name = str "Content-Range") -> over_defaults vals = vals.
Proof.
  intros H E. rewrite over_defaults_eq. apply (over_same vals hdefaults H). intros i Hi.
  assert (X : forall name, nth_error hnames i = Some name -> name = str "Content-Encoding" \/ name = str "Content-Range").
  { intros name Hn. apply E. clear - Hi Hn. revert i vals Hi Hn. generalize hnames. induction l as [|x l IH]; intros [|i] [|v vals] Hi Hn; try discriminate; cbn in *.
    - left. congruence.
    - right. eapply IH; eauto. }
  do 10 (destruct i as [|i]; [try reflexivity; exfalso; destruct (X _ eq_refl) as [Y|Y]; discriminate Y|]).
  assert (N : nth_error vals (S (S (S (S (S (S (S (S (S (S i)))))))))) <> None) by (rewrite Hi; discriminate).
  apply nth_error_Some in N. rewrite H in N. lia.
Qed.

(** ** Data *)
(** An attached or read HDF 5 file is written as it is. *)
Theorem C39_data_h5 (file inp rest : list N) size d : h5_write (h5_attach file) = file
  /\ (xd_read size inp = Ok (d, rest) -> inp = h5_write d ++ rest /\ Z.of_nat (List.length (h5_write d)) = size).
Proof.
  split; [reflexivity|]. unfold xd_read. destruct (_ || _) eqn:E; [discriminate|]. intro H. injection H as <- <-. cbn [h5_write xd_file xd_data].
  rewrite firstn_skipn, firstn_length. split; [reflexivity|]. lia.
Qed.

(** ** Cases *)
Definition ex_vals : list (option (list N)) :=
  [Some (str "text/xml"); Some []; None; Some (str "0-9/20"); Some (str "0"); Some (str "a:b, c"); Some (str "attachment; filename=""x"""); Some []; Some (str "id 1"); Some []].
Definition ex_xhdr FO : xhdr FO := {| x_st := init_state FO; x_vals := ex_vals; x_des := Some (Some 1234%Z) |}.

Lemma not_occurs a b l : has2 a b l = false -> ~ occurs a b l.
Proof.
  intros H (p & q & ->). revert H. induction p as [|x p IH].
  - cbn [app has2]. rewrite !N.eqb_refl. discriminate.
  - cbn [app]. destruct (p ++ a :: b :: q) as [|y l] eqn:E; [destruct p; discriminate|]. intro H. apply IH. cbn [has2] in H. apply orb_false_iff in H. apply H.
Qed.

Example C39_nonvacuous FO : List.length (x_vals FO (ex_xhdr FO)) = 10%nat /\ no_literals FO fs (x_st FO (ex_xhdr FO))
  /\ Forall value_ok (set_length FO (ex_xhdr FO)) /\ last_ok (set_length FO (ex_xhdr FO))
  /\ (match snd (xwrite FO (ex_xhdr FO)) with
      | Ok b => (List.length b, match xread FO (new_xhdr FO) (b ++ [1; 2]%N) with Ok (h, rest) => (x_vals FO h, rest) | Err _ => ([], []) end)
      | Err _ => (O, ([], []))
      end)
     = (206%nat, ([Some (str "text/xml"); Some []; None; Some (str "0-9/20"); Some (str "1234"); Some (str "a:b, c"); Some (str "attachment; filename=""x""");
         Some []; Some (str "id 1"); Some []], [1; 2]%N)).
Proof.
  split; [reflexivity|]. split; [intros f k b _; discriminate|]. split.
  - vm_compute (set_length _ _). repeat (apply Forall_cons; [first [exact I|split; apply not_occurs; reflexivity]|]). apply Forall_nil.
  - split; [|vm_compute; reflexivity]. exists [str "text/xml"; []; str "0-9/20"; str "1234"; str "a:b, c"; str "attachment; filename=""x"""; []; str "id 1"], [].
    split; [vm_compute; reflexivity|]. intros u c E. destruct u; discriminate.
Qed.

(** ** Where the full statement fails *)
(** A value with ": " in it makes the file unreadable. *)
Theorem C39_colon_refuted FO : exists (h : xhdr FO) b, x_st FO h = init_state FO /\ x_vals FO h = map (fun p => if list_eqb (fst p) (str "Content-Description") then Some (str "a: b") else snd p) (combine hnames hdefaults)
  /\ snd (xwrite FO h) = Ok b /\ xread FO (new_xhdr FO) b = Err EValue.
Proof.
  pose (h := {| x_st := init_state FO; x_vals := map (fun p => if list_eqb (fst p) (str "Content-Description") then Some (str "a: b") else snd p) (combine hnames hdefaults); x_des := None |}).
  pose (r := snd (xwrite FO h)). assert (X : match r with Ok b => match xread FO (new_xhdr FO) b with Ok _ => None | Err e => Some e end | Err _ => None end = Some EValue) by (vm_compute; reflexivity).
  exists h. fold r. clearbody r. destruct r as [b|e]; [|discriminate]. exists b. split; [reflexivity|]. split; [reflexivity|]. split; [reflexivity|].
  destruct (xread FO (new_xhdr FO) b); [discriminate|]. now injection X as ->.
Qed.

(** A value with a line end in it can change another attribute. *)
Theorem C39_line_end_refuted FO : exists (h h1 : xhdr FO) b, x_st FO h = init_state FO
  /\ nth_error (x_vals FO h) 0 = Some (Some (str "text/xml")) /\ snd (xwrite FO h) = Ok b
  /\ xread FO (new_xhdr FO) b = Ok (h1, []) /\ nth_error (x_vals FO h1) 0 = Some (Some (str "evil")).
Proof.
  pose (h := {| x_st := init_state FO; x_vals := map (fun p => if list_eqb (fst p) (str "Content-Type") then Some (str "text/xml")
      else if list_eqb (fst p) (str "Content-Description") then Some (str "x" ++ crlf ++ str "Content-Type: evil") else snd p) (combine hnames hdefaults); x_des := None |}).
  pose (r := snd (xwrite FO h)).
  assert (X : match r with Ok b => match xread FO (new_xhdr FO) b with Ok (h1, rest) => Some (rest, nth_error (x_vals FO h1) 0) | Err e => None end | Err _ => None end
     = Some ([], Some (Some (str "evil")))) by (vm_compute; reflexivity).
  exists h. fold r. clearbody r. destruct r as [b|e]; [|discriminate].
  destruct (xread FO (new_xhdr FO) b) as [[h1 rest]|] eqn:E; [|discriminate]. injection X as -> X. exists h1, b. auto.
Qed.

(** The data of an EXT_DEF_CONTENT DES that was read is written as zeros. *)
(** The class without HDF 5 writes zeros, as many as were read. *)
Theorem C39_zeros size inp d rest : xd_read size inp = Ok (d, rest) ->
  Z.of_nat (List.length (xd_write d)) = size /\ Forall (fun c => c = 0%N) (xd_write d).
Proof.
  unfold xd_read. destruct (_ || _) eqn:E; [discriminate|]. intro H. injection H as <- _. cbn [xd_write xd_size].
  rewrite repeat_length. split; [lia|]. apply Forall_forall. intros c Hc. now apply repeat_spec in Hc.
Qed.
Theorem C39_data_refuted : exists inp d, xd_read 2 inp = Ok (d, []) /\ xd_write d <> inp.
Proof. exists [7; 8]%N. eexists. split; [reflexivity|]. discriminate. Qed.

Print Assumptions C39_round_trip_partial.
Print Assumptions C39_again.
Print Assumptions C39_zeros.
Print Assumptions C39_unchanged.
Print Assumptions C39_data_h5.
Print Assumptions C39_colon_refuted.
Print Assumptions C39_line_end_refuted.
Print Assumptions C39_data_refuted.
