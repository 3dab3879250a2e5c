(** Assignment. *)
From Verif Require Import Base BaseLemmas Engine Wf EngineLemmas Codec RoundTrip Rewrite Literal
  Positions Keys Deps.
From Coq Require Import ZifyBool ZifyNat ZifyN.
Open Scope list_scope.

Definition is_data_ty (t : fty) : bool := match t with TData _ => true | _ => false end.

(** When an assignment to a field object is allowed. *)
Definition may_assign FO fs (s : state FO) (f : field) (k : list Z) (v : sval FO) : Prop :=
  fd_name (f_d f) <> None
  /\ check_index FO (G FO fs s) fs f k = Ok tt
  /\ check_condition FO (G FO fs s) fs f k = Ok true
  /\ fd_hard (f_d f) = false /\ fd_value (f_d f) = None /\ st_impl FO s = false
  /\ (v = SVal VNone -> fd_optional (f_d f) = true).

(** The store after a plain assignment. *)
Definition assigned FO (s : state FO) (f : field) (k : list Z) (v : sval FO) : state FO :=
  set_raw FO (set_val FO s (f_id f) k v) (f_id f) k None.

Section Assign.
Variable FO : FloatOps.
Variable fs : fstruct.

(** Everything [set_base] can do. *)
Lemma set_base_cases sub (s : state FO) f k v s' r :
  set_base FO sub fs s f k v = (s', r) ->
  (s' = s /\ (exists e, r = Err e) /\ ~ may_assign FO fs s f k v)
  \/ (may_assign FO fs s f k v /\
      (  (s' = assigned FO s f k v /\ r = Ok tt
          /\ (is_data_ty (fd_ty (f_d f)) = true -> forall b, v = SVal (VBytes b) ->
                (fd_size_not_updated (f_d f) = true
                   /\ fsize_of FO (G FO fs s') fs f k = Ok (Z.of_nat (List.length b)))
                \/ (fd_size_not_updated (f_d f) = false
                   /\ exists nm m, fd_size (f_d f) = SzExpr (EFld nm m) /\ lookup fs nm = None)))
       \/ (is_data_ty (fd_ty (f_d f)) = true /\ s' = assigned FO s f k v /\ exists e, r = Err e)
       \/ (is_data_ty (fd_ty (f_d f)) = true /\ exists nm m b sf,
            v = SVal (VBytes b) /\ fd_size (f_d f) = SzExpr (EFld nm m) /\ lookup fs nm = Some sf
            /\ fd_size_not_updated (f_d f) = false
            /\ (depth sf = O <-> m = O) /\ (m <= List.length k)%nat
            /\ sub (assigned FO s f k v) sf (firstn m k)
                 (SVal (VInt (if (Z.of_nat (List.length b) =? 0)%Z then 0
                              else Z.of_nat (List.length b) + fd_size_offset (f_d f))))
               = (s', r)))).
Proof.
  unfold set_base, may_assign. intro H.
  destruct (fd_name (f_d f)) as [nm|] eqn:N;
    [|injection H as <- <-; left; split; [reflexivity|]; split; [eauto|]; intros (A & _); congruence].
  destruct (check_index FO (G FO fs s) fs f k) as [[]|e] eqn:CI;
    [|injection H as <- <-; left; split; [reflexivity|]; split; [eauto|]; intros (_ & A & _); congruence].
  destruct (check_condition FO (G FO fs s) fs f k) as [[|]|e] eqn:CC;
    [|injection H as <- <-; left; split; [reflexivity|]; split; [eauto|]; intros (_ & _ & A & _); congruence ..].
  destruct (fd_hard (f_d f)) eqn:HD; cbn [orb] in H;
    [injection H as <- <-; left; split; [reflexivity|]; split; [eauto|]; intros (_ & _ & _ & A & _); congruence|].
  destruct (fd_value (f_d f)) eqn:FV;
    [injection H as <- <-; left; split; [reflexivity|]; split; [eauto|]; intros (_ & _ & _ & _ & A & _); congruence|].
  destruct (st_impl FO s) eqn:SI;
    [injection H as <- <-; left; split; [reflexivity|]; split; [eauto|]; intros (_ & _ & _ & _ & _ & A & _); congruence|].
  destruct (match v with SVal VNone => negb (fd_optional (f_d f)) | _ => false end) eqn:NO.
  { injection H as <- <-; left; split; [reflexivity|]; split; [eauto|].
    intros (_ & _ & _ & _ & _ & _ & A). destruct v as [[| | | | |]|]; try discriminate.
    rewrite A in NO by reflexivity. discriminate. }
  right. split.
  { repeat split; auto; [congruence|]. intros ->. now apply negb_false_iff in NO. }
  fold (assigned FO s f k v) in H.
  assert (Hok : forall P : state FO -> Prop, P (assigned FO s f k v) ->
            (assigned FO s f k v, Ok tt) = (s', r) -> s' = assigned FO s f k v /\ r = Ok tt /\ P s')
    by (intros P HP E; injection E as <- <-; auto).
  assert (Herr : forall e, (assigned FO s f k v, Err e) = (s', r) ->
            s' = assigned FO s f k v /\ exists e, r = Err e)
    by (intros e E; injection E as <- <-; split; [reflexivity|exists e; reflexivity]).
  destruct (fd_ty (f_d f)) as [| | | |dk] eqn:T; [left; refine (Hok (fun _ => _) _ H); discriminate ..|].
  cbn [is_data_ty].
  destruct v as [[| | | |b|]|b]; try (left; refine (Hok (fun _ => _) _ H); discriminate).
  destruct (fd_size_not_updated (f_d f)) eqn:NU.
  - destruct (fsize_of FO (G FO fs (assigned FO s f k (SVal (VBytes b)))) fs f k) as [sz|e] eqn:FS.
    + destruct (Z.of_nat (List.length b) =? sz)%Z eqn:EQ.
      { left. refine (Hok (fun s' => true = true -> forall b0, SVal (VBytes b) = SVal (VBytes b0) ->
          (true = true /\ fsize_of FO (G FO fs s') fs f k = Ok (Z.of_nat (List.length b0))) \/ _) _ H).
        intros _ b0 E. injection E as <-. left. split; auto. rewrite FS. f_equal. lia. }
      right; left; split; [reflexivity|exact (Herr _ H)].
    + right; left; split; [reflexivity|exact (Herr _ H)].
  - destruct (fd_size (f_d f)) as [z|ex] eqn:SZ;
      [right; left; split; [reflexivity|exact (Herr _ H)]|].
    destruct ex; try (right; left; split; [reflexivity|exact (Herr _ H)]).
    destruct (lookup fs nm0) as [sf|] eqn:L.
    2: { left. refine (Hok (fun _ => _) _ H). intros _ b0 _. right. split; [reflexivity|]. exists nm0, m. auto. }
    destruct m as [|m], (depth sf) as [|d] eqn:D;
      try (right; left; split; [reflexivity|exact (Herr _ H)]).
    + right. right. split; [reflexivity|]. exists nm0, O, b, sf.
      split; [reflexivity|]. split; [reflexivity|]. split; [exact L|]. split; [reflexivity|].
      split; [rewrite D; split; reflexivity|]. split; [lia|]. exact H.
    + destruct (List.length k <? S m)%nat eqn:LK;
        [right; left; split; [reflexivity|exact (Herr _ H)]|].
      right. right. split; [reflexivity|]. exists nm0, (S m), b, sf.
      split; [reflexivity|]. split; [reflexivity|]. split; [exact L|]. split; [reflexivity|].
      split; [rewrite D; split; discriminate|]. split; [lia|]. exact H.
Qed.

(** Plain fields: allowed and done, or refused without effect. *)
Theorem set_plain (s : state FO) nm f k v :
  lookup fs nm = Some f -> is_data_ty (fd_ty (f_d f)) = false ->
  (key_shape_ok f k = true /\ may_assign FO fs s f k v
     /\ set FO fs s nm k v = (assigned FO s f k v, Ok tt))
  \/ (~ (key_shape_ok f k = true /\ may_assign FO fs s f k v)
     /\ exists e, set FO fs s nm k v = (s, Err e)).
Proof.
  intros HL HT. unfold set. rewrite HL. destruct (key_shape_ok f k).
  - unfold fset, fuel. cbn [setf].
    assert (E : (match fd_ty (f_d f) with
                 | TData _ => match v with SLit _ => (s, Err EAttr)
                     | SVal v' => match pack FO (G FO fs s) fs f k v' with
                                  | Err e => (s, Err e)
                                  | Ok b => set_base FO (setf FO (List.length (fs_fields fs)) fs) fs s f k (SVal (VBytes b))
                                  end end
                 | _ => set_base FO (setf FO (List.length (fs_fields fs)) fs) fs s f k v end)
            = set_base FO (setf FO (List.length (fs_fields fs)) fs) fs s f k v)
      by (destruct (fd_ty (f_d f)); auto; discriminate).
    rewrite E. clear E.
    destruct (set_base FO (setf FO (List.length (fs_fields fs)) fs) fs s f k v) as [s' r] eqn:E.
    apply set_base_cases in E as [(-> & (e & ->) & H)|(H & [(-> & -> & _)|[(A & _)|(A & _)]])];
      [right|left|congruence|congruence].
    + split; [tauto|eauto].
    + auto.
  - right. split; [intros [H _]; discriminate|eauto].
Qed.

(** Which slots an assignment can touch: its own, and those of the length field of the data
    assigned. *)
Lemma setf_touch : forall n (s : state FO) f k v s' r, setf FO n fs s f k v = (s', r) ->
  st_loc FO s' = st_loc FO s /\ st_impl FO s' = st_impl FO s /\
  forall i p, (st_val FO s' i p = st_val FO s i p /\ st_raw FO s' i p = st_raw FO s i p)
    \/ (exists y, i = f_id y /\ fd_name (f_d y) <> None /\ 
         ((y = f /\ p = k) \/ (is_data_ty (fd_ty (f_d f)) = true /\ reaches fs f y))
         /\ st_raw FO s' i p = None).
Proof.
  induction n as [|n IH]; intros s f k v s' r H.
  - injection H as <- <-. split; [reflexivity|]. split; [reflexivity|]. intros i p. left. auto.
  - cbn [setf] in H.
    assert (Hb : forall v, set_base FO (setf FO n fs) fs s f k v = (s', r) ->
      st_loc FO s' = st_loc FO s /\ st_impl FO s' = st_impl FO s /\
      forall i p, (st_val FO s' i p = st_val FO s i p /\ st_raw FO s' i p = st_raw FO s i p)
        \/ (exists y, i = f_id y /\ fd_name (f_d y) <> None /\
             ((y = f /\ p = k) \/ (is_data_ty (fd_ty (f_d f)) = true /\ reaches fs f y))
             /\ st_raw FO s' i p = None)).
    { clear v H. intros v H.
      assert (Ha : forall i p,
        (st_val FO (assigned FO s f k v) i p = st_val FO s i p
          /\ st_raw FO (assigned FO s f k v) i p = st_raw FO s i p)
        \/ (i = f_id f /\ p = k /\ st_raw FO (assigned FO s f k v) i p = None)).
      { intros i p. unfold assigned. cbn [st_val st_raw set_raw set_val].
        destruct (Nat.eq_dec (f_id f) i) as [<-|E]; [destruct (list_eq_dec Z.eq_dec k p) as [<-|E2]|].
        - right. rewrite upd_eq. auto.
        - left. rewrite !upd_neq by auto. auto.
        - left. rewrite !upd_neq by auto. auto. }
      apply set_base_cases in H as [(-> & _ & _)|(HM & [(-> & _)|[(HD & -> & _)|
         (HD & nm & m & b & sf & Hv & Hsz & Hl & Hnu & Hdm & Hmk & H)]])].
      - split; [reflexivity|]. split; [reflexivity|]. intros i p. left. auto.
      - split; [reflexivity|]. split; [reflexivity|]. intros i p. destruct (Ha i p) as [|(-> & -> & E)]; auto.
        right. exists f. destruct HM. split; [reflexivity|]. split; [assumption|]. split; [left; auto|exact E].
      - split; [reflexivity|]. split; [reflexivity|]. intros i p. destruct (Ha i p) as [|(-> & -> & E)]; auto.
        right. exists f. destruct HM. split; [reflexivity|]. split; [assumption|]. split; [left; auto|exact E].
      - apply IH in H as (L1 & L2 & L3). split; [rewrite L1; reflexivity|]. split; [rewrite L2; reflexivity|].
        intros i p. assert (HR : reads_directly fs f sf).
        { exists (nm, m). split; auto. unfold field_refs, own_refs. rewrite Hsz.
          apply in_or_app. left. apply in_or_app. right. apply in_or_app. left. now left. }
        destruct (L3 i p) as [(A1 & A2)|(y & -> & Hny & Hy & Hr)].
        + destruct (Ha i p) as [(B1 & B2)|(-> & -> & E)].
          * left. now rewrite A1, A2.
          * right. exists f. destruct HM. split; auto. split; auto. split; auto. now rewrite A2.
        + right. exists y. split; auto. split; auto. split; auto. right. split; auto.
          destruct Hy as [(-> & _)|(_ & Hy)]; [now apply reach_one|eapply reach_more; eauto]. }
    destruct (fd_ty (f_d f)) as [| | | |dk] eqn:T; try (eapply Hb; exact H).
    destruct v as [v'|]; [|injection H as <- <-; split; [reflexivity|]; split; [reflexivity|];
                           intros i p; left; auto].
    destruct (pack FO (G FO fs s) fs f k v') as [b|e];
      [|injection H as <- <-; split; [reflexivity|]; split; [reflexivity|]; intros i p; left; auto].
    eapply Hb; exact H.
Qed.

End Assign.

(** ** Frame of an assignment on a constructed structure *)

Section Frame.
Variable FO : FloatOps.
Variable rows : list row.
Let fs := mk_fs rows.

Let Hinj : forall y y', In y (fs_fields fs) -> In y' (fs_fields fs) -> f_id y = f_id y' -> y = y'.
Proof. apply mk_fs_id_inj. Qed.

Lemma assigned_stored (s : state FO) f k v y p :
  In f (fs_fields fs) -> In y (fs_fields fs) ->
  stored FO (assigned FO s f k v) y p = stored FO s y p \/ (y = f /\ p = k).
Proof.
  intros Hf Hy. unfold stored, assigned. cbn [st_val set_raw set_val].
  destruct (Nat.eq_dec (f_id f) (f_id y)) as [E|E]; [destruct (list_eq_dec Z.eq_dec k p) as [E2|E2]|].
  - right. split; [symmetry; now apply Hinj|symmetry; exact E2].
  - left. now rewrite upd_neq by auto.
  - left. now rewrite upd_neq by auto.
Qed.

(** States that differ only in fields that [f] does not read: [f] is seen the same. *)
Lemma frame_at (s t : state FO) f0 f :
  In f0 (fs_fields fs) ->
  (forall y p, In y (fs_fields fs) -> y <> f0 -> stored FO s y p = stored FO t y p) ->
  ~ reaches fs f f0 ->
  refs_eq FO (G FO fs s) (G FO fs t) fs (field_refs f).
Proof.
  intros Hf0 HS HR.
  assert (HG : forall n y p, In y (fs_fields fs) -> y <> f0 -> ~ reaches fs y f0 ->
            getf FO n fs s y p = getf FO n fs t y p).
  { induction n as [|n IH]; intros y p Hy Hne Hyr; auto.
    change (get_pub FO (getf FO n fs s) fs s y p = get_pub FO (getf FO n fs t) fs t y p).
    apply get_pub_ext; [|now apply HS]. intros r z Hr HL q.
    assert (Hrd : reads_directly fs y z) by (exists r; auto).
    apply IH; [eapply lookup_in; eauto| |].
    - intros ->. apply Hyr. now apply reach_one.
    - intro H. apply Hyr. eapply reach_more; eauto. }
  intros r y Hr HL p. assert (Hrd : reads_directly fs f y) by (exists r; auto).
  apply HG; [eapply lookup_in; eauto| |].
  - intros ->. apply HR. now apply reach_one.
  - intro H. apply HR. eapply reach_more; eauto.
Qed.

Lemma assigned_same (s : state FO) f k v :
  In f (fs_fields fs) ->
  forall y p, In y (fs_fields fs) -> y <> f -> stored FO (assigned FO s f k v) y p = stored FO s y p.
Proof.
  intros Hf y p Hy Hne. destruct (assigned_stored s f k v y p Hf Hy) as [|[-> _]]; auto. congruence.
Qed.

Lemma assigned_self (s : state FO) f k v : stored FO (assigned FO s f k v) f k = v.
Proof. unfold stored, assigned. cbn [st_val set_raw set_val]. now rewrite upd_eq. Qed.

(** A plain assignment leaves every other value alone, except of fields that read the field
    assigned. *)
Theorem assigned_frame (s : state FO) f k v nm' f' k' :
  In f (fs_fields fs) -> lookup fs nm' = Some f' ->
  ~ reaches fs f' f -> (f' <> f \/ k' <> k) ->
  get FO fs (assigned FO s f k v) nm' k' = get FO fs s nm' k'.
Proof.
  intros Hf HL HR Hne. assert (Hf' := lookup_in _ _ _ HL).
  unfold get. rewrite HL. destruct (key_shape_ok f' k'); auto. unfold fget.
  apply get_pub_ext.
  - apply (frame_at (assigned FO s f k v) s f f'); auto. now apply assigned_same.
  - destruct (assigned_stored s f k v f' k' Hf Hf') as [|[-> ->]]; auto. destruct Hne; congruence.
Qed.

Lemma wf_no_self f : wf_rows rows = true -> In f (fs_fields fs) -> ~ reaches fs f f.
Proof. intros Hwf Hf H. apply (wf_reaches_lt rows f f Hwf Hf) in H. lia. Qed.

Lemma assigned_refs (s : state FO) f k v : wf_rows rows = true -> In f (fs_fields fs) ->
  refs_eq FO (G FO fs (assigned FO s f k v)) (G FO fs s) fs (field_refs f).
Proof.
  intros Hwf Hf. apply (frame_at _ _ f f); auto; [now apply assigned_same|now apply wf_no_self].
Qed.

(** Reading back what was assigned: the value converted to the field type. *)
Theorem get_assigned (s : state FO) nm f k v :
  wf_rows rows = true -> lookup fs nm = Some f -> is_data_ty (fd_ty (f_d f)) = false ->
  key_shape_ok f k = true -> may_assign FO fs s f k v ->
  get FO fs (assigned FO s f k v) nm k
  = match convert FO (f_d f) v with Ok x => Ok x | Err _ => Err ERuntime end.
Proof.
  intros Hwf HL HT HK (Hn & HI & HC & Hh & Hv & _). assert (Hf := lookup_in _ _ _ HL).
  assert (HR := assigned_refs s f k v Hwf Hf). apply field_refs_split in HR as (R1 & R2 & R3 & R4).
  unfold get. rewrite HL, HK. unfold fget, get_pub, get_base.
  destruct (fd_name (f_d f)); [|congruence].
  rewrite (check_index_ext FO _ (G FO fs s)), (check_condition_ext FO _ (G FO fs s)), HI, HC by assumption.
  cbn [bind negb]. rewrite Hv, assigned_self.
  destruct (convert FO (f_d f) v) as [x|]; auto. cbn [bind].
  destruct (fd_ty (f_d f)); auto. discriminate.
Qed.

(** [G] is the reading of a field object. *)
Lemma G_get_pub (s : state FO) f k : wf_rows rows = true -> In f (fs_fields fs) ->
  G FO fs s f k = get_pub FO (G FO fs s) fs s f k.
Proof.
  intros Hwf Hf. change (getf FO (fuel fs) fs s f k = getf FO (S (fuel fs)) fs s f k).
  apply (getf_fuel rows FO s Hwf); auto; pose proof (id_lt_fuel rows f Hf) as HH; fold fs in HH; lia.
Qed.

(** Data sized by another field. *)
Theorem data_assigned (s s' : state FO) nm f k v snm m sf dk :
  wf_rows rows = true -> lookup fs nm = Some f -> fd_ty (f_d f) = TData dk -> 
  dk = KString \/ dk = KBytes ->
  fd_size (f_d f) = SzExpr (EFld snm m) -> (0 <= fd_size_offset (f_d f))%Z ->
  fd_size_not_updated (f_d f) = false ->
  lookup fs snm = Some sf -> fd_ty (f_d sf) = TInt ->
  set FO fs s nm k (SVal v) = (s', Ok tt) ->
  exists b,
    (v = VBytes b \/ exists t, v = VStr t /\ encode_latin1 t = Ok b) /\
    get FO fs s' snm (firstn m k)
      = Ok (VInt (if (Z.of_nat (List.length b) =? 0)%Z then 0
                  else Z.of_nat (List.length b) + fd_size_offset (f_d f))) /\
    (check_index FO (G FO fs s') fs f k = Ok tt ->
     check_condition FO (G FO fs s') fs f k = Ok true ->
     get FO fs s' nm k = Ok (match dk with KString => VStr b | _ => VBytes b end)
     /\ field_bytes FO (G FO fs s') fs s' f k = Ok b).
Proof.
  intros Hwf HL HT Hdk Hsz Hoff Hnu HLs Hst H.
  assert (Hf := lookup_in _ _ _ HL). assert (Hsf := lookup_in _ _ _ HLs).
  unfold set in H. rewrite HL in H. destruct (key_shape_ok f k) eqn:HK; [|discriminate].
  unfold fset, fuel in H. cbn [setf] in H. rewrite HT in H.
  destruct (pack FO (G FO fs s) fs f k v) as [b|] eqn:HP; [|discriminate].
  exists b. split.
  { unfold pack in HP. rewrite HT in HP.
    destruct Hdk as [-> | ->]; destruct v; try discriminate;
      try (left; congruence); right; eexists; eauto. }
  clear HP. assert (Hrd : reads_directly fs f sf).
  { exists (snm, m). split; auto. unfold field_refs, own_refs. rewrite Hsz.
    apply in_or_app. left. apply in_or_app. right. apply in_or_app. left. now left. }
  apply set_base_cases in H as [(_ & (e & He) & _)|(HM & H)]; [discriminate|].
  assert (Hlt := wf_reads_lt rows f sf Hwf Hf Hrd). destruct Hlt as [Hlt _].
  assert (Hne : sf <> f) by (intros ->; lia).
  set (s1 := assigned FO s f k (SVal (VBytes b))) in *.
  set (n' := if (Z.of_nat (List.length b) =? 0)%Z then 0%Z
             else (Z.of_nat (List.length b) + fd_size_offset (f_d f))%Z) in *.
  assert (Hs' : (depth sf = O <-> m = O) /\ (m <= List.length k)%nat /\
     may_assign FO fs s1 sf (firstn m k) (SVal (VInt n')) /\
     s' = assigned FO s1 sf (firstn m k) (SVal (VInt n'))).
  { destruct H as [(_ & _ & H)|[(_ & _ & e & He)|(_ & nm1 & m1 & b1 & sf1 & Hv & Hsz1 & HL1 & _ & Hd & Hm & H)]].
    - exfalso. rewrite HT in H. destruct (H eq_refl b eq_refl) as [(A & _)|(_ & nm1 & m1 & A & B)];
        [congruence|]. rewrite Hsz in A. injection A as <- <-. congruence.
    - discriminate.
    - assert (b1 = b) by congruence. assert (nm1 = snm) by congruence. assert (m1 = m) by congruence. subst b1 nm1 m1.
      assert (sf1 = sf) by congruence. subst sf1. split; auto. split; auto.
      fold n' s1 in H. destruct (List.length (fs_fields fs)) as [|n] eqn:EL; [discriminate|].
      cbn [setf] in H. rewrite Hst in H.
      apply set_base_cases in H as [(_ & (e & He) & _)|(HM1 & [(-> & _)|[(A & _)|(A & _)]])];
        [discriminate|auto|rewrite Hst in A; discriminate ..]. }
  destruct Hs' as (Hd & Hm & HM' & Hs'). clear H.
  set (kk := firstn m k) in *. set (w := SVal (VInt n')) in *.
  assert (HGs : forall q, q = kk -> get_pub FO (G FO fs s') fs s' sf q = Ok (VInt n')).
  { intros q ->. destruct HM' as (Hn & HI & HC & Hh & Hv & _). 
    assert (HR := assigned_refs s1 sf kk w Hwf Hsf). rewrite <- Hs' in HR.
    apply field_refs_split in HR as (R1 & R2 & R3 & R4).
    unfold get_pub, get_base. destruct (fd_name (f_d sf)); [|congruence].
    rewrite (check_index_ext FO _ (G FO fs s1)), (check_condition_ext FO _ (G FO fs s1)), HI, HC by assumption.
    cbn [bind negb]. rewrite Hv. rewrite Hs', assigned_self. unfold w, convert. rewrite Hst. reflexivity. }
  split.
  { unfold get. rewrite HLs. replace (key_shape_ok sf kk) with true.
    - unfold fget. now apply HGs.
    - unfold key_shape_ok, kk. destruct (depth sf) eqn:D; auto. destruct Hd as [Hd _].
      rewrite Hd by reflexivity. reflexivity. }
  intros HI' HC'.
  assert (HS : stored FO s' f k = SVal (VBytes b)).
  { rewrite Hs'. rewrite assigned_same by auto. apply assigned_self. }
  assert (HGB : get_base FO (G FO fs s') fs s' f k = Ok (VBytes b)).
  { unfold get_base. destruct HM as (Hn & _ & _ & _ & Hv & _). destruct (fd_name (f_d f)); [|congruence].
    rewrite HI', HC'. cbn [bind negb]. rewrite Hv, HS. unfold convert. rewrite HT. reflexivity. }
  split.
  { unfold get. rewrite HL, HK. unfold fget, get_pub. rewrite HGB. cbn [bind]. rewrite HT.
    unfold unpack. rewrite HT. destruct Hdk as [-> | ->]; reflexivity. }
  assert (HF : fsize_of FO (G FO fs s') fs f k = Ok (Z.of_nat (List.length b))).
  { unfold fsize_of. rewrite Hsz. cbn [eval]. unfold eval_ref. rewrite HLs.
    assert (E : G FO fs s' sf kk = Ok (VInt n')) by (rewrite G_get_pub by auto; now apply HGs).
    destruct m as [|m], (depth sf) as [|d] eqn:D; try (exfalso; destruct Hd as [Hd1 Hd2];
      first [now discriminate Hd1|now discriminate Hd2]).
    - unfold kk in E. cbn [firstn] in E. rewrite E. cbn [bind as_Z]. unfold n'.
      destruct (Z.of_nat (List.length b) =? 0)%Z eqn:E0; f_equal; [cbn; lia|destruct (_ + _ =? 0)%Z eqn:E1; lia].
    - destruct (List.length k <? S m)%nat eqn:LK; [lia|]. fold kk. rewrite E. cbn [bind as_Z]. unfold n'.
      destruct (Z.of_nat (List.length b) =? 0)%Z eqn:E0; f_equal; [cbn; lia|destruct (_ + _ =? 0)%Z eqn:E1; lia]. }
  unfold field_bytes. rewrite HF. cbn [bind]. rewrite HS, HGB. cbn [bind]. rewrite HT.
  unfold has_len. rewrite Z.eqb_refl. destruct (fd_optional (f_d f)); reflexivity.
Qed.

(** With [size_not_updated], data of another length is rejected. *)
Theorem data_fixed (s : state FO) nm f k v dk b :
  wf_rows rows = true -> lookup fs nm = Some f -> fd_ty (f_d f) = TData dk -> fd_size_not_updated (f_d f) = true ->
  pack FO (G FO fs s) fs f k v = Ok b ->
  fsize_of FO (G FO fs s) fs f k <> Ok (Z.of_nat (List.length b)) ->
  exists s' e, set FO fs s nm k (SVal v) = (s', Err e).
Proof.
  intros Hwf HL HT Hnu HP HF. assert (Hf := lookup_in _ _ _ HL).
  destruct (set FO fs s nm k (SVal v)) as [s' [[]|e]] eqn:H; [|eauto]. exfalso.
  unfold set in H. rewrite HL in H. destruct (key_shape_ok f k); [|discriminate].
  unfold fset, fuel in H. cbn [setf] in H. rewrite HT, HP in H.
  apply set_base_cases in H as [(_ & (e & He) & _)|(HM & [(-> & _ & H)|[(_ & _ & e & He)|
    (_ & nm1 & m1 & b1 & sf1 & Hv & Hsz1 & HL1 & Hnu1 & _)]])]; [discriminate| |discriminate|congruence].
  rewrite HT in H. destruct (H eq_refl b eq_refl) as [(_ & A)|(A & _)]; [|congruence].
  apply HF. rewrite <- A. symmetry. apply fsize_ext.
  pose proof (assigned_refs s f k (SVal (VBytes b)) Hwf Hf) as HR. now apply field_refs_split in HR.
Qed.

End Frame.

(** ** Raw bytes over a sequence of assignments *)

Section Raw.
Variable FO : FloatOps.
Variable rows : list row.
Let fs := mk_fs rows.

(** A sequence of assignments, whether they succeed or not. *)
Definition assign_all (s : state FO) (ops : list (string * list Z * sval FO)) : state FO :=
  fold_left (fun s op => fst (set FO fs s (fst (fst op)) (snd (fst op)) (snd op))) ops s.

(** An assignment that may reach field [f] at [k]: directly, or as the length of the data
    assigned. *)
Definition aims_at (f : field) (k : list Z) (op : string * list Z * sval FO) : Prop :=
  exists f0, lookup fs (fst (fst op)) = Some f0
    /\ ((f0 = f /\ snd (fst op) = k) \/ (is_data_ty (fd_ty (f_d f0)) = true /\ reaches fs f0 f)).

Lemma reaches_in f f' : reaches fs f f' -> In f' (fs_fields fs).
Proof.
  intro H. induction H as [f f' (r & _ & HL)|f f' y _ _ IH]; auto. eapply lookup_in; eauto.
Qed.

Lemma assign_all_untouched f k ops : forall s, In f (fs_fields fs) ->
  (forall op, In op ops -> ~ aims_at f k op) ->
  st_val FO (assign_all s ops) (f_id f) k = st_val FO s (f_id f) k
  /\ st_raw FO (assign_all s ops) (f_id f) k = st_raw FO s (f_id f) k.
Proof.
  induction ops as [|[[nm k0] v] ops IH]; intros s Hf H; auto.
  unfold assign_all. cbn [fold_left fst snd].
  destruct (IH (fst (set FO fs s nm k0 v)) Hf) as [H1 H2]; [intros op Ho; apply H; now right|].
  unfold assign_all in H1, H2. rewrite H1, H2. clear H1 H2.
  assert (Hn := H (nm, k0, v) (or_introl eq_refl)).
  destruct (set FO fs s nm k0 v) as [s' r] eqn:E. cbn [fst].
  unfold set in E. destruct (lookup fs nm) as [f0|] eqn:L; [|injection E as <- <-; auto].
  destruct (key_shape_ok f0 k0); [|injection E as <- <-; auto].
  apply setf_touch in E as (_ & _ & E). destruct (E (f_id f) k) as [|(y & Ei & _ & Hy & _)]; auto.
  exfalso. apply Hn. exists f0. split; [exact L|]. cbn [fst snd].
  assert (Hy' : In y (fs_fields fs))
    by (destruct Hy as [(-> & _)|(_ & Hy)]; [eapply lookup_in; eauto|now apply reaches_in in Hy]).
  apply (mk_fs_id_inj rows) in Ei; auto. subst y.
  destruct Hy as [(-> & ->)|Hy]; auto.
Qed.

(** Raw bytes survive assignments elsewhere. *)
Theorem raw_kept nm f k b ops (s : state FO) :
  lookup fs nm = Some f -> st_raw FO s (f_id f) k = Some b ->
  (forall op, In op ops -> ~ aims_at f k op) ->
  raw_bytes FO fs (assign_all s ops) nm k = Ok b.
Proof.
  intros HL HR HO. unfold raw_bytes. rewrite HL.
  destruct (assign_all_untouched f k ops s (lookup_in _ _ _ HL) HO) as [_ ->]. now rewrite HR.
Qed.

End Raw.
