(** C60: DESs whose content is an object of another library (nitf_des.py:25-109). *)
From Verif Require Import Base BaseLemmas Engine Wf EngineLemmas Codec RoundTrip Rewrite Literal
  Positions Keys Deps Assign Update Spec Decimal Delayed Utf8 Tre TreLemmas File Listing DesPrint DesImpl Ex P_ReadAny.
From Coq Require Import ZifyBool ZifyNat ZifyN.
Open Scope list_scope.

Section Impl.
Variable FO : FloatOps.
Variable O : Type.
Variable c : dicls O.
Variable ext : field -> list N -> res (list N).
Variable source : expr -> list N.
Variable id : list N.
Variable seg : option Z.
Let fs := mk_fs (dc_rows (di_cls c)).
Notation st1 := (xstep FO O c ext source).
Notation run := (xsteps FO O c ext source (x_new FO O c id seg)).
Notation xd := (xdes FO O).

(** The object an operation brings: put there, or made from the file, if the segment is one of the
    class. *)
Definition takes (op : xop FO O) (o : O) : Prop :=
  match op with
  | XPut _ _ o' => o = o'
  | XRead _ _ file pos => id = dc_tag (di_cls c) /\ exists p, di_read c file pos = Ok (o, p)
  | _ => False
  end.
(** [o] is the object the last of the operations [os] that brought one brought. *)
Definition latest (os : list (xop FO O)) (o : O) : Prop :=
  exists l1 op l2, os = l1 ++ op :: l2 /\ takes op o /\ forall op' o', In op' l2 -> ~ takes op' o'.

(** What no operation changes. *)
Definition kept (x : xd) : Prop :=
  fd_cls (x_d FO O x) = di_cls c /\ fd_id (x_d FO O x) = id /\ fd_seg (x_d FO O x) = seg.

Lemma fd_read_kept (d d' : fdes FO) b pos a p : fd_read FO d b pos = Ok (a, d', p) ->
  fd_cls d' = fd_cls d /\ fd_id d' = fd_id d /\ fd_seg d' = fd_seg d.
Proof.
  unfold fd_read. destruct (negb (list_eqb (fd_id d) (dc_tag (fd_cls d)))).
  - intro H. injection H as <- <- <-. auto.
  - intro H. apply bind_ok_elim in H as ([s r] & _ & H). cbv zeta in H.
    match type of H with (if ?q then _ else _) = _ => destruct q end; [injection H as _ <- _; cbn; auto|].
    destruct (negb (dc_after (fd_cls d))); [discriminate H|]. destruct (dc_copy (fd_cls d)).
    + match type of H with (let '(_, _) := ?t in _) = _ => destruct t end. injection H as _ <- _. cbn. auto.
    + apply bind_ok_elim in H as (q & _ & H). injection H as _ <- _. cbn. auto.
Qed.

Lemma update_kept x : kept x -> kept (fst (x_update FO O c x)).
Proof.
  unfold kept, x_update. intro K. destruct (x_write FO O c x); [|exact K].
  destruct (fd_read FO (x_d FO O x) a 0) as [[[? d] ?]|] eqn:E; [|exact K]. cbn [fst x_d].
  apply fd_read_kept in E as (-> & -> & ->). exact K.
Qed.
Lemma update_obj x : x_obj FO O (fst (x_update FO O c x)) = x_obj FO O x.
Proof.
  unfold x_update. destruct (x_write FO O c x); [|reflexivity].
  destruct (fd_read FO (x_d FO O x) a 0) as [[[? d] ?]|]; reflexivity.
Qed.

Lemma print_fst raw ush x : fst (x_print FO O c ext source raw ush x) = if raw then fst (x_update FO O c x) else x.
Proof. unfold x_print. destruct raw; [|reflexivity]. destruct (x_update FO O c x) as [x' [u|e]]; reflexivity. Qed.

Lemma step_kept x op : kept x -> kept (fst (st1 x op)).
Proof.
  intro K. destruct op as [nm k|nm k v|nm k| |o| |file pos|raw ush]; cbn [xstep].
  1-3: match goal with |- context [step FO ?a ?b ?d] => destruct (step FO a b d) end; exact K.
  - exact K.
  - exact K.
  - assert (K' := update_kept x K). destruct (x_update FO O c x). exact K'.
  - unfold x_read. destruct (negb _); [exact K|]. destruct (di_read c file pos) as [[o p]|]; [|exact K].
    assert (K' := update_kept (x_put FO O x o) K). destruct (x_update FO O c (x_put FO O x o)) as [x' [u|e]]; exact K'.
  - assert (K' : kept (fst (x_print FO O c ext source raw ush x))).
    { rewrite print_fst. destruct raw; [now apply update_kept|exact K]. }
    destruct (x_print FO O c ext source raw ush x). exact K'.
Qed.
Lemma steps_kept os : forall x, kept x -> kept (xsteps FO O c ext source x os).
Proof. induction os as [|op os IH]; intros x K; cbn [xsteps]; auto. apply IH. now apply step_kept. Qed.
Lemma new_kept : kept (x_new FO O c id seg).
Proof. repeat split. Qed.

Lemma obj_step x op : kept x ->
  (forall o, takes op o -> x_obj FO O (fst (st1 x op)) = Some o)
  /\ ((forall o, ~ takes op o) -> x_obj FO O (fst (st1 x op)) = x_obj FO O x).
Proof.
  intros (K1 & K2 & K3). destruct op as [nm k|nm k v|nm k| |o'| |file pos|raw ush]; cbn [xstep takes].
  1-3: split; [intros o []|intros _]; match goal with |- context [step FO ?a ?b ?d] => destruct (step FO a b d) end; reflexivity.
  - split; [intros o []|reflexivity].
  - split; [intros o ->; reflexivity|]. intro H. exfalso. now apply (H o').
  - assert (E := update_obj x). destruct (x_update FO O c x). split; [intros o []|intros _; exact E].
  - unfold x_read. rewrite K2. destruct (list_eqb id (dc_tag (di_cls c))) eqn:T; cbn [negb].
    + apply list_eqb_spec in T. destruct (di_read c file pos) as [[o p]|e] eqn:R.
      * assert (E := update_obj (x_put FO O x o)). split.
        -- intros o1 (_ & p1 & E1). injection E1 as <- <-.
           destruct (x_update FO O c (x_put FO O x o)) as [x' [u|e]]; exact E.
        -- intro H. exfalso. apply (H o). split; [exact T|]. eexists. reflexivity.
      * split; [intros o (_ & p & E); discriminate E|reflexivity].
    + split; [|reflexivity]. intros o (T' & _). rewrite T', (proj2 (list_eqb_spec _ _) eq_refl) in T. discriminate T.
  - assert (E : x_obj FO O (fst (x_print FO O c ext source raw ush x)) = x_obj FO O x).
    { rewrite print_fst. destruct raw; [apply update_obj|reflexivity]. }
    destruct (x_print FO O c ext source raw ush x). split; [intros o []|intros _; exact E].
Qed.

Lemma steps_app x l1 l2 : xsteps FO O c ext source x (l1 ++ l2) = xsteps FO O c ext source (xsteps FO O c ext source x l1) l2.
Proof. revert x. induction l1 as [|op l1 IH]; intro x; cbn [app xsteps]; auto. Qed.

Lemma takes_dec op : (exists o, takes op o) \/ (forall o, ~ takes op o).
Proof.
  destruct op as [nm k|nm k v|nm k| |o'| |file pos|raw ush]; cbn [takes].
  1-4, 6, 8: right; intros o [].
  - left. eauto.
  - destruct (list_eqb id (dc_tag (di_cls c))) eqn:T.
    + apply list_eqb_spec in T. destruct (di_read c file pos) as [[o p]|e]; [left; eauto|].
      right. intros o (_ & p & E). discriminate E.
    + right. intros o (T' & _). rewrite T', (proj2 (list_eqb_spec _ _) eq_refl) in T. discriminate T.
Qed.
Lemma takes_fun op o o' : takes op o -> takes op o' -> o = o'.
Proof.
  intros A B. destruct (obj_step _ op new_kept) as [E _]. assert (E1 := E _ A). assert (E2 := E _ B). congruence.
Qed.

Lemma obj_latest os o : x_obj FO O (run os) = Some o <-> latest os o.
Proof.
  induction os as [|op os IH] using rev_ind.
  - split; [intro H; discriminate H|]. intros (l1 & op & l2 & E & _). destruct l1; discriminate E.
  - rewrite steps_app. cbn [xsteps]. assert (K := steps_kept os _ new_kept). set (x := run os) in *.
    destruct (obj_step x op K) as [S1 S2]. destruct (takes_dec op) as [(o1 & T)|N].
    + rewrite (S1 _ T). split.
      * intro E. injection E as <-. exists os, op, []. split; [reflexivity|]. split; [exact T|]. intros op' o' [].
      * intros (l1 & op' & l2 & E & T' & H). destruct l2 as [|z l2 _] using rev_ind.
        -- apply app_inj_tail in E as [_ ->]. f_equal. eapply takes_fun; eauto.
        -- rewrite app_comm_cons, app_assoc in E. apply app_inj_tail in E as [_ ->].
           exfalso. eapply H; [|exact T]. apply in_or_app. right. now left.
    + rewrite (S2 N), IH. split.
      * intros (l1 & op' & l2 & -> & T' & H). exists l1, op', (l2 ++ [op]).
        split; [now rewrite <- app_assoc|]. split; [exact T'|]. intros z o' Hz.
        apply in_app_or in Hz as [Hz|[<-|[]]]; auto.
      * intros (l1 & op' & l2 & E & T' & H). destruct l2 as [|z l2 _] using rev_ind.
        -- apply app_inj_tail in E as [_ ->]. exfalso. eapply N; eauto.
        -- rewrite app_comm_cons, app_assoc in E. apply app_inj_tail in E as [-> ->].
           exists l1, op', l2. split; [reflexivity|]. split; [exact T'|]. intros z' o' Hz. apply H.
           apply in_or_app. now left.
Qed.

(** (1) Whatever was done with the DES, what is written is what the object it was given last writes;
    neither the fields nor the data after them have a part in it. *)
Theorem C60_written os r : x_write FO O c (run os) = Ok r <-> exists o, latest os o /\ di_write c o = Ok r.
Proof.
  unfold x_write. split.
  - destruct (x_obj FO O (run os)) as [o|] eqn:E; [|intro H; discriminate H]. intro H. exists o. split; [|exact H].
    now apply obj_latest.
  - intros (o & HL & HW). apply obj_latest in HL. now rewrite HL.
Qed.

(** (2) When the fields can be taken from the object: its bytes are readable, and fill the segment
    unless data may follow the fields. *)
Theorem C60_updates os o b n rest :
  wf_rows (dc_rows (di_cls c)) = true -> id = dc_tag (di_cls c) -> (forall m, seg = Some m -> (0 <= m)%Z) ->
  latest os o -> di_write c o = Ok b ->
  read FO fs false (init_state FO) b = Ok (n, rest) ->
  (snd (x_update FO O c (run os)) = Ok tt
   <-> seg = None \/ seg = Some (Z.of_nat (List.length b - List.length rest)) \/ dc_after (di_cls c) = true).
Proof.
  intros Hwf Hid H0 HL HW HN. apply obj_latest in HL. destruct (steps_kept os _ new_kept) as (K1 & K2 & K3).
  set (x := run os) in *. unfold x_update, x_write. rewrite HL, HW. unfold fd_read. rewrite K1, K2, K3.
  rewrite (proj2 (list_eqb_spec _ _) Hid). cbn [negb skipn].
  destruct (C57_shows FO (dc_rows (di_cls c)) false (init_state FO) (fd_st (x_d FO O x)) n b rest Hwf HN) as (t' & Ht & _).
  rewrite Ht. cbn [bind]. destruct seg as [m|].
  2: { cbn. tauto. }
  destruct (m - Z.of_nat (List.length b - List.length rest) =? 0)%Z eqn:E.
  - split; [|reflexivity]. intros _. right. left. f_equal. lia.
  - destruct (dc_after (di_cls c)); cbn [negb].
    + split; [auto|]. intros _. destruct (dc_copy (di_cls c)).
      * match goal with |- context [take_at ?a ?b ?d] => destruct (take_at a b d) end. reflexivity.
      * unfold seek_by. specialize (H0 m eq_refl).
        replace (Z.of_nat (0 + (List.length b - List.length rest)) + (m - Z.of_nat (List.length b - List.length rest)) <? 0)%Z
          with false by lia. reflexivity.
    + split; [intro X; discriminate X|]. intros [X|[X|X]]; [discriminate X| |discriminate X]. injection X as X. lia.
Qed.

(** An operation that takes the fields from the object, having gone through. *)
Definition refreshed (op : xop FO O) (seen : xobs FO) : Prop :=
  match op, seen with
  | XUpdate _ _, XDone _ r => r = Ok tt
  | XRead _ _ _ _, XAns _ r => exists p, r = Ok (true, p)
  | XPrint _ _ raw _, XBytes _ r => raw = true /\ exists t, r = Ok t
  | _, _ => False
  end.
(** An operation that changes the fields. *)
Definition touches (op : xop FO O) : Prop :=
  match op with XUpdate _ _ | XRead _ _ _ _ | XSet _ _ _ _ _ => True | XPrint _ _ raw _ => raw = true | _ => False end.

Lemma update_reads x x' : kept x -> id = dc_tag (di_cls c) -> x_update FO O c x = (x', Ok tt) ->
  exists o b r, x_obj FO O x = Some o /\ x_obj FO O x' = Some o /\ di_write c o = Ok b
    /\ read FO fs false (fd_st (x_d FO O x)) b = Ok (fd_st (x_d FO O x'), r).
Proof.
  intros (K1 & K2 & K3) Hid H. unfold x_update, x_write in H. destruct (x_obj FO O x) as [o|] eqn:Eo; [|discriminate H].
  destruct (di_write c o) as [b|] eqn:Eb; [|discriminate H].
  destruct (fd_read FO (x_d FO O x) b 0) as [[[a d] p]|] eqn:E; [|discriminate H]. injection H as <-.
  cbn [x_d x_obj]. exists o, b. unfold fd_read in E. rewrite K1, K2, Hid, (proj2 (list_eqb_spec _ _) eq_refl) in E.
  cbn [negb skipn] in E. apply bind_ok_elim in E as ([s r] & HR & E). exists r.
  split; [reflexivity|]. split; [reflexivity|]. split; [exact Eb|]. fold fs in HR. rewrite HR. f_equal. f_equal. cbv zeta in E.
  match type of E with (if ?q then _ else _) = _ => destruct q end; [injection E as _ <- _; reflexivity|].
  destruct (negb (dc_after (di_cls c))); [discriminate E|]. destruct (dc_copy (di_cls c)).
  - match type of E with (let '(_, _) := ?t in _) = _ => destruct t end. injection E as _ <- _. reflexivity.
  - apply bind_ok_elim in E as (q & _ & E). injection E as _ <- _. reflexivity.
Qed.

Lemma refreshed_reads x op x1 seen : kept x -> id = dc_tag (di_cls c) -> st1 x op = (x1, seen) -> refreshed op seen ->
  exists o b s0 r, x_obj FO O x1 = Some o /\ di_write c o = Ok b /\ read FO fs false s0 b = Ok (fd_st (x_d FO O x1), r).
Proof.
  intros K Hid H R. destruct op as [nm k|nm k v|nm k| |o'| |file pos|raw ush]; cbn [xstep refreshed] in *; try contradiction.
  - destruct (x_update FO O c x) as [x' r] eqn:E. injection H as <- <-. subst r.
    destruct (update_reads x x' K Hid E) as (o & b & r & _ & A & B & C). eauto 10.
  - unfold x_read in H. destruct K as (K1 & K2 & K3). rewrite K2, (proj2 (list_eqb_spec _ _) Hid) in H. cbn [negb] in H.
    destruct (di_read c file pos) as [[o p]|]; [|injection H as _ <-; destruct R as (p & R); discriminate R].
    destruct (x_update FO O c (x_put FO O x o)) as [x' r] eqn:E. destruct r as [[]|e]; injection H as <- <-.
    + destruct (update_reads (x_put FO O x o) x' (conj K1 (conj K2 K3)) Hid E) as (o1 & b & r & _ & A & B & C). eauto 10.
    + destruct R as (q & R). discriminate R.
  - unfold x_print in H. destruct raw.
    + destruct (x_update FO O c x) as [x' r] eqn:E. destruct r as [[]|e]; injection H as <- <-.
      * destruct (update_reads x x' K Hid E) as (o & b & r & _ & A & B & C). eauto 10.
      * destruct R as (_ & t & R). discriminate R.
    + injection H as _ <-. destruct R as (R & _). discriminate R.
Qed.

Lemma quiet_step x op : ~ touches op -> fd_st (x_d FO O (fst (st1 x op))) = fd_st (x_d FO O x).
Proof.
  intro N. destruct op as [nm k|nm k v|nm k| |o'| |file pos|raw ush]; cbn [xstep touches step] in *; try reflexivity; try tauto.
  destruct raw; [now destruct N|]. reflexivity.
Qed.
Lemma quiet_steps os : forall x, (forall op, In op os -> ~ touches op) ->
  fd_st (x_d FO O (xsteps FO O c ext source x os)) = fd_st (x_d FO O x).
Proof.
  induction os as [|op os IH]; intros x H; cbn [xsteps]; [reflexivity|].
  rewrite IH by (intros op' Hi; apply H; now right). apply quiet_step. apply H. now left.
Qed.

(** (3) After the fields were taken from the object (a segment read, [update_raw_field], raw printing),
    each shows what it is in the bytes the object wrote at that moment, whatever the DES held before
    and until the fields are taken again or assigned; a new object put in does not change them. *)
Theorem C60_shows os x1 op seen o b n rest later nm f k v :
  wf_rows (dc_rows (di_cls c)) = true -> id = dc_tag (di_cls c) ->
  st1 (run os) op = (x1, seen) -> refreshed op seen ->
  x_obj FO O x1 = Some o -> di_write c o = Ok b ->
  read FO fs false (init_state FO) b = Ok (n, rest) ->
  (forall op', In op' later -> ~ touches op') ->
  lookup fs nm = Some f -> valid_index FO fs n f k ->
  (snd (st1 (xsteps FO O c ext source x1 later) (XGet FO O nm k)) = XSee FO (SeeVal FO (Ok v))
   <-> get FO fs n nm k = Ok v).
Proof.
  intros Hwf Hid HS HR Ho Hb HN HL Hl Hv.
  destruct (refreshed_reads _ _ _ _ (steps_kept os _ new_kept) Hid HS HR) as (o' & b' & s0 & r & Ho' & Hb' & HR').
  rewrite Ho in Ho'. injection Ho' as <-. rewrite Hb in Hb'. injection Hb' as <-.
  cbn [xstep step snd]. rewrite (quiet_steps later x1 HL).
  destruct (C57_shows FO (dc_rows (di_cls c)) false (init_state FO) s0 n b rest Hwf HN) as (t' & Ht & _ & Hg & _).
  assert (Et : t' = fd_st (x_d FO O x1)) by (fold fs in Ht; rewrite HR' in Ht; congruence). subst t'.
  specialize (Hg nm f k v Hl Hv). fold fs in Hg. change (x_fs O c) with fs. rewrite Hg.
  split; [intro X; injection X as X; exact X|intros ->; reflexivity].
Qed.

(** (4) What was written is read back: from a segment holding the bytes [b] of an object, a class whose
    library makes of them an object writing the same bytes makes a DES that writes the same, shows the
    fields of these bytes, and has nothing left over. *)
Theorem C60_round b pre post o' p n :
  wf_rows (dc_rows (di_cls c)) = true -> id = dc_tag (di_cls c) ->
  read FO fs false (init_state FO) b = Ok (n, []) ->
  di_read c (pre ++ b ++ post) (List.length pre) = Ok (o', p) -> di_write c o' = Ok b ->
  exists y, x_read FO O c (x_new FO O c id (Some (Z.of_nat (List.length b)))) (pre ++ b ++ post) (List.length pre) = (y, Ok (true, p))
    /\ x_write FO O c y = Ok b /\ fd_st (x_d FO O y) = n /\ fd_left (x_d FO O y) = Some 0%Z.
Proof.
  intros Hwf Hid HN HR HW'. unfold x_read. cbn [x_new x_d fd_new fd_id].
  rewrite (proj2 (list_eqb_spec _ _) Hid). cbn [negb]. rewrite HR.
  unfold x_update, x_write. cbn [x_put x_obj]. rewrite HW'. unfold fd_read.
  cbn [x_put x_d x_new fd_new fd_id fd_cls fd_seg fd_st skipn]. rewrite (proj2 (list_eqb_spec _ _) Hid). cbn [negb].
  fold fs. rewrite HN. cbn [bind]. cbn [List.length]. rewrite Nat.sub_0_r, Z.sub_diag. cbn [Z.eqb].
  eexists. split; [reflexivity|]. cbn. auto.
Qed.
End Impl.

(** ** Cases *)

(** A class whose object is the text of [len] bytes of the segment; [after] and [copy] say whether
    data may follow the fields and is kept. *)
Definition text_des (len : nat) (after copy : bool) : dicls (list N) :=
  {| di_cls := {| dc_tag := str "EXAMPLE_DES"; dc_rows := flag_rows; dc_after := after; dc_copy := copy |};
     di_write := fun t => Ok t;
     di_read := fun file pos => Ok (firstn len (skipn pos file), (pos + len)%nat);
     di_show := fun t => Ok t |}.
Definition no_ext : field -> list N -> res (list N) := fun _ _ => Err ENotImpl.
Definition no_src : expr -> list N := fun _ => [].
Section Case.
Variable len : nat.
Variable after copy : bool.
Variable seg : option Z.
Definition td_step := xstep DecF (list N) (text_des len after copy) no_ext no_src.
Definition td_run := xsteps DecF (list N) (text_des len after copy) no_ext no_src (x_new DecF (list N) (text_des len after copy) (str "EXAMPLE_DES") seg).
Definition td_get os nm k : seen :=
  match snd (td_step (td_run os) (XGet DecF (list N) nm k)) with XSee _ (SeeVal _ r) => see r | _ => SeeNone end.
Definition td_write os : res (list N) := x_write DecF (list N) (text_des len after copy) (td_run os).
Definition td_done os op : option (res unit) :=
  match snd (td_step (td_run os) op) with XDone _ r => Some r | _ => None end.
Definition td_ans os op : option (res (bool * nat)) :=
  match snd (td_step (td_run os) op) with XAns _ r => Some r | _ => None end.
Definition td_text os raw : option (res (list N)) :=
  match snd (td_step (td_run os) (XPrint DecF (list N) raw None)) with XBytes _ r => Some r | _ => None end.
End Case.
Notation put t := (XPut DecF (list N) (str t)).
Notation upd := (XUpdate DecF (list N)).
Notation rd t p := (XRead DecF (list N) (str t) p).
Notation set_int nm v := (XSet DecF (list N) nm [] (SVal (VInt v))).

(** A segment read, an object put in: the fields stay, the data written is new; then the fields taken
    from it. *)
Example ex_c60 :
  let get := td_get 5 false false (Some 5%Z) in
  let wr := td_write 5 false false (Some 5%Z) in
  let h := [rd "..2ab57rest" 2] in
  td_ans 5 false false (Some 5%Z) [] (rd "..2ab57rest" 2) = Some (Ok (true, 7%nat))
  /\ get h "n"%string [] = SeeInt 2 /\ get h "y"%string [1; 0]%Z = SeeInt 7 /\ wr h = Ok (str "2ab57")
  /\ get (h ++ [put "2cd81"]) "n"%string [] = SeeInt 2 /\ get (h ++ [put "2cd81"]) "y"%string [1; 0]%Z = SeeInt 7
  /\ wr (h ++ [put "2cd81"]) = Ok (str "2cd81")
  /\ get (h ++ [put "2cd81"; upd]) "y"%string [1; 0]%Z = SeeInt 1
  /\ get (h ++ [put "2cd81"; XPrint DecF (list N) true None]) "x"%string [] = SeeStr (str "cd")
  /\ get (h ++ [put "2cd81"; XPrint DecF (list N) false None]) "x"%string [] = SeeStr (str "ab")
  /\ td_text 5 false false (Some 5%Z) (h ++ [put "2cd81"]) false
     = Some (Ok (str "Object associated with DES:" ++ [10%N] ++ str "2cd81" ++ [10%N]))
  /\ wr [] = Err EAttr.
Proof. vm_compute. repeat split. Qed.

(** An update goes through if the bytes fill the segment or data may follow. *)
Example ex_c60_updates :
  td_done 5 false false (Some 5%Z) [put "2cd81"] upd = Some (Ok tt)
  /\ td_done 5 false false (Some 5%Z) [put "1cd8"] upd = Some (Err ERuntime)
  /\ td_done 5 true false (Some 5%Z) [put "1cd8"] upd = Some (Ok tt)
  /\ td_done 5 true true (Some 5%Z) [put "1cd8"] upd = Some (Ok tt)
  /\ td_done 5 false false None [put "1cd8"] upd = Some (Ok tt).
Proof. vm_compute. repeat split. Qed.

(** (5) Unlike TREs (C58), a DES with an object accepts the assignment of a field, shows what was
    assigned, and writes what it wrote before; the next update takes the assigned value away
    (nitf_field.py:294-296, nitf_des.py:63-65, 104-109). *)
Theorem C60_assign_refuted : exists os nm v b,
  td_get 5 false false None os nm [] = SeeInt 2 /\ td_write 5 false false None os = Ok b
  /\ td_get 5 false false None (os ++ [set_int nm v]) nm [] = SeeInt v /\ v <> 2%Z
  /\ td_write 5 false false None (os ++ [set_int nm v]) = Ok b
  /\ td_get 5 false false None (os ++ [set_int nm v; upd]) nm [] = SeeInt 2.
Proof.
  exists [rd "2ab57" 0], "n"%string, 1%Z, (str "2ab57"). vm_compute. repeat split. intro E. discriminate E.
Qed.

(** (6) A segment of a class whose object is written with another length than the segment cannot be
    read, although both the object and the fields can: the length of the bytes just written is
    compared with that of the segment on file (nitf_des.py:43-45, 48-53). *)
Theorem C60_length_refuted : exists file pos,
  td_ans 4 false false None [] (rd file pos) = Some (Ok (true, 4%nat))
  /\ td_ans 4 false false (Some 5%Z) [] (rd file pos) = Some (Err ERuntime)
  /\ td_write 4 false false (Some 5%Z) [rd file pos] = Ok (str "1ab5").
Proof. exists "1ab5 "%string, 0%nat. vm_compute. repeat split. Qed.

Print Assumptions C60_written.
Print Assumptions C60_updates.
Print Assumptions C60_shows.
Print Assumptions C60_round.
Print Assumptions C60_assign_refuted.
Print Assumptions C60_length_refuted.
