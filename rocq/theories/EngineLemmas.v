(** Structural facts about Engine.v. *)
From Verif Require Import Base BaseLemmas Engine Wf.
From Coq Require Import ZifyBool ZifyNat ZifyN.
Open Scope list_scope.

(** ** Induction principles for the nested types *)

Fixpoint expr_ind' (P : expr -> Prop)
  (HInt : forall z, P (EInt z)) (HStr : forall s, P (EStr s))
  (HFld : forall nm m, P (EFld nm m))
  (HAdd : forall a b, P a -> P b -> P (EAdd a b)) (HSub : forall a b, P a -> P b -> P (ESub a b))
  (HMul : forall a b, P a -> P b -> P (EMul a b)) (HDiv : forall a b, P a -> P b -> P (EFloorDiv a b))
  (HHalf : forall a b, P a -> P b -> P (EHalfMul a b)) (HBit : forall a b, P a -> P b -> P (EBitAnd a b))
  (HCmp : forall op a b, P a -> P b -> P (ECmp op a b))
  (HIn : forall neg a l, P a -> Forall P l -> P (EIn neg a l))
  (HAnd : forall a b, P a -> P b -> P (EAnd a b))
  (HIf : forall c a b, P c -> P a -> P b -> P (EIf c a b))
  (HIntOf : forall a, P a -> P (EIntOf a)) (HRs : forall a, P a -> P (ERstrip a))
  (e : expr) : P e :=
  let rec := expr_ind' P HInt HStr HFld HAdd HSub HMul HDiv HHalf HBit HCmp HIn HAnd HIf HIntOf HRs in
  match e with
  | EInt z => HInt z
  | EStr s => HStr s
  | EFld nm m => HFld nm m
  | EAdd a b => HAdd a b (rec a) (rec b)
  | ESub a b => HSub a b (rec a) (rec b)
  | EMul a b => HMul a b (rec a) (rec b)
  | EFloorDiv a b => HDiv a b (rec a) (rec b)
  | EHalfMul a b => HHalf a b (rec a) (rec b)
  | EBitAnd a b => HBit a b (rec a) (rec b)
  | ECmp op a b => HCmp op a b (rec a) (rec b)
  | EIn neg a l => HIn neg a l (rec a)
      ((fix go l := match l return Forall P l with
                    | [] => Forall_nil P
                    | x :: l' => Forall_cons x (rec x) (go l')
                    end) l)
  | EAnd a b => HAnd a b (rec a) (rec b)
  | EIf c a b => HIf c a b (rec c) (rec a) (rec b)
  | EIntOf a => HIntOf a (rec a)
  | ERstrip a => HRs a (rec a)
  end.

Fixpoint item_ind' (P : item -> Prop)
  (HF : forall f, P (IField f)) (HL : forall sh its, Forall P its -> P (ILoop sh its))
  (it : item) : P it :=
  match it with
  | IField f => HF f
  | ILoop sh its => HL sh its
      ((fix go l := match l return Forall P l with
                    | [] => Forall_nil P
                    | x :: l' => Forall_cons x (item_ind' P HF HL x) (go l')
                    end) its)
  end.

Fixpoint row_ind' (P : row -> Prop)
  (HF : forall d, P (RField d)) (HL : forall sh rows, Forall P rows -> P (RLoop sh rows))
  (r : row) : P r :=
  match r with
  | RField d => HF d
  | RLoop sh rows => HL sh rows
      ((fix go l := match l return Forall P l with
                    | [] => Forall_nil P
                    | x :: l' => Forall_cons x (row_ind' P HF HL x) (go l')
                    end) rows)
  end.

(** ** Construction *)

Fixpoint placed (path : list expr) (it : item) : Prop :=
  match it with
  | IField f => f_loops f = path
  | ILoop sh its => (fix go its := match its with
                                   | [] => True
                                   | it :: its' => placed (path ++ [sh]) it /\ go its'
                                   end) its
  end.

Lemma placed_loop path sh its :
  placed path (ILoop sh its) <-> Forall (placed (path ++ [sh])) its.
Proof.
  cbn. induction its as [|it its IH]; split; intro H; auto.
  - destruct H. constructor; auto. now apply IH.
  - inversion H; subst. split; auto. now apply IH.
Qed.

Definition built (path : list expr) (n : nat) (n' : nat) (its : list item) : Prop :=
  (n <= n')%nat /\ Forall (placed path) its
  /\ map f_id (flat_map item_fields its) = seq n (n' - n).

Lemma build_row_loop path n sh rows :
  build_row path n (RLoop sh rows) =
  let '(n', its) := build_rows (path ++ [sh]) n rows in (n', ILoop sh its).
Proof.
  cbn. match goal with |- (let '(_, _) := ?f n rows in _) = _ =>
    assert (H : forall rows n, f n rows = build_rows (path ++ [sh]) n rows) end.
  { clear. intros rows. induction rows as [|r rows IH]; intro n; cbn; auto.
    destruct (build_row (path ++ [sh]) n r) as [n1 it]. now rewrite IH. }
  now rewrite H.
Qed.

Lemma build_rows_app_spec path n n1 n2 it its :
  built path n n1 [it] -> built path n1 n2 its -> built path n n2 (it :: its).
Proof.
  intros (A1 & A2 & A3) (B1 & B2 & B3). repeat split.
  - lia.
  - constructor; auto. now inversion A2.
  - cbn in *. rewrite app_nil_r in A3. rewrite map_app, A3, B3.
    replace (n2 - n)%nat with ((n1 - n) + (n2 - n1))%nat by lia.
    rewrite seq_app. do 2 f_equal. lia.
Qed.

Lemma build_row_spec r : forall path n,
  built path n (fst (build_row path n r)) [snd (build_row path n r)].
Proof.
  induction r as [d|sh rows IH] using row_ind'; intros path n.
  - cbn [build_row fst snd]. repeat split; [lia| |].
    + constructor; cbn; auto.
    + cbn [flat_map item_fields app map f_id]. replace (S n - n)%nat with 1%nat by lia. reflexivity.
  - rewrite build_row_loop.
    assert (H : forall n, built (path ++ [sh]) n (fst (build_rows (path ++ [sh]) n rows))
                                (snd (build_rows (path ++ [sh]) n rows))).
    { clear n. induction IH as [|r rows Hr _ IHr]; intro n; cbn [build_rows].
      - cbn. repeat split; auto. now rewrite Nat.sub_diag.
      - specialize (Hr (path ++ [sh]) n).
        destruct (build_row (path ++ [sh]) n r) as [n1 it]. cbn [fst snd] in Hr.
        specialize (IHr n1). destruct (build_rows (path ++ [sh]) n1 rows) as [n2 its].
        cbn [fst snd] in *. eapply build_rows_app_spec; eauto. }
    specialize (H n). destruct (build_rows (path ++ [sh]) n rows) as [n' its].
    cbn [fst snd] in *. destruct H as (H1 & H2 & H3). repeat split; auto.
    + constructor; auto. now apply placed_loop.
    + cbn [flat_map item_fields]. now rewrite app_nil_r.
Qed.

Lemma build_rows_spec rows : forall path n,
  built path n (fst (build_rows path n rows)) (snd (build_rows path n rows)).
Proof.
  induction rows as [|r rows IH]; intros path n; cbn [build_rows].
  - cbn. repeat split; auto. now rewrite Nat.sub_diag.
  - assert (Hr := build_row_spec r path n).
    destruct (build_row path n r) as [n1 it]. specialize (IH path n1).
    destruct (build_rows path n1 rows) as [n2 its]. cbn [fst snd] in *.
    eapply build_rows_app_spec; eauto.
Qed.

Lemma mk_fs_placed rows : Forall (placed []) (fs_items (mk_fs rows)).
Proof. apply build_rows_spec. Qed.

Lemma mk_fs_fields rows : fs_fields (mk_fs rows) = flat_map item_fields (fs_items (mk_fs rows)).
Proof. reflexivity. Qed.

Lemma mk_fs_ids rows : map f_id (fs_fields (mk_fs rows)) = seq 0 (List.length (fs_fields (mk_fs rows))).
Proof.
  destruct (build_rows_spec rows [] 0) as (_ & _ & H).
  change (flat_map item_fields (snd (build_rows [] 0 rows))) with (fs_fields (mk_fs rows)) in H.
  rewrite H. f_equal. apply (f_equal (@List.length nat)) in H.
  rewrite map_length, seq_length in H. congruence.
Qed.

Lemma NoDup_map_inj {A B} (h : A -> B) l x y :
  NoDup (map h l) -> In x l -> In y l -> h x = h y -> x = y.
Proof.
  induction l as [|a l IH]; cbn; [tauto|]. intros Hn Hx Hy E. inversion Hn; subst.
  destruct Hx as [->|Hx], Hy as [->|Hy]; auto.
  - exfalso. apply H1. rewrite E. now apply in_map.
  - exfalso. apply H1. rewrite <- E. now apply in_map.
Qed.

Lemma mk_fs_nodup rows : NoDup (map f_id (fs_fields (mk_fs rows))).
Proof. rewrite mk_fs_ids. apply seq_NoDup. Qed.

Lemma mk_fs_id_inj rows f g :
  In f (fs_fields (mk_fs rows)) -> In g (fs_fields (mk_fs rows)) -> f_id f = f_id g -> f = g.
Proof. apply NoDup_map_inj. apply mk_fs_nodup. Qed.

Lemma lookup_in fs nm f : lookup fs nm = Some f -> In f (fs_fields fs).
Proof.
  unfold lookup. intro H. apply find_some in H as [H _]. now apply in_rev.
Qed.

Lemma lookup_name fs nm f : lookup fs nm = Some f -> fd_name (f_d f) = Some nm.
Proof.
  unfold lookup. intro H. apply find_some in H as [_ H]. unfold has_name in H.
  destruct (fd_name (f_d f)) as [nm'|]; [|discriminate]. apply String.eqb_eq in H. now subst.
Qed.

(** ** Expression evaluation under two getters *)

Section Eval.
Variable FO : FloatOps.
Notation pyval := (pyval FO).
Notation state := (state FO).

Variables (g1 g2 : field -> list Z -> res pyval) (fs : fstruct).

Definition refs_agree (key : list Z) (rs : list (string * nat)) : Prop :=
  forall nm m f v, In (nm, m) rs -> lookup fs nm = Some f ->
    g1 f (firstn m key) = Ok v -> g2 f (firstn m key) = Ok v.

Lemma refs_agree_app key a b :
  refs_agree key (a ++ b) <-> refs_agree key a /\ refs_agree key b.
Proof.
  unfold refs_agree. split.
  - intro H. split; intros; eapply H; eauto; apply in_or_app; auto.
  - intros [H1 H2] nm m f v Hin. apply in_app_or in Hin as [?|?]; [now apply H1 | now apply H2].
Qed.

Ltac binv H :=
  repeat match type of H with
  | bind _ _ = Ok _ => let x := fresh "x" in let E := fresh "E" in
      apply bind_ok_elim in H; destruct H as (x & E & H)
  end.

Lemma binop_agree op (a1 a2 b1 b2 : res pyval) v :
  (forall v, a1 = Ok v -> a2 = Ok v) -> (forall v, b1 = Ok v -> b2 = Ok v) ->
  binop_Z FO op a1 b1 = Ok v -> binop_Z FO op a2 b2 = Ok v.
Proof.
  intros Ha Hb H. unfold binop_Z in *. binv H.
  rewrite (Ha _ E), (Hb _ E0). cbn. rewrite E1, E2. exact H.
Qed.

Lemma eval_agree key e v :
  refs_agree key (expr_refs e) -> eval FO g1 fs key e = Ok v -> eval FO g2 fs key e = Ok v.
Proof.
  revert v. induction e using expr_ind'; cbn [expr_refs eval]; intros v HR HE; auto;
    try (apply refs_agree_app in HR as [HR1 HR2]; eapply binop_agree; [| |exact HE]; auto).
  - unfold eval_ref in *. destruct (lookup fs nm) as [f|] eqn:L; auto.
    destruct m, (depth f); auto.
    + apply (HR nm 0%nat f v); cbn; auto.
    + destruct (List.length key <? S m)%nat; auto. apply (HR nm (S m) f v); cbn; auto.
  - apply refs_agree_app in HR as [HR1 HR2]. binv HE.
    rewrite (IHe1 _ HR1 E), (IHe2 _ HR2 E0). exact HE.
  - apply refs_agree_app in HR as [HR1 HR2]. binv HE.
    rewrite (IHe _ HR1 E). cbn [bind]. clear E.
    induction H as [|b l Hb _ IH]; auto. cbn [flat_map] in HR2.
    apply refs_agree_app in HR2 as [HR2 HR3]. binv HE.
    rewrite (Hb _ HR2 E). cbn [bind]. rewrite E0. cbn [bind].
    destruct x1; auto.
  - apply refs_agree_app in HR as [HR1 HR2]. binv HE. rewrite (IHe1 _ HR1 E). cbn [bind].
    destruct (truthy FO x); auto.
  - apply refs_agree_app in HR as [HR1 HR2]. apply refs_agree_app in HR2 as [HR2 HR3].
    binv HE. rewrite (IHe1 _ HR1 E). cbn [bind]. destruct (truthy FO x); auto.
  - binv HE. rewrite (IHe _ HR E). cbn [bind]. rewrite E0. exact HE.
  - binv HE. rewrite (IHe _ HR E). exact HE.
Qed.

Lemma eval_shape_agree key e n :
  refs_agree key (expr_refs e) -> eval_shape FO g1 fs key e = Ok n -> eval_shape FO g2 fs key e = Ok n.
Proof.
  intros HR H. unfold eval_shape in *. binv H. rewrite (eval_agree _ _ _ HR E). exact H.
Qed.

Lemma fsize_agree f k n :
  refs_agree k (size_refs (fd_size (f_d f))) -> fsize_of FO g1 fs f k = Ok n -> fsize_of FO g2 fs f k = Ok n.
Proof.
  intros HR H. unfold fsize_of in *. destruct (fd_size (f_d f)) as [z|e]; auto.
  apply bind_ok_elim in H as (x & E & H). apply bind_ok_elim in E as (w & E1 & E2).
  rewrite (eval_agree _ _ _ HR E1). cbn [bind]. rewrite E2. exact H.
Qed.

Lemma check_condition_agree f k c :
  refs_agree k (opt_refs (fd_cond (f_d f))) ->
  check_condition FO g1 fs f k = Ok c -> check_condition FO g2 fs f k = Ok c.
Proof.
  intros HR H. unfold check_condition in *. destruct (fd_cond (f_d f)) as [e|]; auto.
  binv H. rewrite (eval_agree _ _ _ HR E). exact H.
Qed.

Lemma check_index_agree f k u :
  refs_agree (removelast k) (shape_refs f) ->
  check_index FO g1 fs f k = Ok u -> check_index FO g2 fs f k = Ok u.
Proof.
  intros HR H. unfold check_index, shape_refs in *. destruct (f_loops f) as [|sh0 shs]; auto.
  destruct (negb (Nat.eqb (List.length k) (depth f))); auto.
  destruct (last k 0 <? 0)%Z; auto.
  binv H. rewrite (eval_shape_agree _ _ _ HR E). exact H.
Qed.

Lemma unpack_agree f k b v :
  refs_agree k (size_refs (fd_size (f_d f))) ->
  unpack FO g1 fs f k b = Ok v -> unpack FO g2 fs f k b = Ok v.
Proof.
  intros HR H. unfold unpack in *. destruct (fd_ty (f_d f)) as [| | | |[]]; auto.
  binv H. rewrite (fsize_agree _ _ _ HR E). exact H.
Qed.

(** [get_base] when the stored value may differ too. *)
Lemma get_base_agree (s1 s2 : state) f k v :
  refs_agree k (own_refs f) -> refs_agree (removelast k) (shape_refs f) ->
  (fd_name (f_d f) <> None -> check_condition FO g1 fs f k = Ok true -> fd_value (f_d f) = None ->
   convert FO (f_d f) (stored FO s1 f k) = Ok v ->
   convert FO (f_d f) (stored FO s2 f k) = Ok v) ->
  get_base FO g1 fs s1 f k = Ok v -> get_base FO g2 fs s2 f k = Ok v.
Proof.
  intros HR HS HC H. unfold get_base in *. destruct (fd_name (f_d f)); auto.
  unfold own_refs in HR. apply refs_agree_app in HR as [HR1 HR2].
  apply refs_agree_app in HR2 as [HR2 HR3]. binv H.
  rewrite (check_index_agree _ _ _ HS E). cbn [bind].
  rewrite (check_condition_agree _ _ _ HR1 E0). cbn [bind].
  destruct x0; cbn [negb] in *; auto.
  destruct (fd_value (f_d f)) as [e|] eqn:V.
  - destruct (eval FO g1 fs k e) eqn:EE; cbn [bind] in H; [|discriminate].
    rewrite (eval_agree _ _ _ HR3 EE). exact H.
  - destruct (convert FO (f_d f) (stored FO s1 f k)) eqn:EC; [|discriminate].
    injection H as <-. rewrite HC; auto. discriminate.
Qed.

Lemma get_pub_agree (s1 s2 : state) f k v :
  refs_agree k (own_refs f) -> refs_agree (removelast k) (shape_refs f) ->
  (fd_name (f_d f) <> None -> check_condition FO g1 fs f k = Ok true -> fd_value (f_d f) = None ->
   forall w, convert FO (f_d f) (stored FO s1 f k) = Ok w ->
   convert FO (f_d f) (stored FO s2 f k) = Ok w) ->
  get_pub FO g1 fs s1 f k = Ok v -> get_pub FO g2 fs s2 f k = Ok v.
Proof.
  intros HR HS HC H. unfold get_pub in *. binv H.
  rewrite (get_base_agree s1 s2 f k x HR HS); auto. cbn [bind].
  destruct (fd_ty (f_d f)) eqn:T; auto. destruct x; auto.
  unfold own_refs in HR. apply refs_agree_app in HR as [_ HR2].
  apply refs_agree_app in HR2 as [HR2 _]. eapply unpack_agree; eauto.
Qed.

End Eval.

Ltac binv H :=
  repeat match type of H with
  | bind _ _ = Ok _ => let x := fresh "x" in let E := fresh "E" in
      apply bind_ok_elim in H; destruct H as (x & E & H)
  end.

(** More recursion depth never changes a successful read. *)
Lemma getf_mono_S FO fs s : forall n f k v,
  getf FO n fs s f k = Ok v -> getf FO (S n) fs s f k = Ok v.
Proof.
  induction n as [|n IH]; intros f k v H; [discriminate|].
  change (getf FO (S (S n)) fs s f k) with (get_pub FO (getf FO (S n) fs s) fs s f k).
  change (getf FO (S n) fs s f k) with (get_pub FO (getf FO n fs s) fs s f k) in H.
  eapply get_pub_agree; [| | |exact H]; auto; intros ? ? ? ? _ _; apply IH.
Qed.

Lemma getf_mono FO fs s n m f k v : (n <= m)%nat ->
  getf FO n fs s f k = Ok v -> getf FO m fs s f k = Ok v.
Proof. intro H. induction H; auto. intro E. apply getf_mono_S. auto. Qed.

(** ** The traversals, unfolded *)

Section Trav.
Variable FO : FloatOps.

Lemma write_item_loop fs s lead sh its :
  write_item FO fs s lead (ILoop sh its) =
  (do n <- eval_shape FO (G FO fs s) fs lead sh;
   concat_map_res (fun i => write_items FO fs s (lead ++ [i]) its) (zrange n)).
Proof.
  cbn [write_item]. destruct (eval_shape FO (G FO fs s) fs lead sh) as [n|]; auto. cbn [bind].
  induction (zrange n) as [|i l IH]; auto. cbn [concat_map_res]. rewrite IH.
  match goal with |- bind ?a _ = bind ?b _ => assert (E : a = b) end.
  { unfold write_items. clear. induction its as [|it its IH]; cbn [concat_map_res]; auto. now rewrite IH. }
  now rewrite E.
Qed.

Lemma read_item_loop fs lit lead sh its p :
  read_item FO fs lit lead (ILoop sh its) p =
  (do n <- eval_shape FO (G FO fs (fst p)) fs lead sh;
   fold_res (fun i p => read_items FO fs lit (lead ++ [i]) its p) (zrange n) p).
Proof.
  cbn [read_item]. destruct (eval_shape FO (G FO fs (fst p)) fs lead sh) as [n|]; auto. cbn [bind].
  revert p. induction (zrange n) as [|i l IH]; intro p; auto. cbn [fold_res].
  match goal with |- bind ?a _ = bind ?b _ => assert (E : a = b) end.
  { unfold read_items. clear. revert p. induction its as [|it its IH]; intro p; cbn [fold_res]; auto.
    destruct (read_item FO fs lit (lead ++ [i]) it p); cbn [bind]; auto. }
  rewrite E. destruct (read_items FO fs lit (lead ++ [i]) its p); cbn [bind]; auto.
Qed.

Lemma concat_map_res_ok_cons {A B} (f : A -> res (list B)) a l r :
  concat_map_res f (a :: l) = Ok r <->
  exists x y, f a = Ok x /\ concat_map_res f l = Ok y /\ r = x ++ y.
Proof.
  cbn. rewrite bind_ok. split.
  - intros (x & H1 & H2). apply bind_ok_elim in H2 as (y & H2 & H3). injection H3 as <-. eauto.
  - intros (x & y & H1 & H2 & ->). exists x. split; auto. rewrite H2. reflexivity.
Qed.

End Trav.

Lemma item_ok_loop fs env d sh its :
  item_ok fs env d (ILoop sh its) = forallb (ref_ok fs env d) (expr_refs sh) && items_ok fs env (S d) its.
Proof.
  cbn. f_equal. revert env. induction its as [|it its IH]; intro env; auto. cbn.
  unfold env_after. now rewrite IH.
Qed.
