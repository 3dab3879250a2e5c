(** What merging a delta with another file gives (C50). *)
From Verif Require Import Base BaseLemmas Engine EngineLemmas Codec Tre TreLemmas TrePlace Image DescsHdr File Delta.
Open Scope list_scope.

Section P.
Variable FO : FloatOps.
Notation seg := (seg FO).
Notation sdata := (sdata FO).
Notation nfile := (nfile FO).
Notation dseg := (dseg FO).
Notation delta := (delta FO).

(** The segment is known by the names the delta gives. *)
Definition named (k : kind) (key : list (pyval FO)) (s : seg) (b : bool) : Prop :=
  match seg_key FO k s with
  | Ok (Some x) => keys_eqb FO x key = Ok b
  | Ok None => b = false
  | Err _ => False
  end.
(** The data of a merged segment: that of the delta, or that of the one segment of the other file
    known by the same names. *)
Definition data_from (k : kind) (x : dseg) (base : list seg) (d : sdata) : Prop :=
  match g_data FO x with
  | Some y => d = y
  | None => exists key l s l', g_key FO x = Some key /\ base = l ++ s :: l' /\ s_data FO s = d /\ named k key s true
              /\ Forall (fun s' => named k key s' false) (l ++ l')
  end.
Definition made_of (k : kind) (base : list seg) (x : dseg) (s : seg) : Prop :=
  s_hdr FO s = g_hdr FO x /\ s_ush FO s = g_ush FO x /\ s_tres FO s = g_tres FO x /\ s_linked FO s = true /\ data_from k x base (s_data FO s).

Lemma with_key_cons k key s l : with_key FO k key (s :: l) =
  do o <- seg_key FO k s; do b <- match o with None => Ok false | Some x => keys_eqb FO x key end;
  do r <- with_key FO k key l; Ok (if b then s :: r else r).
Proof. reflexivity. Qed.
Lemma named_step k key s b : named k key s b <-> (do o <- seg_key FO k s; match o with None => Ok false | Some x => keys_eqb FO x key end) = Ok b.
Proof.
  unfold named. destruct (seg_key FO k s) as [[x|]|e]; cbn [bind].
  - reflexivity.
  - split; [intros ->; reflexivity|intro H; now injection H].
  - split; [contradiction|intro H; discriminate H].
Qed.
Lemma with_key_filter k key : forall l r, with_key FO k key l = Ok r <->
  exists bs, Forall2 (named k key) l bs /\ r = flat_map (fun p : seg * bool => if snd p then [fst p] else []) (combine l bs).
Proof.
  induction l as [|s l IH]; intro r.
  - cbn [with_key]. split.
    + intro H. injection H as <-. exists []. split; [constructor|reflexivity].
    + intros (bs & F & ->). inversion F. reflexivity.
  - rewrite with_key_cons. split.
    + intro H. apply bind_ok_elim in H as (o & O & H). apply bind_ok_elim in H as (b & B & H). apply bind_ok_elim in H as (r' & R & H). injection H as <-.
      apply IH in R as (bs & F & ->). exists (b :: bs). split.
      * constructor; [|exact F]. apply named_step. rewrite O. exact B.
      * cbn. now destruct b.
    + intros (bs & F & ->). inversion F as [|? b ? bs' N F']. subst. apply named_step in N. apply bind_ok_elim in N as (o & O & N). rewrite O. cbn [bind]. rewrite N. cbn [bind].
      rewrite (proj2 (IH _) (ex_intro _ bs' (conj F' eq_refl))). cbn. now destruct b.
Qed.
Lemma picked_none (k : kind) key : forall (l : list seg) bs, Forall2 (named k key) l bs ->
  flat_map (fun p : seg * bool => if snd p then [fst p] else []) (combine l bs) = [] -> Forall (fun s => named k key s false) l.
Proof. induction 1 as [|s b l bs N F IH]; cbn; intro H; [constructor|]. destruct b; [discriminate H|]. constructor; auto. Qed.
Lemma one_named k key s : forall base, with_key FO k key base = Ok [s] <->
  exists l l', base = l ++ s :: l' /\ named k key s true /\ Forall (fun x => named k key x false) (l ++ l').
Proof.
  intro base. rewrite with_key_filter. split.
  - intros (bs & F & H). induction F as [|x b base bs N F IH]; cbn in H; [discriminate H|]. destruct b; cbn in H.
    + injection H as <- H. exists [], base. split; [reflexivity|]. split; [exact N|]. cbn. symmetry in H. exact (picked_none _ _ _ _ F H).
    + destruct (IH H) as (l & l' & -> & A & B). exists (x :: l), l'. repeat split; auto. cbn. constructor; auto.
  - intros (l & l' & -> & N & F). apply Forall_app in F as (F & F'). exists (repeat false (List.length l) ++ true :: repeat false (List.length l')).
    assert (Z : forall m : list seg, Forall (fun x => named k key x false) m -> Forall2 (named k key) m (repeat false (List.length m))
              /\ forall n bs, flat_map (fun p : seg * bool => if snd p then [fst p] else []) (combine (m ++ n) (repeat false (List.length m) ++ bs))
                            = flat_map (fun p : seg * bool => if snd p then [fst p] else []) (combine n bs)).
    { induction 1 as [|x m H _ (A & B)]; cbn; [split; [constructor|reflexivity]|]. split; [constructor; auto|]. intros n bs. apply B. }
    destruct (Z l F) as (Z1 & Z2). destruct (Z l' F') as (Z3 & Z4). split; [apply Forall2_app; [exact Z1|constructor; auto]|].
    rewrite Z2. cbn. specialize (Z4 [] []). rewrite !app_nil_r in Z4. now rewrite Z4.
Qed.
Lemma merge_data_from k (x : dseg) base d : merge_data FO k x base = Ok d <-> data_from k x base d.
Proof.
  unfold merge_data, data_from. destruct (g_data FO x) as [y|]; [split; [intro H; now injection H|intros ->; reflexivity]|]. split.
  - intro H. apply bind_ok_elim in H as (l & L & H). destruct l as [|s [|? ?]]; [discriminate H| |discriminate H]. injection H as <-.
    destruct (g_key FO x) as [key|]; [|discriminate L]. apply one_named in L as (l & l' & E & N & F). exists key, l, s, l'. auto.
  - intros (key & l & s & l' & E & B & D & N & F). rewrite E. rewrite (proj2 (one_named k key s base)); [cbn [bind]; now rewrite D|eauto].
Qed.
Lemma merge_seg_from k base (x : dseg) s : merge_seg FO k base x = Ok s <-> made_of k base x s.
Proof.
  unfold merge_seg, made_of. split.
  - intro H. apply bind_ok_elim in H as (d & D & H). injection H as <-. cbn. apply merge_data_from in D. auto 6.
  - intros (A & B & D & E & F). apply merge_data_from in F. rewrite F. cbn [bind]. destruct s; cbn in *. congruence.
Qed.
Lemma merge_segs_from k base : forall l r, map_res (merge_seg FO k base) l = Ok r <-> Forall2 (made_of k base) l r.
Proof.
  induction l as [|x l IH]; intro r; cbn [map_res].
  - split; [intro H; injection H as <-; constructor|intro H; inversion H; reflexivity].
  - split.
    + intro H. apply bind_ok_elim in H as (s & S & H). apply bind_ok_elim in H as (r' & R & H). injection H as <-. constructor; [now apply merge_seg_from|now apply IH].
    + intro H. inversion H as [|? s ? r' S F]. subst. apply merge_seg_from in S. rewrite S. cbn [bind]. rewrite (proj2 (IH _) F). reflexivity.
Qed.

(** What the merged file shows: the header of the delta, and its TREs and segments where it has any,
    otherwise those of the other file. *)
Theorem C50_merge d f g : merge_delta FO d f = Ok g ->
  nf_hdr FO g = d_hdr FO d
  /\ (d_tres FO d = [] -> nf_tres FO g = nf_tres FO f) /\ (d_tres FO d <> [] -> nf_tres FO g = d_tres FO d)
  /\ forall k, (d_segs FO d k = [] -> nf_segs FO g k = nf_segs FO f k)
        /\ (d_segs FO d k <> [] -> Forall2 (made_of k (nf_segs FO f k)) (d_segs FO d k) (nf_segs FO g k)).
Proof.
  unfold merge_delta. intro M. apply bind_ok_elim in M as (im & M1 & M). apply bind_ok_elim in M as (gr & M2 & M). apply bind_ok_elim in M as (tx & M3 & M).
  apply bind_ok_elim in M as (de & M4 & M). apply bind_ok_elim in M as (re & M5 & M). injection M as <-. cbn [nf_hdr nf_tres nf_segs].
  split; [reflexivity|]. split; [intros ->; reflexivity|]. split; [destruct (d_tres FO d); [contradiction|reflexivity]|].
  intros k. apply merge_segs_from in M1, M2, M3, M4, M5.
  assert (W : forall l r, Forall2 (made_of k (nf_segs FO f k)) l r -> (l = [] -> match r with [] => nf_segs FO f k | _ => r end = nf_segs FO f k)
     /\ (l <> [] -> Forall2 (made_of k (nf_segs FO f k)) l (match r with [] => nf_segs FO f k | _ => r end))).
  { intros l r F. split; [intros ->; inversion F; reflexivity|]. intro N. destruct r; [inversion F; congruence|exact F]. }
  destruct k; auto.
Qed.
(** It can be made exactly if each segment without data of its own finds its match. *)
Theorem C50_merges d f : (exists g, merge_delta FO d f = Ok g) <-> forall k x, In x (d_segs FO d k) -> exists y, data_from k x (nf_segs FO f k) y.
Proof.
  split.
  - intros (g & M) k x I. destruct (C50_merge d f g M) as (_ & _ & _ & S). destruct (S k) as (_ & F). destruct (d_segs FO d k) as [|x0 l] eqn:E; [destruct I|].
    specialize (F ltac:(discriminate)). rewrite <- E in *. clear E. revert I. induction F as [|x1 s l1 l2 H _ IH]; [intros []|]. intros [<-|I]; [|auto]. exists (s_data FO s). apply H.
  - intro H. assert (W : forall k, exists r, map_res (merge_seg FO k (nf_segs FO f k)) (d_segs FO d k) = Ok r).
    { intro k. specialize (H k). induction (d_segs FO d k) as [|x l IH]; [exists []; reflexivity|]. destruct (H x (or_introl eq_refl)) as (y & Y).
      destruct IH as (r & R); [intros z I; apply H; now right|]. exists ({| s_hdr := g_hdr FO x; s_ush := g_ush FO x; s_tres := g_tres FO x; s_data := y; s_linked := true |} :: r).
      apply merge_segs_from. constructor; [repeat split; auto|now apply merge_segs_from]. }
    unfold merge_delta. destruct (W KImage) as (r1 & ->). destruct (W KGraphic) as (r2 & ->). destruct (W KText) as (r3 & ->).
    destruct (W KDes) as (r4 & ->). destruct (W KRes) as (r5 & ->). cbn [bind]. eauto.
Qed.
(** The copies of the headers have no attributes but the fields. *)
Lemma blank_attr rows : forall nms (h h' : hdr FO), forallb (fun nm => match lookup (mk_fs rows) nm with Some _ => true | None => false end) nms = true ->
  blank_areas FO rows nms h = Ok h' -> h_attr h' = h_attr h.
Proof.
  induction nms as [|nm nms IH]; intros h h' HF B; cbn [blank_areas] in B; [now injection B as <-|]. cbn [forallb] in HF. apply andb_true_iff in HF as (F1 & F2).
  destruct (TrePlace.hset FO rows h nm (VBytes [])) as [h1 r] eqn:E. apply bind_ok_elim in B as (? & _ & B). rewrite (IH _ _ F2 B).
  unfold TrePlace.hset in E. destruct (lookup (mk_fs rows) nm); [|discriminate F1]. destruct (set FO (mk_fs rows) (h_st h) nm [] (SVal (VBytes []))) in E. now injection E as <- _.
Qed.
Lemma sub_named k : forallb (fun nm => match lookup (mk_fs (sub_rows k)) nm with Some _ => true | None => false end) (tre_fields k) = true.
Proof. destruct k; vm_compute; reflexivity. Qed.
Lemma file_named : forallb (fun nm => match lookup (mk_fs desc_NitfFileHeader) nm with Some _ => true | None => false end) ["udhd"; "xhd"]%string = true.
Proof. vm_compute. reflexivity. Qed.
Lemma seg_attr k b s g : seg_delta FO k b s = Ok g -> h_attr (g_hdr FO g) = [].
Proof.
  unfold seg_delta. intro H. apply bind_ok_elim in H as (h & C & H). apply bind_ok_elim in H as (h' & B & H). do 4 (apply bind_ok_elim in H as (? & _ & H)). injection H as <-. cbn [g_hdr].
  rewrite (blank_attr _ _ _ _ (sub_named k) B). unfold copy_hdr in C. apply bind_ok_elim in C as (? & _ & C). now injection C as <-.
Qed.
Theorem C50_attributes f d : create_delta FO f = Ok d ->
  h_attr (d_hdr FO d) = [] /\ forall k x, In x (d_segs FO d k) -> h_attr (g_hdr FO x) = [].
Proof.
  assert (V : forall A B (h : A -> res B) (P : B -> Prop) l r, (forall a b, h a = Ok b -> P b) -> map_res h l = Ok r -> forall b, In b r -> P b).
  { intros A B h P l. induction l as [|a l IH]; intros r HP R b Hb; cbn [map_res] in R; [injection R as <-; destruct Hb|].
    apply bind_ok_elim in R as (b' & E & R). apply bind_ok_elim in R as (r' & R' & R). injection R as <-. destruct Hb as [<-|Hb]; eauto. }
  unfold create_delta. intro D. apply bind_ok_elim in D as (ts & T1 & D). apply bind_ok_elim in D as (h1 & C1 & D).
  apply bind_ok_elim in D as (h2 & B & D). apply bind_ok_elim in D as (im & I1 & D). apply bind_ok_elim in D as (tx & X1 & D).
  apply bind_ok_elim in D as (de & E1 & D). injection D as <-. cbn [d_segs d_hdr]. split.
  - rewrite (blank_attr _ _ _ _ file_named B). unfold copy_hdr in C1. apply bind_ok_elim in C1 as (? & _ & C1). now injection C1 as <-.
  - intros [] x I; try destruct I.
    + apply (V _ _ _ (fun g => h_attr (g_hdr FO g) = []) _ _ (seg_attr KImage false) I1 x I).
    + apply (V _ _ _ (fun g => h_attr (g_hdr FO g) = []) _ _ (seg_attr KText true) X1 x I).
    + clear - E1 I. revert de E1 I. induction (nf_segs FO f KDes) as [|s l IH]; intros de E1 I; cbn [des_deltas] in E1; [injection E1 as <-; destruct I|].
      apply bind_ok_elim in E1 as ([] & _ & E1); [eauto|]. apply bind_ok_elim in E1 as (g & G1 & E1). apply bind_ok_elim in E1 as (r & R & E1). injection E1 as <-.
      destruct I as [<-|I]; [exact (seg_attr _ _ _ _ G1)|eauto].
Qed.
(** A delta says nothing of graphics and reserved segments, and always has the data of texts; it has no data of images. *)
Theorem C50_kept f d : create_delta FO f = Ok d ->
  d_segs FO d KGraphic = [] /\ d_segs FO d KRes = []
  /\ List.length (d_tres FO d) = List.length (nf_tres FO f)
  /\ List.length (d_segs FO d KImage) = List.length (nf_segs FO f KImage) /\ List.length (d_segs FO d KText) = List.length (nf_segs FO f KText)
  /\ (forall x, In x (d_segs FO d KImage) -> g_data FO x = None) /\ forall x, In x (d_segs FO d KText) -> g_data FO x <> None.
Proof.
  assert (W : forall A B (h : A -> res B) l r, map_res h l = Ok r -> List.length r = List.length l).
  { intros A B h. induction l as [|a l IH]; intros r R; cbn [map_res] in R; [injection R as <-; reflexivity|].
    apply bind_ok_elim in R as (b & _ & R). apply bind_ok_elim in R as (r' & R' & R). injection R as <-. cbn. f_equal. auto. }
  assert (V : forall A B (h : A -> res B) (P : B -> Prop) l r, (forall a b, h a = Ok b -> P b) -> map_res h l = Ok r -> forall b, In b r -> P b).
  { intros A B h P l. induction l as [|a l IH]; intros r HP R b Hb; cbn [map_res] in R; [injection R as <-; destruct Hb|].
    apply bind_ok_elim in R as (b' & E & R). apply bind_ok_elim in R as (r' & R' & R). injection R as <-. destruct Hb as [<-|Hb]; eauto. }
  unfold create_delta. intro D. apply bind_ok_elim in D as (ts & T1 & D). apply bind_ok_elim in D as (h1 & C1 & D).
  apply bind_ok_elim in D as (h2 & B & D). apply bind_ok_elim in D as (im & I1 & D). apply bind_ok_elim in D as (tx & X1 & D).
  apply bind_ok_elim in D as (de & E1 & D). injection D as <-. cbn [d_segs d_tres].
  split; [reflexivity|]. split; [reflexivity|]. split; [exact (W _ _ _ _ _ T1)|]. split; [exact (W _ _ _ _ _ I1)|]. split; [exact (W _ _ _ _ _ X1)|]. split.
  - apply (V _ _ _ _ _ _) with (2 := I1). intros a b H. unfold seg_delta in H.
    do 5 (apply bind_ok_elim in H as (? & _ & H)). apply bind_ok_elim in H as (zz & X & H). injection X as <-. injection H as <-. reflexivity.
  - apply (V _ _ _ _ _ _) with (2 := X1). intros a b H. unfold seg_delta in H.
    do 5 (apply bind_ok_elim in H as (? & _ & H)). apply bind_ok_elim in H as (zz & X & H). apply bind_ok_elim in X as (yy & _ & X). injection X as <-. injection H as <-. discriminate.
Qed.
End P.
