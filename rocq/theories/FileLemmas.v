(** Facts about writing whole files. *)
From Verif Require Import Base BaseLemmas Engine Wf EngineLemmas Codec RoundTrip Rewrite Literal
  Positions Keys Deps Assign Update Spec DescsHdr Utf8 Tre TreLemmas Handles TrePlace TrePlaceLemmas
  Scalar Security Image ImageLemmas File.
From Coq Require Import ZifyBool ZifyNat ZifyN.
Open Scope list_scope.
Ltac Zify.zify_post_hook ::= idtac.

Notation hrows := desc_NitfFileHeader.
Notation hfs := (mk_fs desc_NitfFileHeader).

Lemma hrows_wf : wf_rows hrows = true.
Proof. vm_compute. reflexivity. Qed.

(** ** The fields of the file header that are patched *)
Definition no_field : field :=
  {| f_id := 0; f_d := Build_fdesc None (SzInt 0) TStr FrNone DfNone None false 32%N false None 0%Z false; f_loops := [] |}.
Definition hfld (nm : string) : field := match lookup hfs nm with Some f => f | None => no_field end.

(** The names of the two sizes of a segment: of its subheader, of its data. *)
Definition size_name (k : kind) (sub : bool) : string := if sub then fst (size_names k) else snd (size_names k).

Definition int_scalarb (nm : string) : bool :=
  scalarb hrows nm && match fd_ty (f_d (hfld nm)) with TInt => negb (fd_optional (f_d (hfld nm))) | _ => false end.
Lemma int_scalarb_ok nm : int_scalarb nm = true ->
  scalar hrows nm (hfld nm) /\ fd_ty (f_d (hfld nm)) = TInt /\ fd_optional (f_d (hfld nm)) = false.
Proof.
  unfold int_scalarb. intro H. apply andb_true_iff in H as [H1 H2]. destruct (scalarb_ok _ _ H1) as (f & Hf).
  split.
  - unfold hfld. destruct Hf as (HL & Hf). rewrite HL. split; auto.
  - destruct (fd_ty (f_d (hfld nm))); try discriminate. split; auto. now apply negb_true_iff.
Qed.

Lemma count_fld k : scalar hrows (count_name k) (hfld (count_name k))
  /\ fd_ty (f_d (hfld (count_name k))) = TInt /\ fd_optional (f_d (hfld (count_name k))) = false.
Proof. apply int_scalarb_ok. destruct k; vm_compute; reflexivity. Qed.
Lemma total_fld nm : nm = "hl"%string \/ nm = "fl"%string ->
  (scalar hrows nm (hfld nm) /\ fd_ty (f_d (hfld nm)) = TInt /\ fd_optional (f_d (hfld nm)) = false)
  /\ unreferenced hfs (hfld nm).
Proof.
  intro H. split.
  - apply int_scalarb_ok. destruct H as [->| ->]; vm_compute; reflexivity.
  - apply unreferencedb_ok. destruct H as [->| ->]; vm_compute; reflexivity.
Qed.

(** A field in the loop over the segments of a kind. *)
Record looped (nm c : string) (f : field) : Prop := {
  lp_look : lookup hfs nm = Some f; lp_loops : f_loops f = [EFld c 0]; lp_cond : fd_cond (f_d f) = None;
  lp_hard : fd_hard (f_d f) = false; lp_val : fd_value (f_d f) = None; lp_ty : fd_ty (f_d f) = TInt;
  lp_opt : fd_optional (f_d f) = false; lp_unref : unreferenced hfs f }.
Lemma size_fld k b : looped (size_name k b) (count_name k) (hfld (size_name k b)).
Proof.
  destruct k, b; (split; [vm_compute; reflexivity .. |apply unreferencedb_ok; vm_compute; reflexivity]).
Qed.

Lemma size_name_inj k b k' b' : size_name k b = size_name k' b' -> k = k' /\ b = b'.
Proof. destruct k, b, k', b'; cbn; intro H; try discriminate; auto. Qed.
Lemma count_name_inj k k' : count_name k = count_name k' -> k = k'.
Proof. destruct k, k'; cbn; intro H; try discriminate; auto. Qed.
Lemma count_not_size k k' b : count_name k <> size_name k' b.
Proof. destruct k, k', b; discriminate. Qed.

Global Opaque hfld.

Section F.
Variable FO : FloatOps.
Notation st := (state FO).
Notation hdr := (hdr FO).
Notation seg := (seg FO).

Lemma conv_of_int d v z : fd_ty d = TInt -> fd_optional d = false -> v = SVal (VInt z) -> conv_of FO d v = Ok (VInt z).
Proof. intros T O ->. unfold conv_of, convert. rewrite T. destruct (fd_optional d); [discriminate|]. reflexivity. Qed.

(** [n k] segments of each kind. *)
Definition counts (s : st) (n : kind -> nat) : Prop :=
  forall k, get FO hfs s (count_name k) [] = Ok (VInt (Z.of_nat (n k))).

Lemma size_shape (s : st) n k key b : counts s n ->
  f_loops (hfld (size_name k b)) = [EFld (count_name k) 0]
  /\ eval_shape FO (G FO hfs s) hfs key (EFld (count_name k) 0) = Ok (Z.of_nat (n k)).
Proof.
  intro C. split; [apply (lp_loops _ _ _ (size_fld k b))|].
  unfold eval_shape. destruct (count_fld k) as ((L & L1 & _) & _).
  rewrite (eval_fld0 FO hrows hrows_wf s key _ _ L L1), (C k). reflexivity.
Qed.

Lemma size_keys (s : st) n k b : counts s n ->
  exists ks, field_keys FO hfs s (hfld (size_name k b)) = Ok ks
    /\ forall i, (i < n k)%nat -> In [Z.of_nat i] ks.
Proof.
  intro C. unfold field_keys. rewrite (proj1 (size_shape s n k [] b C)). cbn [keys_from].
  rewrite (proj2 (size_shape s n k [] b C)). cbn [bind].
  assert (H : forall l, concat_map_res (fun i : Z => Ok [[i]]) l = Ok (map (fun i => [i]) l)).
  { induction l as [|a l IH]; auto. cbn [concat_map_res]. rewrite IH. reflexivity. }
  rewrite H. eexists. split; [reflexivity|]. intros i Hi. apply in_map_iff. exists (Z.of_nat i). split; auto.
  apply in_zrange. lia.
Qed.

Lemma get_size (s : st) n k b i : counts s n -> (i < n k)%nat ->
  get FO hfs s (size_name k b) [Z.of_nat i] = conv_of FO (f_d (hfld (size_name k b))) (stored FO s (hfld (size_name k b)) [Z.of_nat i]).
Proof.
  intros C Hi. destruct (size_fld k b) as [L L1 L2 L3 L4 L5 L6 _]. unfold get. rewrite L.
  unfold key_shape_ok, depth. rewrite L1. cbn [List.length Nat.eqb].
  unfold fget, get_pub, get_base, check_index, depth, check_condition. rewrite L1, L2, L4, L5.
  rewrite (has_name_lookup hrows _ _ L). cbn [List.length Nat.eqb negb last removelast].
  replace (Z.of_nat i <? 0)%Z with false by lia. rewrite (proj2 (size_shape s n k [] b C)). cbn [bind].
  replace (Z.of_nat (n k) <=? Z.of_nat i)%Z with false by lia. cbn [bind negb].
  unfold conv_of. destruct (convert FO _ _); reflexivity.
Qed.

Lemma get_size_int (s : st) n k b i z : counts s n -> (i < n k)%nat ->
  stored FO s (hfld (size_name k b)) [Z.of_nat i] = SVal (VInt z) ->
  get FO hfs s (size_name k b) [Z.of_nat i] = Ok (VInt z).
Proof.
  intros C Hi E. rewrite (get_size s n k b i C Hi). destruct (size_fld k b). apply conv_of_int; auto.
Qed.

Lemma hfld_in nm f : lookup hfs nm = Some f -> In f (fs_fields hfs).
Proof. apply lookup_in. Qed.

(** ** The header kept in step with the file *)

(** [file] is the header as [s] has it, then [tail]. *)
Definition step_ok (n : kind -> nat) (s : st) (file tail : list N) : Prop :=
  in_file FO hfs s [] file tail /\ counts s n.

Lemma step_app n s file tail x : step_ok n s file tail -> step_ok n s (file ++ x) (tail ++ x).
Proof.
  intros ((cs & H1 & H2 & H3) & C). split; auto. exists cs. split; auto. split; auto. rewrite H2. now rewrite !app_assoc.
Qed.

Lemma counts_assigned (s : st) n nm f key v : lookup hfs nm = Some f -> (forall k, count_name k <> nm) ->
  counts s n -> counts (assigned FO s f key v) n.
Proof.
  intros HL HN C k. destruct (count_fld k) as (S & _). rewrite (get_scalar FO hrows _ _ _ S).
  rewrite (assigned_same FO hrows); [|eapply lookup_in; eauto|eapply lookup_in; apply S|
    eapply (lookup_ne hrows (count_name k) nm); eauto; apply S].
  rewrite <- (get_scalar FO hrows _ _ _ S). apply C.
Qed.

Lemma step_size n (s s' : st) file tail k b i v file' :
  step_ok n s file tail -> (i < n k)%nat ->
  update_field FO hfs s file (size_name k b) [Z.of_nat i] v = (s', Ok file') ->
  step_ok n s' file' tail /\ List.length file' = List.length file
  /\ s' = assigned FO s (hfld (size_name k b)) [Z.of_nat i] v.
Proof.
  intros (HI & C) Hi HU. destruct (size_keys s n k b C) as (ks & K1 & K2). destruct (size_fld k b) as [L L1 L2 L3 L4 L5 L6 L7].
  destruct (update_in_file FO hrows s s' [] file tail _ _ ks _ v file' hrows_wf L L7 ltac:(now rewrite L5) K1 (K2 i Hi) HI HU)
    as (H1 & H2 & H3 & _).
  split; [split; [exact H1|]|split; [exact H3|exact H2]]. rewrite H2. apply (counts_assigned s n _ _ _ _ L); [|exact C].
  intro k'. apply count_not_size.
Qed.

Lemma step_total n (s s' : st) file tail nm v file' : nm = "hl"%string \/ nm = "fl"%string ->
  step_ok n s file tail -> update_field FO hfs s file nm [] v = (s', Ok file') ->
  step_ok n s' file' tail /\ List.length file' = List.length file /\ s' = assigned FO s (hfld nm) [] v.
Proof.
  intros Hnm (HI & C) HU. destruct (total_fld nm Hnm) as (((L & L1 & L2 & L3 & L4 & L5) & T & O) & U).
  assert (K : field_keys FO hfs s (hfld nm) = Ok [[]]) by (unfold field_keys; rewrite L1; reflexivity).
  destruct (update_in_file FO hrows s s' [] file tail _ _ _ _ v file' hrows_wf L U L5 K (or_introl eq_refl) HI HU)
    as (H1 & H2 & H3 & _).
  split; [split; [exact H1|]|split; [exact H3|exact H2]]. rewrite H2. apply (counts_assigned s n _ _ _ _ L); [|exact C].
  intro k. destruct Hnm as [->| ->], k; discriminate.
Qed.

Lemma update_impl (s s' : st) file nm key v file' : update_field FO hfs s file nm key v = (s', Ok file') -> st_impl FO s = false.
Proof.
  unfold update_field. destruct (lookup hfs nm) as [f|]; [|discriminate]. intro H.
  destruct (fset FO hfs s f key v) as [s1 [[]|e]] eqn:E; [|discriminate]. clear H. unfold fset, fuel in E. cbn [setf] in E.
  assert (B : forall sub w, set_base FO sub hfs s f key w = (s1, Ok tt) -> st_impl FO s = false).
  { clear E. intros sub w E. apply (set_base_cases FO hfs) in E as [(_ & (e & E) & _)|(M & _)]; [discriminate|apply M]. }
  destruct (fd_ty (f_d f)); try exact (B _ _ E). destruct v as [v|]; [|discriminate].
  destruct (pack FO (G FO hfs s) hfs f key v); [exact (B _ _ E)|discriminate].
Qed.

(** ** Segments *)

(** What writing one segment does: the user subheader goes into the subheader, then both go out. *)
Definition wrote (k : kind) (s s' : seg) (p : list N * list N) : Prop :=
  exists h, put_ush FO k s = Ok h /\ s' = with_hdr FO s h
    /\ write FO (mk_fs (sub_rows k)) (h_st h) = Ok (fst p) /\ data_bytes FO h (s_data FO s) = Ok (snd p).

Inductive wrote_all (k : kind) : list seg -> list seg -> list (list N * list N) -> Prop :=
| wr_nil : wrote_all k [] [] []
| wr_cons s l s' l' p ps : wrote k s s' p -> wrote_all k l l' ps -> wrote_all k (s :: l) (s' :: l') (p :: ps).

Definition flat (ps : list (list N * list N)) : list N := List.concat (map (fun p => fst p ++ snd p) ps).

Lemma seg_write_ok E n k i (s s' : seg) (hs hs' : st) file tail file' :
  s_linked FO s = true -> step_ok n hs file tail -> (i < n k)%nat ->
  seg_write FO E k i s hs file = Ok (s', hs', file') ->
  exists p, wrote k s s' p /\ step_ok n hs' file' (tail ++ fst p ++ snd p)
    /\ List.length file' = List.length (file ++ fst p ++ snd p)
    /\ hs' = assigned FO (assigned FO hs (hfld (size_name k true)) [Z.of_nat i] (SVal (VInt (Z.of_nat (List.length (fst p))))))
               (hfld (size_name k false)) [Z.of_nat i] (SVal (VInt (Z.of_nat (List.length (snd p))))).
Proof.
  intros HL HS Hi H. unfold seg_write in H. rewrite HL in H.
  apply bind_ok_elim in H as (c & _ & H). apply bind_ok_elim in H as (u & _ & H).
  apply bind_ok_elim in H as (h & Hh & H). apply bind_ok_elim in H as (b & Hb & H).
  apply bind_ok_elim in H as (d & Hd & H).
  assert (Hd' : data_bytes FO h (s_data FO s) = Ok d) by (destruct (data_bytes FO h (s_data FO s)); congruence).
  change (fst (size_names k)) with (size_name k true) in H. change (snd (size_names k)) with (size_name k false) in H.
  destruct (update_field FO hfs hs (file ++ b ++ d) (size_name k true) _ _) as [hs1 [file2|e]] eqn:U1; [|discriminate].
  destruct (update_field FO hfs hs1 file2 (size_name k false) _ _) as [hs2 [file3|e]] eqn:U2; [|discriminate].
  injection H as <- <- <-.
  destruct (step_size n _ _ _ _ _ _ _ _ _ (step_app n _ _ _ (b ++ d) HS) Hi U1) as (S1 & L1 & E1).
  destruct (step_size n _ _ _ _ _ _ _ _ _ S1 Hi U2) as (S2 & L2 & E2).
  exists (b, d). cbn [fst snd]. split; [exists h; auto|]. split; [exact S2|]. split; [congruence|]. rewrite E2, E1. reflexivity.
Qed.

(** The value stored for segment [j] of kind [k]. *)
Definition size_stored (s : st) (k : kind) (b : bool) (j : nat) : sval FO :=
  stored FO s (hfld (size_name k b)) [Z.of_nat j].

Lemma segs_write_ok E n k l : forall i (l' : list seg) (hs hs' : st) file tail file',
  Forall (fun s => s_linked FO s = true) l -> step_ok n hs file tail -> (i + List.length l <= n k)%nat ->
  segs_write FO E k i l hs file = Ok (l', hs', file') ->
  exists ps, wrote_all k l l' ps /\ step_ok n hs' file' (tail ++ flat ps)
    /\ List.length file' = List.length (file ++ flat ps)
    /\ (forall j p, nth_error ps j = Some p ->
          size_stored hs' k true (i + j) = SVal (VInt (Z.of_nat (List.length (fst p))))
          /\ size_stored hs' k false (i + j) = SVal (VInt (Z.of_nat (List.length (snd p)))))
    /\ (forall y q, In y (fs_fields hfs) ->
          (forall b j, (i <= j < i + List.length l)%nat -> ~ (y = hfld (size_name k b) /\ q = [Z.of_nat j])) ->
          stored FO hs' y q = stored FO hs y q).
Proof.
  induction l as [|s l IH]; intros i l' hs hs' file tail file' HL HS Hi H.
  - injection H as <- <- <-. exists []. split; [constructor|]. unfold flat. cbn [map List.concat]. rewrite !app_nil_r.
    split; [exact HS|]. split; [reflexivity|]. split; [intros [|j] p Hp; discriminate|reflexivity].
  - cbn [segs_write] in H. apply bind_ok_elim in H as ([[s' hs1] file1] & H1 & H).
    apply bind_ok_elim in H as ([[r hs2] file2] & H2 & H). injection H as <- <- <-.
    inversion HL as [|? ? HL1 HL2]; subst. cbn [List.length] in Hi.
    assert (Hi1 : (i < n k)%nat) by (clear - Hi; lia). assert (Hi2 : (S i + List.length l <= n k)%nat) by (clear - Hi; lia).
    destruct (seg_write_ok E n k i s s' hs hs1 file tail file1 HL1 HS Hi1 H1) as (p & W & S1 & Len1 & E1).
    destruct (IH (S i) r hs1 hs2 file1 _ file2 HL2 S1 Hi2 H2) as (ps & W2 & S2 & Len2 & N2 & F2).
    exists (p :: ps). split; [constructor; auto|].
    assert (FL : flat (p :: ps) = (fst p ++ snd p) ++ flat ps) by reflexivity. rewrite FL.
    split; [rewrite <- app_assoc in S2; exact S2|].
    split; [clear - Len1 Len2; rewrite Len2, !app_length, Len1, !app_length; lia|].
    assert (Lt := size_fld k true). assert (Lf := size_fld k false).
    assert (It := lookup_in _ _ _ (lp_look _ _ _ Lt)). assert (If := lookup_in _ _ _ (lp_look _ _ _ Lf)).
    assert (Ne : hfld (size_name k true) <> hfld (size_name k false)).
    { apply (lookup_ne hrows _ _ _ _ (lp_look _ _ _ Lt) (lp_look _ _ _ Lf)). intro E0. apply size_name_inj in E0. now destruct E0. }
    clear HS S1 S2 H1 H2 IH W W2 HL HL1 HL2 Len1 Len2. split.
    + intros [|j] q Hq.
      * cbn [nth_error] in Hq. injection Hq as <-. rewrite Nat.add_0_r. unfold size_stored.
        assert (A : forall b : bool, forall j : nat, (S i <= j < S i + List.length l)%nat ->
                    forall b' : bool, ~ (hfld (size_name k b') = hfld (size_name k b) /\ [Z.of_nat i] = [Z.of_nat j])).
        { intros b j Hj b' (_ & E0). injection E0 as E0. clear - Hj E0. lia. }
        rewrite (F2 (hfld (size_name k true)) [Z.of_nat i] It (fun b j Hj => A b j Hj true)).
        rewrite (F2 (hfld (size_name k false)) [Z.of_nat i] If (fun b j Hj => A b j Hj false)).
        rewrite E1. split; [|apply assigned_self].
        rewrite (assigned_same FO hrows _ _ _ _ If _ _ It Ne). apply assigned_self.
      * cbn [nth_error] in Hq. replace (i + S j)%nat with (S i + j)%nat by (clear; lia). exact (N2 j q Hq).
    + intros y q Hy Hne. rewrite (F2 y q Hy) by (intros b j Hj; apply Hne; cbn [List.length]; clear - Hj; lia). rewrite E1.
      destruct (assigned_stored FO hrows (assigned FO hs (hfld (size_name k true)) [Z.of_nat i] (SVal (VInt (Z.of_nat (List.length (fst p))))))
        (hfld (size_name k false)) [Z.of_nat i] (SVal (VInt (Z.of_nat (List.length (snd p))))) y q If Hy) as [->|(-> & ->)].
      * destruct (assigned_stored FO hrows hs (hfld (size_name k true)) [Z.of_nat i] (SVal (VInt (Z.of_nat (List.length (fst p))))) y q It Hy)
          as [->|(-> & ->)]; [reflexivity|]. exfalso. apply (Hne true i); [cbn; clear; lia|split; reflexivity].
      * exfalso. apply (Hne false i); [cbn; clear; lia|split; reflexivity].
Qed.

Lemma wrote_all_len k l l' ps : wrote_all k l l' ps -> List.length l' = List.length l /\ List.length ps = List.length l.
Proof. induction 1; cbn; lia. Qed.


(** ** Assignments *)

Lemma hset_stored rows (h h' : hdr) nm v r f y p : lookup (mk_fs rows) nm = Some f ->
  hset FO rows h nm v = (h', r) -> In y (fs_fields (mk_fs rows)) -> y <> f ->
  (is_data_ty (fd_ty (f_d f)) = true -> ~ reaches (mk_fs rows) f y) ->
  stored FO (h_st h') y p = stored FO (h_st h) y p.
Proof.
  intros HL H Hy Hne HR. unfold hset in H. rewrite HL in H. unfold set in H. rewrite HL in H.
  assert (Hf := lookup_in _ _ _ HL).
  destruct (key_shape_ok f []) eqn:EK; [|injection H as <- _; reflexivity].
  destruct (fset FO (mk_fs rows) (h_st h) f [] (SVal v)) as [s1 r1] eqn:E. injection H as <- _. cbn [h_st].
  unfold fset in E. destruct (setf_touch FO (mk_fs rows) _ _ _ _ _ _ _ E) as (_ & _ & HT).
  destruct (HT (f_id y) p) as [(A & _)|(z & E1 & E2 & E3 & _)]; [unfold stored; now rewrite A|]. exfalso.
  destruct E3 as [(-> & _)|(D & R)].
  - apply Hne. exact (mk_fs_id_inj rows _ _ Hy Hf E1).
  - apply (HR D). assert (Hz := reaches_in rows _ _ R). 
    rewrite (mk_fs_id_inj rows _ _ Hy Hz E1). exact R.
Qed.

Lemma hset_done rows (h h' : hdr) nm v f : scalar rows nm f -> hset FO rows h nm v = (h', Ok tt) ->
  h_st h' = assigned FO (h_st h) f [] (SVal v) /\ h_attr h' = h_attr h.
Proof.
  intros (HL & HS) H. unfold hset in H. rewrite HL in H.
  destruct (set_plain FO (mk_fs rows) (h_st h) nm f [] (SVal v) HL ltac:(apply HS)) as [(_ & _ & E)|(_ & e & E)];
    rewrite E in H; [injection H as <-; auto|discriminate].
Qed.

(** The assignments of the security fields leave the others alone. *)
Definition sec_apart (rows : list row) (l : list (string * sattr)) (y : field) : Prop :=
  forall nm a f, In (nm, a) l -> lookup (mk_fs rows) nm = Some f -> y <> f /\ is_data_ty (fd_ty (f_d f)) = false.
Lemma sec_set_stored rows y p l (sec : security FO) : In y (fs_fields (mk_fs rows)) -> sec_apart rows l y ->
  forall h h' r, sec_set FO rows h l sec = (h', r) -> stored FO (h_st h') y p = stored FO (h_st h) y p.
Proof.
  intros Hy. induction l as [|[nm a] l IH]; intros HA h h' r H; cbn [sec_set] in H.
  - injection H as <- _. reflexivity.
  - assert (HA' : sec_apart rows l y) by (intros nm' a' f' Hin; apply (HA nm' a'); now right).
    destruct (hget FO rows h nm) as [v|e].
    + assert (K : forall h1 r1, hset FO rows h nm (sec a) = (h1, r1) -> stored FO (h_st h1) y p = stored FO (h_st h) y p).
      { intros h1 r1 E. destruct (lookup (mk_fs rows) nm) as [f|] eqn:L.
        - destruct (HA nm a f (or_introl eq_refl) L) as [N1 N2].
          apply (hset_stored rows h h1 nm (sec a) r1 f y p L E Hy N1). rewrite N2. discriminate.
        - unfold hset in E. rewrite L in E. injection E as <- _. reflexivity. }
      destruct (hset FO rows h nm (sec a)) as [h1 [[]|e]] eqn:E.
      * rewrite (IH HA' _ _ _ H). exact (K h1 (Ok tt) eq_refl).
      * injection H as <- _. exact (K h1 (Err e) eq_refl).
    + destruct e; try (injection H as <- _; reflexivity). exact (IH HA' _ _ _ H).
Qed.

(** ** Overflow segments *)
Notation drows := desc_NitfDesSubheader.
Definition desid_fld : field := match lookup (mk_fs drows) "desid" with Some f => f | None => no_field end.
Lemma desid_scalar : scalar drows "desid" desid_fld.
Proof. repeat split; vm_compute; reflexivity. Qed.
Lemma desid_ty : fd_ty (f_d desid_fld) = TStr /\ fd_optional (f_d desid_fld) = false.
Proof. split; vm_compute; reflexivity. Qed.
Lemma desid_in : In desid_fld (fs_fields (mk_fs drows)).
Proof. exact (lookup_in _ _ _ (proj1 desid_scalar)). Qed.

Lemma is_overflow_same (h h' : hdr) : stored FO (h_st h') desid_fld [] = stored FO (h_st h) desid_fld [] ->
  is_overflow FO h' = is_overflow FO h.
Proof.
  intro E. unfold is_overflow, sub_rows. now rewrite !(hget_scalar FO drows _ _ _ desid_scalar), E.
Qed.

Definition desshf_fld : field := match lookup (mk_fs drows) "desshf" with Some f => f | None => no_field end.
Definition desshl_fld : field := match lookup (mk_fs drows) "desshl" with Some f => f | None => no_field end.
Lemma desshf_facts : lookup (mk_fs drows) "desshf" = Some desshf_fld /\ lookup (mk_fs drows) "desshl" = Some desshl_fld
  /\ field_refs desshf_fld = [("desshl"%string, 0%nat)] /\ field_refs desshl_fld = []
  /\ desid_fld <> desshf_fld /\ desid_fld <> desshl_fld.
Proof.
  split; [vm_compute; reflexivity|]. split; [vm_compute; reflexivity|]. split; [vm_compute; reflexivity|].
  split; [vm_compute; reflexivity|].
  assert (A : f_id desid_fld <> f_id desshf_fld) by (vm_compute; discriminate).
  assert (B : f_id desid_fld <> f_id desshl_fld) by (vm_compute; discriminate).
  split; congruence.
Qed.

Lemma desshf_reaches y : reaches (mk_fs drows) desshf_fld y -> y = desshl_fld.
Proof.
  destruct desshf_facts as (L1 & L2 & R1 & R2 & _).
  assert (D : forall z, reads_directly (mk_fs drows) desshf_fld z -> z = desshl_fld).
  { intros z (r & Hr & Hz). rewrite R1 in Hr. destruct Hr as [<-|[]]. cbn [fst] in Hz. rewrite L2 in Hz. congruence. }
  intro H. inversion H as [H1|z H1 H2]; subst; [exact (D _ H1)|]. apply D in H1. subst z.
  exfalso. inversion H2 as [(r & Hr & _)|w (r & Hr & _) _]; rewrite R2 in Hr; destruct Hr.
Qed.

(** Everything but the user subheader data is kept by [_write_user_subheader]. *)
Lemma put_ush_other (s : seg) h : put_ush FO KDes s = Ok h -> forall y p, In y (fs_fields (mk_fs drows)) ->
  y <> desshf_fld -> y <> desshl_fld -> stored FO (h_st h) y p = stored FO (h_st (s_hdr FO s)) y p.
Proof.
  unfold put_ush. intros H y p Hy N1 N2. apply bind_ok_elim in H as (v & _ & H). cbn [sub_rows ush_name] in H.
  destruct (hset FO drows (s_hdr FO s) "desshf" v) as [h1 [u|e]] eqn:E; [|discriminate]. injection H as <-.
  apply (hset_stored drows _ _ _ _ _ _ y p (proj1 desshf_facts) E Hy N1). intros _ R. apply desshf_reaches in R. contradiction.
Qed.
Lemma put_ush_plain k (s : seg) h : k <> KDes -> put_ush FO k s = Ok h ->
  h_st h = h_st (s_hdr FO s) /\ exists v, h_attr h = ("user_subheader_data"%string, v) :: h_attr (s_hdr FO s).
Proof.
  unfold put_ush. intros Hk H. apply bind_ok_elim in H as (v & _ & H).
  assert (L : lookup (mk_fs (sub_rows k)) (ush_name k) = None) by (destruct k; [vm_compute; reflexivity ..|congruence|vm_compute; reflexivity]).
  unfold hset in H. rewrite L in H. injection H as <-. cbn [h_st h_attr]. split; [reflexivity|]. exists v. destruct k; try reflexivity. congruence.
Qed.
Lemma put_ush_desid (s : seg) h : put_ush FO KDes s = Ok h -> is_overflow FO h = is_overflow FO (s_hdr FO s).
Proof.
  intro H. apply is_overflow_same. destruct desshf_facts as (_ & _ & _ & _ & N1 & N2).
  exact (put_ush_other s h H desid_fld [] desid_in N1 N2).
Qed.

(** A segment made for the TREs that do not fit. *)
Definition ov_is (o : over) (s : seg) : Prop :=
  s_linked FO s = true /\ is_overflow FO (s_hdr FO s) = Ok true /\ s_ush FO s = None /\ s_tres FO s = []
  /\ s_data FO s = DBytes FO (Some (ov_data o)) /\ exists sec, overflow_seg FO o sec = (s_hdr FO s, Ok tt).

Definition desoflw_names : list string := ["desoflw"; "desitem"]%string.
Lemma des_apart nm : In nm desoflw_names -> exists f, lookup (mk_fs drows) nm = Some f /\ desid_fld <> f
  /\ is_data_ty (fd_ty (f_d f)) = false.
Proof.
  intro H. assert (A : match lookup (mk_fs drows) nm with Some f => negb (Nat.eqb (f_id desid_fld) (f_id f)) && negb (is_data_ty (fd_ty (f_d f))) | None => false end = true).
  { destruct H as [<-|[<-|[]]]; vm_compute; reflexivity. }
  destruct (lookup (mk_fs drows) nm) as [f|]; [|discriminate]. exists f. split; [reflexivity|].
  apply andb_true_iff in A as [A B]. split; [|now apply negb_true_iff].
  intros <-. rewrite Nat.eqb_refl in A. discriminate.
Qed.
Lemma des_sec_apart : sec_apart drows (sec_names "des") desid_fld.
Proof.
  assert (A : forallb (fun p => match lookup (mk_fs drows) (fst p) with
     Some f => negb (Nat.eqb (f_id desid_fld) (f_id f)) && negb (is_data_ty (fd_ty (f_d f))) | None => true end) (sec_names "des") = true)
    by (vm_compute; reflexivity).
  intros nm a f Hin L. rewrite forallb_forall in A. specialize (A (nm, a) Hin). cbn [fst] in A. rewrite L in A.
  apply andb_true_iff in A as [A B]. split; [|now apply negb_true_iff].
  intros <-. rewrite Nat.eqb_refl in A. discriminate.
Qed.

Lemma steps_ok_cons (f : hdr -> hdr * res unit) l h h' : steps FO (f :: l) h = (h', Ok tt) ->
  exists h1, f h = (h1, Ok tt) /\ steps FO l h1 = (h', Ok tt).
Proof.
  cbn [steps]. destruct (f h) as [h1 [[]|e]]; [|discriminate]. intro H. exists h1. split; [reflexivity|exact H].
Qed.
Lemma steps_ok_nil (h h' : hdr) : steps FO [] h = (h', Ok tt) -> h = h'.
Proof. cbn [steps]. intro H. now injection H. Qed.

Lemma overflow_steps o sec : overflow_seg FO o sec =
  steps FO [(fun h => hset FO drows h "dsver" (VInt 1)); (fun h => hset FO drows h "desid" (VStr overflow_id));
            (fun h => hset FO drows h "desoflw" (VStr (ov_oflw o))); (fun h => hset FO drows h "desitem" (VInt (ov_item o)));
            (fun h => sec_set FO drows h (sec_names "des") sec)] (new_hdr FO).
Proof. unfold overflow_seg, sub_rows, set_security. reflexivity. Qed.

Lemma desid_conv : conv_of FO (f_d desid_fld) (SVal (VStr overflow_id)) = Ok (VStr overflow_id).
Proof. vm_compute. reflexivity. Qed.
Lemma overflow_enc : utf8_enc overflow_id = Some overflow_id /\ list_eqb overflow_id overflow_id = true.
Proof. vm_compute. auto. Qed.

Lemma is_overflow_stored (h : hdr) : stored FO (h_st h) desid_fld [] = SVal (VStr overflow_id) -> is_overflow FO h = Ok true.
Proof.
  intro E. unfold is_overflow, sub_rows. rewrite (hget_scalar FO drows _ _ _ desid_scalar), E, desid_conv. cbn [bind].
  rewrite (proj1 overflow_enc), (proj2 overflow_enc). reflexivity.
Qed.

Lemma overflow_seg_id o sec dh : overflow_seg FO o sec = (dh, Ok tt) -> is_overflow FO dh = Ok true.
Proof.
  rewrite overflow_steps. intro H.
  apply steps_ok_cons in H as (h1 & E1 & H). apply steps_ok_cons in H as (h2 & E2 & H).
  apply steps_ok_cons in H as (h3 & E3 & H). apply steps_ok_cons in H as (h4 & E4 & H).
  apply steps_ok_cons in H as (h5 & E5 & H). apply steps_ok_nil in H. subst h5.
  assert (S5 := sec_set_stored drows desid_fld [] _ sec desid_in des_sec_apart _ _ _ E5).
  destruct (des_apart "desoflw" ltac:(cbn; tauto)) as (f3 & L3 & N3 & D3).
  destruct (des_apart "desitem" ltac:(cbn; tauto)) as (f4 & L4 & N4 & D4).
  assert (S4 := hset_stored drows _ _ _ _ _ _ desid_fld [] L4 E4 desid_in N4 ltac:(rewrite D4; discriminate)).
  assert (S3 := hset_stored drows _ _ _ _ _ _ desid_fld [] L3 E3 desid_in N3 ltac:(rewrite D3; discriminate)).
  destruct (hset_done drows _ _ _ _ _ desid_scalar E2) as (S2 & _).
  apply is_overflow_stored. rewrite S5, S4, S3, S2. apply assigned_self.
Qed.

(** ** Preparation *)
Definition ov_list (o : option over) : list over := match o with Some o => [o] | None => [] end.

Lemma prep_ok rows areas prefix idx (h h' : hdr) ts des des' : prep FO rows areas prefix idx h ts des = Ok (h', des') ->
  exists o ov, prepare FO rows areas (Z.of_nat idx) h ts (List.length des) = (h', o, Ok tt)
    /\ Forall2 ov_is (ov_list o) ov /\ des' = des ++ ov.
Proof.
  unfold prep. destruct (prepare FO rows areas (Z.of_nat idx) h ts (List.length des)) as [[h1 [o|]] [[]|e]] eqn:E; try discriminate.
  - intro H. apply bind_ok_elim in H as (sec & _ & H).
    destruct (overflow_seg FO o sec) as [dh [[]|e]] eqn:E2; [|discriminate]. injection H as <- <-.
    exists (Some o). eexists. split; [reflexivity|]. split; [|reflexivity]. constructor; [|constructor].
    unfold ov_is. cbn [s_hdr s_ush s_tres s_data s_linked].
    split; [reflexivity|]. split; [exact (overflow_seg_id o sec dh E2)|]. repeat (split; [reflexivity|]). exists sec. exact E2.
  - intro H. injection H as <- <-. exists None, []. split; [reflexivity|]. split; [constructor|]. symmetry. apply app_nil_r.
Qed.

(** The segments of a kind after preparation, with the overflow segments made; [n] DES so far. *)
Inductive prepped (k : kind) : nat -> list seg -> nat -> list seg -> list seg -> Prop :=
| pp_nil i n : prepped k i [] n [] []
| pp_cons i s l n h o ov l' ov' :
    (if has_tres k then prepare FO (sub_rows k) (sub_areas k) (Z.of_nat i) (s_hdr FO s) (s_tres FO s) n = (h, o, Ok tt)
     else h = s_hdr FO s /\ o = None) ->
    Forall2 ov_is (ov_list o) ov ->
    prepped k (S i) l (n + List.length ov) l' ov' ->
    prepped k i (s :: l) n (with_hdr FO s h :: l') (ov ++ ov').

Lemma prep_segs_ok k l : forall i des l' des', prep_segs FO k i l des = Ok (l', des') ->
  exists ov, prepped k i l (List.length des) l' ov /\ des' = des ++ ov.
Proof.
  induction l as [|s l IH]; intros i des l' des' H; cbn [prep_segs] in H.
  - injection H as <- <-. exists []. split; [constructor|]. symmetry. apply app_nil_r.
  - apply bind_ok_elim in H as ([h des1] & H1 & H). apply bind_ok_elim in H as ([r des2] & H2 & H). injection H as <- <-.
    assert (K : exists o ov, (if has_tres k then prepare FO (sub_rows k) (sub_areas k) (Z.of_nat i) (s_hdr FO s) (s_tres FO s) (List.length des) = (h, o, Ok tt)
       else h = s_hdr FO s /\ o = None) /\ Forall2 ov_is (ov_list o) ov /\ des1 = des ++ ov).
    { destruct (has_tres k).
      - exact (prep_ok _ _ _ _ _ _ _ _ _ H1).
      - injection H1 as <- <-. exists None, []. split; [auto|]. split; [constructor|]. symmetry. apply app_nil_r. }
    destruct K as (o & ov & K1 & K2 & ->). destruct (IH _ _ _ _ H2) as (ov' & P & ->).
    exists (ov ++ ov'). split; [|now rewrite app_assoc]. rewrite app_length in P. econstructor; eauto.
Qed.

Lemma prepped_linked k i l n l' ov : prepped k i l n l' ov -> List.length l' = List.length l
  /\ (Forall (fun s => s_linked FO s = true) l -> Forall (fun s => s_linked FO s = true) l')
  /\ Forall (fun s => exists o, ov_is o s) ov.
Proof.
  induction 1 as [|i s l n h o ov l' ov' H1 H2 _ (IH1 & IH2 & IH3)]; [auto|]. split; [cbn; lia|]. split.
  - intro HF. inversion_clear HF as [|? ? F1 F2]. constructor; [exact F1|exact (IH2 F2)].
  - apply Forall_app. split; [|exact IH3]. clear - H2. induction H2; constructor; eauto.
Qed.

Lemma drop_overflow_kept l l' : drop_overflow FO l = Ok l' ->
  incl l' l /\ Forall (fun s => is_overflow FO (s_hdr FO s) = Ok false) l'.
Proof.
  revert l'. induction l as [|s l IH]; intros l' H; cbn [drop_overflow] in H.
  - injection H as <-. split; [apply incl_refl|constructor].
  - apply bind_ok_elim in H as (b & Hb & H). apply bind_ok_elim in H as (r & Hr & H). injection H as <-.
    destruct (IH r Hr) as [I1 I2]. destruct b.
    + split; [now apply incl_tl|exact I2].
    + split; [|constructor; auto]. intros x [<-|Hx]; [now left|right; auto].
Qed.

Lemma drop_overflow_split a b : Forall (fun s => is_overflow FO (s_hdr FO s) = Ok false) a ->
  Forall (fun s => is_overflow FO (s_hdr FO s) = Ok true) b -> drop_overflow FO (a ++ b) = Ok a.
Proof.
  induction 1 as [|s a Hs _ IH]; intro HB.
  - cbn [app]. induction HB as [|s b Hs _ IH]; [reflexivity|]. cbn [drop_overflow]. rewrite Hs. cbn [bind]. rewrite IH. reflexivity.
  - cbn [app drop_overflow]. rewrite Hs. cbn [bind]. rewrite (IH HB). reflexivity.
Qed.

(** Setting the counts. *)
Lemma counts_set g ks : NoDup ks -> forall (h h' : hdr),
  steps FO (map (fun k h => hset FO hrows h (count_name k) (VInt (g k))) ks) h = (h', Ok tt) ->
  h_attr h' = h_attr h
  /\ (forall k, In k ks -> stored FO (h_st h') (hfld (count_name k)) [] = SVal (VInt (g k)))
  /\ (forall y p, In y (fs_fields hfs) -> (forall k, In k ks -> y <> hfld (count_name k)) ->
        stored FO (h_st h') y p = stored FO (h_st h) y p).
Proof.
  induction 1 as [|k ks Hk _ IH]; intros h h' H.
  - cbn in H. injection H as <-. split; [reflexivity|]. split; [intros k []|reflexivity].
  - cbn [map steps] in H. destruct (hset FO hrows h (count_name k) (VInt (g k))) as [h1 [[]|e]] eqn:E; [|discriminate].
    destruct (count_fld k) as (S & _). destruct (hset_done hrows _ _ _ _ _ S E) as (E1 & E2).
    destruct (IH h1 h' H) as (I1 & I2 & I3). split; [congruence|].
    assert (Ik := lookup_in _ _ _ (proj1 S)).
    assert (NE : forall k', In k' ks -> hfld (count_name k) <> hfld (count_name k')).
    { intros k' Hk'. apply (lookup_ne hrows _ _ _ _ (proj1 S) (proj1 (proj1 (count_fld k')))). intro E0.
      apply count_name_inj in E0. subst k'. contradiction. }
    split.
    + intros k' [<-|Hk']; [|exact (I2 k' Hk')]. rewrite (I3 _ _ Ik NE), E1. apply assigned_self.
    + intros y p Hy Hne. rewrite (I3 y p Hy) by (intros k' Hk'; apply Hne; now right). rewrite E1.
      apply (assigned_same FO hrows _ _ _ _ Ik); [exact Hy|]. apply Hne. now left.
Qed.

Lemma kinds_nodup : NoDup kinds.
Proof. unfold kinds. repeat (constructor; [cbn; intuition discriminate|]). constructor. Qed.
Lemma kinds_all k : In k kinds.
Proof. destruct k; cbn; tauto. Qed.

(** What [prepare_file] does. *)
Definition prepared_file (f : nfile FO) (h1 : hdr) (g : kind -> list seg) : Prop :=
  exists des0 h0 o ov0 ov1 ov2 ov3,
    drop_overflow FO (nf_segs FO f KDes) = Ok des0
    /\ prepare FO hrows file_areas 0 (nf_hdr FO f) (nf_tres FO f) (List.length des0) = (h0, o, Ok tt)
    /\ Forall2 ov_is (ov_list o) ov0
    /\ prepped KImage 0 (nf_segs FO f KImage) (List.length (des0 ++ ov0)) (g KImage) ov1
    /\ prepped KGraphic 0 (nf_segs FO f KGraphic) (List.length ((des0 ++ ov0) ++ ov1)) (g KGraphic) ov2
    /\ prepped KText 0 (nf_segs FO f KText) (List.length (((des0 ++ ov0) ++ ov1) ++ ov2)) (g KText) ov3
    /\ g KDes = (((des0 ++ ov0) ++ ov1) ++ ov2) ++ ov3 /\ g KRes = nf_segs FO f KRes
    /\ counts (h_st h1) (fun k => List.length (g k)) /\ h_attr h1 = h_attr h0
    /\ (forall y p, In y (fs_fields hfs) -> (forall k, y <> hfld (count_name k)) ->
          stored FO (h_st h1) y p = stored FO (h_st h0) y p).

Lemma stored_counts (s : st) (n : kind -> nat) :
  (forall k, stored FO s (hfld (count_name k)) [] = SVal (VInt (Z.of_nat (n k)))) -> counts s n.
Proof.
  intros H k. destruct (count_fld k) as (S & T & O). rewrite (get_scalar FO hrows _ _ _ S), (H k).
  apply conv_of_int; auto.
Qed.

Lemma prepare_file_ok f h1 g : prepare_file FO f = Ok (h1, g) -> prepared_file f h1 g.
Proof.
  unfold prepare_file. intro H.
  apply bind_ok_elim in H as (des0 & H0 & H). apply bind_ok_elim in H as ([h0 des1] & H1 & H).
  apply bind_ok_elim in H as ([im des2] & H2 & H). apply bind_ok_elim in H as ([gr des3] & H3 & H).
  apply bind_ok_elim in H as ([tx des4] & H4 & H).
  destruct (prep_ok _ _ _ _ _ _ _ _ _ H1) as (o & ov0 & P1 & F1 & ->).
  destruct (prep_segs_ok _ _ _ _ _ _ H2) as (ov1 & P2 & ->).
  destruct (prep_segs_ok _ _ _ _ _ _ H3) as (ov2 & P3 & ->).
  destruct (prep_segs_ok _ _ _ _ _ _ H4) as (ov3 & P4 & ->).
  set (gg := fun k => match k with KImage => im | KGraphic => gr | KText => tx | KDes => (((des0 ++ ov0) ++ ov1) ++ ov2) ++ ov3
                                 | KRes => nf_segs FO f KRes end) in *.
  destruct (steps FO _ h0) as [h' [[]|e]] eqn:E; [|discriminate]. injection H as <- <-.
  destruct (counts_set (fun k => Z.of_nat (List.length (gg k))) kinds kinds_nodup h0 h' E) as (S1 & S2 & S3).
  exists des0, h0, o, ov0, ov1, ov2, ov3. repeat (split; [assumption || reflexivity|]).
  split; [apply stored_counts; intro k; exact (S2 k (kinds_all k))|]. split; [exact S1|].
  intros y p Hy Hne. apply (S3 y p Hy). intros k _. apply Hne.
Qed.

(** The overflow segments made. *)
Definition all_linked (f : nfile FO) : Prop := forall k, Forall (fun s => s_linked FO s = true) (nf_segs FO f k).

Lemma prepared_linked f h1 g : all_linked f -> prepared_file f h1 g ->
  (forall k, Forall (fun s => s_linked FO s = true) (g k))
  /\ exists des0 ov, drop_overflow FO (nf_segs FO f KDes) = Ok des0 /\ g KDes = des0 ++ ov
       /\ Forall (fun s => exists o, ov_is o s) ov.
Proof.
  intros HL (des0 & h0 & o & ov0 & ov1 & ov2 & ov3 & D & _ & F0 & P1 & P2 & P3 & G1 & G2 & _).
  destruct (prepped_linked _ _ _ _ _ _ P1) as (_ & L1 & O1). destruct (prepped_linked _ _ _ _ _ _ P2) as (_ & L2 & O2).
  destruct (prepped_linked _ _ _ _ _ _ P3) as (_ & L3 & O3).
  assert (O0 : Forall (fun s => exists o, ov_is o s) ov0) by (clear - F0; induction F0; constructor; eauto).
  assert (OV : Forall (fun s => exists o, ov_is o s) (ov0 ++ ov1 ++ ov2 ++ ov3)) by (repeat (apply Forall_app; split); assumption).
  split.
  - intros [| | | |]; [exact (L1 (HL KImage))|exact (L2 (HL KGraphic))|exact (L3 (HL KText))| |rewrite G2; exact (HL KRes)].
    rewrite G1, <- !app_assoc. apply Forall_app. split.
    + apply drop_overflow_kept in D as (D & _). apply Forall_forall. intros s Hs.
      pose proof (HL KDes) as HD. rewrite Forall_forall in HD. exact (HD s (D s Hs)).
    + eapply Forall_impl; [|exact OV]. intros s (o' & Ho & _). exact Ho.
  - exists des0, (ov0 ++ ov1 ++ ov2 ++ ov3). rewrite G1, <- !app_assoc. auto.
Qed.

Lemma wrote_all_desid l l' ps v : wrote_all KDes l l' ps ->
  Forall (fun s => is_overflow FO (s_hdr FO s) = Ok v) l -> Forall (fun s => is_overflow FO (s_hdr FO s) = Ok v) l'.
Proof.
  induction 1 as [|s l s' l' p ps (h & P & -> & _) _ IH]; intro HF; [constructor|].
  inversion_clear HF as [|? ? F1 F2]. constructor; [|exact (IH F2)]. cbn [with_hdr s_hdr]. rewrite (put_ush_desid s h P). exact F1.
Qed.

Lemma wrote_all_app k a b l' ps : wrote_all k (a ++ b) l' ps -> exists a' b' pa pb,
  l' = a' ++ b' /\ ps = pa ++ pb /\ wrote_all k a a' pa /\ wrote_all k b b' pb.
Proof.
  revert l' ps. induction a as [|s a IH]; intros l' ps H.
  - exists [], l', [], ps. repeat split; auto. constructor.
  - cbn [app] in H. inversion H as [|? ? s' l2 p ps2 W1 W2]; subst.
    destruct (IH _ _ W2) as (a' & b' & pa & pb & -> & -> & A & B).
    exists (s' :: a'), b', (p :: pa), pb. repeat split; auto. constructor; auto.
Qed.

(** The check of the user subheader in [seg_write]. *)
Definition ush_check (E : env) (k : kind) (s : seg) : Prop :=
  exists c, (if s_linked FO s then ush_cls FO E k (s_hdr FO s) else Ok None) = Ok c
    /\ (match c, s_ush FO s with
        | None, _ => Ok tt
        | Some c, Some u => if String.eqb (uc_name c) (uc_name (us_cls FO u)) then Ok tt else Err ERuntime
        | Some _, None => Err ERuntime
        end) = Ok tt.
Lemma segs_checked E k l : forall i l' (hs hs' : st) file file',
  segs_write FO E k i l hs file = Ok (l', hs', file') -> Forall (ush_check E k) l.
Proof.
  induction l as [|s l IH]; intros i l' hs hs' file file' H; [constructor|]. cbn [segs_write] in H.
  apply bind_ok_elim in H as ([[s' hs1] file1] & H1 & H). apply bind_ok_elim in H as ([[r hs2] file2] & H2 & H).
  constructor; [|exact (IH _ _ _ _ _ _ H2)]. unfold seg_write in H1.
  apply bind_ok_elim in H1 as (c & C1 & H1). apply bind_ok_elim in H1 as ([] & C2 & _). exists c. split; [exact C1|exact C2].
Qed.

(** What writing a file does. *)
Record written (E : env) (f f' : nfile FO) (bytes : list N) (h1 : hdr) (g g' : kind -> list seg)
    (ps : kind -> list (list N * list N)) (hb : list N) : Prop := {
  w_prep : prepared_file f h1 g;
  w_all : forall k, wrote_all k (g k) (g' k) (ps k);
  w_hdr : write FO hfs (h_st (nf_hdr FO f')) = Ok hb;
  w_bytes : bytes = hb ++ flat_map (fun k => flat (ps k)) kinds;
  w_attr : h_attr (nf_hdr FO f') = h_attr h1;
  w_counts : counts (h_st (nf_hdr FO f')) (fun k => List.length (g k));
  w_sizes : forall k j p, nth_error (ps k) j = Some p ->
     size_stored (h_st (nf_hdr FO f')) k true j = SVal (VInt (Z.of_nat (List.length (fst p))))
     /\ size_stored (h_st (nf_hdr FO f')) k false j = SVal (VInt (Z.of_nat (List.length (snd p))));
  w_hl : stored FO (h_st (nf_hdr FO f')) (hfld "hl") [] = SVal (VInt (Z.of_nat (List.length hb)));
  w_fl : stored FO (h_st (nf_hdr FO f')) (hfld "fl") [] = SVal (VInt (Z.of_nat (List.length bytes)));
  w_other : forall y p, In y (fs_fields hfs) -> y <> hfld "hl" -> y <> hfld "fl" -> (forall k b, y <> hfld (size_name k b)) ->
     stored FO (h_st (nf_hdr FO f')) y p = stored FO (h_st h1) y p;
  w_tres : nf_tres FO f' = nf_tres FO f;
  w_segs : forall k, k <> KDes -> nf_segs FO f' k = g' k;
  w_des : exists ov, g' KDes = nf_segs FO f' KDes ++ ov
            /\ Forall (fun s => is_overflow FO (s_hdr FO s) = Ok false) (nf_segs FO f' KDes)
            /\ Forall (fun s => is_overflow FO (s_hdr FO s) = Ok true) ov;
  w_refs : nf_refs FO f' = fun k => if kind_eqb k KDes then true else nf_refs FO f k;
  w_raw : prepare_file FO f = Ok (h1, g);
  w_check : forall k, Forall (ush_check E k) (g k);
  w_impl : st_impl FO (h_st (nf_hdr FO f')) = false }.

Lemma size_other nm k b : nm = "hl"%string \/ nm = "fl"%string -> hfld nm <> hfld (size_name k b).
Proof.
  intro H. destruct (total_fld nm H) as (((L & _) & _) & _).
  apply (lookup_ne hrows _ _ _ _ L (lp_look _ _ _ (size_fld k b))). destruct H as [->| ->], k, b; discriminate.
Qed.

Lemma file_write_ok E f f' bytes : all_linked f -> file_write FO E f = Ok (f', bytes) ->
  exists h1 g g' ps hb, written E f f' bytes h1 g g' ps hb.
Proof.
  intros HLk H. unfold file_write in H. apply bind_ok_elim in H as ([h1 g] & HP & H).
  assert (HPR := HP). apply prepare_file_ok in HP. destruct (prepared_linked f h1 g HLk HP) as (GL & des0 & ovs & D0 & G0 & OV).
  apply bind_ok_elim in H as ([s1 file1] & HW & H).
  assert (C1 : counts (h_st h1) (fun k => List.length (g k))) by (destruct HP as (? & ? & ? & ? & ? & ? & ? & HP); apply HP).
  assert (S0 : step_ok (fun k => List.length (g k)) s1 file1 []
     /\ forall y p, stored FO s1 y p = stored FO (h_st h1) y p).
  { assert (HI := write_file_in_file FO hrows _ _ _ _ [] HW). rewrite app_nil_r in HI.
    unfold write_file in HW. apply bind_ok_elim in HW as (cs & Hcs & HW). injection HW as <- _.
    destruct (record_locs_val FO cs (h_st h1) (Z.of_nat (List.length (@nil N)))) as (V & _).
    assert (SV : forall y p, stored FO (record_locs FO (h_st h1) (Z.of_nat (List.length (@nil N))) cs) y p = stored FO (h_st h1) y p)
      by (intros y p; unfold stored; now rewrite V).
    split; [|exact SV]. split; [exact HI|]. intro k. destruct (count_fld k) as (S & _).
    rewrite (get_scalar FO hrows _ _ _ S), SV, <- (get_scalar FO hrows _ _ _ S). apply C1. }
  destruct S0 as (S0 & V0). set (n := fun k => List.length (g k)) in *.
  destruct (update_field FO hfs s1 file1 "hl" [] _) as [s2 [file2|e]] eqn:U1; [|discriminate].
  destruct (step_total n _ _ _ _ _ _ _ (or_introl eq_refl) S0 U1) as (S2 & Len2 & E2).
  apply bind_ok_elim in H as ([[im s3] file3] & W1 & H). apply bind_ok_elim in H as ([[gr s4] file4] & W2 & H).
  apply bind_ok_elim in H as ([[tx s5] file5] & W3 & H). apply bind_ok_elim in H as ([[de s6] file6] & W4 & H).
  apply bind_ok_elim in H as ([[rs s7] file7] & W5 & H).
  destruct (update_field FO hfs s7 file7 "fl" [] _) as [s8 [file8|e]] eqn:U2; [|discriminate].
  apply bind_ok_elim in H as (de' & HD & H). injection H as <- <-.
  destruct (segs_write_ok E n KImage _ 0 _ _ _ _ _ _ (GL KImage) S2 (le_n _) W1) as (p1 & A1 & S3 & Len3 & N3 & F3).
  destruct (segs_write_ok E n KGraphic _ 0 _ _ _ _ _ _ (GL KGraphic) S3 (le_n _) W2) as (p2 & A2 & S4 & Len4 & N4 & F4).
  destruct (segs_write_ok E n KText _ 0 _ _ _ _ _ _ (GL KText) S4 (le_n _) W3) as (p3 & A3 & S5 & Len5 & N5 & F5).
  destruct (segs_write_ok E n KDes _ 0 _ _ _ _ _ _ (GL KDes) S5 (le_n _) W4) as (p4 & A4 & S6 & Len6 & N6 & F6).
  destruct (segs_write_ok E n KRes _ 0 _ _ _ _ _ _ (GL KRes) S6 (le_n _) W5) as (p5 & A5 & S7 & Len7 & N7 & F7).
  destruct (step_total n _ _ _ _ _ _ _ (or_intror eq_refl) S7 U2) as (S8 & Len8 & E8).
  destruct (in_file_written FO hrows _ _ _ _ (proj1 S8)) as (hb & WH & BH).
  set (g' := fun k => match k with KImage => im | KGraphic => gr | KText => tx | KDes => de | KRes => rs end).
  set (ps := fun k => match k with KImage => p1 | KGraphic => p2 | KText => p3 | KDes => p4 | KRes => p5 end).
  (* fields untouched by the segments *)
  assert (FK : forall y p, In y (fs_fields hfs) -> (forall k b, y <> hfld (size_name k b)) -> stored FO s7 y p = stored FO s2 y p).
  { intros y p Hy Hne. rewrite (F7 y p Hy), (F6 y p Hy), (F5 y p Hy), (F4 y p Hy), (F3 y p Hy); [reflexivity|..];
      intros b j _ (E0 & _); exact (Hne _ _ E0). }
  (* the sizes of one kind are untouched by the others *)
  assert (FS : forall k k' b b' j j', k <> k' ->
     ~ (hfld (size_name k b) = hfld (size_name k' b') /\ [Z.of_nat j] = [Z.of_nat j'])).
  { intros k k' b b' j j' Hk (E0 & _). revert E0.
    apply (lookup_ne hrows _ _ _ _ (lp_look _ _ _ (size_fld k b)) (lp_look _ _ _ (size_fld k' b'))).
    intro E0. apply size_name_inj in E0 as (E0 & _). contradiction. }
  assert (SI : forall k b, In (hfld (size_name k b)) (fs_fields hfs)) by (intros k b; exact (lookup_in _ _ _ (lp_look _ _ _ (size_fld k b)))).
  assert (I2 : forall nm, nm = "hl"%string \/ nm = "fl"%string -> In (hfld nm) (fs_fields hfs)).
  { intros nm Hn. destruct (total_fld nm Hn) as (((L & _) & _) & _). exact (lookup_in _ _ _ L). }
  assert (S78 : forall y p, In y (fs_fields hfs) -> y <> hfld "fl" -> stored FO s8 y p = stored FO s7 y p).
  { intros y p Hy Hne. rewrite E8. exact (assigned_same FO hrows _ _ _ _ (I2 _ (or_intror eq_refl)) _ _ Hy Hne). }
  assert (S12 : forall y p, In y (fs_fields hfs) -> y <> hfld "hl" -> stored FO s2 y p = stored FO s1 y p).
  { intros y p Hy Hne. rewrite E2. exact (assigned_same FO hrows _ _ _ _ (I2 _ (or_introl eq_refl)) _ _ Hy Hne). }
  assert (HF : hfld "hl" <> hfld "fl").
  { destruct (total_fld "hl" (or_introl eq_refl)) as (((L & _) & _) & _).
    destruct (total_fld "fl" (or_intror eq_refl)) as (((L' & _) & _) & _).
    apply (lookup_ne hrows _ _ _ _ L L'). discriminate. }
  assert (LH : List.length hb = List.length file1).
  { assert (X : (List.length file8 = List.length file1 + List.length (((((([] ++ flat p1) ++ flat p2) ++ flat p3) ++ flat p4) ++ flat p5)))%nat).
    { rewrite Len8, Len7, app_length, Len6, app_length, Len5, app_length, Len4, app_length, Len3, app_length, Len2.
      rewrite !app_length. clear. cbn [List.length]. lia. }
    rewrite BH in X. cbn [app] in X. rewrite app_length in X. clear - X. lia. }
  exists h1, g, g', ps, hb. constructor.
  - exact HP.
  - intros [| | | |]; assumption.
  - exact WH.
  - rewrite BH. cbn [flat_map kinds app ps]. rewrite app_nil_r, <- !app_assoc. reflexivity.
  - reflexivity.
  - exact (proj2 S8).
  - cbn [nf_hdr h_st]. intros k j p Hp. unfold size_stored.
    rewrite !(S78 _ _ (SI k _)) by (intro E0; symmetry in E0; exact (size_other "fl" k _ (or_intror eq_refl) E0)).
    destruct k.
    + rewrite !(F7 _ _ (SI _ _)), !(F6 _ _ (SI _ _)), !(F5 _ _ (SI _ _)), !(F4 _ _ (SI _ _)) by (intros; apply FS; discriminate).
      exact (N3 j p Hp).
    + rewrite !(F7 _ _ (SI _ _)), !(F6 _ _ (SI _ _)), !(F5 _ _ (SI _ _)) by (intros; apply FS; discriminate). exact (N4 j p Hp).
    + rewrite !(F7 _ _ (SI _ _)), !(F6 _ _ (SI _ _)) by (intros; apply FS; discriminate). exact (N5 j p Hp).
    + rewrite !(F7 _ _ (SI _ _)) by (intros; apply FS; discriminate). exact (N6 j p Hp).
    + exact (N7 j p Hp).
  - cbn [nf_hdr h_st]. rewrite (S78 _ _ (I2 _ (or_introl eq_refl)) HF).
    rewrite (FK _ _ (I2 _ (or_introl eq_refl))) by (intros k b; apply size_other; now left).
    rewrite E2, LH. apply assigned_self.
  - cbn [nf_hdr h_st]. rewrite E8, Len8. apply assigned_self.
  - cbn [nf_hdr h_st]. intros y p Hy N1 N2 Nk. rewrite (S78 y p Hy N2), (FK y p Hy Nk), (S12 y p Hy N1). apply V0.
  - reflexivity.
  - intros [| | | |] Hk; try reflexivity. contradiction.
  - cbn [nf_segs g']. rewrite G0 in A4. destruct (wrote_all_app _ _ _ _ _ A4) as (a' & b' & pa & pb & -> & -> & WA & WB).
    destruct (drop_overflow_kept _ _ D0) as (_ & K0).
    assert (KA := wrote_all_desid _ _ _ _ WA K0).
    assert (KB : Forall (fun s => is_overflow FO (s_hdr FO s) = Ok true) b').
    { apply (wrote_all_desid _ _ _ _ WB). eapply Forall_impl; [|exact OV]. intros s (o' & _ & Ho & _). exact Ho. }
    rewrite (drop_overflow_split _ _ KA KB) in HD. injection HD as <-. exists b'. auto.
  - reflexivity.
  - exact HPR.
  - intros [| | | |]; eapply segs_checked; [exact W1|exact W2|exact W3|exact W4|exact W5].
  - cbn [nf_hdr h_st]. rewrite E8. change (st_impl FO s7 = false). exact (update_impl _ _ _ _ _ _ _ U2).
Qed.

End F.
