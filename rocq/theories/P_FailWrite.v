(** What a file object is after writing it has failed (C74). *)
From Verif Require Import Base BaseLemmas Engine Wf EngineLemmas Codec RoundTrip Rewrite Literal Positions Keys Deps Assign
  Update Spec Decimal DescsHdr Utf8 Tre TreLemmas Handles TrePlace TrePlaceLemmas Scalar Security Image ImageLemmas
  File FileLemmas OpenFile TwoFiles P_TwoFiles FailWrite Ex P_Image P_TrePlace P_File P_FileKeep.
Open Scope list_scope.

Section Left.
Variable FO : FloatOps.
Notation st := (state FO).
Notation hdr := (hdr FO).
Notation seg := (seg FO).
Notation nfile := (nfile FO).

Notation is_ov s := (is_overflow FO (s_hdr FO s) = Ok true /\ s_linked FO s = true).

(** ** Preparing *)

Lemma overflow_hdr_id rows (h : hdr) prefix o dh : overflow_hdr FO rows h prefix o = Ok dh -> is_overflow FO dh = Ok true.
Proof.
  unfold overflow_hdr. intro H. apply bind_ok_elim in H as (sec & _ & H).
  destruct (overflow_seg FO o sec) as [dh' [[]|e]] eqn:EO; [|discriminate H].
  assert (dh' = dh) by congruence. subst dh'. exact (overflow_seg_id FO o sec dh EO).
Qed.
Lemma prep_left_keeps rows names areas prefix idx (h h' : hdr) ts des des' r : areas_within FO rows names areas ->
  prep_left FO rows areas prefix idx h ts des = ((h', des'), r) ->
  same_else FO rows names h h' /\ exists ov, des' = des ++ ov /\ Forall (fun s => is_ov s) ov.
Proof.
  intros HA H. unfold prep_left in H.
  assert (Z0 : exists ov, des = des ++ ov /\ Forall (fun s : seg => is_ov s) ov) by (exists []; split; [now rewrite app_nil_r|constructor]).
  destruct (place FO ts (map (fun _ => []) areas) []) as [[heads over]|e]; [|injection H as <- <- _; split; [apply se_refl|exact Z0]].
  destruct (store_areas FO rows h areas heads) as [h1 r1] eqn:E1. assert (S1 := store_within FO rows names areas HA _ _ _ _ E1).
  destruct r1 as [u|e]; [|injection H as <- <- _; split; [exact S1|exact Z0]].
  destruct over as [|c over]; [injection H as <- <- _; split; [exact S1|exact Z0]|].
  destruct areas as [|a areas]; [injection H as <- <- _; split; [exact S1|exact Z0]|].
  destruct (hset FO rows h1 (ta_ofl a) (VInt (Z.of_nat (S (List.length des))))) as [h2 r2] eqn:E2.
  destruct (HA a (or_introl eq_refl)) as (A1 & _). assert (S2 := A1 _ _ _ _ E2).
  cbn zeta in H. match type of H with context [overflow_hdr FO rows h2 prefix ?x] => remember x as o eqn:Eo in H; clear Eo end.
  destruct (overflow_hdr FO rows h2 prefix o) as [dh|e] eqn:EO; [|injection H as <- <- _; split; [exact S1|exact Z0]].
  injection H as <- <- _. split; [exact (se_trans FO _ _ _ _ _ S1 S2)|]. eexists. split; [reflexivity|].
  constructor; [split; [exact (overflow_hdr_id _ _ _ _ _ EO)|reflexivity]|constructor].
Qed.

(** [s'] is [s] but for the fields that writing sets. *)
Definition kept2 (k : kind) (s s' : seg) : Prop :=
  same_but_header FO s s' /\ same_else FO (sub_rows k) (rewritten k) (s_hdr FO s) (s_hdr FO s').
Lemma k2_refl k s : kept2 k s s.
Proof. split; [apply sbh_refl|apply se_refl]. Qed.
Lemma k2_hdr k s h : same_else FO (sub_rows k) (rewritten k) (s_hdr FO s) h -> kept2 k s (with_hdr FO s h).
Proof. intro H. split; [apply sbh_hdr|exact H]. Qed.
Lemma k2_trans k a b c : kept2 k a b -> kept2 k b c -> kept2 k a c.
Proof. intros (A & B) (C & D). split; [exact (sbh_trans FO _ _ _ A C)|exact (se_trans FO _ _ _ _ _ B D)]. Qed.
Lemma k2_all k l : Forall2 (kept2 k) l l.
Proof. induction l; constructor; [apply k2_refl|assumption]. Qed.
Lemma k2_kept k l l' : Forall2 (kept2 k) l l' -> Forall2 (kept FO k) l l'.
Proof.
  induction 1 as [|s s' l l' (A & B) _ IH]; constructor; [|exact IH]. split; [exact A|].
  intros nm key HI. exact (se_get FO (sub_rows k) (rewritten k) _ _ nm key B HI).
Qed.

Lemma prep_segs_left_keeps k l : forall i des l' des' r, prep_segs_left FO k i l des = ((l', des'), r) ->
  Forall2 (kept2 k) l l' /\ exists ov, des' = des ++ ov /\ Forall (fun s => is_ov s) ov.
Proof.
  induction l as [|s l IH]; intros i des l' des' r H; cbn [prep_segs_left] in H.
  - injection H as <- <- _. split; [constructor|]. exists []. split; [now rewrite app_nil_r|constructor].
  - destruct (prep_left FO (sub_rows k) (sub_areas k) (sec_prefix k) i (s_hdr FO s) (s_tres FO s) des) as [[h des1] r1] eqn:E1.
    destruct (prep_left_keeps _ _ _ _ _ _ _ _ _ _ _ (sub_within FO k) E1) as (S1 & ov & -> & O1).
    destruct r1 as [u|e].
    + destruct (prep_segs_left FO k (S i) l (des ++ ov)) as [[l1 des2] r2] eqn:E2. injection H as <- <- _.
      destruct (IH _ _ _ _ _ E2) as (F & ov2 & -> & O2). split; [constructor; [now apply k2_hdr|exact F]|].
      exists (ov ++ ov2). split; [now rewrite app_assoc|now apply Forall_app].
    + injection H as <- <- _. split; [constructor; [now apply k2_hdr|apply k2_all]|]. exists ov. auto.
Qed.

Lemma put_at_self (g : kind -> list seg) k l : put_segs FO g k l k = l.
Proof. unfold put_segs. destruct k; reflexivity. Qed.
Lemma put_at_other (g : kind -> list seg) k l k' : k <> k' -> put_segs FO g k l k' = g k'.
Proof. intro H. unfold put_segs. destruct (kind_eqb k k') eqn:E; [apply kind_eqb_spec in E; contradiction|reflexivity]. Qed.

Lemma prep_kinds_left_keeps ks : ~ In KDes ks -> forall g g' r, prep_kinds_left FO ks g = (g', r) ->
  (forall k, k <> KDes -> Forall2 (kept2 k) (g k) (g' k)) /\ exists ov, g' KDes = g KDes ++ ov /\ Forall (fun s => is_ov s) ov.
Proof.
  induction ks as [|k ks IH]; intros HN g g' r H; cbn [prep_kinds_left] in H.
  - injection H as <- _. split; [intros; apply k2_all|]. exists []. split; [now rewrite app_nil_r|constructor].
  - assert (Hk : k <> KDes) by (intros ->; apply HN; now left). assert (HN' : ~ In KDes ks) by (intro X; apply HN; now right).
    destruct (prep_segs_left FO k 0 (g k) (g KDes)) as [[l des] r1] eqn:E1.
    destruct (prep_segs_left_keeps _ _ _ _ _ _ _ E1) as (F1 & ov & -> & O1).
    set (g1 := put_segs FO (put_segs FO g KDes (g KDes ++ ov)) k l) in *.
    assert (A : forall k', k' <> KDes -> Forall2 (kept2 k') (g k') (g1 k')).
    { intros k' Hk'. unfold g1. destruct (kind_eqb k k') eqn:Q.
      - apply kind_eqb_spec in Q. subst k'. rewrite put_at_self. exact F1.
      - rewrite put_at_other by (intros ->; destruct k'; discriminate Q). rewrite put_at_other by congruence. apply k2_all. }
    assert (B : g1 KDes = g KDes ++ ov) by (unfold g1; rewrite put_at_other by exact Hk; apply put_at_self).
    destruct r1 as [u|e].
    + destruct (IH HN' g1 g' r H) as (C & ov2 & D & O2). split.
      * intros k' Hk'. exact (Forall2_trans _ (k2_trans k') _ _ _ (A k' Hk') (C k' Hk')).
      * exists (ov ++ ov2). split; [rewrite D, B; symmetry; apply app_assoc|now apply Forall_app].
    + injection H as <- _. split; [exact A|exists ov; auto].
Qed.

Lemma steps_within rows names l : (forall s, In s l -> forall (h h' : hdr) r, s h = (h', r) -> same_else FO rows names h h') ->
  forall (h h' : hdr) r, steps FO l h = (h', r) -> same_else FO rows names h h'.
Proof.
  induction l as [|s l IH]; intros HS h h' r H; cbn [steps] in H; [injection H as <- _; apply se_refl|].
  destruct (s h) as [h1 r1] eqn:E. assert (S1 := HS s (or_introl eq_refl) _ _ _ E).
  destruct r1 as [u|e]; [|injection H as <- _; exact S1].
  apply (se_trans FO _ _ _ _ _ S1). apply (IH (fun s' Hs => HS s' (or_intror Hs)) _ _ _ H).
Qed.

Lemma prepare_left_keeps (h h' : hdr) ts g g' r : prepare_left FO h ts g = ((h', g'), r) ->
  same_else FO hrows rewritten_file h h'
  /\ (forall k, k <> KDes -> Forall2 (kept2 k) (g k) (g' k)) /\ exists ov, g' KDes = g KDes ++ ov /\ Forall (fun s => is_ov s) ov.
Proof.
  unfold prepare_left. intro H.
  destruct (prep_left FO desc_NitfFileHeader file_areas "fs" 0 h ts (g KDes)) as [[h0 des] r0] eqn:E0.
  destruct (prep_left_keeps _ _ _ _ _ _ _ _ _ _ _ (file_within FO) E0) as (S0 & ov & -> & O0).
  set (g0 := put_segs FO g KDes (g KDes ++ ov)) in *.
  assert (A0 : forall k, k <> KDes -> g0 k = g k) by (intros k Hk; unfold g0; apply put_at_other; congruence).
  assert (B0 : g0 KDes = g KDes ++ ov) by apply put_at_self.
  destruct r0 as [u|e].
  - destruct (prep_kinds_left FO [KImage; KGraphic; KText] g0) as [g1 r1] eqn:E1.
    assert (HN : ~ In KDes [KImage; KGraphic; KText]) by (intros [X|[X|[X|[]]]]; discriminate X).
    destruct (prep_kinds_left_keeps _ HN _ _ _ E1) as (A1 & ov1 & B1 & O1).
    assert (A : forall k, k <> KDes -> Forall2 (kept2 k) (g k) (g1 k)) by (intros k Hk; rewrite <- (A0 k Hk); exact (A1 k Hk)).
    assert (B : exists ov, g1 KDes = g KDes ++ ov /\ Forall (fun s => is_ov s) ov).
    { exists (ov ++ ov1). split; [rewrite B1, B0; symmetry; apply app_assoc|now apply Forall_app]. }
    destruct r1 as [u1|e].
    + match type of H with (let '(_, _) := ?x in _) = _ => destruct x as [h1 r2] eqn:E2 end. injection H as <- <- _.
      split; [|split; [exact A|exact B]]. apply (se_trans FO _ _ _ _ _ S0).
      refine (steps_within hrows rewritten_file _ _ _ _ _ E2).
      intros s Hs x x' r3 Hx. apply in_map_iff in Hs as (k & <- & _). revert Hx. apply hset_within. destruct k; vm_compute; reflexivity.
    + injection H as <- <- _. split; [exact S0|]. split; [exact A|exact B].
  - injection H as <- <- _. split; [exact S0|]. split; [intros k Hk; rewrite (A0 k Hk); apply k2_all|]. exists ov. auto.
Qed.

(** ** Writing *)

(** The header object, as [same_else] takes it. *)
Definition as_hdr (s : st) : hdr := {| h_st := s; h_attr := [] |}.
Definition same_st (s s' : st) : Prop := same_else FO hrows rewritten_file (as_hdr s) (as_hdr s').
Lemma update_keeps nm key v (s s' : st) file r : existsb (String.eqb nm) rewritten_file = true ->
  (forall f, lookup hfs nm = Some f -> is_data_ty (fd_ty (f_d f)) = false) ->
  update_field FO hfs s file nm key v = (s', r) -> same_st s s'.
Proof.
  intros HN HD H y p Hy Hne. cbn [as_hdr h_st]. unfold update_field in H.
  destruct (lookup hfs nm) as [f|] eqn:L; [|injection H as <- _; reflexivity].
  destruct (fset FO hfs s f key v) as [s1 r1] eqn:E.
  assert (s' = s1).
  { destruct r1; [|congruence]. destruct (check_condition FO (G FO hfs s1) hfs f key) as [[|]|]; try congruence.
    destruct (st_loc FO s1 (f_id f) key); [|congruence]. destruct (field_bytes FO (G FO hfs s1) hfs s1 f key); congruence. }
  subst s'. clear H. unfold fset in E. destruct (setf_touch FO hfs _ _ _ _ _ _ _ E) as (_ & _ & HT).
  destruct (HT (f_id y) p) as [(A & _)|(z & E1 & E2 & E3 & _)]; [unfold stored; now rewrite A|]. exfalso.
  assert (Hf := lookup_in _ _ _ L). apply existsb_exists in HN as (x & Hx & Q). apply String.eqb_eq in Q. subst x.
  destruct E3 as [(-> & _)|(D & _)]; [|rewrite (HD f eq_refl) in D; discriminate D].
  apply (Hne nm f Hx L). exact (mk_fs_id_inj hrows _ _ Hy Hf E1).
Qed.
Lemma update_size_keeps k b key v (s s' : st) file r :
  update_field FO hfs s file (size_name k b) key v = (s', r) -> same_st s s'.
Proof.
  apply update_keeps; [destruct k, b; vm_compute; reflexivity|]. intros f L. destruct (size_fld k b) as [L' _ _ _ _ T _ _].
  rewrite L in L'. injection L' as ->. now rewrite T.
Qed.
Lemma update_total_keeps nm v (s s' : st) file r : nm = "hl"%string \/ nm = "fl"%string ->
  update_field FO hfs s file nm [] v = (s', r) -> same_st s s'.
Proof.
  intro Hn. apply update_keeps; [destruct Hn as [->| ->]; vm_compute; reflexivity|]. intros f L.
  destruct (total_fld nm Hn) as (((L' & _) & T & _) & _). rewrite L in L'. injection L' as ->. now rewrite T.
Qed.
Lemma ss_trans a b c : same_st a b -> same_st b c -> same_st a c.
Proof. apply se_trans. Qed.

Lemma ush_within k (h h' : hdr) v r : hset FO (sub_rows k) h (ush_name k) v = (h', r) -> same_else FO (sub_rows k) (rewritten k) h h'.
Proof.
  intro E. destruct k; try (apply hset_within with (2 := E); vm_compute; reflexivity);
    (unfold hset in E; match type of E with context [lookup ?a ?b] => replace (lookup a b) with (@None field) in E by (vm_compute; reflexivity) end;
     injection E as <- _; exact (se_refl FO _ _ h)).
Qed.
Lemma seg_left_keeps E k i (s s' : seg) (hs hs' : st) file r : seg_left FO E k i s hs file = ((s', hs'), r) ->
  kept2 k s s' /\ same_st hs hs'.
Proof.
  unfold seg_left. intro H.
  match type of H with (match ?x with _ => _ end = _) => destruct x as [v|e] end;
    [|injection H as <- <- _; split; [apply k2_refl|apply se_refl]].
  destruct (hset FO (sub_rows k) (s_hdr FO s) (ush_name k) v) as [h r0] eqn:E0. assert (S0 := ush_within _ _ _ _ _ E0).
  assert (K := k2_hdr k s h S0). cbn zeta in H.
  match type of H with (match ?x with _ => _ end = _) => destruct x as [[b d]|e] end; [|injection H as <- <- _; split; [exact K|apply se_refl]].
  destruct (s_linked FO s); [|injection H as <- <- _; split; [exact K|apply se_refl]].
  change (fst (size_names k)) with (size_name k true) in H. change (snd (size_names k)) with (size_name k false) in H.
  destruct (update_field FO hfs hs (file ++ b ++ d) (size_name k true) _ _) as [hs1 r1] eqn:U1.
  assert (S1 := update_size_keeps _ _ _ _ _ _ _ _ U1).
  destruct r1 as [file2|e]; [|injection H as <- <- _; split; [exact K|exact S1]].
  destruct (update_field FO hfs hs1 file2 (size_name k false) _ _) as [hs2 r2] eqn:U2. injection H as <- <- _.
  split; [exact K|exact (ss_trans _ _ _ S1 (update_size_keeps _ _ _ _ _ _ _ _ U2))].
Qed.
Lemma segs_left_keeps E k l : forall i l' (hs hs' : st) file r, segs_left FO E k i l hs file = ((l', hs'), r) ->
  Forall2 (kept2 k) l l' /\ same_st hs hs'.
Proof.
  induction l as [|s l IH]; intros i l' hs hs' file r H; cbn [segs_left] in H.
  - injection H as <- <- _. split; [constructor|apply se_refl].
  - destruct (seg_left FO E k i s hs file) as [[s' hs1] r1] eqn:E1. destruct (seg_left_keeps _ _ _ _ _ _ _ _ _ E1) as (K & S1).
    destruct r1 as [file1|e].
    + destruct (segs_left FO E k (S i) l hs1 file1) as [[q hs2] o] eqn:E2. injection H as <- <- _.
      destruct (IH _ _ _ _ _ _ E2) as (F & S2). split; [constructor; assumption|exact (ss_trans _ _ _ S1 S2)].
    + injection H as <- <- _. split; [constructor; [exact K|apply k2_all]|exact S1].
Qed.
Lemma kinds_left_keeps E ks : forall g g' (hs hs' : st) file r, kinds_left FO E ks g hs file = ((g', hs'), r) ->
  (forall k, Forall2 (kept2 k) (g k) (g' k)) /\ same_st hs hs'.
Proof.
  induction ks as [|k ks IH]; intros g g' hs hs' file r H; cbn [kinds_left] in H.
  - injection H as <- <- _. split; [intro; apply k2_all|apply se_refl].
  - destruct (segs_left FO E k 0 (g k) hs file) as [[l hs1] r1] eqn:E1. destruct (segs_left_keeps _ _ _ _ _ _ _ _ _ E1) as (F & S1).
    assert (A : forall k', Forall2 (kept2 k') (g k') (put_segs FO g k l k')).
    { intro k'. destruct (kind_eqb k k') eqn:Q.
      - apply kind_eqb_spec in Q. subst k'. rewrite put_at_self. exact F.
      - rewrite put_at_other by (intros ->; destruct k'; discriminate Q). apply k2_all. }
    destruct r1 as [file1|e]; [|injection H as <- <- _; split; [exact A|exact S1]].
    destruct (IH _ _ _ _ _ _ H) as (B & S2). split; [|exact (ss_trans _ _ _ S1 S2)].
    intro k'. exact (Forall2_trans _ (k2_trans k') _ _ _ (A k') (B k')).
Qed.

Lemma k2_overflow v l l' : Forall2 (kept2 KDes) l l' -> Forall (fun s => is_overflow FO (s_hdr FO s) = Ok v) l ->
  Forall (fun s => is_overflow FO (s_hdr FO s) = Ok v) l'.
Proof.
  induction 1 as [|s s' l l' (_ & B) _ IH]; intro HF; [constructor|]. inversion_clear HF as [|? ? F1 F2]. constructor; [|exact (IH F2)].
  rewrite <- F1. apply is_overflow_same. apply B; [exact desid_in|].
  intros nm f Hn L Q. destruct desshf_facts as (L1 & L2 & _ & _ & N1 & N2).
  destruct Hn as [<-|[<-|[]]]; [apply N2|apply N1]; rewrite Q; change (sub_rows KDes) with desc_NitfDesSubheader in L; congruence.
Qed.

Lemma k2_linked k l l' : Forall2 (kept2 k) l l' -> Forall (fun s => s_linked FO s = true) l -> Forall (fun s => s_linked FO s = true) l'.
Proof.
  induction 1 as [|s s' l l' ((_ & _ & _ & Q) & _) _ IH]; intro HF; [constructor|]. inversion_clear HF as [|? ? F1 F2].
  constructor; [congruence|exact (IH F2)].
Qed.

(** What is left: TREs, segments and all header fields but those that writing sets are kept, whatever
    happens; DES segments made for TREs that do not fit may be left behind the others. *)
Definition left_from (f f' : nfile) (ov : list seg) : Prop :=
  nf_tres FO f' = nf_tres FO f
  /\ (forall k, k <> KDes -> Forall2 (kept FO k) (nf_segs FO f k) (nf_segs FO f' k))
  /\ (exists des, nf_segs FO f' KDes = des ++ ov /\ without_overflow FO (kept FO KDes) (nf_segs FO f KDes) des
        /\ Forall (ordinary_des FO) des)
  /\ Forall (fun s => overflow_des FO s /\ s_linked FO s = true) ov
  /\ (forall nm key, independent_of desc_NitfFileHeader rewritten_file nm ->
        get FO (mk_fs desc_NitfFileHeader) (h_st (nf_hdr FO f')) nm key = get FO (mk_fs desc_NitfFileHeader) (h_st (nf_hdr FO f)) nm key).

Theorem C74_keeps E f f' opened r : write_left FO E f = (f', opened, r) ->
  (opened = false /\ f' = f /\ exists e, r = Err e)
  \/ (opened = true /\ exists ov, left_from f f' ov /\ forall b, r = Ok b -> ov = []).
Proof.
  unfold write_left. intro H. destruct (drop_overflow FO (nf_segs FO f KDes)) as [des0|e] eqn:D0;
    [|left; injection H as <- <- <-; eauto]. right.
  destruct (prepare_left FO (nf_hdr FO f) (nf_tres FO f) (put_segs FO (nf_segs FO f) KDes des0)) as [[h1 g1] r1] eqn:EP.
  destruct (prepare_left_keeps _ _ _ _ _ _ EP) as (S1 & A1 & ov & B1 & O1). rewrite put_at_self in B1.
  assert (A1' : forall k, k <> KDes -> Forall2 (kept2 k) (nf_segs FO f k) (g1 k)).
  { intros k Hk. specialize (A1 k Hk). rewrite put_at_other in A1 by congruence. exact A1. }
  destruct (drop_overflow_kept FO _ _ D0) as (_ & K0).
  assert (X : forall h g, same_else FO hrows rewritten_file (nf_hdr FO f) h ->
     (forall k, k <> KDes -> Forall2 (kept2 k) (g1 k) (g k)) -> Forall2 (kept2 KDes) (g1 KDes) (g KDes) ->
     exists des ov', g KDes = des ++ ov' /\ drop_overflow FO (g KDes) = Ok des
       /\ (forall x y, y = ov' \/ y = [] -> x = des ++ y ->
           left_from f {| nf_hdr := h; nf_tres := nf_tres FO f; nf_segs := put_segs FO g KDes x;
                          nf_refs := fun k => if kind_eqb k KDes then true else nf_refs FO f k |} y)).
  { intros h g SH SG SD. rewrite B1 in SD. apply Forall2_app_inv_l in SD as (des & ov' & SA & SB & EG).
    assert (KA := k2_overflow false _ _ SA K0). assert (KB : Forall (fun s => is_ov s) ov').
    { assert (O2 : Forall (fun s : seg => is_overflow FO (s_hdr FO s) = Ok true) ov) by (eapply Forall_impl; [|exact O1]; intros s (Q & _); exact Q).
      assert (O3 : Forall (fun s : seg => s_linked FO s = true) ov) by (eapply Forall_impl; [|exact O1]; intros s (_ & Q); exact Q).
      assert (P1 := k2_overflow true _ _ SB O2). assert (P2 := k2_linked _ _ _ SB O3). rewrite Forall_forall in *. intros s Hs. split; [exact (P1 s Hs)|exact (P2 s Hs)]. }
    assert (KB1 : Forall (fun s : seg => is_overflow FO (s_hdr FO s) = Ok true) ov') by (eapply Forall_impl; [|exact KB]; intros s (Q & _); exact Q).
    exists des, ov'. split; [exact EG|]. split; [rewrite EG; now apply drop_overflow_split|].
    intros x y Hy ->. split; [reflexivity|]. cbn [nf_segs nf_hdr].
    split; [intros k Hk; rewrite put_at_other by congruence; apply k2_kept;
            exact (Forall2_trans _ (k2_trans k) _ _ _ (A1' k Hk) (SG k Hk))|].
    split; [exists des; split; [apply put_at_self|]; split; [exact (drop_without FO _ _ _ D0 _ (k2_kept _ _ _ SA))|];
            eapply Forall_impl; [|exact KA]; intros s Hs; now apply is_overflow_false|].
    split; [destruct Hy as [->| ->]; [eapply Forall_impl; [|exact KB]; intros s (Hs & Q); split; [now apply is_overflow_true|exact Q]|constructor]|].
    intros nm key HI. exact (se_get FO _ _ _ _ nm key SH HI). }
  assert (Y : forall h g, same_else FO hrows rewritten_file (nf_hdr FO f) h ->
     (forall k, k <> KDes -> Forall2 (kept2 k) (g1 k) (g k)) -> Forall2 (kept2 KDes) (g1 KDes) (g KDes) ->
     exists ov', left_from f {| nf_hdr := h; nf_tres := nf_tres FO f; nf_segs := g;
                          nf_refs := fun k => if kind_eqb k KDes then true else nf_refs FO f k |} ov').
  { intros h g SH SG SD. destruct (X h g SH SG SD) as (des & ov' & EG & _ & XL). exists ov'.
    destruct (XL (g KDes) ov' (or_introl eq_refl) EG) as (L1 & L2 & L3 & L4 & L5). cbn [nf_segs nf_hdr] in *.
    split; [exact L1|]. cbn [nf_segs nf_hdr]. split; [intros k Hk; specialize (L2 k Hk); rewrite put_at_other in L2 by congruence; exact L2|].
    split; [rewrite put_at_self in L3; exact L3|]. split; [exact L4|exact L5]. }
  assert (Z0 : forall k, k <> KDes -> Forall2 (kept2 k) (g1 k) (g1 k)) by (intros; apply k2_all).
  assert (TR : forall (s s' : st) a a', same_else FO hrows rewritten_file (nf_hdr FO f) {| h_st := s; h_attr := a |} -> same_st s s' ->
     same_else FO hrows rewritten_file (nf_hdr FO f) {| h_st := s'; h_attr := a' |}).
  { intros s s' a a' H1 H2 y p Hy Hn. cbn [h_st]. specialize (H2 y p Hy Hn). cbn [as_hdr h_st] in H2. rewrite H2. exact (H1 y p Hy Hn). }
  assert (FIN : forall h g (e : exn), same_else FO hrows rewritten_file (nf_hdr FO f) h ->
     (forall k, k <> KDes -> Forall2 (kept2 k) (g1 k) (g k)) -> Forall2 (kept2 KDes) (g1 KDes) (g KDes) ->
     ({| nf_hdr := h; nf_tres := nf_tres FO f; nf_segs := g; nf_refs := fun k => if kind_eqb k KDes then true else nf_refs FO f k |}, true, Err e) = (f', opened, r) ->
     opened = true /\ exists ov, left_from f f' ov /\ forall b, r = Ok b -> ov = []).
  { intros h g e SH SG SD HE. destruct (Y h g SH SG SD) as (ov' & L). injection HE as <- <- <-. split; [reflexivity|].
    exists ov'. split; [exact L|discriminate]. }
  destruct r1 as [u|e]; [|exact (FIN _ _ _ S1 Z0 (k2_all _ _) H)].
  destruct (write_file FO (mk_fs desc_NitfFileHeader) (h_st h1) []) as [[s1 file1]|e] eqn:HW; [|exact (FIN _ _ _ S1 Z0 (k2_all _ _) H)].
  assert (SW : same_st (h_st h1) s1).
  { unfold write_file in HW. apply bind_ok_elim in HW as (cs & Hcs & HW). injection HW as <- _.
    destruct (record_locs_val FO cs (h_st h1) (Z.of_nat (List.length (@nil N)))) as (V & _).
    intros y p _ _. unfold stored, as_hdr. cbn [h_st]. rewrite <- V. reflexivity. }
  assert (T1 : forall a, same_else FO hrows rewritten_file (nf_hdr FO f) {| h_st := s1; h_attr := a |}).
  { intro a. apply (TR (h_st h1) s1 (h_attr h1) a); [destruct h1; exact S1|exact SW]. }
  cbn zeta in H. destruct (update_field FO hfs s1 file1 "hl" [] _) as [s2 r2] eqn:U1.
  assert (T2 : forall a, same_else FO hrows rewritten_file (nf_hdr FO f) {| h_st := s2; h_attr := a |})
    by (intro a; exact (TR s1 s2 a a (T1 a) (update_total_keeps _ _ _ _ _ _ (or_introl eq_refl) U1))).
  destruct r2 as [file2|e]; [|exact (FIN _ _ _ (T2 _) Z0 (k2_all _ _) H)].
  destruct (kinds_left FO E kinds g1 s2 file2) as [[g2 s3] r3] eqn:EK. destruct (kinds_left_keeps _ _ _ _ _ _ _ _ EK) as (G2 & S3).
  assert (T3 : forall a, same_else FO hrows rewritten_file (nf_hdr FO f) {| h_st := s3; h_attr := a |}) by (intro a; exact (TR s2 s3 a a (T2 a) S3)).
  destruct r3 as [file3|e]; [|exact (FIN _ _ _ (T3 _) (fun k _ => G2 k) (G2 KDes) H)].
  destruct (update_field FO hfs s3 file3 "fl" [] _) as [s4 r4] eqn:U2.
  assert (T4 : forall a, same_else FO hrows rewritten_file (nf_hdr FO f) {| h_st := s4; h_attr := a |})
    by (intro a; exact (TR s3 s4 a a (T3 a) (update_total_keeps _ _ _ _ _ _ (or_intror eq_refl) U2))).
  destruct r4 as [file4|e]; [|exact (FIN _ _ _ (T4 _) (fun k _ => G2 k) (G2 KDes) H)].
  destruct (X _ _ (T4 (h_attr h1)) (fun k _ => G2 k) (G2 KDes)) as (des & ov' & EG & DG & XL). rewrite DG in H.
  injection H as <- <- <-. split; [reflexivity|]. exists []. split; [|auto].
  apply (XL des []); [now right|now rewrite app_nil_r].
Qed.

(** ** Agreement with [file_write] *)

Lemma prep_agree rows areas prefix idx (h : hdr) ts des :
  match prep FO rows areas prefix idx h ts des with
  | Ok hd => prep_left FO rows areas prefix idx h ts des = (hd, Ok tt)
  | Err _ => exists x e, prep_left FO rows areas prefix idx h ts des = (x, Err e)
  end.
Proof.
  unfold prep, prep_left, prepare, overflow_hdr.
  destruct (place FO ts (map (fun _ => []) areas) []) as [[heads over]|e]; [|eauto].
  destruct (store_areas FO rows h areas heads) as [h1 [u|e]]; [|eauto].
  destruct over as [|c over]; [reflexivity|]. destruct areas as [|a areas]; [eauto|].
  destruct (hset FO rows h1 (ta_ofl a) (VInt (Z.of_nat (S (List.length des))))) as [h2 r2]. cbn zeta.
  set (o := {| ov_oflw := _; ov_item := _; ov_data := _ |}).
  change (c :: over) with (ov_data o). clearbody o. generalize (overflow_seg FO o). intro mk.
  destruct r2 as [[]|e2].
  - destruct (get_security FO rows h2 prefix) as [sec|e]; cbn [bind]; [|eauto].
    destruct (mk sec) as [dh [v|e]]; [reflexivity|eauto].
  - destruct (get_security FO rows h2 prefix) as [sec|e]; cbn [bind]; [|eauto].
    destruct (mk sec) as [dh [v|e]]; eauto.
Qed.
Lemma prep_segs_agree k l : has_tres k = true -> forall i des,
  match prep_segs FO k i l des with
  | Ok x => prep_segs_left FO k i l des = (x, Ok tt)
  | Err _ => exists x e, prep_segs_left FO k i l des = (x, Err e)
  end.
Proof.
  intro HT. induction l as [|s l IH]; intros i des; cbn [prep_segs prep_segs_left]; [reflexivity|]. rewrite HT.
  assert (A := prep_agree (sub_rows k) (sub_areas k) (sec_prefix k) i (s_hdr FO s) (s_tres FO s) des).
  destruct (prep FO (sub_rows k) (sub_areas k) (sec_prefix k) i (s_hdr FO s) (s_tres FO s) des) as [[h des1]|e].
  - rewrite A. cbn [bind]. specialize (IH (S i) des1). destruct (prep_segs FO k (S i) l des1) as [[q des2]|e]; cbn [bind].
    + rewrite IH. reflexivity.
    + destruct IH as ([x1 x2] & e' & ->). eauto.
  - destruct A as ([x1 x2] & e' & ->). cbn [bind]. eauto.
Qed.
Lemma prepare_agree f des0 : drop_overflow FO (nf_segs FO f KDes) = Ok des0 ->
  match prepare_file FO f with
  | Ok (h1, g) => exists g1, prepare_left FO (nf_hdr FO f) (nf_tres FO f) (put_segs FO (nf_segs FO f) KDes des0) = ((h1, g1), Ok tt)
                    /\ forall k, g1 k = g k
  | Err _ => exists x e, prepare_left FO (nf_hdr FO f) (nf_tres FO f) (put_segs FO (nf_segs FO f) KDes des0) = (x, Err e)
  end.
Proof.
  intro D. unfold prepare_file, prepare_left. rewrite D, put_at_self. cbn [bind]. clear D.
  assert (A := prep_agree desc_NitfFileHeader file_areas "fs" 0 (nf_hdr FO f) (nf_tres FO f) des0).
  destruct (prep FO desc_NitfFileHeader file_areas "fs" 0 (nf_hdr FO f) (nf_tres FO f) des0) as [[h0 des1]|e];
    [|destruct A as ([x1 x2] & e' & ->); cbn [bind]; eexists; eexists; reflexivity].
  rewrite A. clear A. cbn [bind prep_kinds_left put_segs kind_eqb].
  assert (A := prep_segs_agree KImage (nf_segs FO f KImage) eq_refl 0 des1).
  destruct (prep_segs FO KImage 0 (nf_segs FO f KImage) des1) as [[im des2]|e];
    [|destruct A as ([x1 x2] & e' & ->); cbn [bind]; eexists; eexists; reflexivity].
  rewrite A. clear A. cbn [bind prep_kinds_left put_segs kind_eqb].
  assert (A := prep_segs_agree KGraphic (nf_segs FO f KGraphic) eq_refl 0 des2).
  destruct (prep_segs FO KGraphic 0 (nf_segs FO f KGraphic) des2) as [[gr des3]|e];
    [|destruct A as ([x1 x2] & e' & ->); cbn [bind]; eexists; eexists; reflexivity].
  rewrite A. clear A. cbn [bind prep_kinds_left put_segs kind_eqb].
  assert (A := prep_segs_agree KText (nf_segs FO f KText) eq_refl 0 des3).
  destruct (prep_segs FO KText 0 (nf_segs FO f KText) des3) as [[tx des4]|e];
    [|destruct A as ([x1 x2] & e' & ->); cbn [bind]; eexists; eexists; reflexivity].
  rewrite A. clear A. cbn [bind]. cbn zeta.
  match goal with |- context [let '(_, _) := steps FO (map (fun k h => hset FO _ h _ (VInt (Z.of_nat (List.length (?x k))))) kinds) h0 in _] => set (g1 := x) end.
  set (g := fun k : kind => match k with KImage => im | KGraphic => gr | KText => tx | KDes => des4 | KRes => nf_segs FO f KRes end).
  assert (EG : forall k, g1 k = g k) by (intro k; destruct k; reflexivity). clearbody g1.
  replace (map (fun (k : kind) (x : hdr) => hset FO desc_NitfFileHeader x (count_name k) (VInt (Z.of_nat (List.length (g1 k))))) kinds)
    with (map (fun (k : kind) (x : hdr) => hset FO desc_NitfFileHeader x (count_name k) (VInt (Z.of_nat (List.length (g k))))) kinds)
    by (apply map_ext; intro k; now rewrite EG).
  match goal with |- context [steps FO ?a h0] => destruct (steps FO a h0) as [h1 r] eqn:ES end.
  match type of ES with ?x = _ => match goal with |- context [steps FO ?b h0] => change (steps FO b h0) with x end end. rewrite ES.
  destruct r as [[]|e]; [exists g1; split; [reflexivity|exact EG]|eexists; eexists; reflexivity].
Qed.

Lemma seg_agree E k i s (hs : st) file :
  match seg_write FO E k i s hs file with
  | Ok (s', hs', file') => seg_left FO E k i s hs file = ((s', hs'), Ok file')
  | Err _ => exists x e, seg_left FO E k i s hs file = (x, Err e)
  end.
Proof.
  unfold seg_write, seg_left, put_ush.
  destruct (if s_linked FO s then ush_cls FO E k (s_hdr FO s) else Ok None) as [c|e]; cbn [bind]; [|eauto].
  match goal with |- context [bind (match c with _ => _ end) _] => idtac end.
  match goal with |- context [bind (A:=unit) ?x _] => destruct x as [u|e]; cbn [bind]; [|eauto] end.
  match goal with |- context [bind (bind ?x _) _] => destruct x as [v|e]; cbn [bind]; [|eauto] end.
  destruct (hset FO (sub_rows k) (s_hdr FO s) (ush_name k) v) as [h [[]|e]]; cbn [bind]; [|eauto].
  destruct (write FO (mk_fs (sub_rows k)) (h_st h)) as [b|e]; cbn [bind]; [|eauto].
  match goal with |- context [bind ?x (fun d : list N => _)] => destruct x as [d|e]; cbn [bind]; [|eauto] end.
  cbn zeta. destruct (s_linked FO s); [|reflexivity].
  match goal with |- context [update_field FO ?a ?b ?c ?d ?e ?f] => destruct (update_field FO a b c d e f) as [hs1 [file2|e1]]; [|eauto] end.
  match goal with |- context [update_field FO ?a ?b ?c ?d ?e ?f] => destruct (update_field FO a b c d e f) as [hs2 [file3|e2]]; [reflexivity|eauto] end.
Qed.
Lemma segs_agree E k l : forall i (hs : st) file,
  match segs_write FO E k i l hs file with
  | Ok (l', hs', file') => segs_left FO E k i l hs file = ((l', hs'), Ok file')
  | Err _ => exists x e, segs_left FO E k i l hs file = (x, Err e)
  end.
Proof.
  induction l as [|s l IH]; intros i hs file; cbn [segs_write segs_left]; [reflexivity|].
  assert (A := seg_agree E k i s hs file). destruct (seg_write FO E k i s hs file) as [[[s' hs1] file1]|e]; cbn [bind];
    [|destruct A as ([x1 x2] & e' & ->); eauto].
  rewrite A. specialize (IH (S i) hs1 file1). destruct (segs_write FO E k (S i) l hs1 file1) as [[[q hs2] file2]|e]; cbn [bind].
  - rewrite IH. reflexivity.
  - destruct IH as ([x1 x2] & e' & ->). eauto.
Qed.

(** Writing works in both or in neither, with the same file and the same object. *)
Theorem C74_agrees E f :
  match file_write FO E f with
  | Ok (f', b) => exists f2, write_left FO E f = (f2, true, Ok b) /\ same_file FO f' f2
  | Err _ => exists f2 opened e, write_left FO E f = (f2, opened, Err e)
  end.
Proof.
  unfold file_write, write_left. destruct (drop_overflow FO (nf_segs FO f KDes)) as [des0|e] eqn:D.
  2:{ unfold prepare_file. rewrite D. cbn [bind]. eauto. }
  assert (A := prepare_agree f des0 D). destruct (prepare_file FO f) as [[h1 g]|e]; cbn [bind]; cbn zeta;
    [|destruct A as ([x1 x2] & e' & ->); eauto].
  destruct A as (g1 & -> & EG).
  destruct (write_file FO (mk_fs desc_NitfFileHeader) (h_st h1) []) as [[s1 file1]|e]; cbn [bind]; [|eauto].
  match goal with |- context [update_field FO ?a ?b ?c ?d ?e ?f] => destruct (update_field FO a b c d e f) as [s2 [file2|e1]]; [|eauto] end.
  unfold kinds. cbn [kinds_left put_segs kind_eqb]. rewrite !EG.
  assert (A := segs_agree E KImage (g KImage) 0 s2 file2).
  destruct (segs_write FO E KImage 0 (g KImage) s2 file2) as [[[im s3] file3]|e]; cbn [bind]; [|destruct A as ([x1 x2] & e' & ->); eauto].
  rewrite A. clear A. cbn [kinds_left put_segs kind_eqb].
  assert (A := segs_agree E KGraphic (g KGraphic) 0 s3 file3).
  destruct (segs_write FO E KGraphic 0 (g KGraphic) s3 file3) as [[[gr s4] file4]|e]; cbn [bind]; [|destruct A as ([x1 x2] & e' & ->); eauto].
  rewrite A. clear A. cbn [kinds_left put_segs kind_eqb].
  assert (A := segs_agree E KText (g KText) 0 s4 file4).
  destruct (segs_write FO E KText 0 (g KText) s4 file4) as [[[tx s5] file5]|e]; cbn [bind]; [|destruct A as ([x1 x2] & e' & ->); eauto].
  rewrite A. clear A. cbn [kinds_left put_segs kind_eqb].
  assert (A := segs_agree E KDes (g KDes) 0 s5 file5).
  destruct (segs_write FO E KDes 0 (g KDes) s5 file5) as [[[de s6] file6]|e]; cbn [bind]; [|destruct A as ([x1 x2] & e' & ->); eauto].
  rewrite A. clear A. cbn [kinds_left put_segs kind_eqb].
  assert (A := segs_agree E KRes (g KRes) 0 s6 file6).
  destruct (segs_write FO E KRes 0 (g KRes) s6 file6) as [[[rs s7] file7]|e]; cbn [bind]; [|destruct A as ([x1 x2] & e' & ->); eauto].
  rewrite A. clear A. cbn [kinds_left put_segs kind_eqb].
  match goal with |- context [update_field FO ?a ?b ?c ?d ?e ?f] => destruct (update_field FO a b c d e f) as [s8 [file8|e1]]; [|eauto] end.
  destruct (drop_overflow FO de) as [de'|e]; cbn [bind]; [|eauto].
  eexists. split; [reflexivity|]. split; [reflexivity|]. split; [reflexivity|]. cbn [nf_segs nf_refs].
  split; [intro k; destruct k; reflexivity|reflexivity].
Qed.

(** ** Writing again *)

Lemma kept_trans k a b c : kept FO k a b -> kept FO k b c -> kept FO k a c.
Proof.
  intros (A1 & A2) (B1 & B2). split; [exact (sbh_trans FO _ _ _ A1 B1)|]. intros nm key HI.
  rewrite (B2 nm key HI). exact (A2 nm key HI).
Qed.
Lemma not_both s : overflow_des FO s -> ordinary_des FO s -> False.
Proof. intros A (t & B & C). unfold overflow_des, des_says in *. apply C. congruence. Qed.
Lemma without_none R ov l : Forall (overflow_des FO) ov -> without_overflow FO R ov l -> l = [].
Proof.
  intros HF H. induction H as [|s l l' _ _ IH|s s' l l' HO _ _ _]; [reflexivity| |].
  - inversion_clear HF as [|? ? _ F2]. exact (IH F2).
  - inversion_clear HF as [|? ? F1 _]. destruct (not_both s F1 HO).
Qed.
Lemma without_after (R S T : seg -> seg -> Prop) des : (forall a b c, R a b -> S b c -> T a c) -> forall l, without_overflow FO R l des ->
  Forall (ordinary_des FO) des -> forall ov l2, Forall (overflow_des FO) ov -> without_overflow FO S (des ++ ov) l2 -> without_overflow FO T l l2.
Proof.
  intros HT l H. induction H as [|s l l' HO _ IH|s s' l l' HO HR _ IH]; intros HD ov l2 HV H2.
  - cbn [app] in H2. rewrite (without_none _ _ _ HV H2). constructor.
  - apply wo_drop; [exact HO|]. exact (IH HD ov l2 HV H2).
  - inversion_clear HD as [|? ? D1 D2]. cbn [app] in H2. inversion H2 as [|? ? ? O1 O2|? x ? l2' O1 O2 O3]; subst.
    + destruct (not_both s' O1 D1).
    + apply wo_keep; [exact HO|exact (HT _ _ _ HR O2)|]. exact (IH D2 ov l2' HV O3).
Qed.

(** Whatever a first call has left, a later call that works gives an object like the first one: the segments
    left over by the first call are gone, nothing else is lost. *)
Theorem C74_again E E' f f1 opened r f2 bytes : write_left FO E f = (f1, opened, r) -> file_write FO E' f1 = Ok (f2, bytes) ->
  nf_tres FO f2 = nf_tres FO f
  /\ (forall k, k <> KDes -> Forall2 (kept FO k) (nf_segs FO f k) (nf_segs FO f2 k))
  /\ without_overflow FO (kept FO KDes) (nf_segs FO f KDes) (nf_segs FO f2 KDes)
  /\ Forall (ordinary_des FO) (nf_segs FO f2 KDes)
  /\ (forall nm key, independent_of desc_NitfFileHeader rewritten_file nm ->
        get FO (mk_fs desc_NitfFileHeader) (h_st (nf_hdr FO f2)) nm key = get FO (mk_fs desc_NitfFileHeader) (h_st (nf_hdr FO f)) nm key).
Proof.
  intros H1 H2. assert (A := C74_agrees E' f1). rewrite H2 in A. destruct A as (f3 & H3 & (S1 & S2 & S3 & _)). clear H2.
  destruct (C74_keeps _ _ _ _ _ H3) as [(X & _)|(_ & ov2 & L2 & N2)]; [discriminate X|]. assert (N := N2 bytes eq_refl). subst ov2. clear N2 H3.
  destruct L2 as (B1 & B2 & (des2 & B3 & B4 & B5) & _ & B6). rewrite app_nil_r in B3.
  rewrite S1, S2, S3, B3, B1.
  destruct (C74_keeps _ _ _ _ _ H1) as [(_ & -> & _)|(_ & ov & (A1 & A2 & (des & A3 & A4 & A5) & A6 & A7) & _)]; clear H1.
  - split; [reflexivity|]. split; [intros k Hk; rewrite S3; exact (B2 k Hk)|]. split; [exact B4|]. split; [exact B5|exact B6].
  - split; [exact A1|]. split; [intros k Hk; rewrite S3; exact (Forall2_trans _ (kept_trans k) _ _ _ (A2 k Hk) (B2 k Hk))|].
    split; [rewrite A3 in B4; refine (without_after _ _ _ des (kept_trans KDes) _ A4 A5 ov des2 _ B4); eapply Forall_impl; [|exact A6]; intros s (Q & _); exact Q|]. split; [exact B5|].
    intros nm key HI. rewrite (B6 nm key HI). exact (A7 nm key HI).
Qed.

(** If all segments belong to the file, they still do, so that what is proved about writing such files holds
    for the next call. *)
Lemma kept_linked k l l' : Forall2 (kept FO k) l l' -> Forall (fun s => s_linked FO s = true) l -> Forall (fun s => s_linked FO s = true) l'.
Proof.
  induction 1 as [|s s' l l' ((_ & _ & _ & Q) & _) _ IH]; intro HF; [constructor|]. inversion_clear HF as [|? ? F1 F2].
  constructor; [congruence|exact (IH F2)].
Qed.
Lemma without_linked l l' : without_overflow FO (kept FO KDes) l l' -> Forall (fun s => s_linked FO s = true) l -> Forall (fun s => s_linked FO s = true) l'.
Proof.
  induction 1 as [|s l l' _ _ IH|s s' l l' _ ((_ & _ & _ & Q) & _) _ IH]; intro HF; [constructor| |]; inversion_clear HF as [|? ? F1 F2].
  - exact (IH F2).
  - constructor; [congruence|exact (IH F2)].
Qed.
Theorem C74_linked E f f' opened r : linked FO f -> write_left FO E f = (f', opened, r) -> linked FO f'.
Proof.
  intros HL H. destruct (C74_keeps _ _ _ _ _ H) as [(_ & -> & _)|(_ & ov & (_ & A2 & (des & A3 & A4 & _) & A6 & _) & _)]; [exact HL|]. clear H.
  intro k. destruct (kind_eqb k KDes) eqn:Q.
  - apply kind_eqb_spec in Q. subst k. rewrite A3. apply Forall_app. split; [exact (without_linked _ _ A4 (HL KDes))|].
    eapply Forall_impl; [|exact A6]. intros s (_ & P). exact P.
  - refine (kept_linked k _ _ (A2 k _) (HL k)). intros ->. discriminate Q.
Qed.

End Left.

(** ** Examples *)

(** The file of [ex_file] with a text whose data has not been set. *)
Definition c74_text (FO : FloatOps) (d : sdata FO) : seg FO := ex_seg FO (new_hdr FO) d [].
Definition c74_file (FO : FloatOps) (d : sdata FO) : nfile FO :=
  append_seg FO (append_seg FO (append_seg FO (fst (new_file FO (sec_default FO)))
    KImage (ex_seg FO (ex_hdr FO GAll U2 2 3 12) (DImage FO GAll (ex_supplier GAll)) [ex_wide FO; ex_wide FO; ex_wide FO]))
    KText (c74_text FO d))
    KDes (ex_seg FO (new_hdr FO) (DBytes FO (Some (str "data"))) []).
Lemma c74_linked FO d : linked FO (c74_file FO d).
Proof. unfold c74_file. do 3 (apply linked_append; [|vm_compute; reflexivity]). apply linked_new. Qed.
(** The text of a file given its data. *)
Definition c74_mend (f : nfile DecF) : nfile DecF :=
  {| nf_hdr := nf_hdr DecF f; nf_tres := nf_tres DecF f; nf_refs := nf_refs DecF f;
     nf_segs := fun k => match k with
       | KText => map (fun s => {| s_hdr := s_hdr DecF s; s_ush := s_ush DecF s; s_tres := s_tres DecF s;
                                   s_data := DStr DecF (str "hello"); s_linked := s_linked DecF s |}) (nf_segs DecF f KText)
       | k => nf_segs DecF f k end |}.
Definition c74_counts (f : nfile DecF) : list nat := map (fun k => List.length (nf_segs DecF f k)) in_file_order.

(** The write fails; a segment is left over, and the header says so; with the data set, writing again gives
    the same file as if the first call had not been. *)
Example C74_case : match write_left DecF ex_env (c74_file DecF (DBytes DecF None)) with
  | (f1, opened, r) =>
      (opened, match r with Err ERuntime => true | _ => false end, c74_counts f1, hdr_int DecF f1 "numdes" [], hdr_int DecF f1 "fl" [])
        = (true, true, [1; 0; 1; 2; 0]%nat, Some 2%Z, Some 0%Z)
      /\ match file_write DecF ex_env (c74_mend f1), file_write DecF ex_env (c74_file DecF (DStr DecF (str "hello"))) with
         | Ok (f2, b), Ok (_, b') => list_eqb b b' = true /\ c74_counts f2 = [1; 0; 1; 1; 0]%nat
         | _, _ => False end
  end.
Proof. vm_compute. auto. Qed.
(** One that works. *)
Example C74_ok_case : match write_left DecF ex_env (c74_file DecF (DStr DecF (str "hello"))) with
  | (f1, true, Ok b) => c74_counts f1 = [1; 0; 1; 1; 0]%nat /\ hdr_int DecF f1 "fl" [] = Some (Z.of_nat (List.length b))
  | _ => False end.
Proof. vm_compute. auto. Qed.

Lemma c74_run : match file_write DecF ex_env (c74_file DecF (DBytes DecF None)), write_left DecF ex_env (c74_file DecF (DBytes DecF None)) with
  | Err ERuntime, (f1, true, Err ERuntime) => c74_counts (c74_file DecF (DBytes DecF None)) = [1; 0; 1; 1; 0]%nat /\ c74_counts f1 = [1; 0; 1; 2; 0]%nat
  | _, _ => False end.
Proof. vm_compute. auto. Qed.
(** A failed call does not leave things as they were: the file has been opened, and so emptied, and
    there is one DES segment more in the object. *)
Theorem C74_failed_refuted : exists E f f1, linked DecF f /\ file_write DecF E f = Err ERuntime
  /\ write_left DecF E f = (f1, true, Err ERuntime)
  /\ List.length (nf_segs DecF f KDes) = 1%nat /\ List.length (nf_segs DecF f1 KDes) = 2%nat.
Proof.
  assert (HL := c74_linked DecF (DBytes DecF None)).
  pose proof c74_run as H. remember (c74_file DecF (DBytes DecF None)) as f eqn:E0. clear E0.
  remember (file_write DecF ex_env f) as ra eqn:Ra. remember (write_left DecF ex_env f) as rb eqn:Rb.
  destruct ra as [|e]; [destruct H|]. destruct e; try (destruct H; fail). destruct rb as [[f1 op] r].
  destruct op; [|destruct H]. destruct r as [|e]; [destruct H|]. destruct e; try (destruct H; fail). destruct H as (H1 & H2).
  exists ex_env, f, f1. symmetry in Ra, Rb. split; [exact HL|]. split; [exact Ra|]. split; [exact Rb|].
  unfold c74_counts, in_file_order in H1, H2. cbn [map] in H1, H2. split; [now injection H1|now injection H2].
Qed.

Print Assumptions C74_keeps.
Print Assumptions C74_agrees.
Print Assumptions C74_again.
Print Assumptions C74_linked.
Print Assumptions C74_failed_refuted.
