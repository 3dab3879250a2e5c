(** Printing a file that was read: it is written as before, and printed as before (C63). *)
From Verif Require Import Base BaseLemmas Engine Wf EngineLemmas Codec RoundTrip Rewrite Reach Literal Positions Keys Deps Spec Scalar Decimal Utf8 Tre Handles TrePlace Security Image
  DescsHdr File P_Skip Diff P_Diff Hooks Listing P_Listing P_ListingRead P_RoundTrip DesPrint P_DesPrint FileDiff P_FileDiff P_FileDiffRead FileLog FilePrint P_FilePrint P_FilePrintRead.
From Coq Require Import ZifyBool ZifyNat ZifyN.
Open Scope list_scope.
Ltac Zify.zify_post_hook ::= idtac.

Section P.
Variable FO : FloatOps.
Hypothesis laws : FloatLaws FO.
Notation state := (state FO).
Notation seg := (seg FO).
Notation nfile := (nfile FO).
Variable E : env.

(** A DES of fields was read from somewhere. *)
Definition from_read (k : kind) (sz : Z) (s : seg) : Prop :=
  match s_data FO s with
  | DFields _ c st x => k = KDes /\ exists file p d q, hget FO (sub_rows KDes) (s_hdr FO s) "desid" = Ok (VStr (dc_tag c))
      /\ fd_read FO (fd_new FO c (dc_tag c) (Some sz)) file p = Ok (true, d, q) /\ st = fd_st d /\ x = fd_copy d
  | _ => True
  end.
Lemma fd_read_keeps (d d1 : fdes FO) file p q g : fd_id d = dc_tag (fd_cls d) -> fd_read FO d file p = Ok (g, d1, q) ->
  g = true /\ fd_cls d1 = fd_cls d /\ fd_id d1 = fd_id d /\ fd_seg d1 = fd_seg d
  /\ exists rest, read FO (mk_fs (dc_rows (fd_cls d))) false (fd_st d) (skipn p file) = Ok (fd_st d1, rest).
Proof.
  intros T RD. unfold fd_read in RD. rewrite T, (proj2 (list_eqb_spec _ _) eq_refl) in RD. cbn [negb] in RD.
  apply bind_ok_elim in RD as ((s & rest) & R & RD). cbv zeta in RD. unfold fd_put in RD.
  match type of RD with (if ?c then _ else _) = _ => destruct c end; [injection RD as <- <- _; cbn; eauto 8|].
  destruct (negb (dc_after (fd_cls d))); [discriminate RD|]. destruct (dc_copy (fd_cls d)).
  - destruct (take_at _ _ _) in RD. injection RD as <- <- _. cbn. eauto 8.
  - apply bind_ok_elim in RD as (z & _ & RD). injection RD as <- <- _. cbn. eauto 8.
Qed.
Lemma handled_from k h sz file p d q : handle_levels handler nat (sdata FO) (handle_h FO k h sz file) (e_levels E) p = Ok (d, q) ->
  match d with
  | DFields _ c st x => k = KDes /\ exists file p d q, hget FO (sub_rows KDes) h "desid" = Ok (VStr (dc_tag c))
      /\ fd_read FO (fd_new FO c (dc_tag c) (Some sz)) file p = Ok (true, d, q) /\ st = fd_st d /\ x = fd_copy d
  | _ => True
  end.
Proof.
  intro L. destruct (levels_declined _ _ _ (declined_pos FO k h sz file) _ _ _ _ L) as (l1 & lv & l2 & hd & _ & _ & HD & _).
  assert (HD0 := HD). unfold handle_h in HD. destruct (negb (for_kind hd k)) eqn:FK; [discriminate HD|].
  destruct hd; cbn [for_kind] in FK.
  - destruct k; try discriminate FK. apply bind_ok_elim in HD as (v & V & HD). apply bind_ok_elim in HD as (e & Ee & HD).
    destruct e; [|discriminate HD]. destruct (take_at sz file p). injection HD as <- _. exact I.
  - destruct k; try discriminate FK. apply bind_ok_elim in HD as (v & V & HD). apply bind_ok_elim in HD as (e & Ee & HD).
    destruct e; [|discriminate HD]. apply py_eqb_str in Ee. subst v. clear HD.
    rewrite (C53_file FO c KDes _ sz file p eq_refl V) in HD0. apply bind_ok_elim in HD0 as (((g & d1) & p1) & RD & HD0). injection HD0 as <- _.
    destruct (fd_read_keeps _ _ _ _ _ _ (eq_refl : fd_id (fd_new FO c (dc_tag c) (Some sz)) = _) RD) as (-> & _).
    split; [reflexivity|]. exists file, p, d1, p1. auto.
  - destruct k; try discriminate FK. destruct (take_at sz file p). injection HD as <- _. exact I.
  - destruct k; try discriminate FK. destruct (take_at sz file p). injection HD as <- _. exact I.
  - destruct k; try discriminate FK. destruct (take_at sz file p). injection HD as <- _. exact I.
  - destruct k; try discriminate FK. destruct (take_at sz file p). injection HD as <- _. exact I.
  - destruct k; try discriminate FK. apply bind_ok_elim in HD as (r & R & HD). destruct r as [(m & p')|]; [|discriminate HD]. injection HD as <- _. exact I.
  - destruct k; try discriminate FK. apply bind_ok_elim in HD as (r & R & HD). injection HD as <- _. exact I.
  - apply bind_ok_elim in HD as (r & R & HD). injection HD as <- _. exact I.
Qed.
Lemma seg_from k sz file p s q : seg_read FO E k sz file p = Ok (s, q) -> from_read k sz s.
Proof.
  unfold seg_read. intro R. apply bind_ok_elim in R as ((st & p1) & RS & R). apply bind_ok_elim in R as (c & Ec & R).
  apply bind_ok_elim in R as (u & U & R). apply bind_ok_elim in R as ((d & p2) & L & R). injection R as <- _. unfold from_read. cbn [s_data s_hdr].
  exact (handled_from _ _ _ _ _ _ _ L).
Qed.
Lemma segs_from k file : forall szs p l q, segs_read FO E k szs file p = Ok (l, q) -> Forall2 (from_read k) szs l.
Proof.
  induction szs as [|sz szs IH]; intros p l q R; cbn [segs_read] in R; [injection R as <- _; constructor|].
  apply bind_ok_elim in R as ((s & p1) & R1 & R). apply bind_ok_elim in R as ((r & p2) & R2 & R). injection R as <- _.
  constructor; [exact (seg_from _ _ _ _ _ _ R1)|exact (IH _ _ _ R2)].
Qed.
Lemma with_from k dd szs : forall l l', File.map_res (with_tres FO E k dd) l = Ok l' -> Forall2 (from_read k) szs l -> Forall2 (from_read k) szs l'.
Proof.
  intros l l' M F. revert l' M. induction F as [|sz s szs l S F IH]; intros l' M; cbn [File.map_res] in M; [injection M as <-; constructor|].
  apply bind_ok_elim in M as (s' & SS & M). apply bind_ok_elim in M as (r & R & M). injection M as <-.
  constructor; [|exact (IH _ R)]. unfold with_tres in SS. destruct (has_tres k); [|injection SS as <-; exact S].
  apply bind_ok_elim in SS as (ts & T & SS). injection SS as <-. exact S.
Qed.
Lemma file_from bytes f : file_read FO E bytes = Ok f ->
  forall k i s, nth_error (nf_segs FO f k) i = Some s -> exists sz, read_size FO f k i = Some sz /\ from_read k sz s.
Proof.
  intro R. unfold file_read in R. apply bind_ok_elim in R as ((st & p0) & RH & R).
  apply bind_ok_elim in R as (fl & _ & R). apply bind_ok_elim in R as (stm & _ & R). destruct stm; [discriminate R|].
  apply bind_ok_elim in R as (zi & Zi & R). apply bind_ok_elim in R as (zg & Zg & R). apply bind_ok_elim in R as (zt & Zt & R).
  apply bind_ok_elim in R as (zd & Zd & R). apply bind_ok_elim in R as (zr & Zr & R).
  apply bind_ok_elim in R as ((im & p1) & R1 & R). apply bind_ok_elim in R as ((gr & p2) & R2 & R).
  apply bind_ok_elim in R as ((tx & p3) & R3 & R). apply bind_ok_elim in R as ((de & p4) & R4 & R).
  apply bind_ok_elim in R as ((rs & p5) & R5 & R). apply bind_ok_elim in R as (ts & TS & R).
  apply bind_ok_elim in R as (im' & M1 & R). apply bind_ok_elim in R as (gr' & M2 & R). apply bind_ok_elim in R as (tx' & M3 & R).
  injection R as <-. unfold read_size. cbn [nf_hdr nf_segs h_st].
  assert (X : forall k szs l, sizes FO st k = Ok szs -> Forall2 (from_read k) szs l -> forall i s, nth_error l i = Some s ->
    exists sz, match size_at FO st (snd (size_names k)) (Z.of_nat i) with Ok z => Some z | Err _ => None end = Some sz /\ from_read k sz s).
  { intros k szs l Sz F i s I. assert (Y : exists sz, nth_error szs i = Some sz /\ from_read k sz s).
    { clear Sz. revert i I. induction F as [|a b szs l A F IH]; intros [|i] I; cbn [nth_error] in *; try discriminate I; [injection I as <-; eauto|exact (IH i I)]. }
    destruct Y as (sz & J & Y). exists sz. split; [|exact Y]. now rewrite (sizes_nth FO st k szs Sz i sz J). }
  intros [].
  - exact (X KImage zi im' Zi (with_from _ _ _ _ _ M1 (segs_from _ _ _ _ _ _ R1))).
  - exact (X KGraphic zg gr' Zg (with_from _ _ _ _ _ M2 (segs_from _ _ _ _ _ _ R2))).
  - exact (X KText zt tx' Zt (with_from _ _ _ _ _ M3 (segs_from _ _ _ _ _ _ R3))).
  - exact (X KDes zd de Zd (segs_from _ _ _ _ _ _ R4)).
  - exact (X KRes zr rs Zr (segs_from _ _ _ _ _ _ R5)).
Qed.

(** The fields of a DES are written as they are read. *)
Definition regular (s : seg) : Prop :=
  match s_data FO s with
  | DFields _ c st _ => wf_rows (dc_rows c) = true /\ FloatStable FO (mk_fs (dc_rows c)) /\ no_fill_text FO (mk_fs (dc_rows c)) st
  | _ => True
  end.

Lemma update_write (d d' : fdes FO) : wf_rows (dc_rows (fd_cls d)) = true -> FloatStable FO (mk_fs (dc_rows (fd_cls d))) ->
  no_literals FO (mk_fs (dc_rows (fd_cls d))) (fd_st d) -> no_fill_text FO (mk_fs (dc_rows (fd_cls d))) (fd_st d) ->
  reachable FO (dc_rows (fd_cls d)) (fd_st d) -> fd_update FO d = Ok d' ->
  write FO (mk_fs (dc_rows (fd_cls d))) (fd_st d') = write FO (mk_fs (dc_rows (fd_cls d))) (fd_st d).
Proof.
  intros Hwf HS HL HF Hr HU. unfold fd_update in HU. apply bind_ok_elim in HU as (b0 & HW & HR). unfold fd_write in HW.
  apply bind_ok_elim in HW as (b & HW & X). injection X as <-. apply bind_ok_elim in HR as ([[g d''] q] & HR & X). injection X as ->.
  destruct (list_eqb (fd_id d) (dc_tag (fd_cls d))) eqn:T.
  2: { unfold fd_read in HR. rewrite T in HR. injection HR as _ <- _. reflexivity. }
  apply list_eqb_spec in T. destruct (fd_read_keeps _ _ _ _ _ _ T HR) as (_ & _ & _ & _ & rest & R). cbn [skipn] in R.
  rewrite (C03_rewrite_identical FO (dc_rows (fd_cls d)) (fd_st d) (fd_st d) (fd_st d') b _ rest laws HS Hwf HL HF Hr HW R). now symmetry.
Qed.

Lemma from_steady k sz s : (k = KDes -> (0 <= sz)%Z) -> from_read k sz s -> regular s -> steady FO (Some sz) s.
Proof.
  unfold from_read, regular, steady. intros Z0. destruct (s_data FO s); auto.
  intros (-> & file & p & d & q & V & RD & -> & ->) (Hwf & HS & HF) id d' U.
  destruct (fd_read_keeps _ _ _ _ _ _ (eq_refl : fd_id (fd_new FO c (dc_tag c) (Some sz)) = _) RD) as (_ & F1 & F2 & F3 & rest & R). cbn [fd_cls fd_id fd_seg fd_st fd_new] in F1, F2, F3, R.
  set (d0 := {| fd_cls := c; fd_id := id; fd_seg := Some sz; fd_st := fd_st d; fd_left := None; fd_copy := fd_copy d |}) in *.
  assert (L : no_literals FO (mk_fs (dc_rows c)) (fd_st d)) by (eapply no_literals_read; [apply no_literals_init|exact R]).
  assert (RC : reachable FO (dc_rows c) (fd_st d)) by (eapply rc_read; [apply rc_init|exact R]).
  assert (W := update_write d0 d' Hwf HS L HF RC U). cbn [fd_cls d0 fd_st] in W.
  assert (C := fd_update_cls FO _ _ U). cbn [fd_cls d0] in C. unfold fd_write. rewrite C, W. cbn [fd_cls fd_st d0 fd_copy].
  destruct (list_eqb id (dc_tag c)) eqn:T.
  2: { unfold fd_update in U. apply bind_ok_elim in U as (b & _ & U). apply bind_ok_elim in U as ((([] & d'') & q') & RD' & U); unfold fd_read in RD'; cbn [fd_id fd_cls d0] in RD';
       rewrite T in RD'; cbn [negb] in RD'; [discriminate RD'|]. injection RD' as <- _. injection U as <-. reflexivity. }
  apply list_eqb_spec in T. subst id.
  destruct (write FO (mk_fs (dc_rows c)) (fd_st d)) as [b|] eqn:W0; [|reflexivity].
  destruct (C53_after_read FO (fd_new FO c (dc_tag c) (Some sz)) d file p q sz (b ++ match fd_copy d with Some x => x | None => [] end) laws Hwf
    (no_literals_init FO _) eq_refl (Z0 eq_refl) eq_refl RD ltac:(unfold fd_write; rewrite F1, W0; reflexivity)) as ((d3 & U3 & _ & C3 & _) & _).
  assert (EU : fd_update FO d0 = fd_update FO d)
    by (unfold fd_update, fd_write, fd_read, fd_put, d0; cbn [fd_cls fd_id fd_seg fd_st fd_copy]; rewrite F1, F2, F3, (proj2 (list_eqb_spec (dc_tag c) (dc_tag c)) eq_refl); reflexivity).
  rewrite EU, U3 in U. injection U as <-. now rewrite C3.
Qed.

Section Print.
Variable ext : field -> list N -> res (list N).
Variable source : expr -> list N.
Variable H : Type.
Variable rm : H -> bool.
Variable h_str : H -> kind -> seg -> res (list N).
Variable h_tre : H -> kind -> seg -> tre FO -> res (bool * list N).
Variable o : popts H.
Notation file_print := (file_print FO ext source H rm h_str h_tre o).

(** A file that was read and then printed is written as if it had not been printed. *)
Theorem C63_read_written bytes f f' t : file_read FO E bytes = Ok f ->
  (forall i z, (i < List.length (nf_segs FO f KDes))%nat -> read_size FO f KDes i = Some z -> (0 <= z)%Z) -> (forall s, In s (nf_segs FO f KDes) -> regular s) ->
  file_print (read_size FO f) f = Ok (f', t) ->
  match file_write FO E f, file_write FO E f' with
  | Ok (_, b), Ok (_, b') => b = b'
  | Err e, Err e' => e = e'
  | _, _ => False
  end.
Proof.
  intros R Z0 RG P. apply (C63_written FO ext source H rm h_str h_tre o E _ _ _ _ P). intros k i s I.
  destruct (file_from _ _ R k i s I) as (sz & S & F). rewrite S.
  apply (from_steady k sz s); [intros ->; apply (Z0 i sz); [apply nth_error_Some; rewrite I; intro X; discriminate X|exact S]|exact F|]. unfold from_read in F. unfold regular. destruct (s_data FO s) eqn:D; auto. destruct F as (-> & _).
  assert (G := RG s (nth_error_In _ _ I)). unfold regular in G. rewrite D in G. exact G.
Qed.

(** Hooks that do not look at the data. *)
Definition blind_hooks : Prop :=
  (forall h k s d, h_str h k (with_data FO s d) = h_str h k s) /\ (forall h k s d t, h_tre h k (with_data FO s d) t = h_tre h k s t).
Hypothesis HB : blind_hooks.
Lemma fold_ext {W} (m m' : H -> W -> res W) : (forall h w, m h w = m' h w) -> forall hs w, fold_res m hs w = fold_res m' hs w.
Proof. intros Q hs. induction hs as [|h hs IH]; intro w; [reflexivity|]. cbn [fold_res]. rewrite Q. destruct (m' h w); [apply IH|reflexivity]. Qed.
Lemma hook_blind k s d : hook_text FO H rm h_str o k (with_data FO s d) = hook_text FO H rm h_str o k s.
Proof.
  unfold hook_text, on_str. cbn [with_data s_linked]. destruct (s_linked FO s); [|reflexivity]. apply fold_ext. intros h w. now rewrite (proj1 HB).
Qed.
Lemma tre_blind k s d t : tre_part FO ext source H rm h_tre o k (with_data FO s d) t = tre_part FO ext source H rm h_tre o k s t.
Proof.
  unfold tre_part, on_str_tre. cbn [with_data s_linked]. destruct (s_linked FO s); [|reflexivity].
  rewrite (fold_ext _ (fun h (p : bool * list N) => if negb (po_raw o && rm h) then if fst p then Ok p else do (b, x) <- h_tre h k s t; Ok (b, snd p ++ x) else Ok p)); [reflexivity|].
  intros h w. now rewrite (proj2 HB).
Qed.
Lemma map_res_ext {A B} (m m' : A -> res B) l : (forall a, m a = m' a) -> Listing.map_res m l = Listing.map_res m' l.
Proof. intro Q. induction l as [|a l IH]; [reflexivity|]. cbn [Listing.map_res]. now rewrite Q, IH. Qed.
Lemma tres_blind k s d : tres_part FO ext source H rm h_tre o k (with_data FO s d) = tres_part FO ext source H rm h_tre o k s.
Proof.
  unfold tres_part. destruct (negb (has_tres k)); [reflexivity|]. cbn [with_data s_tres]. destruct (s_tres FO s); [reflexivity|].
  rewrite (map_res_ext _ (tre_part FO ext source H rm h_tre o k s)); [reflexivity|]. intro a. apply tre_blind.
Qed.
Lemma with_same s : with_data FO s (s_data FO s) = s. Proof. destruct s. reflexivity. Qed.

Lemma data_again k sz s d x : (k = KDes -> (0 <= sz)%Z) -> from_read k sz s -> regular s ->
  data_text FO ext source H o k s (Some sz) = Ok (d, x) -> exists d', data_text FO ext source H o k (with_data FO s d) (Some sz) = Ok (d', x).
Proof.
  intros Z0 F G D. assert (Q := data_text_same FO ext source H o k s (Some sz) d x D).
  assert (T : (exists c st y, s_data FO s = DFields FO c st y) \/ d = s_data FO s) by (destruct (s_data FO s); eauto 6).
  destruct T as [(c & st & y & T)| ->]; [|rewrite with_same; eauto].
  unfold from_read in F. unfold regular in G. rewrite T in F, G. destruct F as (-> & file & p & d1 & q & V & RD & -> & ->). destruct G as (Hwf & HS & HF).
  destruct (fd_read_keeps _ _ _ _ _ _ (eq_refl : fd_id (fd_new FO c (dc_tag c) (Some sz)) = _) RD) as (_ & F1 & F2 & F3 & rest & R). cbn [fd_cls fd_id fd_seg fd_st fd_new] in F1, F2, F3, R.
  unfold data_text in D. rewrite T, V in D. cbn [bind] in D.
  set (d0 := {| fd_cls := c; fd_id := dc_tag c; fd_seg := Some sz; fd_st := fd_st d1; fd_left := None; fd_copy := fd_copy d1 |}) in *.
  set (u := match s_ush FO s with Some u => Some (uc_rows (us_cls FO u), us_st FO u) | None => None end) in *.
  apply bind_ok_elim in D as ((d2 & t2) & P & D). apply ok_pair in D as (<- & D). subst t2.
  assert (L : no_literals FO (mk_fs (dc_rows c)) (fd_st d1)) by (eapply no_literals_read; [apply no_literals_init|exact R]).
  assert (RC : reachable FO (dc_rows c) (fd_st d1)) by (eapply rc_read; [apply rc_init|exact R]).
  destruct (C53_twice FO ext source u d0 d2 x laws HS Hwf L HF RC ltac:(intros n X; injection X as <-; exact (Z0 eq_refl)) P) as (_ & d3 & P3 & _).
  assert (K : fd_cls d2 = c /\ fd_id d2 = dc_tag c /\ fd_seg d2 = Some sz).
  { unfold fd_print in P. apply bind_ok_elim in P as (d4 & U & P). apply bind_ok_elim in P as (w & _ & P). apply bind_ok_elim in P as (w' & _ & P). injection P as P _. subst d4.
    unfold fd_update in U. apply bind_ok_elim in U as (b & _ & U). apply bind_ok_elim in U as (((g & d4) & q') & RD' & U). injection U as ->.
    destruct (fd_read_keeps _ _ _ _ _ _ (eq_refl : fd_id d0 = _) RD') as (_ & K1 & K2 & K3 & _). auto. }
  destruct K as (K1 & K2 & K3).
  unfold data_text. cbn [with_data s_data s_hdr s_ush]. rewrite V. cbn [bind]. fold u.
  set (d4 := {| fd_cls := c; fd_id := dc_tag c; fd_seg := Some sz; fd_st := fd_st d2; fd_left := None; fd_copy := fd_copy d2 |}).
  assert (EU : fd_print FO ext source u d4 = fd_print FO ext source u d2)
    by (unfold fd_print, fd_update, fd_write, fd_read, fd_put, d4; cbn [fd_cls fd_id fd_seg fd_st fd_copy]; rewrite K1, K2, K3, (proj2 (list_eqb_spec (dc_tag c) (dc_tag c)) eq_refl); reflexivity).
  rewrite EU, P3. cbn [bind]. eauto.
Qed.
Lemma seg_again k sz s s' x : (k = KDes -> (0 <= sz)%Z) -> from_read k sz s -> regular s ->
  seg_print FO ext source H rm h_str h_tre o k (Some sz) s = Ok (s', x) -> exists s2, seg_print FO ext source H rm h_str h_tre o k (Some sz) s' = Ok (s2, x).
Proof.
  intros Z0 F G P. assert (P0 := P). unfold seg_print in P. apply bind_ok_elim in P as (skip & K & P). destruct skip.
  { apply ok_pair in P as (<- & <-). exists s. exact P0. }
  apply bind_ok_elim in P as (a & A & P). apply bind_ok_elim in P as (b & B & P). apply bind_ok_elim in P as (u & U & P).
  apply bind_ok_elim in P as (t & T & P). apply bind_ok_elim in P as ((d & y) & D & P). apply ok_pair in P as (<- & <-).
  destruct (data_again k sz s d y Z0 F G D) as (d' & D'). exists (with_data FO (with_data FO s d) d'). unfold seg_print.
  change (s_hdr FO (with_data FO s d)) with (s_hdr FO s). change (s_ush FO (with_data FO s d)) with (s_ush FO s).
  rewrite K. cbn [bind]. rewrite hook_blind, A. cbn [bind]. rewrite B. cbn [bind]. rewrite U. cbn [bind]. rewrite tres_blind, T. cbn [bind]. rewrite D'. reflexivity.
Qed.
Lemma segs_again k size n : forall l i l' x, segs_print FO ext source H rm h_str h_tre o k size n i l = Ok (l', x) ->
  (forall j s, nth_error l j = Some s -> exists sz, size (i + j)%nat = Some sz /\ (k = KDes -> (0 <= sz)%Z) /\ from_read k sz s /\ regular s) ->
  exists l2, segs_print FO ext source H rm h_str h_tre o k size n i l' = Ok (l2, x).
Proof.
  induction l as [|s l IH]; intros i l' x P Q; cbn [segs_print] in P; [apply ok_pair in P as (<- & <-); exists []; reflexivity|].
  apply bind_ok_elim in P as ((s' & t) & P1 & P). apply bind_ok_elim in P as ((r & y) & P2 & P). apply ok_pair in P as (<- & <-).
  destruct (Q 0%nat s eq_refl) as (sz & S & Z0 & F & G). rewrite Nat.add_0_r in S. rewrite S in P1.
  destruct (seg_again k sz s s' t Z0 F G P1) as (s2 & P1'). cbn [segs_print]. rewrite S, P1'. cbn [bind].
  destruct (IH _ _ _ P2) as (l2 & P2'). { intros j s0 J. replace (Datatypes.S i + j)%nat with (i + Datatypes.S j)%nat by lia. exact (Q (Datatypes.S j) s0 J). }
  rewrite P2'. cbn [bind]. eauto.
Qed.

(** Printing a file that was read once more gives the same text. *)
Theorem C63_again bytes f f' t : file_read FO E bytes = Ok f ->
  (forall i z, (i < List.length (nf_segs FO f KDes))%nat -> read_size FO f KDes i = Some z -> (0 <= z)%Z) -> (forall s, In s (nf_segs FO f KDes) -> regular s) ->
  file_print (read_size FO f) f = Ok (f', t) -> exists f2, file_print (read_size FO f') f' = Ok (f2, t).
Proof.
  intros R Z0 RG P.
  assert (Q : forall k l x, kind_print FO ext source H rm h_str h_tre o (read_size FO f) f k = Ok (l, x) -> nf_segs FO f' k = l ->
    exists l2, kind_print FO ext source H rm h_str h_tre o (read_size FO f) f' k = Ok (l2, x)).
  { intros k l x X <-. unfold kind_print in X |- *. apply bind_ok_elim in X as ((l1 & y) & X & Y). apply ok_pair in Y as (-> & <-).
    assert (LN : List.length (nf_segs FO f' k) = List.length (nf_segs FO f k)) by (destruct (segs_print_tells FO ext source H rm h_str h_tre o _ _ _ _ _ _ _ X) as (ts & _ & L' & _); exact L').
    destruct (segs_again _ _ _ _ _ _ _ X) as (l2 & X2).
    - intros j s J. cbn [Nat.add]. destruct (file_from _ _ R k j s J) as (sz & S & F). exists sz. split; [exact S|]. split; [intros ->; apply (Z0 j sz); [apply nth_error_Some; rewrite J; intro X1; discriminate X1|exact S]|]. split; [exact F|].
      unfold from_read in F. unfold regular. destruct (s_data FO s) eqn:D; auto. destruct F as (-> & _).
      assert (G := RG s (nth_error_In _ _ J)). unfold regular in G. rewrite D in G. exact G.
    - rewrite LN, X2. cbn [bind]. destruct (nf_segs FO f' k), (nf_segs FO f k); try discriminate LN; eauto. }
  assert (SZ : read_size FO f' = read_size FO f) by (destruct (C63_changes FO ext source H rm h_str h_tre o _ _ _ _ P) as (HH & _); unfold read_size; now rewrite HH).
  rewrite SZ. clear SZ. unfold FilePrint.file_print in P. apply bind_ok_elim in P as (h & Eh & P). apply bind_ok_elim in P as (ts & T & P).
  apply bind_ok_elim in P as ((l1 & x1) & X1 & P). apply bind_ok_elim in P as ((l2 & x2) & X2 & P). apply bind_ok_elim in P as ((l3 & x3) & X3 & P).
  apply bind_ok_elim in P as ((l4 & x4) & X4 & P). apply bind_ok_elim in P as ((l5 & x5) & X5 & P). apply ok_pair in P as (P & <-).
  assert (S : forall k, nf_segs FO f' k = match k with KImage => l1 | KGraphic => l2 | KText => l3 | KDes => l4 | KRes => l5 end) by (intro k; rewrite <- P; reflexivity).
  assert (HH : nf_hdr FO f' = nf_hdr FO f) by (rewrite <- P; reflexivity). assert (TT : nf_tres FO f' = nf_tres FO f) by (rewrite <- P; reflexivity). clear P.
  destruct (Q _ _ _ X1 (S KImage)) as (m1 & Y1). destruct (Q _ _ _ X2 (S KGraphic)) as (m2 & Y2). destruct (Q _ _ _ X3 (S KText)) as (m3 & Y3).
  destruct (Q _ _ _ X4 (S KDes)) as (m4 & Y4). destruct (Q _ _ _ X5 (S KRes)) as (m5 & Y5).
  unfold FilePrint.file_print. rewrite HH, TT, Eh. cbn [bind]. rewrite T. cbn [bind]. rewrite Y1. cbn [bind]. rewrite Y2. cbn [bind]. rewrite Y3. cbn [bind].
  rewrite Y4. cbn [bind]. rewrite Y5. cbn [bind]. eauto.
Qed.
End Print.
End P.
Print Assumptions C63_read_written.
Print Assumptions C63_again.
