(** Segments that are in two files (C72). *)
From Verif Require Import Base BaseLemmas Engine Wf EngineLemmas Codec RoundTrip Rewrite Literal Positions Keys Deps Assign
  Update Spec Decimal DescsHdr Utf8 Tre TreLemmas Handles TrePlace TrePlaceLemmas Scalar Security Image ImageLemmas
  File FileLemmas OpenFile P_OpenFile TwoFiles Ex P_File.
Open Scope list_scope.

Section Two.
Variable FO : FloatOps.
Notation st := (state FO).
Notation seg := (seg FO).

(** Setting the two sizes of a segment. *)
Definition put2 (x : st) (k : kind) (i : nat) (p : list N * list N) : st :=
  assigned FO (assigned FO x (hfld (size_name k true)) [Z.of_nat i] (SVal (VInt (Z.of_nat (List.length (fst p))))))
    (hfld (size_name k false)) [Z.of_nat i] (SVal (VInt (Z.of_nat (List.length (snd p))))).

Lemma size_in k b : In (hfld (size_name k b)) (fs_fields hfs).
Proof. exact (lookup_in _ _ _ (lp_look _ _ _ (size_fld k b))). Qed.
Lemma size_ne k b k' b' : (k, b) <> (k', b') -> hfld (size_name k b) <> hfld (size_name k' b').
Proof.
  intro H. apply (lookup_ne hrows _ _ _ _ (lp_look _ _ _ (size_fld k b)) (lp_look _ _ _ (size_fld k' b'))).
  intro E. apply size_name_inj in E as (-> & ->). now apply H.
Qed.

Lemma put2_other x k i p y q : In y (fs_fields hfs) -> (forall b, ~ (y = hfld (size_name k b) /\ q = [Z.of_nat i])) ->
  stored FO (put2 x k i p) y q = stored FO x y q.
Proof.
  intros Hy Hn. unfold put2.
  match goal with |- stored FO (assigned FO ?a ?f ?kk ?v) y q = _ =>
    destruct (assigned_stored FO hrows a f kk v y q (size_in k false) Hy) as [->|(E1 & E2)]; [|now destruct (Hn false)] end.
  match goal with |- stored FO (assigned FO ?a ?f ?kk ?v) y q = _ =>
    destruct (assigned_stored FO hrows a f kk v y q (size_in k true) Hy) as [->|(E1 & E2)]; [reflexivity|now destruct (Hn true)] end.
Qed.
Lemma put2_sizes x k i p :
  size_stored FO (put2 x k i p) k true i = SVal (VInt (Z.of_nat (List.length (fst p))))
  /\ size_stored FO (put2 x k i p) k false i = SVal (VInt (Z.of_nat (List.length (snd p)))).
Proof.
  unfold size_stored, put2. split; [|apply assigned_self].
  rewrite (assigned_same FO hrows); [apply assigned_self|apply size_in|apply size_in|apply size_ne; congruence].
Qed.
Lemma put2_counts x n k i p : counts FO x n -> counts FO (put2 x k i p) n.
Proof.
  intro C. unfold put2.
  apply (counts_assigned FO _ n _ _ _ _ (lp_look _ _ _ (size_fld k false))); [intro; apply count_not_size|].
  apply (counts_assigned FO _ n _ _ _ _ (lp_look _ _ _ (size_fld k true))); [intro; apply count_not_size|exact C].
Qed.

(** An update of a size that succeeds. *)
Lemma update_size k b i z (s s' : st) h h' u :
  fh_update FO hfs (size_name k b) [Z.of_nat i] (SVal (VInt z)) (s, h) = ((s', h'), Ok u) ->
  s' = assigned FO s (hfld (size_name k b)) [Z.of_nat i] (SVal (VInt z))
  /\ forall n, counts FO s n -> (i < n k)%nat.
Proof.
  unfold fh_update. destruct (size_fld k b) as [L L1 L2 L3 L4 L5 L6 L7]. rewrite L. intro H.
  destruct (fset FO hfs s (hfld (size_name k b)) [Z.of_nat i] (SVal (VInt z))) as [s1 [[]|e]] eqn:E; [|discriminate H].
  assert (s' = s1).
  { destruct (check_condition FO (G FO hfs s1) hfs (hfld (size_name k b)) [Z.of_nat i]) as [[|]|]; try discriminate H.
    destruct (st_loc FO s1 _ _); [|discriminate H]. destruct (field_bytes FO _ _ _ _ _); [|discriminate H]. congruence. }
  subst s'. clear H. unfold fset, fuel in E. cbn [setf] in E. rewrite L5 in E.
  apply (set_base_cases FO hfs) in E as [(_ & (e & E) & _)|(M & [(E & _)|[(D & _)|(D & _)]])];
    [discriminate E| |rewrite L5 in D; discriminate D|rewrite L5 in D; discriminate D].
  split; [exact E|]. intros n C. destruct M as (_ & CI & _). unfold check_index, depth in CI. rewrite L1 in CI.
  cbn [List.length Nat.eqb negb last removelast] in CI. replace (Z.of_nat i <? 0)%Z with false in CI by lia.
  rewrite (proj2 (size_shape FO s n k [] b C)) in CI. cbn [bind] in CI.
  destruct (Z.leb_spec (Z.of_nat (n k)) (Z.of_nat i)); [discriminate CI|lia].
Qed.

Lemma update_sizes_ok k i p (s s' : st) h h' :
  update_sizes FO k i (List.length (fst p)) (List.length (snd p)) (s, h) = Ok (s', h') ->
  s' = put2 s k i p /\ forall n, counts FO s n -> (i < n k)%nat.
Proof.
  unfold update_sizes. change (fst (size_names k)) with (size_name k true). change (snd (size_names k)) with (size_name k false).
  intro H. destruct (fh_update FO hfs (size_name k true) _ _ (s, h)) as [[s1 h1] [u|e]] eqn:U1; [|discriminate H].
  destruct (fh_update FO hfs (size_name k false) _ _ (s1, h1)) as [[s2 h2] [u2|e]] eqn:U2; [|discriminate H].
  injection H as <- <-. apply update_size in U1 as (-> & N). apply update_size in U2 as (-> & _). split; [reflexivity|exact N].
Qed.

(** What writing one segment does to the two headers. *)
Lemma seg_fh_ok E Eo k i (s s' : seg) o (hs ho hs' ho' : st) h h' :
  seg_fh FO E Eo k i s o hs ho h = Ok (s', (hs', ho'), h') ->
  exists p, wrote FO k s s' p
    /\ (hs' = if s_linked FO s && negb o then put2 hs k i p else hs)
    /\ (ho' = if s_linked FO s && o then put2 ho k i p else ho)
    /\ (s_linked FO s && o = true -> forall n, counts FO ho n -> (i < n k)%nat).
Proof.
  unfold seg_fh. intro H.
  apply bind_ok_elim in H as (c & _ & H). apply bind_ok_elim in H as (u & _ & H).
  apply bind_ok_elim in H as (sh & Hh & H). apply bind_ok_elim in H as (b & Hb & H). apply bind_ok_elim in H as (d & Hd & H).
  assert (Hd' : data_bytes FO sh (s_data FO s) = Ok d) by (destruct (data_bytes FO sh (s_data FO s)); congruence).
  exists (b, d). assert (W : wrote FO k s (with_hdr FO s sh) (b, d)) by (exists sh; auto).
  destruct (s_linked FO s) eqn:LK; cbn [andb] in *.
  - apply bind_ok_elim in H as ([x h2] & HU & H). apply (update_sizes_ok k i (b, d)) in HU as (-> & N).
    destruct o; cbn [negb]; assert (with_hdr FO s sh = s') by congruence; subst s'; (split; [exact W|]).
    + assert (hs' = hs) by congruence. assert (ho' = put2 ho k i (b, d)) by congruence. split; [assumption|]. split; [assumption|intros _; exact N].
    + assert (ho' = ho) by congruence. assert (hs' = put2 hs k i (b, d)) by congruence. split; [assumption|]. split; [assumption|discriminate].
  - injection H as <- <- <- _. repeat (split; [assumption || reflexivity|]). discriminate.
Qed.

(** Segment [j] of the list is linked to the other file. *)
Definition away (l : list seg) (o : nat -> bool) (i j : nat) : Prop :=
  exists s, nth_error l (j - i) = Some s /\ (i <= j)%nat /\ s_linked FO s = true /\ o j = true.
(** ... to the file itself. *)
Definition home (l : list seg) (o : nat -> bool) (i j : nat) : Prop :=
  exists s, nth_error l (j - i) = Some s /\ (i <= j)%nat /\ s_linked FO s = true /\ o j = false.

Lemma away_cons s l o i j : away l o (S i) j -> away (s :: l) o i j.
Proof. intros (x & H & L & R). exists x. replace (j - i)%nat with (S (j - S i)) by lia. cbn [nth_error]. repeat split; auto; try lia; apply R. Qed.
Lemma home_cons s l o i j : home l o (S i) j -> home (s :: l) o i j.
Proof. intros (x & H & L & R). exists x. replace (j - i)%nat with (S (j - S i)) by lia. cbn [nth_error]. repeat split; auto; try lia; apply R. Qed.

Lemma segs_fh_ok E Eo k o l : forall i l' (hs ho hs' ho' : st) h h',
  segs_fh FO E Eo k o i l hs ho h = Ok (l', (hs', ho'), h') ->
  exists ps, wrote_all FO k l l' ps
    /\ (forall y q, In y (fs_fields hfs) -> (forall b j, home l o i j -> ~ (y = hfld (size_name k b) /\ q = [Z.of_nat j])) ->
          stored FO hs' y q = stored FO hs y q)
    /\ (forall y q, In y (fs_fields hfs) -> (forall b j, away l o i j -> ~ (y = hfld (size_name k b) /\ q = [Z.of_nat j])) ->
          stored FO ho' y q = stored FO ho y q)
    /\ (forall j p, away l o i (i + j) -> nth_error ps j = Some p ->
          size_stored FO ho' k true (i + j) = SVal (VInt (Z.of_nat (List.length (fst p))))
          /\ size_stored FO ho' k false (i + j) = SVal (VInt (Z.of_nat (List.length (snd p)))))
    /\ (forall n, counts FO ho n -> counts FO ho' n /\ forall j, away l o i j -> (j < n k)%nat).
Proof.
  induction l as [|s l IH]; intros i l' hs ho hs' ho' h h' H.
  - injection H as <- <- <- _. exists []. split; [constructor|]. repeat (split; [reflexivity|]).
    split; [intros [|j] p _ Hp; discriminate Hp|]. intros n C. split; [exact C|]. intros j (x & Hx & _).
    destruct (j - i)%nat; discriminate Hx.
  - cbn [segs_fh] in H. apply bind_ok_elim in H as ([[s' [hs1 ho1]] h1] & H1 & H).
    apply bind_ok_elim in H as ([[r [hs2 ho2]] h2] & H2 & H). cbn [fst snd] in H2.
    injection H as <- <- <- _. destruct (seg_fh_ok _ _ _ _ _ _ _ _ _ _ _ _ _ H1) as (p & W & E1 & E2 & N).
    destruct (IH _ _ _ _ _ _ _ _ H2) as (ps & WA & A & B & C & D). exists (p :: ps). split; [constructor; auto|].
    split; [|split; [|split]].
    + intros y q Hy Hn. rewrite (A y q Hy) by (intros b j Hj; apply Hn; now apply home_cons). rewrite E1.
      destruct (s_linked FO s) eqn:LK; [|reflexivity]. destruct (o i) eqn:Oi; [reflexivity|]. cbn [andb negb].
      apply put2_other; [exact Hy|]. intro b. apply Hn. exists s. rewrite Nat.sub_diag. auto.
    + intros y q Hy Hn. rewrite (B y q Hy) by (intros b j Hj; apply Hn; now apply away_cons). rewrite E2.
      destruct (s_linked FO s) eqn:LK; [|reflexivity]. destruct (o i) eqn:Oi; [|reflexivity]. cbn [andb].
      apply put2_other; [exact Hy|]. intro b. apply Hn. exists s. rewrite Nat.sub_diag. auto.
    + intros [|j] q Ha Hq.
      * injection Hq as <-. rewrite Nat.add_0_r in *. destruct Ha as (x & Hx & _ & LK & Oi). rewrite Nat.sub_diag in Hx. injection Hx as <-.
        rewrite LK, Oi in E2. cbn [andb] in E2. unfold size_stored.
        rewrite !B; [|apply size_in|intros b j (z & _ & Lj & _) (_ & Q); injection Q as Q; lia|apply size_in|intros b j (z & _ & Lj & _) (_ & Q); injection Q as Q; lia].
        rewrite E2. exact (put2_sizes ho k i p).
      * replace (i + S j)%nat with (S i + j)%nat in * by lia. apply C; [|exact Hq]. destruct Ha as (x & Hx & R).
        exists x. replace (S i + j - i)%nat with (S j) in Hx by lia. replace (S i + j - S i)%nat with j by lia.
        split; [exact Hx|]. split; [lia|apply R].
    + intros n Cn. assert (C1 : counts FO ho1 n) by (rewrite E2; destruct (s_linked FO s && o i); [apply put2_counts; exact Cn|exact Cn]).
      destruct (D n C1) as (D1 & D2). split; [exact D1|]. intros j (x & Hx & Lj & LK & Oj).
      destruct (Nat.eq_dec j i) as [->|Hne].
      * rewrite Nat.sub_diag in Hx. injection Hx as <-. apply N; [now rewrite LK, Oj|exact Cn].
      * apply D2. exists x. assert (Q : (j - i = S (j - S i))%nat) by (clear - Lj Hne; lia). rewrite Q in Hx. split; [exact Hx|].
        split; [clear - Lj Hne; lia|]. split; [exact LK|exact Oj].
Qed.

Lemma put_segs_at (g : kind -> list seg) k l k' : put_segs FO g k l k' = if kind_eqb k k' then l else g k'.
Proof. reflexivity. Qed.
Lemma kind_eqb_spec k k' : kind_eqb k k' = true <-> k = k'.
Proof. destruct k, k'; cbn; split; congruence. Qed.

Lemma wrote_all_nth k l l' ps i (s : seg) : wrote_all FO k l l' ps -> nth_error l i = Some s ->
  exists s' p, nth_error l' i = Some s' /\ nth_error ps i = Some p /\ wrote FO k s s' p.
Proof.
  intro W. revert i. induction W as [|x l x' l' p ps W1 _ IH]; intros [|i] H; cbn [nth_error] in *; try discriminate H.
  - injection H as <-. eauto.
  - exact (IH i H).
Qed.

Lemma kinds_fh_ok E Eo o g ks : NoDup ks -> forall g' (hs ho hs' ho' : st) h h',
  kinds_fh FO E Eo o g ks hs ho h = Ok (g', (hs', ho'), h') ->
  (forall k, ~ In k ks -> g' k = g k)
  /\ (forall y q, In y (fs_fields hfs) -> (forall k b j, In k ks -> home (g k) (o k) 0 j -> ~ (y = hfld (size_name k b) /\ q = [Z.of_nat j])) ->
          stored FO hs' y q = stored FO hs y q)
  /\ (forall y q, In y (fs_fields hfs) -> (forall k b j, In k ks -> away (g k) (o k) 0 j -> ~ (y = hfld (size_name k b) /\ q = [Z.of_nat j])) ->
          stored FO ho' y q = stored FO ho y q)
  /\ (forall k, In k ks -> exists ps, wrote_all FO k (g k) (g' k) ps
        /\ forall j p, away (g k) (o k) 0 j -> nth_error ps j = Some p ->
          size_stored FO ho' k true j = SVal (VInt (Z.of_nat (List.length (fst p))))
          /\ size_stored FO ho' k false j = SVal (VInt (Z.of_nat (List.length (snd p)))))
  /\ (forall n, counts FO ho n -> counts FO ho' n /\ forall k j, In k ks -> away (g k) (o k) 0 j -> (j < n k)%nat).
Proof.
  induction 1 as [|k ks Hk _ IH]; intros g' hs ho hs' ho' h h' H.
  - injection H as <- <- <- _. repeat (split; [reflexivity|]). split; [intros k []|]. intros n C. split; [exact C|intros k j []].
  - cbn [kinds_fh] in H. apply bind_ok_elim in H as ([[l [hs1 ho1]] h1] & H1 & H).
    apply bind_ok_elim in H as ([[r [hs2 ho2]] h2] & H2 & H). cbn [fst snd] in H2. injection H as <- <- <- _.
    destruct (segs_fh_ok _ _ _ _ _ _ _ _ _ _ _ _ _ H1) as (ps & WA & A & B & C & D).
    destruct (IH _ _ _ _ _ _ _ H2) as (K0 & A2 & B2 & C2 & D2).
    assert (Ne : forall k', In k' ks -> kind_eqb k k' = false).
    { intros k' Hk'. destruct (kind_eqb k k') eqn:Q; auto. apply kind_eqb_spec in Q as ->. contradiction. }
    assert (Refl : kind_eqb k k = true) by (now apply kind_eqb_spec).
    split; [|split; [|split; [|split]]].
    + intros k' Hn. rewrite put_segs_at. destruct (kind_eqb k k') eqn:Q; [apply kind_eqb_spec in Q; subst; exfalso; apply Hn; now left|].
      apply K0. intro. apply Hn. now right.
    + intros y q Hy Hn. rewrite (A2 y q Hy) by (intros k' b j Hk'; apply Hn; now right). apply (A y q Hy). intros b j. apply Hn. now left.
    + intros y q Hy Hn. rewrite (B2 y q Hy) by (intros k' b j Hk'; apply Hn; now right). apply (B y q Hy). intros b j. apply Hn. now left.
    + intros k' [<-|Hk'].
      * exists ps. rewrite put_segs_at, Refl. split; [exact WA|]. intros j p Ha Hp. unfold size_stored.
        rewrite !B2; [exact (C j p Ha Hp)|apply size_in| |apply size_in|];
          intros k' b' j' Hk' _ (Q & _); revert Q; apply size_ne; intro Q; injection Q as -> _; contradiction.
      * destruct (C2 k' Hk') as (ps2 & W2 & S2). exists ps2. rewrite put_segs_at, (Ne k' Hk'). auto.
    + intros n Cn. destruct (D n Cn) as (D1 & D1'). destruct (D2 n D1) as (D3 & D3'). split; [exact D3|].
      intros k' j [<-|Hk'] Ha; [exact (D1' j Ha)|exact (D3' k' j Hk' Ha)].
Qed.

(** ** All segments linked to the file itself *)

Lemma fh_update_same nm key v (s s' : st) file file' p : update_field FO hfs s file nm key v = (s', Ok file') ->
  List.length file' = List.length file ->
  fh_update FO hfs nm key v (s, {| fh_bytes := file; fh_pos := p |}) = ((s', {| fh_bytes := file'; fh_pos := p |}), Ok tt).
Proof.
  unfold update_field, fh_update. intros H L. destruct (lookup hfs nm) as [f|]; [|discriminate H].
  destruct (fset FO hfs s f key v) as [s1 [u|e]]; [|discriminate H].
  destruct (check_condition FO (G FO hfs s1) hfs f key) as [[|]|e]; try discriminate H.
  destruct (st_loc FO s1 (f_id f) key) as [q|]; [|discriminate H].
  destruct (field_bytes FO (G FO hfs s1) hfs s1 f key) as [b|e]; [|discriminate H].
  assert (s1 = s') by congruence. assert (E : file' = overwrite file (Z.to_nat q) b) by congruence. subst s1. clear H.
  cbn zeta. unfold fh_seek. cbn [fh_bytes fh_pos]. unfold fh_write. cbn [fh_bytes fh_pos]. destruct b as [|x b].
  - cbn [fh_bytes]. rewrite E. unfold overwrite. cbn [List.length app]. now rewrite Nat.add_0_r, firstn_skipn.
  - cbn [fh_bytes]. assert (Q : (Z.to_nat q <= List.length file)%nat).
    { rewrite E in L. unfold overwrite in L. rewrite !app_length, firstn_length, skipn_length in L. cbn [List.length] in L. lia. }
    replace (Z.to_nat q - List.length file)%nat with O by lia. cbn [repeat]. now rewrite app_nil_r, <- E.
Qed.
Lemma fh_end file b : fh_write {| fh_bytes := file; fh_pos := List.length file |} b
  = {| fh_bytes := file ++ b; fh_pos := List.length (file ++ b) |}.
Proof.
  unfold fh_write. cbn [fh_bytes fh_pos]. destruct b as [|x b]; [now rewrite app_nil_r|].
  rewrite Nat.sub_diag. cbn [repeat]. rewrite app_nil_r, app_length. f_equal. unfold overwrite.
  rewrite firstn_all, skipn_all2 by lia. now rewrite app_nil_r.
Qed.

Notation at_end file := {| fh_bytes := file; fh_pos := List.length file |}.
Lemma seg_own E Eo n k i (s s' : seg) (hs hs' ho : st) file tail file' :
  step_ok FO n hs file tail -> (i < n k)%nat -> seg_write FO E k i s hs file = Ok (s', hs', file') ->
  seg_fh FO E Eo k i s false hs ho (at_end file) = Ok (s', (hs', ho), at_end file')
  /\ exists tail', step_ok FO n hs' file' tail'.
Proof.
  intros HS Hi H. unfold seg_write in H. unfold seg_fh.
  apply bind_ok_elim in H as (c & -> & H). cbn [bind]. apply bind_ok_elim in H as (u & -> & H). cbn [bind].
  apply bind_ok_elim in H as (h & -> & H). cbn [bind]. apply bind_ok_elim in H as (b & -> & H). cbn [bind].
  apply bind_ok_elim in H as (d & -> & H). cbn [bind]. rewrite !fh_end, <- app_assoc.
  destruct (s_linked FO s); [|injection H as <- <- <-; split; [reflexivity|]; exists (tail ++ b ++ d); now apply step_app].
  change (fst (size_names k)) with (size_name k true) in H. change (snd (size_names k)) with (size_name k false) in H.
  destruct (update_field FO hfs hs (file ++ b ++ d) (size_name k true) _ _) as [hs1 [file2|e]] eqn:U1; [|discriminate H].
  destruct (update_field FO hfs hs1 file2 (size_name k false) _ _) as [hs2 [file3|e]] eqn:U2; [|discriminate H].
  injection H as <- <- <-.
  destruct (step_size FO n _ _ _ _ _ _ _ _ _ (step_app FO n _ _ _ (b ++ d) HS) Hi U1) as (S1 & L1 & _).
  destruct (step_size FO n _ _ _ _ _ _ _ _ _ S1 Hi U2) as (S2 & L2 & _).
  split; [|eauto]. unfold update_sizes. change (fst (size_names k)) with (size_name k true). change (snd (size_names k)) with (size_name k false).
  rewrite (fh_update_same _ _ _ _ _ _ _ _ U1 L1), (fh_update_same _ _ _ _ _ _ _ _ U2 L2). cbn [bind].
  rewrite L2, L1. reflexivity.
Qed.
Lemma segs_own E Eo n k l : forall i l' (hs hs' ho : st) file tail file',
  step_ok FO n hs file tail -> (i + List.length l <= n k)%nat -> segs_write FO E k i l hs file = Ok (l', hs', file') ->
  segs_fh FO E Eo k (fun _ => false) i l hs ho (at_end file) = Ok (l', (hs', ho), at_end file')
  /\ exists tail', step_ok FO n hs' file' tail'.
Proof.
  induction l as [|s l IH]; intros i l' hs hs' ho file tail file' HS Hi H.
  - injection H as <- <- <-. split; [reflexivity|eauto].
  - cbn [segs_write] in H. apply bind_ok_elim in H as ([[s' hs1] file1] & H1 & H).
    apply bind_ok_elim in H as ([[r hs2] file2] & H2 & H). injection H as <- <- <-. cbn [List.length] in Hi.
    assert (Hi1 : (i < n k)%nat) by (clear - Hi; lia). assert (Hi2 : (S i + List.length l <= n k)%nat) by (clear - Hi; lia).
    destruct (seg_own E Eo n k i s s' hs hs1 ho file tail file1 HS Hi1 H1) as (F1 & t1 & S1).
    destruct (IH (S i) r hs1 hs2 ho file1 t1 file2 S1 Hi2 H2) as (F2 & S2).
    cbn [segs_fh]. rewrite F1. cbn [bind fst snd]. rewrite F2. cbn [bind]. split; [reflexivity|exact S2].
Qed.

(** Files, up to the same segments of each kind. *)
Definition same_file (a b : nfile FO) : Prop :=
  nf_hdr FO a = nf_hdr FO b /\ nf_tres FO a = nf_tres FO b /\ (forall k, nf_segs FO a k = nf_segs FO b k)
  /\ forall k, nf_refs FO a k = nf_refs FO b k.

Lemma written_header (s s1 : st) n file1 : counts FO s n -> write_file FO hfs s [] = Ok (s1, file1) -> step_ok FO n s1 file1 [].
Proof.
  intros C HW. assert (HI := write_file_in_file FO hrows _ _ _ _ [] HW). rewrite app_nil_r in HI.
  unfold write_file in HW. apply bind_ok_elim in HW as (cs & Hcs & HW). injection HW as <- _.
  destruct (record_locs_val FO cs s (Z.of_nat (List.length (@nil N)))) as (V & _).
  assert (SV : forall y p, stored FO (record_locs FO s (Z.of_nat (List.length (@nil N))) cs) y p = stored FO s y p)
    by (intros y p; unfold stored; now rewrite V).
  split; [exact HI|]. intro k. destruct (count_fld k) as (S & _).
  rewrite (get_scalar FO hrows _ _ _ S), SV, <- (get_scalar FO hrows _ _ _ S). apply C.
Qed.

(** (1) A file none of whose segments is linked to another one is written as before, and the header of
    the other file is left alone. *)
Theorem C72_own E Eo f f' bytes (ho : st) : file_write FO E f = Ok (f', bytes) ->
  exists f2, file_fh FO E Eo f (fun _ _ => false) ho = Ok (f2, ho, bytes) /\ same_file f' f2.
Proof.
  unfold file_write, file_fh. intro H. apply bind_ok_elim in H as ([h1 g] & HP & H). rewrite HP. cbn [bind].
  apply prepare_file_ok in HP.
  assert (C1 : counts FO (h_st h1) (fun k => List.length (g k))) by (destruct HP as (? & ? & ? & ? & ? & ? & ? & HP); apply HP).
  apply bind_ok_elim in H as ([s1 file1] & HW & H). rewrite HW. cbn [bind]. cbn zeta.
  assert (S0 := written_header _ _ _ _ C1 HW). set (n := fun k => List.length (g k)) in *.
  destruct (update_field FO hfs s1 file1 "hl" [] _) as [s2 [file2|e]] eqn:U1; [|discriminate H].
  destruct (step_total FO n _ _ _ _ _ _ _ (or_introl eq_refl) S0 U1) as (S2 & Len2 & _).
  rewrite (fh_update_same _ _ _ _ _ _ _ _ U1 Len2). rewrite <- Len2.
  apply bind_ok_elim in H as ([[im s3] file3] & W1 & H). apply bind_ok_elim in H as ([[gr s4] file4] & W2 & H).
  apply bind_ok_elim in H as ([[tx s5] file5] & W3 & H). apply bind_ok_elim in H as ([[de s6] file6] & W4 & H).
  apply bind_ok_elim in H as ([[rs s7] file7] & W5 & H).
  destruct (segs_own E Eo n KImage _ 0 _ _ _ ho _ _ _ S2 (le_n _) W1) as (F1 & t1 & S3).
  destruct (segs_own E Eo n KGraphic _ 0 _ _ _ ho _ _ _ S3 (le_n _) W2) as (F2 & t2 & S4).
  destruct (segs_own E Eo n KText _ 0 _ _ _ ho _ _ _ S4 (le_n _) W3) as (F3 & t3 & S5).
  destruct (segs_own E Eo n KDes _ 0 _ _ _ ho _ _ _ S5 (le_n _) W4) as (F4 & t4 & S6).
  destruct (segs_own E Eo n KRes _ 0 _ _ _ ho _ _ _ S6 (le_n _) W5) as (F5 & t5 & S7).
  unfold kinds. cbn [kinds_fh]. rewrite F1. cbn [bind fst snd]. rewrite F2. cbn [bind fst snd]. rewrite F3. cbn [bind fst snd].
  rewrite F4. cbn [bind fst snd]. rewrite F5. cbn [bind fst snd fh_pos].
  destruct (update_field FO hfs s7 file7 "fl" [] _) as [s8 [file8|e]] eqn:U2; [|discriminate H].
  destruct (step_total FO n _ _ _ _ _ _ _ (or_intror eq_refl) S7 U2) as (_ & Len8 & _).
  rewrite (fh_update_same _ _ _ _ _ _ _ _ U2 Len8).
  apply bind_ok_elim in H as (de' & HD & H). injection H as <- <-.
  unfold put_segs at 1. cbn [kind_eqb]. unfold put_segs at 1. cbn [kind_eqb]. unfold put_segs at 1. cbn [kind_eqb].
  unfold put_segs at 1. cbn [kind_eqb]. rewrite HD. cbn [bind fh_bytes].
  eexists. split; [reflexivity|]. split; [reflexivity|]. split; [reflexivity|]. split; [|reflexivity].
  intros [| | | |]; reflexivity.
Qed.

(** ** Segments linked to the other file *)

(** What the parts of writing do, for the theorems below. *)
Lemma file_fh_ok E Eo f o (ho ho' : st) f' bytes : file_fh FO E Eo f o ho = Ok (f', ho', bytes) ->
  exists h1 g g' hs0 hs1, prepare_file FO f = Ok (h1, g)
    /\ (forall k, k <> KDes -> nf_segs FO f' k = g' k)
    /\ (exists h h', kinds_fh FO E Eo o g kinds hs0 ho h = Ok (g', (hs1, ho'), h'))
    /\ (forall k b i, stored FO hs0 (hfld (size_name k b)) [Z.of_nat i] = stored FO (h_st h1) (hfld (size_name k b)) [Z.of_nat i])
    /\ (forall k b i, stored FO (h_st (nf_hdr FO f')) (hfld (size_name k b)) [Z.of_nat i] = stored FO hs1 (hfld (size_name k b)) [Z.of_nat i]).
Proof.
  unfold file_fh. intro H. apply bind_ok_elim in H as ([h1 g] & HP & H).
  apply bind_ok_elim in H as ([s1 file1] & HW & H). cbn zeta in H.
  assert (TT : forall nm z (s s' : st) h h' u, nm = "hl"%string \/ nm = "fl"%string ->
      fh_update FO hfs nm [] (SVal (VInt z)) (s, h) = ((s', h'), Ok u) -> s' = assigned FO s (hfld nm) [] (SVal (VInt z))).
  { intros nm z s s' h h' u Hnm HU. apply fh_update_cases in HU as (_ & f0 & q & b & _ & _ & _ & _ & HU).
    destruct (total_fld nm Hnm) as (((L & L1 & L2 & L3 & L4 & L5) & T & O) & _).
    unfold update_field in HU. rewrite L in HU.
    destruct (fset FO hfs s (hfld nm) [] (SVal (VInt z))) as [x [w|e]] eqn:E1; [|discriminate HU].
    assert (s' = x).
    { destruct (check_condition FO (G FO hfs x) hfs (hfld nm) []) as [[|]|]; try discriminate HU.
      destruct (st_loc FO x _ _); [|discriminate HU]. destruct (field_bytes FO _ _ _ _ _); [|discriminate HU]. congruence. }
    subst x. unfold fset, fuel in E1. cbn [setf] in E1. rewrite T in E1.
    apply (set_base_cases FO hfs) in E1 as [(_ & (e & E1) & _)|(M & [(E1 & _)|[(D & _)|(D & _)]])];
      [discriminate E1|exact E1|rewrite T in D; discriminate D|rewrite T in D; discriminate D]. }
  destruct (fh_update FO hfs "hl" [] _ _) as [[s2 fh2] [u|e]] eqn:U1; [|discriminate H].
  apply TT in U1; [|now left].
  apply bind_ok_elim in H as ([[g' [hs1 ho1]] fh3] & HK & H). cbn [fst snd] in H.
  destruct (fh_update FO hfs "fl" [] _ _) as [[s4 fh4] [u2|e]] eqn:U2; [|discriminate H].
  apply TT in U2; [|now right].
  apply bind_ok_elim in H as (de' & HD & H). injection H as <- <- _.
  exists h1, g, g', s2, hs1. split; [exact HP|]. split; [|split; [eauto|split]].
  - intros k Hk. cbn [nf_segs]. rewrite put_segs_at. destruct (kind_eqb KDes k) eqn:Q; [apply kind_eqb_spec in Q; congruence|reflexivity].
  - intros k b i. rewrite U1. rewrite (assigned_same FO hrows);
      [|exact (lookup_in _ _ _ (proj1 (proj1 (proj1 (total_fld "hl" (or_introl eq_refl))))))|apply size_in|
       intro Q; symmetry in Q; exact (size_other "hl" k b (or_introl eq_refl) Q)].
    unfold write_file in HW. apply bind_ok_elim in HW as (cs & _ & HW). injection HW as <- _.
    destruct (record_locs_val FO cs (h_st h1) (Z.of_nat (List.length (@nil N)))) as (V & _).
    assert (SV : forall y p, stored FO (record_locs FO (h_st h1) (Z.of_nat (List.length (@nil N))) cs) y p = stored FO (h_st h1) y p)
      by (intros y p; unfold stored; now rewrite V).
    apply SV.
  - intros k b i. cbn [nf_hdr h_st]. rewrite U2. rewrite (assigned_same FO hrows); [reflexivity| |apply size_in|].
    + exact (lookup_in _ _ _ (proj1 (proj1 (proj1 (total_fld "fl" (or_intror eq_refl)))))).
    + intro Q; symmetry in Q; exact (size_other "fl" k b (or_intror eq_refl) Q).
Qed.

(** (2) The sizes of a segment that is linked to another file, or to none, do not get into the header of
    the file written: it keeps what it had when writing began. *)
Theorem C72_elsewhere E Eo f o (ho ho' : st) f' bytes h1 g k i s :
  file_fh FO E Eo f o ho = Ok (f', ho', bytes) -> prepare_file FO f = Ok (h1, g) ->
  nth_error (g k) i = Some s -> s_linked FO s = false \/ o k i = true ->
  forall b, size_stored FO (h_st (nf_hdr FO f')) k b i = size_stored FO (h_st h1) k b i.
Proof.
  intros H HP Hs Ho b. destruct (file_fh_ok _ _ _ _ _ _ _ _ H) as (h1' & g1 & g' & hs0 & hs1 & HP' & _ & (h & h' & HK) & V0 & V1).
  rewrite HP in HP'. injection HP' as <- <-. unfold size_stored. rewrite V1, <- V0.
  destruct (kinds_fh_ok _ _ _ _ _ kinds_nodup _ _ _ _ _ _ _ HK) as (_ & A & _). apply A; [apply size_in|].
  intros k' b' j _ (x & Hx & _ & LK & Oj) (Q1 & Q2). injection Q2 as Q2. apply Nat2Z.inj in Q2. subst j. rewrite Nat.sub_0_r in Hx.
  assert (k = k') by (destruct (kind_eqb k k') eqn:Q; [now apply kind_eqb_spec|]; exfalso; revert Q1; apply size_ne; intro Q3; injection Q3 as -> _;
    assert (kind_eqb k' k' = true) by (now apply kind_eqb_spec); congruence); subst k'.
  assert (x = s) by congruence; subst x; destruct Ho; congruence.
Qed.

(** (3) They get into the header object of the other file instead, in the place of its own segment
    with that number. *)
Theorem C72_other E Eo f o (ho ho' : st) f' bytes h1 g k i s n :
  file_fh FO E Eo f o ho = Ok (f', ho', bytes) -> prepare_file FO f = Ok (h1, g) ->
  nth_error (g k) i = Some s -> s_linked FO s = true -> o k i = true -> k <> KDes -> counts FO ho n ->
  (i < n k)%nat /\ exists s' b d, nth_error (nf_segs FO f' k) i = Some s'
    /\ write FO (mk_fs (sub_rows k)) (h_st (s_hdr FO s')) = Ok b /\ data_bytes FO (s_hdr FO s') (s_data FO s') = Ok d
    /\ get FO hfs ho' (fst (size_names k)) [Z.of_nat i] = Ok (VInt (Z.of_nat (List.length b)))
    /\ get FO hfs ho' (snd (size_names k)) [Z.of_nat i] = Ok (VInt (Z.of_nat (List.length d))).
Proof.
  intros H HP Hs LK Ho Hk Cn. destruct (file_fh_ok _ _ _ _ _ _ _ _ H) as (h1' & g1 & g' & hs0 & hs1 & HP' & G' & (h & h' & HK) & _).
  rewrite HP in HP'. injection HP' as <- <-.
  destruct (kinds_fh_ok _ _ _ _ _ kinds_nodup _ _ _ _ _ _ _ HK) as (_ & _ & _ & W & D).
  assert (Aw : away (g k) (o k) 0 i).
  { exists s. rewrite Nat.sub_0_r. split; [exact Hs|]. split; [apply Nat.le_0_l|]. split; [exact LK|exact Ho]. }
  destruct (D n Cn) as (Cn' & Hi). specialize (Hi k i (kinds_all k) Aw). split; [exact Hi|].
  destruct (W k (kinds_all k)) as (ps & WA & SZ). destruct (wrote_all_nth _ _ _ _ _ _ WA Hs) as (s' & p & Hs' & Hp & (sh & P1 & -> & P2 & P3)).
  destruct (SZ i p Aw Hp) as (Z1 & Z2). exists (with_hdr FO s sh), (fst p), (snd p). rewrite (G' k Hk). cbn [with_hdr s_hdr s_data].
  split; [exact Hs'|]. split; [exact P2|]. split; [exact P3|].
  split; [exact (get_size_int FO ho' n k true i _ Cn' Hi Z1)|exact (get_size_int FO ho' n k false i _ Cn' Hi Z2)].
Qed.

(** (4) If the other file has no segment with that number, writing raises. *)
Theorem C72_raises E Eo f o (ho : st) h1 g k i s n :
  prepare_file FO f = Ok (h1, g) -> nth_error (g k) i = Some s -> s_linked FO s = true -> o k i = true ->
  counts FO ho n -> (n k <= i)%nat -> exists e, file_fh FO E Eo f o ho = Err e.
Proof.
  intros HP Hs LK Ho Cn Hi. destruct (file_fh FO E Eo f o ho) as [[[f' ho'] bytes]|e] eqn:H; [|eauto]. exfalso.
  destruct (file_fh_ok _ _ _ _ _ _ _ _ H) as (h1' & g1 & g' & hs0 & hs1 & HP' & _ & (h & h' & HK) & _).
  rewrite HP in HP'. injection HP' as <- <-.
  destruct (kinds_fh_ok _ _ _ _ _ kinds_nodup _ _ _ _ _ _ _ HK) as (_ & _ & _ & _ & D).
  destruct (D n Cn) as (_ & Hj). apply (Nat.lt_irrefl i). apply (Nat.lt_le_trans _ (n k)); [|exact Hi].
  apply (Hj k i (kinds_all k)). exists s. rewrite Nat.sub_0_r. split; [exact Hs|]. split; [apply Nat.le_0_l|]. split; [exact LK|exact Ho].
Qed.

(** (5) Nothing else in the header of the other file changes. *)
Theorem C72_frame E Eo f o (ho ho' : st) f' bytes y q :
  file_fh FO E Eo f o ho = Ok (f', ho', bytes) -> In y (fs_fields hfs) ->
  (forall k b i, o k i = true -> ~ (y = hfld (size_name k b) /\ q = [Z.of_nat i])) ->
  stored FO ho' y q = stored FO ho y q.
Proof.
  intros H Hy Hn. destruct (file_fh_ok _ _ _ _ _ _ _ _ H) as (h1' & g1 & g' & hs0 & hs1 & HP' & _ & (h & h' & HK) & _).
  destruct (kinds_fh_ok _ _ _ _ _ kinds_nodup _ _ _ _ _ _ _ HK) as (_ & _ & B & _). apply (B y q Hy).
  intros k b j _ (x & _ & _ & _ & Oj). exact (Hn k b j Oj).
Qed.

End Two.

(** ** Cases *)
Section Case.
Variable FO : FloatOps.
(** One file with a text, and one with a graphic and a text. *)
Definition c72_a : nfile FO := append_seg FO (fst (new_file FO (sec_default FO))) KText (ex_text FO).
Definition c72_b : nfile FO :=
  append_seg FO (append_seg FO (fst (new_file FO (sec_default FO))) KGraphic (ex_seg FO (new_hdr FO) (DBytes FO (Some (str "line"))) []))
    KText (ex_text FO).
(** The text of the second is the one that was appended to the first afterwards. *)
Definition c72_o (k : kind) (i : nat) : bool := match k with KText => Nat.eqb i 0 | _ => false end.
Definition c72_sizes (s : state FO) (nm : string) : option Z :=
  match get FO (mk_fs desc_NitfFileHeader) s nm [0%Z] with Ok (VInt z) => Some z | _ => None end.
End Case.

(** The header of the second file lacks the sizes of its text; in the file, those of the graphic have
    been written over, and it cannot be read. *)
Example C72_case : match file_write DecF ex_env (c72_a DecF) with
  | Ok (a, _) => match file_fh DecF ex_env ex_env (c72_b DecF) c72_o (h_st (nf_hdr DecF a)) with
    | Ok (f', ho', bytes) =>
        map (c72_sizes DecF (h_st (nf_hdr DecF f'))) ["lssh"; "ls"; "ltsh"; "lt"]%string = [Some 258; Some 4; Some 0; Some 0]%Z
        /\ map (c72_sizes DecF ho') ["ltsh"; "lt"]%string = [Some 282; Some 5]%Z
        /\ firstn 20 (skipn 363 bytes) = str "00102580002820000510"
        /\ is_ok (file_read DecF ex_env bytes) = false
    | Err _ => False end
  | Err _ => False end.
Proof. vm_compute. repeat split. Qed.
(** Written with the text linked to it, it can be read. *)
Example C72_own_case : match file_write DecF ex_env (c72_b DecF) with
  | Ok (_, bytes) => firstn 20 (skipn 363 bytes) = str "00102580000040000010" /\ is_ok (file_read DecF ex_env bytes) = true
  | Err _ => False end.
Proof. vm_compute. repeat split. Qed.
(** With two texts, the second of which is linked to a file that has one: an exception. *)
Example C72_raises_case : match file_write DecF ex_env (c72_a DecF) with
  | Ok (a, _) => is_ok (file_fh DecF ex_env ex_env (append_seg DecF (c72_b DecF) KText (ex_text DecF))
                          (fun k i => match k with KText => Nat.eqb i 1 | _ => false end) (h_st (nf_hdr DecF a)))
  | Err _ => true end = false.
Proof. vm_compute. reflexivity. Qed.

(** (6) A file is not always written so that it can be read: not if one of its segments was appended to
    another file that has been written since. *)
Lemma c72_run : match file_write DecF ex_env (c72_a DecF) with
  | Ok (a, _) => match file_fh DecF ex_env ex_env (c72_b DecF) c72_o (h_st (nf_hdr DecF a)) with
    | Ok (_, _, bytes) => is_ok (file_read DecF ex_env bytes) = false
    | Err _ => False end
  | Err _ => False end.
Proof. vm_compute. reflexivity. Qed.
Lemma c72_run2 : match file_write DecF ex_env (c72_b DecF) with
  | Ok (_, bytes) => is_ok (file_read DecF ex_env bytes) = true
  | Err _ => False end.
Proof. vm_compute. reflexivity. Qed.
Theorem C72_linked_refuted : exists E fa a ba fb b bb o f' ho' bytes,
  file_write DecF E fa = Ok (a, ba) /\ file_write DecF E fb = Ok (b, bb) /\ is_ok (file_read DecF E bb) = true
  /\ file_fh DecF E E fb o (h_st (nf_hdr DecF a)) = Ok (f', ho', bytes)
  /\ is_ok (file_read DecF E bytes) = false.
Proof.
  pose proof c72_run as H. pose proof c72_run2 as H2. remember (c72_a DecF) as fa eqn:Ea. remember (c72_b DecF) as fb eqn:Eb. clear Ea Eb.
  remember (file_write DecF ex_env fa) as ra eqn:Ra. destruct ra as [[a ba]|]; [|destruct H].
  remember (file_write DecF ex_env fb) as rb eqn:Rb. destruct rb as [[b bb]|]; [|destruct H2].
  remember (file_fh DecF ex_env ex_env fb c72_o (h_st (nf_hdr DecF a))) as rc eqn:Rc. destruct rc as [[[f' ho'] bytes]|]; [|destruct H].
  exists ex_env, fa, a, ba, fb, b, bb, c72_o, f', ho', bytes. symmetry in Ra, Rb, Rc. auto.
Qed.

Print Assumptions C72_own.
Print Assumptions C72_elsewhere.
Print Assumptions C72_other.
Print Assumptions C72_raises.
Print Assumptions C72_frame.
Print Assumptions C72_linked_refuted.
