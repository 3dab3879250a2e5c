(** Property C44: segment data that is not understood is skipped by exactly its length. *)
From Verif Require Import Base BaseLemmas Engine Wf EngineLemmas Codec RoundTrip Rewrite Literal
  Positions Keys Deps Assign Update Spec Reach Decimal DecimalLemmas DescsHdr Utf8 Handles Tre TreLemmas P_RoundTrip P_Fields P_Tre
  TrePlace TrePlaceLemmas P_TrePlace Scalar Security P_Security Image ImageLemmas P_Image File FileLemmas P_File FileRead P_FileRead.
From Coq Require Import ZifyBool ZifyNat ZifyN Permutation.
Open Scope list_scope.
Ltac Zify.zify_post_hook ::= idtac.

(** ** Specification vocabulary *)

(** The field of the file header with the length of a segment's data (MIL-STD-2500C). *)
Definition data_size_name (k : kind) : string :=
  match k with KImage => "li" | KGraphic => "ls" | KText => "lt" | KDes => "ld" | KRes => "lre" end%string.

Section Spec.
Variable FO : FloatOps.
Notation seg := (seg FO).

(** The bytes of [file] from [b] up to [d] are a structure with the values [st]. *)
Definition read_between (file : list N) (rows : list row) (b d : nat) (st : state FO) : Prop :=
  exists sub, skipn b file = sub ++ skipn d file /\ d = (b + List.length sub)%nat
    /\ read FO (mk_fs rows) false (init_state FO) sub = Ok (st, []).
(** Where reading goes on after the data of segment [s], which starts at [d] and is [sz] long
    according to the file header.  Data that was skipped ends exactly there, even past the end of
    the file; so does data that was read, when the file is long enough for it.  Plain bytes are
    what the file has there, less where it ends before and everything that is left when the length
    is negative, and reading goes on right behind them.  Nothing is claimed for image data (C35,
    C36) and for DES data with bytes after the fields. *)
Definition next_segment (file : list N) (s : seg) (sz : Z) (d e : nat) : Prop :=
  match s_data FO s with
  | DHole _ n => n = sz /\ Z.of_nat e = (Z.of_nat d + sz)%Z
  | DFile _ _ | DFields _ _ _ (Some _) => True
  | DBytes _ (Some b) => e = (d + List.length b)%nat /\ skipn d file = b ++ skipn e file
      /\ ((sz < 0)%Z -> skipn e file = [])
      /\ ((0 <= sz)%Z -> Z.of_nat e = Z.min (Z.of_nat d + sz) (Z.of_nat (Nat.max d (List.length file))))
  | _ => (0 <= sz)%Z -> (Z.of_nat d + sz <= Z.of_nat (List.length file))%Z -> Z.of_nat e = (Z.of_nat d + sz)%Z
  end.
(** The segments of kind [k] from the [i]-th one on lie in the file one after the other, from
    position [b] up to [p]; [hs] is the file header. *)
Inductive lies (file : list N) (hs : state FO) (k : kind) : nat -> nat -> list seg -> nat -> Prop :=
| lies_nil i p : lies file hs k i p [] p
| lies_cons i b d e p s l sz :
    read_between file (sub_rows k) b d (h_st (s_hdr FO s)) ->
    get FO (mk_fs desc_NitfFileHeader) hs (data_size_name k) [Z.of_nat i] = Ok (VInt sz) ->
    next_segment file s sz d e ->
    lies file hs k (S i) e l p -> lies file hs k i b (s :: l) p.

(** A segment that no handler but the placeholder wants. *)
Definition not_understood (E : env) (k : kind) (s : seg) : Prop :=
  exists before l1 l2 after, e_levels E = before ++ (l1 ++ HHole :: l2) :: after
    /\ Forall (declines FO k (s_hdr FO s)) (List.concat before ++ l1 ++ l2).
End Spec.

Section S.
Variable FO : FloatOps.
Notation seg := (seg FO).
Notation hdr := (hdr FO).

Lemma skip_more {A} (l : list A) : forall a b, skipn b (skipn a l) = skipn (a + b) l.
Proof. induction l as [|x l IH]; intros [|a] b; cbn [skipn Nat.add]; auto. now destruct b. Qed.
Lemma read_at_between rows file b st d : read_at FO rows file b = Ok (st, d) -> read_between FO file rows b d st.
Proof.
  unfold read_at. intro H. apply bind_ok_elim in H as ([s rest] & HR & H). injection H as <- <-.
  destruct (read_local _ _ _ _ _ _ _ HR) as (pre & EQ & P). exists pre.
  assert (L : List.length (skipn b file) = (List.length pre + List.length rest)%nat) by (rewrite EQ; apply app_length).
  replace (b + (List.length (skipn b file) - List.length rest))%nat with (b + List.length pre)%nat by lia.
  split; [|split; [reflexivity|]].
  - rewrite EQ. f_equal. rewrite <- (skip_more file b), EQ, skipn_app, skipn_all, Nat.sub_diag. reflexivity.
  - specialize (P []). now rewrite app_nil_r in P.
Qed.

Lemma declined_pos k (h : hdr) sz file hd p p' : handle_h FO k h sz file hd p = Ok (None, p') -> p' = p.
Proof.
  unfold handle_h. destruct (negb (for_kind hd k)); [congruence|].
  destruct hd; intro H.
  - apply bind_ok_elim in H as (v & _ & H). apply bind_ok_elim in H as (e & _ & H).
    destruct (negb e); [congruence|]. destruct (take_at sz file p). discriminate.
  - apply bind_ok_elim in H as (v & _ & H). apply bind_ok_elim in H as (e & _ & H).
    destruct (negb e); [congruence|]. apply bind_ok_elim in H as ([s q] & _ & H).
    destruct (_ =? 0)%Z; [discriminate|]. destruct (negb (dc_after c)); [discriminate|].
    destruct (dc_copy c); [destruct (take_at _ file q); discriminate|].
    apply bind_ok_elim in H as (q' & _ & H). discriminate.
  - destruct (take_at sz file p). discriminate.
  - destruct (take_at sz file p). discriminate.
  - destruct (take_at sz file p). discriminate.
  - destruct (take_at sz file p). discriminate.
  - apply bind_ok_elim in H as (r & _ & H). destruct r as [[m q]|]; congruence.
  - apply bind_ok_elim in H as (q & _ & H). discriminate.
  - apply bind_ok_elim in H as (q & _ & H). discriminate.
Qed.

Section Levels.
Variables (H R : Type) (hh : H -> nat -> res (option R * nat)).
Hypothesis declines_stay : forall hd p p', hh hd p = Ok (None, p') -> p' = p.
Lemma try_level_by l : forall found p r p', try_level H nat R hh l found p = Ok (r, p') ->
  (r = found /\ p' = p) \/ exists hd d, In hd l /\ found = None /\ r = Some d /\ hh hd p = Ok (Some d, p').
Proof.
  induction l as [|hd l IH]; intros found p r p' HT; cbn [try_level] in HT.
  - left. split; congruence.
  - apply bind_ok_elim in HT as ([c q] & HC & HT). destruct c as [d|].
    + destruct found; [discriminate|]. right. destruct (IH _ _ _ _ HT) as [[-> ->]|(? & ? & _ & HX & _)]; [|discriminate].
      exists hd, d. repeat split; auto. now left.
    + apply declines_stay in HC as ->. destruct (IH _ _ _ _ HT) as [[-> ->]|(hd' & d & HI & -> & -> & HD)]; [now left|].
      right. exists hd', d. repeat split; auto. now right.
Qed.
Lemma handle_levels_by ls : forall p d p', handle_levels H nat R hh ls p = Ok (d, p') ->
  exists hd, In hd (List.concat ls) /\ hh hd p = Ok (Some d, p').
Proof.
  induction ls as [|l ls IH]; intros p d p' HL; cbn [handle_levels] in HL; [discriminate|].
  apply bind_ok_elim in HL as ([r q] & HT & HL). cbn [List.concat].
  destruct (try_level_by _ _ _ _ _ HT) as [[-> ->]|(hd & d' & HI & _ & -> & HD)].
  - destruct (IH _ _ _ HL) as (hd & HI & HD). exists hd. split; [apply in_or_app; now right|exact HD].
  - injection HL as <- <-. exists hd. split; [apply in_or_app; now left|exact HD].
Qed.
End Levels.

Lemma take_at_pos n file p b q : take_at n file p = (b, q) ->
  q = (p + List.length b)%nat /\ skipn p file = b ++ skipn q file /\ ((n < 0)%Z -> skipn q file = [])
  /\ ((0 <= n)%Z -> Z.of_nat q = Z.min (Z.of_nat p + n) (Z.of_nat (Nat.max p (List.length file)))).
Proof.
  unfold take_at, fread. destruct (n <? 0)%Z eqn:E; cbn [fst]; intro H; injection H as <- <-; split; try reflexivity; rewrite <- skip_more.
  - rewrite skipn_all, app_nil_r. split; [reflexivity|]. split; [reflexivity|]. lia.
  - replace (skipn (List.length (firstn (Z.to_nat n) (skipn p file))) (skipn p file)) with (skipn (Z.to_nat n) (skipn p file)).
    + rewrite firstn_skipn. split; [reflexivity|]. split; [lia|]. intros _. rewrite firstn_length, skipn_length. lia.
    + rewrite firstn_length. destruct (Nat.le_ge_cases (Z.to_nat n) (List.length (skipn p file))) as [L|L].
      * now rewrite Nat.min_l by exact L.
      * rewrite Nat.min_r by exact L. now rewrite !skipn_all2 by (try exact L; lia).
Qed.
Lemma seek_by_pos n p q : seek_by n p = Ok q -> Z.of_nat q = (Z.of_nat p + n)%Z.
Proof. unfold seek_by. destruct (_ <? 0)%Z eqn:E; intro H; [discriminate|]. injection H as <-. lia. Qed.

Lemma handled_pos k (h : hdr) sz file hd p d q s : handle_h FO k h sz file hd p = Ok (Some d, q) -> s_data FO s = d ->
  next_segment FO file s sz p q.
Proof.
  unfold handle_h, next_segment. intros H ->. destruct (negb (for_kind hd k)); [discriminate|].
  destruct hd.
  - apply bind_ok_elim in H as (v & _ & H). apply bind_ok_elim in H as (e & _ & H).
    destruct (negb e); [discriminate|]. destruct (take_at sz file p) as [b r] eqn:T. injection H as <- <-.
    exact (take_at_pos _ _ _ _ _ T).
  - apply bind_ok_elim in H as (v & _ & H). apply bind_ok_elim in H as (e & _ & H).
    destruct (negb e); [discriminate|]. apply bind_ok_elim in H as ([s1 r] & _ & H).
    destruct (_ =? 0)%Z eqn:Z0; [injection H as <- <-; lia|]. destruct (negb (dc_after c)); [discriminate|].
    destruct (dc_copy c); [destruct (take_at _ file r); injection H as <- <-; exact I|].
    apply bind_ok_elim in H as (q' & HS & H). injection H as <- <-. apply seek_by_pos in HS. lia.
  - destruct (take_at sz file p) as [b r] eqn:T. injection H as <- <-. exact (take_at_pos _ _ _ _ _ T).
  - destruct (take_at sz file p) as [b r] eqn:T. injection H as <- <-. exact (take_at_pos _ _ _ _ _ T).
  - destruct (take_at sz file p) as [b r] eqn:T. injection H as <- <-. exact (take_at_pos _ _ _ _ _ T).
  - destruct (take_at sz file p) as [b r] eqn:T. injection H as <- <-. exact (take_at_pos _ _ _ _ _ T).
  - apply bind_ok_elim in H as (r & _ & H). destruct r as [[m r]|]; [injection H as <- <-; exact I|discriminate].
  - apply bind_ok_elim in H as (r & _ & H). injection H as <- <-. exact I.
  - apply bind_ok_elim in H as (r & HS & H). injection H as <- <-. split; [reflexivity|]. exact (seek_by_pos _ _ _ HS).
Qed.

Lemma seg_read_lies E k sz file b (s : seg) e : seg_read FO E k sz file b = Ok (s, e) ->
  exists d, read_between FO file (sub_rows k) b d (h_st (s_hdr FO s)) /\ next_segment FO file s sz d e.
Proof.
  unfold seg_read. intro H. apply bind_ok_elim in H as ([st p1] & HR & H).
  apply bind_ok_elim in H as (c & _ & H). apply bind_ok_elim in H as (u & _ & H).
  apply bind_ok_elim in H as ([d p2] & HL & H). injection H as <- <-. cbn [s_hdr h_st].
  exists p1. split; [exact (read_at_between _ _ _ _ _ HR)|].
  destruct (handle_levels_by _ _ _ (declined_pos k _ sz file) _ _ _ _ HL) as (hd & _ & HD).
  refine (handled_pos _ _ _ _ _ _ _ _ _ HD _). reflexivity.
Qed.

Lemma segs_read_lies E k file hs : forall szs i b l p, segs_read FO E k szs file b = Ok (l, p) ->
  (forall j sz, nth_error szs j = Some sz -> get FO (mk_fs desc_NitfFileHeader) hs (data_size_name k) [Z.of_nat (i + j)] = Ok (VInt sz)) ->
  lies FO file hs k i b l p.
Proof.
  induction szs as [|sz szs IH]; intros i b l p H HZ; cbn [segs_read] in H.
  - injection H as <- <-. constructor.
  - apply bind_ok_elim in H as ([s p1] & HR & H). apply bind_ok_elim in H as ([r p2] & HL & H). injection H as <- <-.
    destruct (seg_read_lies _ _ _ _ _ _ _ HR) as (d & HB & HN).
    econstructor; [exact HB| |exact HN|].
    + rewrite <- (Nat.add_0_r i). exact (HZ O sz eq_refl).
    + apply IH; [exact HL|]. intros j z Hj. replace (S i + j)%nat with (i + S j)%nat by lia. exact (HZ (S j) z Hj).
Qed.

(** Only the header and the data matter for the position. *)
Lemma lies_same file hs k l l' : Forall2 (fun s s' => s_hdr FO s' = s_hdr FO s /\ s_data FO s' = s_data FO s) l l' ->
  forall i b p, lies FO file hs k i b l p -> lies FO file hs k i b l' p.
Proof.
  induction 1 as [|s s' l l' [H1 H2] HF IH]; intros i b p HL; inversion HL; subst; [constructor|].
  econstructor; [rewrite H1; eassumption|eassumption| |apply IH; eassumption].
  unfold next_segment. rewrite H2. assumption.
Qed.
Lemma with_tres_same E k dd l l' : map_res (with_tres FO E k dd) l = Ok l' ->
  Forall2 (fun s s' => s_hdr FO s' = s_hdr FO s /\ s_data FO s' = s_data FO s) l l'.
Proof.
  revert l'. induction l as [|s l IH]; intros l' H; cbn [map_res] in H.
  - injection H as <-. constructor.
  - apply bind_ok_elim in H as (s' & HS & H). apply bind_ok_elim in H as (r & HR & H). injection H as <-.
    constructor; [|exact (IH _ HR)]. unfold with_tres in HS. destruct (has_tres k); [|injection HS as <-; auto].
    apply bind_ok_elim in HS as (ts & _ & HS). injection HS as <-. auto.
Qed.

Lemma map_res_nth {A B} (F : A -> res B) l l' : map_res F l = Ok l' ->
  forall j y, nth_error l' j = Some y -> exists x, nth_error l j = Some x /\ F x = Ok y.
Proof.
  revert l'. induction l as [|a l IH]; intros l' H j y Hj; cbn [map_res] in H.
  - injection H as <-. destruct j; discriminate.
  - apply bind_ok_elim in H as (b & HB & H). apply bind_ok_elim in H as (r & HR & H). injection H as <-.
    destruct j as [|j]; cbn in Hj |- *; [injection Hj as <-; eauto|eauto].
Qed.
Lemma upto_nth n j i : nth_error (upto n) j = Some i -> i = Z.of_nat j.
Proof.
  unfold upto. intro H. assert (L : (j < Z.to_nat n)%nat).
  { rewrite <- (seq_length (Z.to_nat n) 0), <- (map_length Z.of_nat). apply nth_error_Some. congruence. }
  rewrite (map_nth_error Z.of_nat j (seq 0 (Z.to_nat n)) (d := j)) in H; [congruence|].
  rewrite nth_error_nth' with (d := O) by now rewrite seq_length. now rewrite seq_nth.
Qed.
Lemma sizes_at hs k szs : sizes FO hs k = Ok szs ->
  forall j sz, nth_error szs j = Some sz -> get FO (mk_fs desc_NitfFileHeader) hs (data_size_name k) [Z.of_nat j] = Ok (VInt sz).
Proof.
  unfold sizes. intros H j sz Hj. apply bind_ok_elim in H as (v & _ & H). apply bind_ok_elim in H as (n & _ & H).
  destruct (map_res_nth _ _ _ H j sz Hj) as (i & Hi & HS). apply upto_nth in Hi as ->.
  apply bind_ok_elim in HS as (x & _ & HS). unfold size_at in HS. apply bind_ok_elim in HS as (w & HG & HS).
  replace (data_size_name k) with (snd (size_names k)) by (destruct k; reflexivity).
  rewrite HG. destruct w; try discriminate. congruence.
Qed.

(** ** C44 *)

(** However a file came about: if it can be read, its segments were found one after the other,
    and one whose data was not understood is followed, at exactly the distance given in the file
    header, by the next one. *)
Theorem C44_positions E file g : file_read FO E file = Ok g ->
  exists p0 p1 p2 p3 p4 p5,
    read_between FO file desc_NitfFileHeader 0 p0 (h_st (nf_hdr FO g))
    /\ lies FO file (h_st (nf_hdr FO g)) KImage 0 p0 (nf_segs FO g KImage) p1
    /\ lies FO file (h_st (nf_hdr FO g)) KGraphic 0 p1 (nf_segs FO g KGraphic) p2
    /\ lies FO file (h_st (nf_hdr FO g)) KText 0 p2 (nf_segs FO g KText) p3
    /\ lies FO file (h_st (nf_hdr FO g)) KDes 0 p3 (nf_segs FO g KDes) p4
    /\ lies FO file (h_st (nf_hdr FO g)) KRes 0 p4 (nf_segs FO g KRes) p5.
Proof.
  unfold file_read. intro H. apply bind_ok_elim in H as ([st p0] & HR & H).
  apply bind_ok_elim in H as (fl & _ & H). apply bind_ok_elim in H as (str & _ & H).
  destruct str; [discriminate|].
  apply bind_ok_elim in H as (zi & Zi & H). apply bind_ok_elim in H as (zg & Zg & H).
  apply bind_ok_elim in H as (zt & Zt & H). apply bind_ok_elim in H as (zd & Zd & H).
  apply bind_ok_elim in H as (zr & Zr & H).
  apply bind_ok_elim in H as ([im p1] & R1 & H). apply bind_ok_elim in H as ([gr p2] & R2 & H).
  apply bind_ok_elim in H as ([tx p3] & R3 & H). apply bind_ok_elim in H as ([de p4] & R4 & H).
  apply bind_ok_elim in H as ([rs p5] & R5 & H). cbv zeta in H.
  apply bind_ok_elim in H as (ts & _ & H).
  apply bind_ok_elim in H as (im' & M1 & H). apply bind_ok_elim in H as (gr' & M2 & H).
  apply bind_ok_elim in H as (tx' & M3 & H). injection H as <-. cbn [nf_hdr nf_segs h_st].
  exists p0, p1, p2, p3, p4, p5. split; [exact (read_at_between _ _ _ _ _ HR)|].
  split; [|split; [|split; [|split]]].
  - apply (lies_same _ _ _ _ _ (with_tres_same _ _ _ _ _ M1)). exact (segs_read_lies E _ _ st _ 0 _ _ _ R1 (sizes_at _ _ _ Zi)).
  - apply (lies_same _ _ _ _ _ (with_tres_same _ _ _ _ _ M2)). exact (segs_read_lies E _ _ st _ 0 _ _ _ R2 (sizes_at _ _ _ Zg)).
  - apply (lies_same _ _ _ _ _ (with_tres_same _ _ _ _ _ M3)). exact (segs_read_lies E _ _ st _ 0 _ _ _ R3 (sizes_at _ _ _ Zt)).
  - exact (segs_read_lies E _ _ st _ 0 _ _ _ R4 (sizes_at _ _ _ Zd)).
  - exact (segs_read_lies E _ _ st _ 0 _ _ _ R5 (sizes_at _ _ _ Zr)).
Qed.
End S.
