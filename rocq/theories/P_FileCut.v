(** Property C71: what is noticed when a NITF file has been cut off. *)
From Verif Require Import Base BaseLemmas Engine Wf EngineLemmas Codec RoundTrip Rewrite Literal Spec Decimal DescsHdr Utf8 Handles Tre
  TrePlace Scalar Security Image File P_File.
From Coq Require Import ZifyBool ZifyNat ZifyN.
Open Scope list_scope.

Section Cut.
Variable FO : FloatOps.
Notation hdr := (hdr FO).
Notation seg := (seg FO).
Notation sdata := (sdata FO).

(** What is missing at the end of [a] is the beginning of [x]. *)
Definition cut_bytes (x a b : list N) : Prop := exists y z, b = a ++ y /\ x = y ++ z.

(** The data read from a file that lost [x] at its end, and the data read from the whole file. *)
Inductive cut_data (x : list N) : sdata -> sdata -> Prop :=
| cd_same d : cut_data x d d
| cd_bytes a b : cut_bytes x a b -> cut_data x (DBytes FO (Some a)) (DBytes FO (Some b))
| cd_extra c s a b : cut_bytes x a b -> cut_data x (DFields FO c s (Some a)) (DFields FO c s (Some b))
| cd_file a b : cut_bytes x a b -> cut_data x (DFile FO a) (DFile FO b).

(** Two segments with the same subheaders. *)
Definition same_heads (s1 s2 : seg) : Prop := s_hdr FO s1 = s_hdr FO s2 /\ s_ush FO s1 = s_ush FO s2.
Definition same_seg (s1 s2 : seg) : Prop := same_heads s1 s2 /\ s_data FO s1 = s_data FO s2.
Definition cut_seg (x : list N) (s1 s2 : seg) : Prop := same_heads s1 s2 /\ cut_data x (s_data FO s1) (s_data FO s2).

(** All segments in the order of the file. *)
Definition in_order (f : nfile FO) : list seg := flat_map (nf_segs FO f) in_file_order.

Variables pf x : list N.
Let file := pf ++ x.
Let n := List.length pf.

Lemma skip_cut pos : (pos <= n)%nat -> skipn pos file = skipn pos pf ++ x.
Proof. intro H. unfold file. rewrite skipn_app. unfold n in H. now replace (pos - List.length pf)%nat with 0%nat by lia. Qed.

Lemma read_at_cut rows pos s p : (pos <= n)%nat -> read_at FO rows pf pos = Ok (s, p) ->
  read_at FO rows file pos = Ok (s, p) /\ (p <= n)%nat.
Proof.
  intros Hp H. unfold read_at in *. apply bind_ok_elim in H as ([s1 r] & H & E). injection E as <- <-.
  rewrite skip_cut by auto. assert (H' := read_ext FO (mk_fs rows) false _ _ _ _ x H). rewrite H'. cbn [bind].
  rewrite !app_length. rewrite skipn_length. fold n. split; [do 2 f_equal|]; lia.
Qed.

Lemma read_at_end rows pos s p : (n <= pos)%nat -> (forall s' r, read FO (mk_fs rows) false (init_state FO) [] <> Ok (s', r)) ->
  read_at FO rows pf pos = Ok (s, p) -> False.
Proof.
  intros Hp HR H. unfold read_at in H. rewrite skipn_all2 in H by (fold n; lia).
  apply bind_ok_elim in H as ([s1 r] & H & _). exact (HR _ _ H).
Qed.

Lemma take_cut sz pos b1 p1 : (pos <= n)%nat -> take_at sz pf pos = (b1, p1) ->
  exists b2 p2, take_at sz file pos = (b2, p2)
    /\ ((b1 = b2 /\ p1 = p2) \/ (cut_bytes x b1 b2 /\ (n <= p1)%nat /\ (n <= p2)%nat)).
Proof.
  intros Hp H. unfold take_at in *. rewrite skip_cut by auto. unfold fread in *.
  assert (HL : List.length (skipn pos pf) = (n - pos)%nat) by (rewrite skipn_length; reflexivity).
  destruct (sz <? 0)%Z; cbn [fst] in *; injection H as <- <-; do 2 eexists; (split; [reflexivity|]).
  - right. split; [exists x, []; split; [reflexivity|now rewrite app_nil_r]|]. rewrite app_length, HL. lia.
  - rewrite firstn_app. destruct (Nat.le_gt_cases (Z.to_nat sz) (n - pos)) as [Hl|Hl].
    + left. rewrite HL. replace (Z.to_nat sz - (n - pos))%nat with 0%nat by lia. cbn [firstn]. now rewrite app_nil_r.
    + right. rewrite (firstn_all2 (n := Z.to_nat sz) (skipn pos pf)) by lia. split.
      * eexists _, (skipn (Z.to_nat sz - List.length (skipn pos pf)) x). split; [reflexivity|]. symmetry. apply firstn_skipn.
      * rewrite app_length, HL. lia.
Qed.

(** Same answer at the same place, or both at or behind the cut. *)
Definition alike (o1 : sdata) (p1 : nat) (o2 : sdata) (p2 : nat) : Prop :=
  (o1 = o2 /\ p1 = p2) \/ (cut_data x o1 o2 /\ (n <= p1)%nat /\ (n <= p2)%nat).

Lemma handle_none k h sz F hd pos p : handle_h FO k h sz F hd pos = Ok (None, p) ->
  p = pos /\ forall F' pos', handle_h FO k h sz F' hd pos' = Ok (None, pos').
Proof.
  unfold handle_h. destruct (negb (for_kind hd k)) eqn:Ek; [intro H; split; [congruence|reflexivity]|].
  destruct hd.
  - intro H. apply bind_ok_elim in H as (v & -> & H). cbn [bind]. apply bind_ok_elim in H as (e & -> & H). cbn [bind].
    destruct (negb e); [split; [congruence|reflexivity]|]. destruct (take_at sz F pos). discriminate H.
  - intro H. apply bind_ok_elim in H as (v & -> & H). cbn [bind]. apply bind_ok_elim in H as (e & -> & H). cbn [bind].
    destruct (negb e); [split; [congruence|reflexivity]|]. exfalso.
    apply bind_ok_elim in H as ([s p'] & _ & H). cbn beta iota zeta in H.
    destruct (_ =? 0)%Z in H; [discriminate H|]. destruct (negb (dc_after c)); [discriminate H|].
    destruct (dc_copy c); [destruct (take_at _ F p') in H; discriminate H|].
    apply bind_ok_elim in H as (q & _ & H). discriminate H.
  - intro H. destruct (take_at sz F pos). discriminate H.
  - intro H. destruct (take_at sz F pos). discriminate H.
  - intro H. destruct (take_at sz F pos). discriminate H.
  - intro H. destruct (take_at sz F pos). discriminate H.
  - intro H. apply bind_ok_elim in H as (r & Hr & H). destruct r as [[m q]|]; [discriminate H|].
    split; [congruence|]. intros F' pos'. unfold np_read in *. apply bind_ok_elim in Hr as (pl & -> & Hr). cbn [bind].
    destruct pl as [[il d]|]; [|reflexivity]. apply bind_ok_elim in Hr as (m & _ & Hr). discriminate Hr.
  - intro H. apply bind_ok_elim in H as (q & _ & H). discriminate H.
  - intro H. apply bind_ok_elim in H as (q & _ & H). discriminate H.
Qed.

Lemma firstn_inside m pos : (pos + m <= n)%nat -> firstn m (skipn pos file) = firstn m (skipn pos pf).
Proof.
  intro H. rewrite skip_cut by lia. rewrite firstn_app. rewrite skipn_length. fold n.
  replace (m - (n - pos))%nat with 0%nat by lia. cbn [firstn]. apply app_nil_r.
Qed.

Lemma handle_some k h sz hd pos o1 p1 : (pos <= n)%nat -> handle_h FO k h sz pf hd pos = Ok (Some o1, p1) ->
  exists o2 p2, handle_h FO k h sz file hd pos = Ok (Some o2, p2) /\ alike o1 p1 o2 p2.
Proof.
  intros Hp. unfold handle_h. destruct (negb (for_kind hd k)) eqn:Ek; [discriminate|].
  assert (HT : forall g : list N -> sdata, (forall a b, cut_bytes x a b -> cut_data x (g a) (g b)) -> forall z q, (q <= n)%nat ->
            (let '(b, p) := take_at z pf q in Ok (Some (g b), p)) = Ok (Some o1, p1) ->
            exists o2 p2, (let '(b, p) := take_at z file q in Ok (Some (g b), p)) = Ok (Some o2, p2) /\ alike o1 p1 o2 p2).
  { intros g Hg z q Hq H. destruct (take_at z pf q) as [b1 q1] eqn:E1. injection H as <- <-.
    destruct (take_cut z q b1 q1 Hq E1) as (b2 & q2 & -> & A). do 2 eexists. split; [reflexivity|].
    destruct A as [[-> ->]|(A & B & C)]; [left; auto|right; auto]. }
  assert (HB : forall a b, cut_bytes x a b -> cut_data x (DBytes FO (Some a)) (DBytes FO (Some b))) by (intros; now apply cd_bytes).
  destruct hd.
  - intro H. apply bind_ok_elim in H as (v & -> & H). cbn [bind]. apply bind_ok_elim in H as (e & -> & H). cbn [bind].
    destruct (negb e); [discriminate H|]. exact (HT (fun b => DBytes FO (Some b)) HB sz pos Hp H).
  - intro H. apply bind_ok_elim in H as (v & -> & H). cbn [bind]. apply bind_ok_elim in H as (e & -> & H). cbn [bind].
    destruct (negb e); [discriminate H|].
    apply bind_ok_elim in H as ([s p'] & Hr & H). destruct (read_at_cut _ _ _ _ Hp Hr) as (Hr' & Hp').
    rewrite Hr'. cbn [bind]. cbn beta iota zeta in H |- *.
    destruct (_ =? 0)%Z in H |- *.
    { injection H as <- <-. do 2 eexists. split; [reflexivity|now left]. }
    destruct (negb (dc_after c)); [discriminate H|]. destruct (dc_copy c).
    + apply (HT (fun b => DFields FO c s (Some b))) in H; auto. intros; now apply cd_extra.
    + apply bind_ok_elim in H as (q & -> & H). cbn [bind]. injection H as <- <-. do 2 eexists. split; [reflexivity|now left].
  - exact (HT (fun b => DBytes FO (Some b)) HB sz pos Hp).
  - exact (HT (fun b => DBytes FO (Some b)) HB sz pos Hp).
  - exact (HT (fun b => DBytes FO (Some b)) HB sz pos Hp).
  - exact (HT (fun b => DBytes FO (Some b)) HB sz pos Hp).
  - intro H. apply bind_ok_elim in H as (r & Hr & H). destruct r as [[m q]|]; [|discriminate H]. injection H as <- <-.
    unfold np_read in *. apply bind_ok_elim in Hr as (pl & -> & Hr). cbn [bind].
    destruct pl as [[il d]|]; [|discriminate Hr]. apply bind_ok_elim in Hr as (m' & Hm & Hr). injection Hr as -> <-.
    unfold np_map in *. apply bind_ok_elim in Hm as (t & -> & Hm). cbn [bind]. destruct t as [[bb rr] cc].
    destruct ((bb <? 0)%Z || (rr <? 0)%Z || (cc <? 0)%Z); [discriminate Hm|]. cbn zeta in *.
    match type of Hm with (if ?c then _ else _) = _ => destruct c eqn:E end; [destruct il; discriminate Hm|].
    injection Hm as <-. 
    match goal with |- context [(?a <? ?b)%Z] => replace (a <? b)%Z with false end.
    2:{ symmetry. apply Z.ltb_ge. apply Z.ltb_ge in E. unfold file. rewrite app_length. lia. }
    cbn [bind]. do 2 eexists. split; [reflexivity|]. left. split; [|reflexivity]. f_equal. symmetry.
    apply Z.ltb_ge in E. fold n in E.
    match goal with |- firstn (Z.to_nat ?s) _ = _ => destruct (Z.le_gt_cases 0 s) as [Hs|Hs] end.
    + apply firstn_inside. lia.
    + match goal with |- firstn (Z.to_nat ?s) _ = _ => replace (Z.to_nat s) with 0%nat by lia end. reflexivity.
  - intro H. apply bind_ok_elim in H as (q & Hq & H). rewrite Hq. cbn [bind]. injection H as <- <-.
    do 2 eexists. split; [reflexivity|]. unfold seek_by in Hq.
    destruct (Nat.le_gt_cases (pos + Z.to_nat sz) n) as [Hl|Hl].
    + left. split; [|reflexivity]. f_equal. symmetry. now apply firstn_inside.
    + right. destruct (Z.of_nat pos + sz <? 0)%Z eqn:E in Hq; [discriminate Hq|]. injection Hq as <-.
      split; [|lia]. apply cd_file. rewrite skip_cut by auto. rewrite firstn_app.
      assert (HL : List.length (skipn pos pf) = (n - pos)%nat) by (rewrite skipn_length; reflexivity).
      rewrite (firstn_all2 (n := Z.to_nat sz) (skipn pos pf)) by lia.
      eexists _, _. split; [reflexivity|]. symmetry. apply firstn_skipn.
  - intro H. apply bind_ok_elim in H as (q & -> & H). cbn [bind]. injection H as <- <-. do 2 eexists. split; [reflexivity|now left].
Qed.

Lemma level_rest k h sz hs : forall r1 r2 p1 p2 o q,
  try_level handler nat sdata (handle_h FO k h sz pf) hs (Some r1) p1 = Ok (o, q) ->
  o = Some r1 /\ q = p1 /\ try_level handler nat sdata (handle_h FO k h sz file) hs (Some r2) p2 = Ok (Some r2, p2).
Proof.
  induction hs as [|hd hs IH]; intros r1 r2 p1 p2 o q H; cbn [try_level] in *; [injection H as <- <-; auto|].
  apply bind_ok_elim in H as ([c p'] & Hh & H). destruct c as [c|]; [discriminate H|].
  apply handle_none in Hh as (-> & Hh). rewrite Hh. cbn [bind]. now apply IH.
Qed.

Lemma level_cut k h sz hs : forall pos o q, (pos <= n)%nat ->
  try_level handler nat sdata (handle_h FO k h sz pf) hs None pos = Ok (o, q) ->
  match o with
  | None => q = pos /\ try_level handler nat sdata (handle_h FO k h sz file) hs None pos = Ok (None, pos)
  | Some o1 => exists o2 p2, try_level handler nat sdata (handle_h FO k h sz file) hs None pos = Ok (Some o2, p2) /\ alike o1 q o2 p2
  end.
Proof.
  induction hs as [|hd hs IH]; intros pos o q Hp H; cbn [try_level] in *; [injection H as <- <-; auto|].
  apply bind_ok_elim in H as ([c p'] & Hh & H). destruct c as [c|].
  - destruct (handle_some k h sz hd pos c p' Hp Hh) as (o2 & p2 & -> & A). cbn [bind].
    destruct (level_rest k h sz hs c o2 p' p2 o q H) as (-> & -> & B). exists o2, p2. auto.
  - apply handle_none in Hh as (-> & Hh). rewrite Hh. cbn [bind]. now apply IH.
Qed.

Lemma levels_cut k h sz ls pos o q : (pos <= n)%nat ->
  handle_levels handler nat sdata (handle_h FO k h sz pf) ls pos = Ok (o, q) ->
  exists o2 p2, handle_levels handler nat sdata (handle_h FO k h sz file) ls pos = Ok (o2, p2) /\ alike o q o2 p2.
Proof.
  intro Hp. induction ls as [|l ls IH]; intro H; cbn [handle_levels] in *; [discriminate H|].
  apply bind_ok_elim in H as ([f p'] & Hl & H). apply level_cut in Hl; auto. destruct f as [f|].
  - injection H as <- <-. destruct Hl as (o2 & p2 & -> & A). cbn [bind]. eauto.
  - destruct Hl as (-> & ->). cbn [bind]. auto.
Qed.

Lemma seg_cut E k sz pos s p : (pos <= n)%nat -> seg_read FO E k sz pf pos = Ok (s, p) ->
  exists s2 p2, seg_read FO E k sz file pos = Ok (s2, p2)
    /\ same_heads s s2 /\ s_tres FO s = [] /\ s_tres FO s2 = [] /\ alike (s_data FO s) p (s_data FO s2) p2.
Proof.
  intros Hp H. unfold seg_read in *. apply bind_ok_elim in H as ([st p1] & Hr & H).
  destruct (read_at_cut _ _ _ _ Hp Hr) as (Hr' & Hp1). rewrite Hr'. cbn [bind]. cbn beta iota zeta in H |- *.
  apply bind_ok_elim in H as (c & -> & H). cbn [bind]. apply bind_ok_elim in H as (u & -> & H). cbn [bind].
  apply bind_ok_elim in H as ([d p2] & Hd & H). destruct (levels_cut _ _ _ _ _ _ _ Hp1 Hd) as (d2 & q2 & -> & A). cbn [bind].
  injection H as <- <-. do 2 eexists. split; [reflexivity|]. cbn [s_data s_tres]. repeat split; auto.
Qed.

(** The subheader tables do not accept an empty input. *)
Lemma sub_nonempty k s r : read FO (mk_fs (sub_rows k)) false (init_state FO) [] <> Ok (s, r).
Proof. destruct k; vm_compute; discriminate. Qed.

Lemma segs_end E k szs pos l p : (n <= pos)%nat -> segs_read FO E k szs pf pos = Ok (l, p) -> szs = [] /\ l = [] /\ p = pos.
Proof.
  intros Hp H. destruct szs as [|sz szs]; cbn [segs_read] in H; [injection H as <- <-; auto|].
  apply bind_ok_elim in H as ([s p1] & Hs & _). unfold seg_read in Hs. apply bind_ok_elim in Hs as ([st p2] & Hr & _).
  destruct (read_at_end _ _ _ _ Hp (sub_nonempty k) Hr).
Qed.

(** Segments read alike, the last one possibly cut; if so, both files are at or behind the cut. *)
Definition chain (l1 : list seg) (p1 : nat) (l2 : list seg) (p2 : nat) : Prop :=
  List.length l1 = List.length l2 /\
  ((Forall2 same_seg l1 l2 /\ p1 = p2)
   \/ (exists a1 a2 s1 s2, l1 = a1 ++ [s1] /\ l2 = a2 ++ [s2] /\ Forall2 same_seg a1 a2 /\ cut_seg x s1 s2) /\ (n <= p1)%nat /\ (n <= p2)%nat).

Lemma segs_cut E k szs : forall pos l p, (pos <= n)%nat -> segs_read FO E k szs pf pos = Ok (l, p) ->
  exists l2 p2, segs_read FO E k szs file pos = Ok (l2, p2) /\ chain l p l2 p2 /\ Forall (fun s => s_tres FO s = []) l /\ Forall (fun s => s_tres FO s = []) l2.
Proof.
  induction szs as [|sz szs IH]; intros pos l p Hp H; cbn [segs_read] in *.
  - injection H as <- <-. do 2 eexists. split; [reflexivity|]. split; [|split; constructor]. split; [reflexivity|]. left. split; constructor.
  - apply bind_ok_elim in H as ([s p1] & Hs & H). apply bind_ok_elim in H as ([r p2] & Hr & H). injection H as <- <-.
    destruct (seg_cut E k sz pos s p1 Hp Hs) as (s2 & q1 & -> & Hh & T1 & T2 & A). cbn [bind].
    assert (Hend : (n <= p1)%nat -> szs = [] /\ r = [] /\ p2 = p1) by (intro Hn; exact (segs_end E k szs p1 r p2 Hn Hr)).
    destruct A as [[Ed ->]|(Hc & N1 & N2)].
    + destruct (Nat.le_gt_cases q1 n) as [Hq|Hq].
      * destruct (IH q1 r p2 Hq Hr) as (l2 & q2 & -> & (HL & C) & F1 & F2). cbn [bind]. do 2 eexists. split; [reflexivity|].
        split; [|split; constructor; auto]. split; [cbn [List.length]; now rewrite HL|].
        destruct C as [[C ->]|((a1 & a2 & t1 & t2 & -> & -> & C1 & C2) & C3)].
        -- left. split; [|reflexivity]. constructor; auto. now split.
        -- right. split; [|exact C3]. exists (s :: a1), (s2 :: a2), t1, t2. repeat split; auto; try apply C2. constructor; auto. now split.
      * destruct Hend as (-> & -> & ->); [lia|]. cbn [segs_read bind]. do 2 eexists. split; [reflexivity|].
        split; [|split; repeat constructor; auto]. split; [reflexivity|]. left. split; [|reflexivity]. constructor; [now split|constructor].
    + destruct (Hend N1) as (-> & -> & ->). cbn [segs_read bind]. do 2 eexists. split; [reflexivity|].
      split; [|split; repeat constructor; auto]. split; [reflexivity|]. right. split; [|auto].
      exists [], [], s, s2. repeat split; auto; try apply Hh.
Qed.
Definition no_tres (l : list seg) : Prop := Forall (fun s => s_tres FO s = []) l.

Lemma chain_next E k szs l1 p l2 q m p' : chain l1 p l2 q -> segs_read FO E k szs pf p = Ok (m, p') ->
  exists m2 q', segs_read FO E k szs file q = Ok (m2, q') /\ chain (l1 ++ m) p' (l2 ++ m2) q'
    /\ Forall2 same_heads m m2 /\ no_tres m /\ no_tres m2.
Proof.
  intros (HL & C) H.
  assert (Hend : (n <= p)%nat -> szs = [] /\ m = [] /\ p' = p) by (intro Hn; exact (segs_end E k szs p m p' Hn H)).
  destruct C as [[C ->]|(C & N1 & N2)].
  - destruct (Nat.le_gt_cases q n) as [Hq|Hq].
    + destruct (segs_cut E k szs q m p' Hq H) as (m2 & q' & -> & (HL2 & D) & F1 & F2). exists m2, q'. split; [reflexivity|].
      split; [|split; [|split; auto]].
      * split; [rewrite !app_length; congruence|]. destruct D as [[D ->]|((a1 & a2 & t1 & t2 & -> & -> & D1 & D2) & D3)].
        -- left. split; [now apply Forall2_app|reflexivity].
        -- right. split; [|exact D3]. exists (l1 ++ a1), (l2 ++ a2), t1, t2. rewrite !app_assoc. repeat split; auto; try apply D2. now apply Forall2_app.
      * assert (HS : forall a b, same_seg a b -> same_heads a b) by (intros a b Hab; exact (proj1 Hab)).
        destruct D as [[D ->]|((a1 & a2 & t1 & t2 & -> & -> & D1 & D2) & D3)].
        -- eapply Forall2_impl; eauto.
        -- apply Forall2_app; [eapply Forall2_impl; eauto|]. constructor; [apply D2|constructor].
    + destruct Hend as (-> & -> & ->); [lia|]. exists [], q. split; [reflexivity|]. rewrite !app_nil_r.
      split; [|repeat constructor]. split; [exact HL|]. left. auto.
  - destruct (Hend N1) as (-> & -> & ->). exists [], q. split; [reflexivity|]. rewrite !app_nil_r.
    split; [|repeat constructor]. split; [exact HL|]. right. auto.
Qed.

Definition kept (s s' : seg) : Prop := s_hdr FO s = s_hdr FO s' /\ s_ush FO s = s_ush FO s' /\ s_data FO s = s_data FO s'.

Lemma kept_refl l : Forall2 kept l l.
Proof. induction l; constructor; auto. repeat split. Qed.

Lemma with_tres_kept E k dd l : forall l', map_res (with_tres FO E k dd) l = Ok l' -> Forall2 kept l l'.
Proof.
  induction l as [|s l IH]; intros l' H; cbn [map_res] in H; [injection H as <-; constructor|].
  apply bind_ok_elim in H as (s' & Hs & H). apply bind_ok_elim in H as (r & Hr & H). injection H as <-.
  constructor; [|now apply IH]. unfold with_tres in Hs. destruct (has_tres k); [|injection Hs as <-; repeat split].
  apply bind_ok_elim in Hs as (ts & _ & Hs). injection Hs as <-. repeat split.
Qed.

Lemma with_tres_same E k dd l1 : forall l2 l1' l2', Forall2 same_heads l1 l2 -> no_tres l1 -> no_tres l2 ->
  map_res (with_tres FO E k dd) l1 = Ok l1' -> map_res (with_tres FO E k dd) l2 = Ok l2' ->
  map (s_tres FO) l1' = map (s_tres FO) l2'.
Proof.
  induction l1 as [|s1 l1 IH]; intros l2 l1' l2' HF N1 N2 H1 H2; inversion HF as [|? s2 ? r2 Hh HF']; subst; cbn [map_res] in *.
  - injection H1 as <-. injection H2 as <-. reflexivity.
  - apply bind_ok_elim in H1 as (t1 & A1 & H1). apply bind_ok_elim in H1 as (m1 & B1 & H1). injection H1 as <-.
    apply bind_ok_elim in H2 as (t2 & A2 & H2). apply bind_ok_elim in H2 as (m2 & B2 & H2). injection H2 as <-.
    inversion N1 as [|? ? N1a N1b]; inversion N2 as [|? ? N2a N2b]; subst. cbn [map].
    f_equal; [|now apply (IH r2)]. unfold with_tres in A1, A2. destruct (has_tres k); [|congruence].
    rewrite (proj1 Hh) in A1. apply bind_ok_elim in A1 as (u1 & C1 & A1). apply bind_ok_elim in A2 as (u2 & C2 & A2).
    injection A1 as <-. injection A2 as <-. cbn [s_tres]. congruence.
Qed.

Lemma map_no_tres l1 l2 : Forall2 same_heads l1 l2 -> no_tres l1 -> no_tres l2 -> map (s_tres FO) l1 = map (s_tres FO) l2.
Proof.
  induction 1 as [|a b l1 l2 _ _ IH]; intros N1 N2; [reflexivity|].
  inversion N1 as [|? ? N1a N1b]; inversion N2 as [|? ? N2a N2b]; subst. cbn [map]. rewrite N1a, N2a. f_equal. auto.
Qed.

Lemma kept_same l1 : forall l2 l1' l2', Forall2 same_seg l1 l2 -> Forall2 kept l1 l1' -> Forall2 kept l2 l2' -> Forall2 same_seg l1' l2'.
Proof.
  induction l1 as [|s1 l1 IH]; intros l2 l1' l2' H K1 K2; inversion H as [|? s2 ? r2 (Hh & Hd) H']; subst;
    inversion K1 as [|? t1 ? u1 (A1 & A2 & A3) K1']; inversion K2 as [|? t2 ? u2 (B1 & B2 & B3) K2']; subst; constructor.
  - destruct Hh as (Ha & Hb). repeat split; congruence.
  - now apply (IH r2).
Qed.

Lemma in_order_two f : in_order f = nf_segs FO f KImage ++ nf_segs FO f KGraphic ++ nf_segs FO f KText ++ nf_segs FO f KDes ++ nf_segs FO f KRes.
Proof. unfold in_order, in_file_order. cbn [flat_map]. now rewrite app_nil_r. Qed.

(** If the remains of a file can be read at all, the file was cut in the data of its last segment (or
    behind it): all else is as in the whole file, and what the data of that segment lacks is what was
    cut off.  Only the TREs can be affected too, if that segment is a DES. *)
Theorem C71_cut E f1 f2 : file_read FO E pf = Ok f1 -> file_read FO E file = Ok f2 ->
  nf_hdr FO f1 = nf_hdr FO f2
  /\ (forall k, Forall2 same_heads (nf_segs FO f1 k) (nf_segs FO f2 k))
  /\ (exists a1 a2 l1 l2, in_order f1 = a1 ++ l1 /\ in_order f2 = a2 ++ l2 /\ Forall2 same_seg a1 a2
        /\ (List.length l1 <= 1)%nat /\ Forall2 (cut_seg x) l1 l2)
  /\ (map (s_data FO) (nf_segs FO f1 KDes) = map (s_data FO) (nf_segs FO f2 KDes) ->
      nf_tres FO f1 = nf_tres FO f2 /\ forall k, map (s_tres FO) (nf_segs FO f1 k) = map (s_tres FO) (nf_segs FO f2 k)).
Proof.
  intros H1 H2. unfold file_read in H1, H2.
  apply bind_ok_elim in H1 as ([st p0] & Hr & H1). destruct (read_at_cut _ 0 _ _ (Nat.le_0_l n) Hr) as (Hr' & Hp0).
  rewrite Hr' in H2. cbn [bind] in H2. cbn beta iota zeta in H1, H2.
  apply bind_ok_elim in H1 as (fl & Efl & H1). rewrite Efl in H2. cbn [bind] in H2.
  apply bind_ok_elim in H1 as (stream & Est & H1). rewrite Est in H2. cbn [bind] in H2. destruct stream; [discriminate H1|].
  apply bind_ok_elim in H1 as (zi & Ei & H1). rewrite Ei in H2. cbn [bind] in H2.
  apply bind_ok_elim in H1 as (zg & Eg & H1). rewrite Eg in H2. cbn [bind] in H2.
  apply bind_ok_elim in H1 as (zt & Et & H1). rewrite Et in H2. cbn [bind] in H2.
  apply bind_ok_elim in H1 as (zd & Ed & H1). rewrite Ed in H2. cbn [bind] in H2.
  apply bind_ok_elim in H1 as (zr & Er & H1). rewrite Er in H2. cbn [bind] in H2.
  assert (C0 : chain [] p0 [] p0) by (split; [reflexivity|left; split; constructor]).
  apply bind_ok_elim in H1 as ([im p1] & Ri & H1). destruct (chain_next _ _ _ _ _ _ _ _ _ C0 Ri) as (im2 & q1 & Ri2 & C1 & Si & Ni & Ni2).
  rewrite Ri2 in H2. cbn [bind] in H2. cbn beta iota in H1.
  apply bind_ok_elim in H1 as ([gr p2] & Rg & H1). destruct (chain_next _ _ _ _ _ _ _ _ _ C1 Rg) as (gr2 & q2 & Rg2 & C2 & Sg & Ng & Ng2).
  rewrite Rg2 in H2. cbn [bind] in H2. cbn beta iota in H1.
  apply bind_ok_elim in H1 as ([tx p3] & Rt & H1). destruct (chain_next _ _ _ _ _ _ _ _ _ C2 Rt) as (tx2 & q3 & Rt2 & C3 & St & Nt & Nt2).
  rewrite Rt2 in H2. cbn [bind] in H2. cbn beta iota in H1.
  apply bind_ok_elim in H1 as ([de p4] & Rd & H1). destruct (chain_next _ _ _ _ _ _ _ _ _ C3 Rd) as (de2 & q4 & Rd2 & C4 & Sd & Nd & Nd2).
  rewrite Rd2 in H2. cbn [bind] in H2. cbn beta iota in H1.
  apply bind_ok_elim in H1 as ([rs p5] & Rr & H1). destruct (chain_next _ _ _ _ _ _ _ _ _ C4 Rr) as (rs2 & q5 & Rr2 & C5 & Sr & Nr & Nr2).
  rewrite Rr2 in H2. cbn [bind] in H2. cbn beta iota zeta in H1, H2.
  apply bind_ok_elim in H1 as (ts1 & T1 & H1). apply bind_ok_elim in H2 as (ts2 & T2 & H2).
  apply bind_ok_elim in H1 as (im' & I1 & H1). apply bind_ok_elim in H2 as (im2' & I2 & H2).
  apply bind_ok_elim in H1 as (gr' & G1 & H1). apply bind_ok_elim in H2 as (gr2' & G2 & H2).
  apply bind_ok_elim in H1 as (tx' & X1 & H1). apply bind_ok_elim in H2 as (tx2' & X2 & H2).
  injection H1 as <-. injection H2 as <-. cbn [nf_hdr nf_segs nf_tres].
  assert (Ki := with_tres_kept _ _ _ _ _ I1). assert (Ki2 := with_tres_kept _ _ _ _ _ I2).
  assert (Kg := with_tres_kept _ _ _ _ _ G1). assert (Kg2 := with_tres_kept _ _ _ _ _ G2).
  assert (Kt := with_tres_kept _ _ _ _ _ X1). assert (Kt2 := with_tres_kept _ _ _ _ _ X2).
  assert (Hheads : forall a b a' b', Forall2 same_heads a b -> Forall2 kept a a' -> Forall2 kept b b' -> Forall2 same_heads a' b').
  { clear. induction a as [|s1 a IH]; intros b a' b' H K1 K2; inversion H as [|? s2 ? r2 (Ha & Hb) H']; subst;
      inversion K1 as [|? t1 ? u1 (A1 & A2 & A3) K1']; inversion K2 as [|? t2 ? u2 (B1 & B2 & B3) K2']; subst; constructor;
      [repeat split; congruence|now apply (IH r2)]. }
  split; [reflexivity|]. split; [|split].
  - intros k. destruct k; eauto.
  - rewrite !in_order_two. cbn [nf_segs].
    assert (KA : Forall2 kept (((((([] ++ im) ++ gr) ++ tx) ++ de) ++ rs)) (im' ++ gr' ++ tx' ++ de ++ rs)).
    { cbn [app]. rewrite <- !app_assoc. repeat apply Forall2_app; auto using kept_refl. }
    assert (KB : Forall2 kept (((((([] ++ im2) ++ gr2) ++ tx2) ++ de2) ++ rs2)) (im2' ++ gr2' ++ tx2' ++ de2 ++ rs2)).
    { cbn [app]. rewrite <- !app_assoc. repeat apply Forall2_app; auto using kept_refl. }
    destruct C5 as (_ & [[C _]|((a1 & a2 & s1 & s2 & Ea & Eb & Cs & Cc) & _)]).
    + eexists _, _, [], []. rewrite !app_nil_r. split; [reflexivity|]. split; [reflexivity|].
      split; [exact (kept_same _ _ _ _ C KA KB)|]. split; [cbn; lia|constructor].
    + rewrite Ea in KA. rewrite Eb in KB.
      apply Forall2_app_inv_l in KA as (b1 & l1 & A1 & A2 & ->). apply Forall2_app_inv_l in KB as (b2 & l2 & B1 & B2 & ->).
      exists b1, b2, l1, l2. split; [reflexivity|]. split; [reflexivity|]. split; [exact (kept_same _ _ _ _ Cs A1 B1)|].
      inversion A2 as [|? t1 ? u1 (P1 & P2 & P3) A3]; subst. inversion A3; subst.
      inversion B2 as [|? t2 ? u2 (Q1 & Q2 & Q3) B3]; subst. inversion B3; subst.
      split; [cbn; lia|]. constructor; [|constructor]. destruct Cc as ((R1 & R2) & R3).
      split; [split; congruence|]. rewrite <- P3, <- Q3. exact R3.
  - intro Hd.
    assert (Edd : map (des_data FO) de = map (des_data FO) de2).
    { clear - Hd. revert de2 Hd. induction de as [|a de IH]; intros [|b de2] Hd; try discriminate Hd; [reflexivity|].
      cbn [map] in *. injection Hd as Ha Hd. f_equal; [|now apply IH]. unfold des_data. now rewrite Ha. }
    rewrite Edd in T1, I1, G1, X1. split; [congruence|]. intros k. destruct k.
    + exact (with_tres_same _ _ _ _ _ _ _ Si Ni Ni2 I1 I2).
    + exact (with_tres_same _ _ _ _ _ _ _ Sg Ng Ng2 G1 G2).
    + exact (with_tres_same _ _ _ _ _ _ _ St Nt Nt2 X1 X2).
    + now apply map_no_tres.
    + now apply map_no_tres.
Qed.

End Cut.

(** ** Examples *)

Definition ex_text_file : nfile DecF :=
  append_seg DecF (append_seg DecF (fst (new_file DecF (sec_default DecF)))
    KText (ex_seg DecF (new_hdr DecF) (DStr DecF (str "first")) []))
    KText (ex_seg DecF (new_hdr DecF) (DStr DecF (str "Attack at dawn, not before.")) [TUnk (str "SMALL") (str "x")]).
Definition ex_whole : list N := match file_write DecF ex_env ex_text_file with Ok (_, b) => b | Err _ => [] end.
Definition texts (r : res (nfile DecF)) : option (list (list N)) :=
  match r with
  | Ok f => Some (map (fun s => match s_data DecF s with DBytes _ (Some b) => b | _ => [] end) (nf_segs DecF f KText))
  | Err _ => None
  end.
(** Cut in the last text it is read silently, cut before it raises. *)
Example C71_case :
  List.length ex_whole = 1017%nat
  /\ map (fun m => texts (file_read DecF ex_env (firstn m ex_whole))) [1017; 1004; 990; 989; 700; 300]%nat
     = [Some [str "first"; str "Attack at dawn, not before."]; Some [str "first"; str "Attack at dawn"]; Some [str "first"; []]; None; None; None].
Proof. split; vm_compute; reflexivity. Qed.

(** A file that has lost its end is not always noticed: the text is shorter, and nothing is said. *)
Theorem C71_noticed_refuted : exists (E : env) (pf x : list N) (f1 f2 : nfile DecF), x <> []
  /\ file_read DecF E pf = Ok f1 /\ file_read DecF E (pf ++ x) = Ok f2
  /\ texts (Ok f1) = Some [str "first"; str "Attack at dawn"] /\ texts (Ok f2) = Some [str "first"; str "Attack at dawn, not before."]
  /\ match get DecF (mk_fs desc_NitfFileHeader) (h_st (nf_hdr DecF f1)) "fl" [] with Ok (VInt z) => z | _ => 0%Z end = Z.of_nat (List.length (pf ++ x)).
Proof.
  set (w := ex_whole).
  assert (T1 : texts (file_read DecF ex_env (firstn 1004 w)) = Some [str "first"; str "Attack at dawn"]) by (vm_compute; reflexivity).
  assert (T2 : texts (file_read DecF ex_env (firstn 1004 w ++ skipn 1004 w)) = Some [str "first"; str "Attack at dawn, not before."]) by (vm_compute; reflexivity).
  assert (L : match file_read DecF ex_env (firstn 1004 w) with
              | Ok f => match get DecF (mk_fs desc_NitfFileHeader) (h_st (nf_hdr DecF f)) "fl" [] with Ok (VInt z) => z | _ => 0%Z end
              | Err _ => 0%Z end = Z.of_nat (List.length (firstn 1004 w ++ skipn 1004 w))) by (vm_compute; reflexivity).
  assert (X : List.length (skipn 1004 w) = 13%nat) by (vm_compute; reflexivity).
  exists ex_env, (firstn 1004 w), (skipn 1004 w).
  destruct (file_read DecF ex_env (firstn 1004 w)) as [f1|e]; [|discriminate T1].
  destruct (file_read DecF ex_env (firstn 1004 w ++ skipn 1004 w)) as [f2|e]; [|discriminate T2].
  exists f1, f2. split; [intro E; rewrite E in X; discriminate X|]. auto.
Qed.

(** Cut in the last DES, which holds the TREs of the image that did not fit: a TRE is shorter, or it is
    missing. *)
Definition tre_lens (r : res (nfile DecF)) : option (list (list Z)) :=
  match r with
  | Ok f => Some (map (fun s => map (fun t => match t with TUnk _ b => Z.of_nat (List.length b) | _ => 0%Z end) (s_tres DecF s)) (nf_segs DecF f KImage))
  | Err _ => None
  end.
Example C71_tre_case :
  match file_write DecF ex_env (ex_file DecF) with
  | Ok (_, w) => map (fun m => tre_lens (file_read DecF ex_env (firstn (Z.to_nat m) w))) [182141; 182041; 122130; 122129]%Z
                 = [Some [[60000; 60000; 60000]]; Some [[59900; 60000; 60000]]; Some [[60000; 60000]]; None]%Z
  | Err _ => False
  end.
Proof. vm_compute. reflexivity. Qed.

Print Assumptions C71_cut.
Print Assumptions C71_noticed_refuted.
