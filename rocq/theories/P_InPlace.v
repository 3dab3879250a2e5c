(** Image data that is copied from where it was read (C73). *)
From Verif Require Import Base BaseLemmas Engine Wf EngineLemmas Codec RoundTrip Rewrite Literal Positions Keys Deps Assign
  Update Spec Decimal DescsHdr Utf8 Tre TreLemmas Handles TrePlace TrePlaceLemmas Scalar Security Image ImageLemmas
  File FileLemmas OpenFile TwoFiles P_TwoFiles InPlace Ex P_Image P_File.
Open Scope list_scope.

(** ** Copying in pieces *)

Lemma firstn_split {A} a b (l : list A) : firstn a l ++ firstn b (skipn a l) = firstn (a + b) l.
Proof.
  revert l. induction a as [|a IH]; intros [|x l]; cbn [firstn skipn Nat.add app]; try reflexivity.
  - now rewrite firstn_nil.
  - now rewrite IH.
Qed.
Lemma copy_loop_all n : forall left rest, (left <= buffer_size * Z.of_nat n)%Z ->
  copy_loop n left rest = firstn (Z.to_nat left) rest.
Proof.
  induction n as [|n IH]; intros left rest H.
  - replace (Z.to_nat left) with O by lia. reflexivity.
  - cbn [copy_loop]. destruct (Z.gtb_spec left 0) as [P|P]; [|replace (Z.to_nat left) with O by lia; reflexivity].
    assert (B : (0 < buffer_size)%Z) by (unfold buffer_size; lia).
    rewrite IH by lia. destruct (Z.ltb_spec left buffer_size) as [Q|Q].
    + replace (Z.to_nat (left - buffer_size)) with O by lia. cbn [firstn]. apply app_nil_r.
    + rewrite firstn_split. f_equal. lia.
Qed.
(** What is copied is the part of the file that the image says, or as much of it as there is. *)
Theorem C73_copied r c : copied r c = firstn (Z.to_nat (so_size r)) (skipn (so_start r) c).
Proof.
  unfold copied. apply copy_loop_all. assert (B : (0 < buffer_size)%Z) by (unfold buffer_size; lia).
  pose proof (Z.mul_succ_div_gt (so_size r) buffer_size B). pose proof (Z.div_pos (so_size r) buffer_size).
  destruct (Z.le_gt_cases 0 (so_size r)) as [P|P]; [rewrite Z2Nat.id by lia; lia|].
  assert (0 <= buffer_size * Z.of_nat (Z.to_nat (so_size r / buffer_size + 1)))%Z by lia. lia.
Qed.
Example C73_copied_case : copied {| so_name := 0; so_start := 2; so_size := 3 |} (str "abcdef") = str "cde"
  /\ copied {| so_name := 0; so_start := 2; so_size := 9 |} (str "abcdef") = str "cdef"
  /\ copied {| so_name := 0; so_start := 7; so_size := 3 |} (str "abcdef") = [].
Proof. vm_compute. auto. Qed.

Section InPlace.
Variable FO : FloatOps.
Notation st := (state FO).
Notation seg := (seg FO).
Notation nfile := (nfile FO).

(** The segments with other data. *)
Definition with_data (s : seg) (d : sdata FO) : seg :=
  {| s_hdr := s_hdr FO s; s_ush := s_ush FO s; s_tres := s_tres FO s; s_data := d; s_linked := s_linked FO s |}.
Definition give (s : seg) (d : option (list N)) : seg := match d with Some b => with_data s (DFile FO b) | None => s end.
Fixpoint given (l : list seg) (ds : list (option (list N))) : list seg :=
  match l, ds with s :: l', d :: ds' => give s d :: given l' ds' | _, _ => l end.
(** The file whose images have the data [ds]. *)
Definition with_images (f : nfile) (ds : list (option (list N))) : nfile :=
  {| nf_hdr := nf_hdr FO f; nf_tres := nf_tres FO f;
     nf_segs := fun k => match k with KImage => given (nf_segs FO f KImage) ds | _ => nf_segs FO f k end;
     nf_refs := nf_refs FO f |}.

Lemma give_linked s d : s_linked FO (give s d) = s_linked FO s.
Proof. destruct d; reflexivity. Qed.
Lemma given_len l ds : List.length (given l ds) = List.length l.
Proof. revert ds. induction l as [|s l IH]; intros [|d ds]; cbn [given List.length]; try reflexivity. now rewrite IH. Qed.
Lemma given_linked l ds : Forall (fun s => s_linked FO s = true) l -> Forall (fun s => s_linked FO s = true) (given l ds).
Proof.
  revert ds. induction l as [|s l IH]; intros [|d ds] H; cbn [given]; auto. inversion_clear H as [|? ? H1 H2].
  constructor; [now rewrite give_linked|now apply IH].
Qed.

Lemma prep_given l : forall k i ds des, prep_segs FO k i (given l ds) des =
  match prep_segs FO k i l des with Ok (r, d) => Ok (given r ds, d) | Err e => Err e end.
Proof.
  induction l as [|s l IH]; intros k i [|d ds] des; cbn [given].
  - reflexivity.
  - reflexivity.
  - destruct (prep_segs FO k i (s :: l) des) as [[[|]]|]; reflexivity.
  - cbn [prep_segs].
    assert (E1 : s_hdr FO (give s d) = s_hdr FO s) by (destruct d; reflexivity).
    assert (E2 : s_tres FO (give s d) = s_tres FO s) by (destruct d; reflexivity). rewrite E1, E2.
    destruct (if has_tres k then prep FO (sub_rows k) (sub_areas k) (sec_prefix k) i (s_hdr FO s) (s_tres FO s) des else Ok (s_hdr FO s, des)) as [[h des1]|e];
      cbn [bind]; [|reflexivity].
    rewrite IH. destruct (prep_segs FO k (S i) l des1) as [[r des2]|e]; cbn [bind]; [|reflexivity].
    cbn [given]. assert (E3 : with_hdr FO (give s d) h = give (with_hdr FO s h) d) by (destruct d; reflexivity). now rewrite E3.
Qed.
Lemma prepare_given f ds h g : prepare_file FO f = Ok (h, g) ->
  exists g2, prepare_file FO (with_images f ds) = Ok (h, g2) /\ g2 KImage = given (g KImage) ds
    /\ forall k, k <> KImage -> g2 k = g k.
Proof.
  unfold prepare_file. cbn [with_images nf_hdr nf_tres nf_segs]. intro H.
  apply bind_ok_elim in H as (des0 & -> & H). cbn [bind]. apply bind_ok_elim in H as ([h0 des1] & -> & H). cbn [bind].
  apply bind_ok_elim in H as ([im des2] & P1 & H). rewrite prep_given, P1. cbn [bind].
  apply bind_ok_elim in H as ([gr des3] & -> & H). cbn [bind]. apply bind_ok_elim in H as ([tx des4] & -> & H). cbn [bind].
  cbn zeta in *. cbn [map kinds] in *. rewrite given_len.
  match type of H with (match ?x with _ => _ end = _) => destruct x as [h1 [u|e]] eqn:HS; [|discriminate H] end.
  injection H as <- <-. eexists. split; [reflexivity|]. split; [reflexivity|]. intros [| | | |] Hk; (reflexivity || now elim Hk).
Qed.

Variable see : list N -> nat -> option (list N).
Variable src : nat -> option source.

Lemma image_given E i (s s' : seg) (hs hs' : st) file file' :
  image_copy FO see src E i s hs file = Ok (s', hs', file') ->
  exists d, seg_write FO E KImage i (give s d) hs file = Ok (give s' d, hs', file')
    /\ match src i with
       | None => d = None
       | Some r => exists h b c, put_ush FO KImage s = Ok h /\ write FO (mk_fs (sub_rows KImage)) (h_st h) = Ok b
                     /\ see (file ++ b) (so_name r) = Some c /\ d = Some (copied r c)
       end.
Proof.
  unfold image_copy. intro H. destruct (src i) as [r|] eqn:R.
  - apply bind_ok_elim in H as (c & HC & H). apply bind_ok_elim in H as (u & HU & H).
    apply bind_ok_elim in H as (h & Hh & H). apply bind_ok_elim in H as (b & Hb & H).
    destruct (see (file ++ b) (so_name r)) as [cc|] eqn:HS; [|discriminate H]. cbn [bind] in H.
    exists (Some (copied r cc)). split; [|exists h, b, cc; auto].
    unfold seg_write. cbn [give with_data s_linked s_hdr s_ush s_data]. rewrite HC. cbn [bind]. rewrite HU. cbn [bind].
    assert (PU : put_ush FO KImage (with_data s (DFile FO (copied r cc))) = Ok h) by exact Hh. rewrite PU. cbn [bind]. rewrite Hb.
    cbn [bind data_bytes]. cbn zeta in *. destruct (s_linked FO s).
    + destruct (update_field FO _ hs _ (fst (size_names KImage)) _ _) as [hs1 [file2|e]]; [|discriminate H].
      destruct (update_field FO _ hs1 _ (snd (size_names KImage)) _ _) as [hs2 [file3|e]]; [|discriminate H].
      injection H as <- <- <-. reflexivity.
    + injection H as <- <- <-. reflexivity.
  - exists None. split; [exact H|reflexivity].
Qed.

(** What is known of the data of an image that is copied: it was taken from the file named, as that was
    when so many bytes had been written. *)
Definition taken (before : nat) (ps : list (list N * list N)) (j : nat) (r : source) : Prop :=
  exists p w c, nth_error ps j = Some p /\ see w (so_name r) = Some c /\ snd p = copied r c
    /\ List.length w = (before + List.length (flat (firstn j ps)) + List.length (fst p))%nat.

Lemma images_given E n l : forall i (l' : list seg) (hs hs' : st) file tail file',
  Forall (fun s => s_linked FO s = true) l -> step_ok FO n hs file tail -> (i + List.length l <= n KImage)%nat ->
  images_copy FO see src E i l hs file = Ok (l', hs', file') ->
  exists ds ps, List.length ds = List.length l /\ segs_write FO E KImage i (given l ds) hs file = Ok (given l' ds, hs', file')
    /\ wrote_all FO KImage (given l ds) (given l' ds) ps
    /\ step_ok FO n hs' file' (tail ++ flat ps) /\ List.length file' = List.length (file ++ flat ps)
    /\ (forall j, src (i + j) = None -> (j < List.length l)%nat -> nth_error ds j = Some None)
    /\ (forall j r, src (i + j) = Some r -> (j < List.length l)%nat ->
          taken (List.length file) ps j r /\ exists p, nth_error ps j = Some p /\ nth_error ds j = Some (Some (snd p))).
Proof.
  induction l as [|s l IH]; intros i l' hs hs' file tail file' HL HS Hi H.
  - injection H as <- <- <-. exists [], []. split; [reflexivity|]. split; [reflexivity|]. split; [constructor|].
    unfold flat. cbn [map List.concat]. rewrite !app_nil_r. split; [exact HS|]. split; [reflexivity|].
    split; intros; cbn [List.length] in *; lia.
  - cbn [images_copy] in H. apply bind_ok_elim in H as ([[s' hs1] file1] & H1 & H).
    apply bind_ok_elim in H as ([[q hs2] file2] & H2 & H). injection H as <- <- <-.
    inversion HL as [|? ? HL1 HL2]; subst. cbn [List.length] in Hi.
    assert (Hi1 : (i < n KImage)%nat) by (clear - Hi; lia). assert (Hi2 : (S i + List.length l <= n KImage)%nat) by (clear - Hi; lia).
    destruct (image_given _ _ _ _ _ _ _ _ H1) as (d & W1 & D1).
    assert (HLg : s_linked FO (give s d) = true) by now rewrite give_linked.
    destruct (seg_write_ok FO E n KImage i _ _ hs hs1 file tail file1 HLg HS Hi1 W1) as (p & WR & S1 & Len1 & _).
    destruct (IH (S i) q hs1 hs2 file1 _ file2 HL2 S1 Hi2 H2) as (ds & ps & LD & W2 & WA & S2 & Len2 & N0 & T0).
    exists (d :: ds), (p :: ps). split; [cbn [List.length]; now rewrite LD|]. cbn [given].
    split; [cbn [segs_write]; rewrite W1; cbn [bind]; rewrite W2; reflexivity|].
    split; [constructor; [exact WR|exact WA]|].
    assert (FL : flat (p :: ps) = (fst p ++ snd p) ++ flat ps) by reflexivity. rewrite FL.
    split; [rewrite <- app_assoc in S2; exact S2|].
    split; [clear - Len1 Len2; rewrite Len2, !app_length, Len1, !app_length; lia|].
    clear HS S1 S2 H1 H2 IH WA HL HL1 HL2 W1 W2. split.
    + intros [|j] Hj Hlt.
      * rewrite Nat.add_0_r in Hj. rewrite Hj in D1. subst d. reflexivity.
      * cbn [nth_error]. apply N0; [|cbn [List.length] in Hlt; clear - Hlt; lia]. rewrite <- Hj. f_equal. clear. lia.
    + intros [|j] r Hj Hlt.
      * rewrite Nat.add_0_r in Hj. rewrite Hj in D1. destruct D1 as (h & b & c & Q1 & Q2 & Q3 & Q4). subst d.
        destruct WR as (h' & R1 & _ & R3 & R4). assert (h' = h) by (change (put_ush FO KImage s = Ok h') in R1; congruence). subst h'.
        assert (Eb : fst p = b) by congruence. cbn [give with_data s_data data_bytes] in R4. injection R4 as R4.
        split; [|exists p; cbn [nth_error]; rewrite R4; auto].
        exists p, (file ++ b), c. split; [reflexivity|]. split; [exact Q3|]. split; [now rewrite R4|].
        rewrite app_length, Eb. unfold flat. cbn [firstn map List.concat List.length]. clear. lia.
      * assert (Hj' : src (S i + j)%nat = Some r) by (rewrite <- Hj; f_equal; clear; lia).
        assert (Hl' : (j < List.length l)%nat) by (cbn [List.length] in Hlt; clear - Hlt; lia).
        destruct (T0 j r Hj' Hl') as ((p' & w & c & A1 & A2 & A3 & A4) & B). split; [|exact B].
        exists p', w, c. split; [exact A1|]. split; [exact A2|]. split; [exact A3|].
        rewrite A4, Len1. cbn [firstn].
        assert (FL' : flat (p :: firstn j ps) = (fst p ++ snd p) ++ flat (firstn j ps)) by reflexivity. rewrite FL', !app_length. clear. lia.
Qed.

Lemma wrote_all_fun k l : forall a ps b qs, wrote_all FO k l a ps -> wrote_all FO k l b qs -> a = b /\ ps = qs.
Proof.
  induction l as [|s l IH]; intros a ps b qs A B; inversion A; inversion B; subst; [auto|].
  match goal with X : wrote_all _ _ l _ ?p1, Y : wrote_all _ _ l _ ?p2 |- _ => destruct (IH _ _ _ _ X Y) as (-> & ->) end.
  match goal with X : wrote _ _ s ?s1 ?p1, Y : wrote _ _ s ?s2 ?p2 |- _ =>
    destruct X as (h1 & X1 & -> & X2 & X3), Y as (h2 & Y1 & -> & Y2 & Y3); assert (h2 = h1) by congruence; subst h2;
    assert (p1 = p2) by (destruct p1, p2; cbn [fst snd] in *; congruence); subst p1 end.
  auto.
Qed.

(** Whatever the files hold: the bytes written are those of the file whose images have the data that was
    found, and that is the part of the file named which was there when the file had been written as far
    as the subheader of the image. *)
Theorem C73_as_if E f f' bytes : linked FO f -> file_copy FO see src E f = Ok (f', bytes) ->
  exists ds f2 hb ps rest,
    file_write FO E (with_images f ds) = Ok (f2, bytes) /\ linked FO (with_images f ds) /\ nf_hdr FO f2 = nf_hdr FO f'
    /\ bytes = hb ++ flat ps ++ rest /\ write FO (mk_fs desc_NitfFileHeader) (h_st (nf_hdr FO f')) = Ok hb
    /\ Forall2 (segment_bytes FO KImage) (nf_segs FO f2 KImage) ps
    /\ List.length ds = List.length (nf_segs FO f KImage) /\ List.length ps = List.length ds
    /\ forall i, (i < List.length ds)%nat ->
         match src i with
         | None => nth_error ds i = Some None
         | Some r => taken (List.length hb) ps i r /\ exists p, nth_error ps i = Some p /\ nth_error ds i = Some (Some (snd p))
         end.
Proof.
  intros HL H. unfold file_copy in H. apply bind_ok_elim in H as ([h1 g] & HP & H).
  assert (HPR := HP). apply prepare_file_ok in HP. destruct (prepared_linked FO f h1 g HL HP) as (GL & _).
  assert (C1 : counts FO (h_st h1) (fun k => List.length (g k))) by (destruct HP as (? & ? & ? & ? & ? & ? & ? & HP'); apply HP').
  assert (LG : List.length (g KImage) = List.length (nf_segs FO f KImage)).
  { destruct HP as (d0 & h0 & o & ov0 & ov1 & ov2 & ov3 & Q0 & PFi & O0 & P1 & _). exact (proj1 (prepped_linked FO _ _ _ _ _ _ P1)). }
  apply bind_ok_elim in H as ([s1 file1] & HW & H). cbn zeta in H.
  assert (S0 := written_header FO _ _ _ _ C1 HW). set (n := fun k => List.length (g k)) in *.
  destruct (update_field FO hfs s1 file1 "hl" [] _) as [s2 [file2|e]] eqn:U1; [|discriminate H].
  destruct (step_total FO n _ _ _ _ _ _ _ (or_introl eq_refl) S0 U1) as (S2 & Len2 & _).
  apply bind_ok_elim in H as ([[im s3] file3] & W1 & H). apply bind_ok_elim in H as ([[gr s4] file4] & W2 & H).
  apply bind_ok_elim in H as ([[tx s5] file5] & W3 & H). apply bind_ok_elim in H as ([[de s6] file6] & W4 & H).
  apply bind_ok_elim in H as ([[rs s7] file7] & W5 & H).
  destruct (update_field FO hfs s7 file7 "fl" [] _) as [s8 [file8|e]] eqn:U2; [|discriminate H].
  apply bind_ok_elim in H as (de' & HD & H). injection H as <- <-.
  destruct (images_given E n _ 0 _ _ _ _ _ _ (GL KImage) S2 (le_n _) W1) as (ds & p1 & LD & V1 & A1 & S3 & Len3 & N3 & T3).
  destruct (segs_write_ok FO E n KGraphic _ 0 _ _ _ _ _ _ (GL KGraphic) S3 (le_n _) W2) as (p2 & _ & S4 & Len4 & _).
  destruct (segs_write_ok FO E n KText _ 0 _ _ _ _ _ _ (GL KText) S4 (le_n _) W3) as (p3 & _ & S5 & Len5 & _).
  destruct (segs_write_ok FO E n KDes _ 0 _ _ _ _ _ _ (GL KDes) S5 (le_n _) W4) as (p4 & _ & S6 & Len6 & _).
  destruct (segs_write_ok FO E n KRes _ 0 _ _ _ _ _ _ (GL KRes) S6 (le_n _) W5) as (p5 & _ & S7 & Len7 & _).
  destruct (step_total FO n _ _ _ _ _ _ _ (or_intror eq_refl) S7 U2) as (S8 & Len8 & _).
  destruct (in_file_written FO hrows _ _ _ _ (proj1 S8)) as (hb & WH & BH).
  destruct (prepare_given f ds h1 g HPR) as (g2 & PG & G1 & G2).
  assert (LH : List.length hb = List.length file2).
  { assert (X : List.length file8 = List.length (hb ++ ((((([] ++ flat p1) ++ flat p2) ++ flat p3) ++ flat p4) ++ flat p5))) by (rewrite BH; reflexivity).
    clear - X Len3 Len4 Len5 Len6 Len7 Len8. rewrite !app_length in *. cbn [List.length] in *. lia. }
  assert (WF : exists f2, file_write FO E (with_images f ds) = Ok (f2, file8)
            /\ nf_hdr FO f2 = {| h_st := s8; h_attr := h_attr h1 |} /\ nf_segs FO f2 KImage = given im ds).
  { unfold file_write. rewrite PG. cbn [bind]. rewrite HW. cbn [bind]. rewrite U1, G1, !G2 by discriminate.
    rewrite V1. cbn [bind]. rewrite W2. cbn [bind]. rewrite W3. cbn [bind]. rewrite W4. cbn [bind]. rewrite W5. cbn [bind].
    rewrite U2, HD. cbn [bind]. eexists. split; [reflexivity|]. split; reflexivity. }
  destruct WF as (f2 & F1 & F2 & F3).
  exists ds, f2, hb, p1, (flat p2 ++ flat p3 ++ flat p4 ++ flat p5).
  split; [exact F1|]. split; [intros [| | | |]; try exact (HL _); apply given_linked; exact (HL KImage)|].
  split; [exact F2|]. split; [rewrite BH; cbn [app]; rewrite <- !app_assoc; reflexivity|]. split; [exact WH|].
  split; [rewrite F3; exact (wrote_bytes FO _ _ _ _ A1)|]. split; [congruence|].
  split; [destruct (wrote_all_len FO _ _ _ _ A1) as (_ & L); rewrite L, given_len; congruence|].
  intros i Hi. assert (Hi' : (i < List.length (g KImage))%nat) by (rewrite <- LD; exact Hi).
  destruct (src i) as [r|] eqn:R; [rewrite LH; exact (T3 i r R Hi')|exact (N3 i R Hi')].
Qed.

(** ** Files that were not changed *)

Lemma images_same E l : (forall i s r, nth_error l i = Some s -> src i = Some r ->
    exists c, (forall w, see w (so_name r) = Some c) /\ s_data FO s = DFile FO (copied r c)) ->
  forall i l0 (hs : st) file, (forall j, nth_error l (i + j) = nth_error l0 j) ->
  images_copy FO see src E i l0 hs file = segs_write FO E KImage i l0 hs file.
Proof.
  intros HU i l0. revert i. induction l0 as [|s l0 IH]; intros i hs file HN; [reflexivity|]. cbn [images_copy segs_write].
  assert (X : image_copy FO see src E i s hs file = seg_write FO E KImage i s hs file).
  { assert (N0 := HN 0%nat). rewrite Nat.add_0_r in N0. cbn [nth_error] in N0. unfold image_copy, seg_write.
    destruct (src i) as [r|] eqn:R; [|reflexivity]. destruct (HU i s r N0 R) as (c & C1 & C2).
    destruct (if s_linked FO s then ush_cls FO E KImage (s_hdr FO s) else Ok None) as [cc|e]; cbn [bind]; [|reflexivity].
    match goal with |- bind ?a _ = _ => destruct a; cbn [bind]; [|reflexivity] end.
    destruct (put_ush FO KImage s) as [h|e]; cbn [bind]; [|reflexivity].
    destruct (write FO (mk_fs (sub_rows KImage)) (h_st h)) as [b|e]; cbn [bind]; [|reflexivity].
    rewrite C1, C2. cbn [data_bytes]. reflexivity. }
  rewrite X. destruct (seg_write FO E KImage i s hs file) as [[[s' hs1] file1]|e]; cbn [bind]; [|reflexivity].
  rewrite (IH (S i) hs1 file1); [reflexivity|]. intro j. specialize (HN (S j)). cbn [nth_error] in HN. rewrite <- HN. f_equal. clear. lia.
Qed.
Lemma same_data_nth l l' : Forall2 (same_but_header FO) l l' -> forall i s', nth_error l' i = Some s' ->
  exists s, nth_error l i = Some s /\ s_data FO s' = s_data FO s.
Proof.
  induction 1 as [|s s' l l' H _ IH]; intros [|i] x Hx; try discriminate Hx.
  - injection Hx as <-. exists s. split; [reflexivity|]. destruct H as (_ & _ & H & _). exact H.
  - exact (IH i x Hx).
Qed.
(** A file is written as it was read if the files it was read from still hold what was read and are not the
    one written. *)
Theorem C73_unchanged E f : (forall i s r, nth_error (nf_segs FO f KImage) i = Some s -> src i = Some r ->
    exists c, (forall w, see w (so_name r) = Some c) /\ s_data FO s = DFile FO (copied r c)) ->
  file_copy FO see src E f = file_write FO E f.
Proof.
  intro HU. unfold file_copy, file_write. destruct (prepare_file FO f) as [[h1 g]|e] eqn:HP; cbn [bind]; [|reflexivity].
  destruct (write_file FO (mk_fs desc_NitfFileHeader) (h_st h1) []) as [[s1 file1]|e]; cbn [bind]; [|reflexivity].
  cbn zeta. destruct (update_field FO _ s1 file1 "hl" [] _) as [s2 [file2|e]]; [|reflexivity].
  rewrite (images_same E (g KImage)); [reflexivity| |reflexivity].
  intros i s' r Hs Hr. apply prepare_file_ok in HP.
  destruct HP as (d0 & h0 & o & ov0 & ov1 & ov2 & ov3 & Q0 & PFi & O0 & P1 & _).
  destruct (same_data_nth _ _ (prepped_same FO _ _ _ _ _ _ P1) i s' Hs) as (s & Hs0 & ->). exact (HU i s r Hs0 Hr).
Qed.

End InPlace.

(** The sizes of the images in the header are those of the pieces. *)
Lemma bytes_fun FO k l : forall ps qs, Forall2 (segment_bytes FO k) l ps -> Forall2 (segment_bytes FO k) l qs -> ps = qs.
Proof.
  induction l as [|s l IH]; intros ps qs A B; inversion A; inversion B; subst; [reflexivity|].
  match goal with X : segment_bytes _ _ s ?p1, Y : segment_bytes _ _ s ?p2 |- _ =>
    destruct X as (X1 & X2), Y as (Y1 & Y2); assert (p1 = p2) by (destruct p1, p2; cbn [fst snd] in *; congruence); subst p1 end.
  f_equal. auto.
Qed.

Section Disk.
Variable FO : FloatOps.
Notation st := (state FO).
Notation seg := (seg FO).
Notation nfile := (nfile FO).

(** The images in the file written: its bytes are the header, then the subheader and data of each image, then
    the rest, and the header gives the sizes. *)
Definition images_in (f' : nfile) (bytes hb : list N) (ps : list (list N * list N)) : Prop :=
  (exists rest, bytes = hb ++ flat ps ++ rest)
  /\ write FO (mk_fs desc_NitfFileHeader) (h_st (nf_hdr FO f')) = Ok hb
  /\ header_says FO f' "hl" [] (Z.of_nat (List.length hb))
  /\ forall i p, nth_error ps i = Some p ->
       header_says FO f' "lish" [Z.of_nat i] (Z.of_nat (List.length (fst p)))
       /\ header_says FO f' "li" [Z.of_nat i] (Z.of_nat (List.length (snd p))).

Lemma copy_layout see src E (f f' : nfile) bytes : linked FO f -> file_copy FO see src E f = Ok (f', bytes) ->
  exists ds f2 hb ps, file_write FO E (with_images FO f ds) = Ok (f2, bytes) /\ images_in f' bytes hb ps
    /\ List.length ds = List.length (nf_segs FO f KImage) /\ List.length ps = List.length ds
    /\ forall i r, (i < List.length ds)%nat -> src i = Some r ->
         taken see (List.length hb) ps i r /\ exists p, nth_error ps i = Some p /\ nth_error ds i = Some (Some (snd p)).
Proof.
  intros HL H. destruct (C73_as_if FO see src E f f' bytes HL H) as (ds & f2 & hb & ps & rest & W & L2 & EH & B & WH & SB & LD & LP & T).
  exists ds, f2, hb, ps. split; [exact W|]. split; [|split; [exact LD|]; split; [exact LP|]; intros i r Hi Hr; specialize (T i Hi); rewrite Hr in T; exact T].
  destruct (C25_header_describes_file FO E _ f2 bytes L2 W) as (hb2 & pieces & ov & W2 & B2 & H1 & _ & H3 & H4 & _).
  assert (hb2 = hb) by (rewrite EH in W2; rewrite WH in W2; congruence). subst hb2.
  specialize (H4 KImage). cbn [kind_eqb] in H4. rewrite app_nil_r in H4. assert (EP := bytes_fun FO KImage _ _ _ H4 SB).
  unfold images_in. split; [exists rest; exact B|]. split; [exact WH|].
  unfold header_says in *. rewrite EH in H1. split; [exact H1|].
  intros i p Hp. destruct (H3 KImage) as (_ & H5). rewrite EP, EH in H5. exact (H5 i p Hp).
Qed.

(** (2) Data that comes from other files is what those hold at the time of writing, changed or not, cut off
    where they end. *)
Theorem C73_changed E (f f' : nfile) src disk t flushed disk' : linked FO f ->
  (forall i r, src i = Some r -> so_name r <> t) -> write_to FO E f src disk t flushed = Ok (f', disk') ->
  exists ds f2 bytes, disk' t = Some bytes /\ (forall nm, nm <> t -> disk' nm = disk nm)
    /\ file_write FO E (with_images FO f ds) = Ok (f2, bytes) /\ List.length ds = List.length (nf_segs FO f KImage)
    /\ forall i r, (i < List.length ds)%nat -> src i = Some r ->
         exists c, disk (so_name r) = Some c /\ nth_error ds i = Some (Some (firstn (Z.to_nat (so_size r)) (skipn (so_start r) c))).
Proof.
  intros HL HT H. unfold write_to in H. apply bind_ok_elim in H as ([f1 b] & HC & H). injection H as <- <-.
  destruct (copy_layout _ _ _ _ _ _ HL HC) as (ds & f2 & hb & ps & W & _ & LD & _ & T).
  exists ds, f2, b. rewrite Nat.eqb_refl. split; [reflexivity|].
  split; [intros nm Hn; apply Nat.eqb_neq in Hn; now rewrite Hn|]. split; [exact W|]. split; [exact LD|].
  intros i r Hi Hr. destruct (T i r Hi Hr) as ((p & w & c & A1 & A2 & A3 & _) & p' & B1 & B2).
  assert (p' = p) by congruence. subst p'. exists c. unfold InPlace.seen in A2.
  assert (Hn := HT i r Hr). apply Nat.eqb_neq in Hn. rewrite Hn in A2. split; [exact A2|]. now rewrite B2, A3, C73_copied.
Qed.

(** (3) Of data that is in the file being written, nothing is left but what has been written to the same
    place meanwhile. *)
Theorem C73_in_place E (f f' : nfile) src disk t flushed disk' : linked FO f ->
  (forall w, (List.length (flushed w) <= List.length w)%nat) -> write_to FO E f src disk t flushed = Ok (f', disk') ->
  exists bytes hb ps, disk' t = Some bytes /\ images_in f' bytes hb ps /\ List.length ps = List.length (nf_segs FO f KImage)
    /\ forall i r, (i < List.length ps)%nat -> src i = Some r -> so_name r = t -> exists p, nth_error ps i = Some p
         /\ (so_start r + List.length (snd p) <= Nat.max (so_start r) (List.length (hb ++ flat (firstn i ps) ++ fst p)))%nat.
Proof.
  intros HL HF H. unfold write_to in H. apply bind_ok_elim in H as ([f1 b] & HC & H). injection H as <- <-.
  destruct (copy_layout _ _ _ _ _ _ HL HC) as (ds & f2 & hb & ps & _ & HI & LD & LP & T).
  exists b, hb, ps. rewrite Nat.eqb_refl. split; [reflexivity|]. split; [exact HI|]. split; [congruence|].
  intros i r Hi Hr Hn. rewrite LP in Hi. destruct (T i r Hi Hr) as ((p & w & c & A1 & A2 & A3 & A4) & _).
  exists p. split; [exact A1|]. unfold InPlace.seen in A2. apply Nat.eqb_eq in Hn. rewrite Hn in A2. injection A2 as <-.
  assert (F := HF w). rewrite A3, C73_copied, firstn_length, skipn_length, !app_length. clear - A4 F. lia.
Qed.

(** (4) A file whose images are all in the file being written, and whose headers have not grown since, is
    written without any image data: all of it is lost. *)
Theorem C73_lost E (f f' : nfile) src disk t flushed disk' : linked FO f ->
  (forall w, (List.length (flushed w) <= List.length w)%nat) -> write_to FO E f src disk t flushed = Ok (f', disk') ->
  exists bytes hb ps, disk' t = Some bytes /\ images_in f' bytes hb ps /\ List.length ps = List.length (nf_segs FO f KImage)
    /\ forall ohb ops, (List.length hb <= List.length ohb)%nat ->
         (forall i p, nth_error ps i = Some p -> exists o r, nth_error ops i = Some o /\ (List.length (fst p) <= List.length (fst o))%nat
            /\ src i = Some r /\ so_name r = t /\ so_start r = List.length (ohb ++ flat (firstn i ops) ++ fst o)) ->
         forall i, (i < List.length ps)%nat -> header_says FO f' "li" [Z.of_nat i] 0.
Proof.
  intros HL HF H. destruct (C73_in_place E f f' src disk t flushed disk' HL HF H) as (bytes & hb & ps & D & HI & LP & T).
  exists bytes, hb, ps. split; [exact D|]. split; [exact HI|]. split; [exact LP|]. intros ohb ops LH HO.
  assert (FS : forall (l : list (list N * list N)) i x, nth_error l i = Some x -> flat (firstn (S i) l) = flat (firstn i l) ++ fst x ++ snd x).
  { clear. intros l i x Hx. assert (F0 : firstn (S i) l = firstn i l ++ [x]).
    { revert i Hx. induction l as [|y l IH]; intros [|i] Hx; try discriminate Hx; [injection Hx as ->; reflexivity|].
      cbn [nth_error] in Hx. change (y :: firstn (S i) l = y :: (firstn i l ++ [x])). now rewrite (IH i Hx). }
    rewrite F0. unfold flat. rewrite map_app, concat_app. cbn [map List.concat]. now rewrite app_nil_r. }
  assert (EMPTY : forall i p, nth_error ps i = Some p -> (List.length (flat (firstn i ps)) <= List.length (flat (firstn i ops)))%nat -> snd p = []).
  { intros i p Hp Hle. assert (Hi : (i < List.length ps)%nat) by (apply nth_error_Some; rewrite Hp; discriminate).
    destruct (HO i p Hp) as (o & r & _ & Lo & Hr & Hn & Hst). destruct (T i r Hi Hr Hn) as (p' & Hp' & Q).
    assert (p' = p) by congruence. subst p'. rewrite Hst, !app_length in Q.
    assert (Z0 : List.length (snd p) = O) by (clear - Q Lo Hle LH; lia). destruct (snd p); [reflexivity|discriminate Z0]. }
  assert (LE : forall i, (i <= List.length ps)%nat -> (List.length (flat (firstn i ps)) <= List.length (flat (firstn i ops)))%nat).
  { induction i as [|i IH]; intro Hi; [apply le_n|].
    destruct (nth_error ps i) as [p|] eqn:Hp; [|apply nth_error_None in Hp; clear - Hp Hi; lia].
    assert (Hle : (List.length (flat (firstn i ps)) <= List.length (flat (firstn i ops)))%nat) by (apply IH; clear - Hi; lia).
    assert (E0 := EMPTY i p Hp Hle). destruct (HO i p Hp) as (o & r & Ho & Lo & _).
    rewrite (FS ps i p Hp), (FS ops i o Ho), E0, !app_length. cbn [List.length]. clear - Hle Lo. lia. }
  intros i Hi. destruct (nth_error ps i) as [p|] eqn:Hp; [|apply nth_error_None in Hp; clear - Hp Hi; lia].
  destruct HI as (_ & _ & _ & HI). destruct (HI i p Hp) as (_ & HZ).
  rewrite (EMPTY i p Hp) in HZ by (apply LE; clear - Hi; lia). exact HZ.
Qed.

End Disk.

(** ** Two images of one pixel of four bytes each, and a text *)
Section Cases.
Variable FO : FloatOps.
Definition c73_image (d : list N) : seg FO := ex_seg FO (ex_hdr FO GAll U4 1 1 1) (DFile FO d) [].
Definition c73_new : nfile FO :=
  append_seg FO (append_seg FO (append_seg FO (fst (new_file FO (sec_default FO))) KImage (c73_image (str "abcd")))
    KImage (c73_image (str "efgh"))) KText (ex_text FO).
End Cases.
Definition c73_sizes (FO : FloatOps) (f : nfile FO) : list (option Z) :=
  map (fun q => hdr_int FO f (fst q) (snd q))
    [("hl", []); ("fl", []); ("lish", [0%Z]); ("li", [0%Z]); ("lish", [1%Z]); ("li", [1%Z]); ("lt", [0%Z])]%string.
(** Where its images are in the file it is written to, which is number 0. *)
Definition c73_src (i : nat) : option source :=
  match i with
  | 0%nat => Some {| so_name := 0; so_start := Z.to_nat 868; so_size := 4 |}
  | 1%nat => Some {| so_name := 0; so_start := Z.to_nat 1311; so_size := 4 |}
  | _ => None
  end.
Definition c73_disk (b : list N) (nm : nat) : option (list N) := if Nat.eqb nm 0 then Some b else None.
(** The data of the first image of a file with this layout, 23 bytes further on if a TRE is added. *)
Definition c73_at (n : Z) (o : option (list N)) : list N := match o with Some b => firstn 4 (skipn (Z.to_nat n) b) | None => [] end.
Definition c73_run {A} (k : list N -> nfile DecF -> A) : option A :=
  match file_write DecF ex_env (c73_new DecF) with
  | Ok (_, b) => match file_read DecF ex_env b with Ok g => Some (k b g) | Err _ => None end
  | Err _ => None
  end.
Definition c73_to (g : nfile DecF) (disk : nat -> option (list N)) (t : nat) (flushed : list N -> list N)
  : option (list (option Z) * option (list N)) :=
  match write_to DecF ex_env g c73_src disk t flushed with Ok (f', disk') => Some (c73_sizes DecF f', disk' t) | Err _ => None end.

(** To another file: the same bytes. *)
Example C73_unchanged_case : c73_run (fun b g => match c73_to g (c73_disk b) 1 (fun w => w) with
    | Some (_, Some b') => list_eqb b' b | _ => false end) = Some true.
Proof. vm_compute. reflexivity. Qed.
(** To another file, when something else is in the file read: that is written. *)
Example C73_changed_case : c73_run (fun b g =>
    match c73_to g (c73_disk (repeat 120%N (Z.to_nat 870))) 1 (fun w => w) with
    | Some (z, o) => Some (z, c73_at 868 o) | None => None end)
  = Some (Some ([Some 429; Some 1596; Some 439; Some 2; Some 439; Some 0; Some 5]%Z, [120; 120; 73; 77]%N))
  /\ c73_run (fun b g => match c73_to g (fun _ => None) 1 (fun w => w) with Some _ => true | None => false end) = Some false.
Proof. split; vm_compute; reflexivity. Qed.
(** To the file read: no data, however much has left the buffer. *)
Example C73_lost_case : c73_run (fun b g => (c73_to g (c73_disk b) 0 (fun w => w), c73_to g (c73_disk b) 0 (fun _ => [])))
  = c73_run (fun b g => (c73_to g (c73_disk b) 0 (firstn 500), c73_to g (c73_disk b) 0 (fun w => w)))
  /\ c73_run (fun b g => option_map fst (c73_to g (c73_disk b) 0 (fun w => w)))
     = Some (Some [Some 429; Some 1594; Some 439; Some 0; Some 439; Some 0; Some 5]%Z).
Proof. split; vm_compute; reflexivity. Qed.
(** With a TRE added to the file: the data of the first image is what has been written there meanwhile, part
    of its subheader. *)
Definition c73_more (g : nfile DecF) : nfile DecF :=
  {| nf_hdr := nf_hdr DecF g; nf_tres := [TUnk (str "SMALL") (str "0123456789")]; nf_segs := nf_segs DecF g; nf_refs := nf_refs DecF g |}.
Example C73_in_place_case : c73_run (fun b g => match c73_to (c73_more g) (c73_disk b) 0 (fun w => w) with
    | Some (z, o) => Some (z, c73_at (868 + 24) o) | None => None end)
  = Some (Some ([Some 453; Some 1626; Some 439; Some 4; Some 439; Some 4; Some 5]%Z, str "0000")).
Proof. vm_compute. reflexivity. Qed.

(** (5) Writing a file to where it was read from does not keep its images: it succeeds, and afterwards their
    data is nowhere. *)
Definition c73_bytes (s : seg DecF) : option (list N) := match s_data DecF s with DFile _ d => Some d | _ => None end.
Definition c73_part (b : list N) (i : nat) : option (list N) := option_map (fun r => copied r b) (c73_src i).
Lemma c73_in_place_run : match file_write DecF ex_env (c73_new DecF) with
  | Ok (_, b) => match file_read DecF ex_env b with
    | Ok g => match write_to DecF ex_env g c73_src (c73_disk b) 0 (fun w => w) with
      | Ok (f', disk') => map c73_bytes (nf_segs DecF g KImage) = [c73_part b 0; c73_part b 1]
          /\ [c73_part b 0; c73_part b 1] = [Some (str "abcd"); Some (str "efgh")]
          /\ hdr_int DecF g "li" [0%Z] = Some 4%Z /\ hdr_int DecF f' "li" [0%Z] = Some 0%Z
          /\ match disk' 0%nat with Some b' => list_eqb b' b = false /\ (Nat.ltb (List.length b') (List.length b)) = true | None => False end
      | Err _ => False end
    | Err _ => False end
  | Err _ => False end.
Proof. vm_compute. repeat split. Qed.
Theorem C73_in_place_refuted : exists E f0 f1 b g src disk f' disk' b',
  file_write DecF E f0 = Ok (f1, b) /\ disk 0%nat = Some b /\ file_read DecF E b = Ok g
  /\ (forall i s r, nth_error (nf_segs DecF g KImage) i = Some s -> src i = Some r -> so_name r = 0%nat /\ s_data DecF s = DFile DecF (copied r b))
  /\ write_to DecF E g src disk 0 (fun w => w) = Ok (f', disk')
  /\ hdr_int DecF g "li" [0%Z] = Some 4%Z /\ hdr_int DecF f' "li" [0%Z] = Some 0%Z
  /\ disk' 0%nat = Some b' /\ list_eqb b' b = false /\ (List.length b' < List.length b)%nat.
Proof.
  pose proof c73_in_place_run as H. remember (c73_new DecF) as f0 eqn:E0. clear E0.
  remember (file_write DecF ex_env f0) as ra eqn:Ra. destruct ra as [[f1 b]|]; [|destruct H].
  remember (file_read DecF ex_env b) as rb eqn:Rb. destruct rb as [g|]; [|destruct H].
  remember (write_to DecF ex_env g c73_src (c73_disk b) 0 (fun w => w)) as rc eqn:Rc. destruct rc as [[f' disk']|]; [|destruct H].
  destruct H as (H1 & _ & H2 & H3 & H4). remember (disk' 0%nat) as o eqn:Ro. destruct o as [b'|]; [|destruct H4].
  destruct H4 as (H4 & H5). apply Nat.ltb_lt in H5.
  exists ex_env, f0, f1, b, g, c73_src, (c73_disk b), f', disk', b'. symmetry in Ra, Rb, Rc, Ro.
  split; [exact Ra|]. split; [reflexivity|]. split; [exact Rb|]. split; [|split; [exact Rc|]; split; [exact H2|]; split; [exact H3|]; split; [exact Ro|]; split; [exact H4|exact H5]].
  clear - H1. intros i s r Hs Hr. split; [destruct i as [|[|i]]; [injection Hr as <-|injection Hr as <-|discriminate Hr]; reflexivity|].
  assert (M : nth_error (map c73_bytes (nf_segs DecF g KImage)) i = Some (c73_bytes s)) by (rewrite nth_error_map, Hs; reflexivity).
  rewrite H1 in M. assert (P : c73_part b i = c73_bytes s) by (destruct i as [|[|i]]; [now injection M|now injection M|destruct i; discriminate M]).
  unfold c73_part in P. rewrite Hr in P. cbn [option_map] in P. unfold c73_bytes in P.
  destruct (s_data DecF s); try discriminate P. now injection P as <-.
Qed.

Print Assumptions C73_copied.
Print Assumptions C73_as_if.
Print Assumptions C73_unchanged.
Print Assumptions C73_changed.
Print Assumptions C73_in_place.
Print Assumptions C73_lost.
Print Assumptions C73_in_place_refuted.
