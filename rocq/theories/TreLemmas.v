(** What a TRE record is, and facts about reading and writing records. *)
From Verif Require Import Base BaseLemmas Engine Wf EngineLemmas Codec RoundTrip Rewrite Decimal DecimalLemmas
  DecimalFit TextSpec Utf8 Tre.
From Coq Require Import ZifyBool ZifyNat ZifyN.
Open Scope list_scope.

(** ** Vocabulary *)

(** A tag that the six-byte field holds faithfully. *)
Definition plain_tag (tag : list N) : Prop :=
  Forall (fun c => (c < 128)%N) tag /\ (List.length tag <= 6)%nat
  /\ (forall l c, tag = l ++ [c] -> ws_byte c = false).

(** [l] is the number [n] in five decimal digits. *)
Definition decimal5 (l : list N) (n : nat) : Prop :=
  List.length l = 5%nat /\ all_digits l /\ text_val l = N.of_nat n.

(** [r] is the record of [tag] and [body]: tag padded with blanks to six bytes, five digits
    giving the length of the body, body. *)
Definition is_record (r tag body : list N) : Prop :=
  exists l5, r = tag ++ repeat 32%N (6 - List.length tag) ++ l5 ++ body
    /\ decimal5 l5 (List.length body).

(** [c] is the class last registered for [tag]. *)
Definition registered (reg : registry) (tag : list N) (c : tcls) : Prop :=
  tc_tag c = tag /\ exists l1 l2, reg = l1 ++ c :: l2 /\ forall c', In c' l2 -> tc_tag c' <> tag.

(** ** Lemmas *)

Lemma plain_ascii tag : plain_tag tag -> ascii tag = true.
Proof. intros (H & _ & _). apply forallb_forall. rewrite Forall_forall in H. intros c Hc. specialize (H c Hc). lia. Qed.

Lemma plain_rstrip tag : plain_tag tag -> rstrip_by ws_byte tag = tag.
Proof.
  intros (_ & _ & H). destruct tag as [|c0 tag0] eqn:E; [reflexivity|]. rewrite <- E in *.
  assert (Hn : tag <> []) by (rewrite E; discriminate).
  destruct (exists_last Hn) as (l & c & ->). apply rstrip_last. eapply H. reflexivity.
Qed.

Lemma ascii_app a b : ascii (a ++ b) = ascii a && ascii b.
Proof. apply forallb_app. Qed.
Lemma ascii_spaces n : ascii (repeat 32%N n) = true.
Proof. induction n; cbn; auto. Qed.

Lemma len5_decimal n : (Z.of_nat n <= 99999)%Z -> decimal5 (len5 n) n.
Proof.
  intro H. unfold len5, fmt_d, dfmt_zero. cbn [df_left df_zero df_plus df_width].
  replace (Z.of_nat n <? 0)%Z with false by lia. cbn [app List.length].
  destruct (digits_spec (Z.abs_N (Z.of_nat n))) as (D1 & D2 & D3).
  assert (HL : (List.length (digits (Z.abs_N (Z.of_nat n))) <= 5)%nat)
    by (apply digits_len_le; [change (10 ^ N.of_nat 5)%N with 100000%N|]; lia).
  rewrite Nat.add_0_l. unfold decimal5. split; [rewrite app_length, repeat_length; lia|]. split.
  - apply all_digits_forallb. rewrite forallb_app, D2, andb_true_r.
    generalize (5 - List.length (digits (Z.abs_N (Z.of_nat n))))%nat. intro k. induction k; cbn; auto.
  - rewrite text_val_digval, digval_zeros, D3. lia.
Qed.

Lemma decimal5_le l n : decimal5 l n -> (Z.of_nat n <= 99999)%Z.
Proof.
  intros (H1 & H2 & H3). apply text_val_lt in H2. rewrite H1, H3 in H2.
  change (10 ^ N.of_nat 5)%N with 100000%N in H2. lia.
Qed.

Lemma decimal5_unique l l' n : decimal5 l n -> decimal5 l' n -> l = l'.
Proof. intros (H1 & H2 & H3) (H1' & H2' & H3'). apply text_val_inj; congruence. Qed.

Lemma decimal5_parse l n : decimal5 l n -> parse_int ws_byte l = Some (Z.of_nat n).
Proof.
  intros (H1 & H2 & H3). apply all_digits_forallb in H2.
  pose proof (parse_int_text ws_byte [] [] [] l ws_ok_byte eq_refl eq_refl (or_introl eq_refl)) as P.
  cbn [app list_eqb] in P. rewrite app_nil_r in P. rewrite P; auto.
  - rewrite <- text_val_digval, H3. f_equal. lia.
  - destruct l; discriminate.
Qed.

Lemma text_val_inj5 (l : list N) n : decimal5 l n -> l = len5 n.
Proof. intro H. eapply decimal5_unique; [exact H|]. apply len5_decimal. eapply decimal5_le; eauto. Qed.

Lemma is_record_eq r tag body : plain_tag tag ->
  (is_record r tag body <-> (Z.of_nat (List.length body) <= 99999)%Z
     /\ r = ljust 6 tag ++ len5 (List.length body) ++ body).
Proof.
  intro HT. split.
  - intros (l5 & -> & H5). split; [eapply decimal5_le; eauto|].
    rewrite (text_val_inj5 _ _ H5). unfold ljust, spaces. now rewrite <- !app_assoc.
  - intros (H5 & ->). exists (len5 (List.length body)). split; [|now apply len5_decimal].
    unfold ljust, spaces. now rewrite <- !app_assoc.
Qed.

Lemma is_record_len r tag body : plain_tag tag -> is_record r tag body ->
  List.length r = (11 + List.length body)%nat.
Proof.
  intros (_ & HT & _) (l5 & -> & (H5 & _)). rewrite !app_length, repeat_length. lia.
Qed.

Lemma plain_field tag : plain_tag tag -> utf8_enc (ljust 6 tag) = Some (ljust 6 tag).
Proof.
  intro H. apply utf8_enc_ascii. unfold ljust, spaces. now rewrite ascii_app, plain_ascii, ascii_spaces.
Qed.

Lemma length_ljust6 tag : plain_tag tag -> List.length (ljust 6 tag) = 6%nat.
Proof. intros (_ & H & _). rewrite length_ljust. lia. Qed.

Lemma firstn_exact {A} n (a b : list A) : List.length a = n -> firstn n (a ++ b) = a.
Proof. intros <-. rewrite firstn_app, Nat.sub_diag, firstn_all. cbn. apply app_nil_r. Qed.
Lemma skipn_exact {A} n (a b : list A) : List.length a = n -> skipn n (a ++ b) = b.
Proof. intros <-. rewrite skipn_app, Nat.sub_diag, skipn_all. reflexivity. Qed.

Lemma read_tag_plain tag rest : plain_tag tag -> read_tag (ljust 6 tag ++ rest) = Ok (tag, rest).
Proof.
  intro H. unfold read_tag. rewrite firstn_exact, skipn_exact by now apply length_ljust6.
  rewrite rstrip_ljust by reflexivity. rewrite plain_rstrip by assumption.
  rewrite utf8_dec_ascii by now apply plain_ascii. reflexivity.
Qed.

Lemma read_cel_5 l n rest : decimal5 l n -> read_cel (l ++ rest) = Ok (Z.of_nat n, rest).
Proof.
  intro H. unfold read_cel. rewrite firstn_exact, skipn_exact by apply H.
  now rewrite (decimal5_parse _ _ H).
Qed.

Lemma plain_tag_pad tag c : plain_tag tag -> tc_tag c = ljust 6 tag -> tag <> tc_tag c -> (List.length tag < 6)%nat.
Proof.
  intros (_ & H & _) E N. destruct (Nat.eq_dec (List.length tag) 6) as [E6|]; [|lia].
  exfalso. apply N. rewrite E. unfold ljust, spaces. rewrite E6. cbn. now rewrite app_nil_r.
Qed.

Lemma find_rev_last {A} (p : A -> bool) l x : find p (rev l) = Some x <->
  p x = true /\ exists l1 l2, l = l1 ++ x :: l2 /\ forall y, In y l2 -> p y = false.
Proof.
  induction l as [|a l IH] using rev_ind; cbn.
  - split; [discriminate|]. intros (_ & [|] & l2 & H & _); discriminate.
  - rewrite rev_app_distr. cbn [rev app find]. destruct (p a) eqn:E.
    + split.
      * intros [= <-]. split; auto. exists l, []. split; auto. intros y [].
      * intros (Hx & l1 & l2 & H & Hl2). destruct l2 as [|b l2 _] using rev_ind.
        { apply app_inj_tail in H as [_ ->]. reflexivity. }
        exfalso. change (x :: l2 ++ [b]) with ((x :: l2) ++ [b]) in H. rewrite app_assoc in H.
        apply app_inj_tail in H as [_ ->]. rewrite Hl2 in E; [discriminate|].
        apply in_or_app. right. now left.
    + rewrite IH. split.
      * intros (Hx & l1 & l2 & -> & Hl2). split; auto. exists l1, (l2 ++ [a]).
        split; [now rewrite <- app_assoc|]. intros y Hy. apply in_app_or in Hy as [Hy|[<-|[]]]; auto.
      * intros (Hx & l1 & l2 & H & Hl2). split; auto. destruct l2 as [|b l2 _] using rev_ind.
        { apply app_inj_tail in H as [_ ->]. congruence. }
        change (x :: l2 ++ [b]) with ((x :: l2) ++ [b]) in H. rewrite app_assoc in H.
        apply app_inj_tail in H as [-> ->]. exists l1, l2. split; auto.
        intros y Hy. apply Hl2, in_or_app. now left.
Qed.

Lemma find_rev_none {A} (p : A -> bool) l : find p (rev l) = None <-> forall y, In y l -> p y = false.
Proof.
  split.
  - intros H y Hy. apply (find_none _ _ H). now apply -> in_rev.
  - intro H. destruct (find p (rev l)) eqn:E; auto. apply find_some in E as [E1 E2].
    rewrite H in E2; [discriminate|]. now apply in_rev.
Qed.

Lemma utf8_enc_inj s t b : utf8_enc s = Some b -> utf8_enc t = Some b -> s = t.
Proof. intros H1 H2. apply utf8_enc_dec in H1, H2. congruence. Qed.

Lemma reg_match name c : ascii name = true ->
  (match utf8_enc (tc_tag c) with Some k => list_eqb k name | None => false end) = true <-> tc_tag c = name.
Proof.
  intro HA. destruct (utf8_enc (tc_tag c)) as [k|] eqn:E.
  - rewrite list_eqb_spec. split.
    + intros ->. eapply utf8_enc_inj; [exact E|]. now apply utf8_enc_ascii.
    + intros <-. rewrite utf8_enc_ascii in E by assumption. congruence.
  - split; [discriminate|]. intros <-. rewrite utf8_enc_ascii in E by assumption. discriminate.
Qed.

Lemma reg_find_registered reg name c : ascii name = true ->
  (reg_find reg name = Some c <-> registered reg name c).
Proof.
  intro HA. unfold reg_find. rewrite find_rev_last. rewrite reg_match by assumption. unfold registered.
  split; intros (H & l1 & l2 & E & HN); split; auto; exists l1, l2; split; auto; intros y Hy.
  - intro F. apply (reg_match name) in F; auto. rewrite HN in F; [discriminate|auto].
  - specialize (HN y Hy). destruct (match utf8_enc (tc_tag y) with Some k => list_eqb k name | None => false end) eqn:F; auto.
    apply reg_match in F; auto. contradiction.
Qed.

Lemma registered_fun reg tag c c' : registered reg tag c -> registered reg tag c' -> c = c'.
Proof.
  intros (H & l1 & l2 & E & N) (H' & l1' & l2' & E' & N').
  assert (forall A (a b c d : list A) x y, a ++ x :: b = c ++ y :: d -> x = y \/ In y b \/ In x d) as K.
  { clear. intros A a. induction a as [|u a IH]; intros b c d x y E.
    - destruct c; cbn in E; injection E as ? E; subst; auto. right; left. apply in_or_app. right. now left.
    - destruct c; cbn in E; injection E as ? E; subst; [|eauto]. right; right. apply in_or_app. right. now left. }
  rewrite E in E'. destruct (K _ _ _ _ _ _ _ E') as [|[I|I]]; auto.
  - exfalso. eapply N; eauto.
  - exfalso. eapply N'; eauto.
Qed.

Section Records.
Variable FO : FloatOps.
Notation tre := (tre FO).
Notation init := (init_state FO).

(** The class [c] reads exactly [body]. *)
Definition fields_of (c : tcls) (body : list N) (s : state FO) : Prop :=
  read FO (mk_fs (tc_rows c)) false init body = Ok (s, []).

Lemma obj_read_record c r body rest : plain_tag (tc_tag c) -> is_record r (tc_tag c) body ->
  forall s, fields_of c body s -> obj_read FO c (r ++ rest) = Ok (TObj c s, rest).
Proof.
  intros HT (l5 & -> & H5) s Hs.
  assert (E : (tc_tag c ++ repeat 32%N (6 - List.length (tc_tag c)) ++ l5 ++ body) ++ rest
              = ljust 6 (tc_tag c) ++ l5 ++ body ++ rest)
    by (unfold ljust, spaces; now rewrite <- !app_assoc).
  rewrite E. unfold obj_read. rewrite read_tag_plain by assumption. cbn [bind].
  replace (list_eqb (tc_tag c) (tc_tag c)) with true by (symmetry; now apply list_eqb_spec). cbn [negb].
  rewrite (read_cel_5 _ _ _ H5). cbn [bind].
  apply read_ext with (ext := rest) in Hs. rewrite Hs. cbn [bind app].
  rewrite app_length. replace (_ =? _)%Z with true by lia. reflexivity.
Qed.

(** And otherwise it fails, whatever follows the record. *)
Lemma obj_read_bad c r tag body rest x : plain_tag tag -> is_record r tag body ->
  obj_read FO c (r ++ rest) = Ok x -> tc_tag c = tag /\ exists s, fields_of c body s /\ x = (TObj c s, rest).
Proof.
  intros HT (l5 & -> & H5) H.
  assert (E : (tag ++ repeat 32%N (6 - List.length tag) ++ l5 ++ body) ++ rest
              = ljust 6 tag ++ l5 ++ body ++ rest)
    by (unfold ljust, spaces; now rewrite <- !app_assoc).
  rewrite E in H. unfold obj_read in H. rewrite read_tag_plain in H by assumption. cbn [bind] in H.
  destruct (list_eqb tag (tc_tag c)) eqn:ET; cbn [negb] in H; [|discriminate].
  apply list_eqb_spec in ET. split; auto.
  rewrite (read_cel_5 _ _ _ H5) in H. cbn [bind] in H.
  apply bind_ok_elim in H as ([s i3] & HR & H).
  destruct (_ =? _)%Z eqn:EL in H; [|discriminate].
  destruct (read_local FO _ _ _ _ _ _ HR) as (pre & EP & HP).
  assert (List.length pre = List.length body).
  { apply (f_equal (@List.length N)) in EP. rewrite !app_length in EP. rewrite app_length in EL. lia. }
  assert (pre = body /\ i3 = rest) as [-> ->].
  { split.
    - apply (f_equal (firstn (List.length body))) in EP. rewrite !firstn_exact in EP by auto. congruence.
    - apply (f_equal (skipn (List.length body))) in EP. rewrite !skipn_exact in EP by auto. congruence. }
  exists s. split; [|congruence]. specialize (HP []). now rewrite app_nil_r in HP.
Qed.

Lemma unk_read_record r tag body rest : plain_tag tag -> is_record r tag body ->
  unk_read FO (r ++ rest) = Ok (TUnk tag body, rest).
Proof.
  intros HT (l5 & -> & H5).
  assert (E : (tag ++ repeat 32%N (6 - List.length tag) ++ l5 ++ body) ++ rest
              = ljust 6 tag ++ l5 ++ body ++ rest)
    by (unfold ljust, spaces; now rewrite <- !app_assoc).
  rewrite E. unfold unk_read. rewrite read_tag_plain by assumption. cbn [bind].
  rewrite (read_cel_5 _ _ _ H5). cbn [bind]. unfold fread.
  replace (Z.of_nat (List.length body) <? 0)%Z with false by lia. rewrite Nat2Z.id.
  now rewrite firstn_exact, skipn_exact.
Qed.

Lemma record_name r tag body rest : plain_tag tag -> is_record r tag body -> firstn 6 (r ++ rest) = ljust 6 tag.
Proof.
  intros HT (l5 & -> & _).
  assert (E : (tag ++ repeat 32%N (6 - List.length tag) ++ l5 ++ body) ++ rest
              = ljust 6 tag ++ l5 ++ body ++ rest)
    by (unfold ljust, spaces; now rewrite <- !app_assoc).
  rewrite E. apply firstn_exact. now apply length_ljust6.
Qed.

Lemma ascii_name tag : plain_tag tag -> ascii (ljust 6 tag) = true.
Proof. intro H. unfold ljust, spaces. now rewrite ascii_app, plain_ascii, ascii_spaces. Qed.

(** The class that takes the record of [tag] and [body]: registered for the tag, which has six
    characters, and its fields are exactly the body. *)
Definition taken (reg : registry) (tag body : list N) (c : tcls) (s : state FO) : Prop :=
  registered reg tag c /\ List.length tag = 6%nat /\ fields_of c body s.

Lemma ljust_full tag : List.length tag = 6%nat -> ljust 6 tag = tag.
Proof. intro H. unfold ljust, spaces. rewrite H. cbn. apply app_nil_r. Qed.

(** What a record of a stream becomes. *)
Definition decoded (reg : registry) (tag body : list N) (t : tre) : Prop :=
  (exists c s, taken reg tag body c s /\ t = TObj c s)
  \/ ((forall c s, ~ taken reg tag body c s) /\ t = TUnk tag body).

Lemma rec_read_record reg r tag body rest : plain_tag tag -> is_record r tag body ->
  exists t, rec_read FO reg (r ++ rest) = Ok (t, rest) /\ decoded reg tag body t.
Proof.
  intros HT HR. unfold rec_read. rewrite (record_name r tag body rest HT HR).
  pose proof (unk_read_record r tag body rest HT HR) as HU.
  destruct (reg_find reg (ljust 6 tag)) as [c|] eqn:EF.
  - apply reg_find_registered in EF; [|now apply ascii_name].
    destruct (obj_read FO c (r ++ rest)) as [x|e] eqn:EO.
    + destruct (obj_read_bad c r tag body rest x HT HR EO) as (Ec & s & Hs & ->).
      exists (TObj c s). split; auto. left. exists c, s. split; auto. split.
      * destruct EF as (E1 & E2). assert (Eq : ljust 6 tag = tag) by congruence. rewrite Eq in E2. split; auto.
      * split; auto. destruct EF as (E1 & _). rewrite <- Ec, E1. now apply length_ljust6.
    + rewrite utf8_dec_ascii by now apply ascii_name. rewrite HU.
      exists (TUnk tag body). split; auto. right. split; auto.
      intros c' s (H1 & H2 & H3). assert (Eq := ljust_full tag H2). rewrite Eq in EF.
      rewrite (registered_fun _ _ _ _ EF H1) in EO.
      assert (tag = tc_tag c') by (symmetry; apply H1). subst tag.
      rewrite (obj_read_record c' r body rest HT HR s H3) in EO. discriminate.
  - rewrite HU. exists (TUnk tag body). split; auto. right. split; auto.
    intros c' s (H1 & H2 & _). rewrite (ljust_full tag H2) in EF.
    apply reg_find_registered in H1; [congruence|]. now apply plain_ascii.
Qed.

Lemma stream_records reg rs : forall n,
  Forall (fun x => plain_tag (fst (fst x)) /\ is_record (snd x) (fst (fst x)) (snd (fst x))) rs ->
  (List.length (List.concat (map snd rs)) < n)%nat ->
  exists ts, stream_read FO n reg (List.concat (map snd rs)) = Ok ts
    /\ Forall2 (fun x t => decoded reg (fst (fst x)) (snd (fst x)) t) rs ts.
Proof.
  induction rs as [|[[tag body] r] rs IH]; intros n HF Hn.
  - destruct n; [cbn in Hn; lia|]. exists []. split; auto.
  - inversion_clear HF as [|? ? [HT HR] HF']. cbn [fst snd] in HT, HR. cbn [map List.concat snd] in *.
    pose proof (is_record_len r tag body HT HR) as HL.
    rewrite app_length in Hn. destruct n as [|n]; [lia|]. cbn [stream_read].
    destruct (r ++ List.concat (map snd rs)) as [|c0 i0] eqn:EI.
    { apply (f_equal (@List.length N)) in EI. rewrite app_length in EI. cbn in EI. lia. }
    rewrite <- EI.
    replace (List.length (r ++ List.concat (map snd rs)) <? 6)%nat with false by (rewrite app_length; lia).
    destruct (rec_read_record reg r tag body (List.concat (map snd rs)) HT HR) as (t & -> & HD).
    cbn [bind]. destruct (IH n HF' ltac:(lia)) as (ts & -> & H2). cbn [bind].
    exists (t :: ts). split; auto.
Qed.

Lemma tre_write_plain (t : tre) : plain_tag (tre_tag FO t) ->
  tre_write FO t = do b <- tre_body FO t;
                   if (99999 <? Z.of_nat (List.length b))%Z then Err ERuntime
                   else Ok (ljust 6 (tre_tag FO t) ++ len5 (List.length b) ++ b).
Proof. intro H. unfold tre_write. now rewrite plain_field. Qed.

Lemma tre_write_record (t : tre) r : plain_tag (tre_tag FO t) -> tre_write FO t = Ok r ->
  exists b, tre_body FO t = Ok b /\ is_record r (tre_tag FO t) b.
Proof.
  intros HT H. rewrite tre_write_plain in H by assumption. apply bind_ok_elim in H as (b & Hb & H).
  destruct (99999 <? _)%Z eqn:E; [discriminate|]. exists b. split; auto. apply is_record_eq; auto.
  split; [lia|congruence].
Qed.

End Records.
