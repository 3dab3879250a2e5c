(** TRE records and streams of TREs (C19, C20, C21, C29). *)
From Verif Require Import Base BaseLemmas Engine Wf EngineLemmas Codec RoundTrip Rewrite Decimal DecimalLemmas
  DecimalFit Spec Reach TextSpec Utf8 Tre TreLemmas Ex P_RoundTrip.
From Coq Require Import ZifyBool ZifyNat ZifyN.
Open Scope list_scope.

(** [st1] shows what [st] shows: same indices, same values, up to what the text of a float or
    of a string in its field keeps (as in C01). *)
Definition same_fields FO rows (st st1 : state FO) : Prop :=
  (forall f k, In f (fs_fields (mk_fs rows)) ->
     (valid_index FO (mk_fs rows) st1 f k <-> valid_index FO (mk_fs rows) st f k))
  /\ (forall nm f k v, lookup (mk_fs rows) nm = Some f -> valid_index FO (mk_fs rows) st f k ->
        get FO (mk_fs rows) st nm k = Ok v ->
        exists v' sz, get FO (mk_fs rows) st1 nm k = Ok v'
          /\ (v' = v \/ size_is FO (mk_fs rows) st f k sz /\ survives FO (f_d f) sz v v')).

(** ** C19: one record *)

Theorem C19_write FO (t : tre FO) : plain_tag (tre_tag FO t) ->
  (forall body, tre_body FO t = Ok body ->
     ((Z.of_nat (List.length body) <= 99999)%Z ->
        exists r, tre_write FO t = Ok r /\ is_record r (tre_tag FO t) body)
     /\ ((Z.of_nat (List.length body) > 99999)%Z -> tre_write FO t = Err ERuntime))
  /\ (forall e, tre_body FO t = Err e -> tre_write FO t = Err e).
Proof.
  intro HT. rewrite tre_write_plain by assumption. split.
  - intros body ->. cbn [bind]. split; intro HL.
    + replace (99999 <? _)%Z with false by lia. eexists. split; [reflexivity|]. apply is_record_eq; auto.
    + replace (99999 <? _)%Z with true by lia. reflexivity.
  - intros e ->. reflexivity.
Qed.

Theorem C19_read_back FO c (st : state FO) r rest :
  FloatLaws FO -> wf_rows (tc_rows c) = true -> literals_ok FO (mk_fs (tc_rows c)) st ->
  plain_tag (tc_tag c) -> tre_write FO (TObj c st) = Ok r ->
  exists st1, obj_read FO c (r ++ rest) = Ok (TObj c st1, rest) /\ same_fields FO (tc_rows c) st st1.
Proof.
  intros laws Hwf HL HT HW. destruct (tre_write_record FO (TObj c st) r HT HW) as (b & Hb & HR).
  cbn [tre_body tre_tag] in Hb, HR.
  destruct (C01_round_trip FO (tc_rows c) st (init_state FO) false b [] laws Hwf HL Hb) as (st1 & H1 & H2 & H3).
  rewrite app_nil_r in H1. exists st1. split; [|split; auto].
  now apply (obj_read_record FO c r b rest HT HR).
Qed.

Theorem C19_read_back_unknown FO tag body r rest : plain_tag tag ->
  tre_write FO (TUnk tag body) = Ok r -> unk_read FO (r ++ rest) = Ok (TUnk tag body, rest).
Proof.
  intros HT HW. destruct (tre_write_record FO (TUnk tag body) r HT HW) as (b & Hb & HR). cbn in Hb, HR.
  injection Hb as <-. now apply unk_read_record.
Qed.

(** A class reads a record only if the tag is its own and its fields take up exactly the
    length given; it is refused otherwise. *)
Theorem C19_refuse FO c tag l5 n content : plain_tag tag -> decimal5 l5 n ->
  let rec := tag ++ repeat 32%N (6 - List.length tag) ++ l5 ++ content in
  (tag <> tc_tag c -> obj_read FO c rec = Err ERuntime)
  /\ (tag = tc_tag c -> forall e, read FO (mk_fs (tc_rows c)) false (init_state FO) content = Err e ->
        obj_read FO c rec = Err e)
  /\ (tag = tc_tag c -> forall s rest, read FO (mk_fs (tc_rows c)) false (init_state FO) content = Ok (s, rest) ->
        (List.length content = n + List.length rest -> obj_read FO c rec = Ok (TObj c s, rest))
        /\ (List.length content <> n + List.length rest -> obj_read FO c rec = Err ERuntime))%nat.
Proof.
  intros HT H5 rec.
  assert (E : rec = ljust 6 tag ++ l5 ++ content) by (unfold rec, ljust, spaces; now rewrite <- !app_assoc).
  rewrite E. clear E rec. unfold obj_read. rewrite read_tag_plain by assumption. cbn [bind].
  rewrite (read_cel_5 _ _ _ H5). cbn [bind]. split; [|split].
  - intro N. destruct (list_eqb tag (tc_tag c)) eqn:E; [apply list_eqb_spec in E; contradiction|reflexivity].
  - intros -> e ->. destruct (list_eqb (tc_tag c) (tc_tag c)) eqn:E; [reflexivity|].
    assert (list_eqb (tc_tag c) (tc_tag c) = true) by now apply list_eqb_spec. congruence.
  - intros -> s rest HR. replace (list_eqb (tc_tag c) (tc_tag c)) with true by (symmetry; now apply list_eqb_spec).
    cbn [negb]. rewrite HR. cbn [bind].
    assert (HLe : (List.length rest <= List.length content)%nat).
    { destruct (read_local FO _ _ _ _ _ _ HR) as (pre & -> & _). rewrite app_length. lia. }
    split; intro H.
    + replace (_ =? _)%Z with true by lia. reflexivity.
    + replace (_ =? _)%Z with false by lia. reflexivity.
Qed.

(** The catch-all class takes a record that ends before its length says (nitf_tre.py:124). *)
Theorem C19_unknown_refuted : exists tag l5 n content,
  plain_tag tag /\ decimal5 l5 n /\ (List.length content < n)%nat
  /\ forall FO, unk_read FO (tag ++ l5 ++ content) = Ok (TUnk tag content, []).
Proof.
  exists (str "ABCDEF"), (str "00010"), 10%nat, (str "xy").
  split; [|split; [|split]].
  - split; [repeat constructor|]. split; [cbn; lia|]. intros l c H.
    change (str "ABCDEF") with (str "ABCDE" ++ [70%N]) in H. apply app_inj_tail in H as [_ <-]. reflexivity.
  - split; [reflexivity|]. split; [repeat constructor; cbn; lia|reflexivity].
  - cbn. lia.
  - intro FO. vm_compute. reflexivity.
Qed.

(** ** C20, C21: streams *)

(** The TRE [t] written out and decoded with the classes [reg] cannot be taken for another
    kind of TRE. *)
Definition recognised FO (reg : registry) (t : tre FO) : Prop :=
  plain_tag (tre_tag FO t) /\
  match t with
  | TObj c st => registered reg (tc_tag c) c /\ List.length (tc_tag c) = 6%nat
      /\ wf_rows (tc_rows c) = true /\ literals_ok FO (mk_fs (tc_rows c)) st
  | TUnk tag body => forall c s, ~ taken FO reg tag body c s
  end.

Definition same_tre FO (t t1 : tre FO) : Prop :=
  match t, t1 with
  | TObj c st, TObj c1 st1 => c1 = c /\ same_fields FO (tc_rows c) st st1
  | TUnk tag body, TUnk tag1 body1 => tag1 = tag /\ body1 = body
  | _, _ => False
  end.

Theorem C20_stream FO reg (ts : list (tre FO)) b :
  FloatLaws FO -> Forall (recognised FO reg) ts -> write_all FO ts = Ok b ->
  exists ts1, read_tre_data FO reg b = Ok ts1 /\ Forall2 (same_tre FO) ts ts1.
Proof.
  intros laws HF HW. unfold read_tre_data.
  assert (K : exists rs, b = List.concat (map snd rs)
     /\ Forall (fun x => plain_tag (fst (fst x)) /\ is_record (snd x) (fst (fst x)) (snd (fst x))) rs
     /\ Forall2 (fun (t : tre FO) x => tre_tag FO t = fst (fst x) /\ tre_body FO t = Ok (snd (fst x))) ts rs).
  { revert b HW. induction HF as [|t ts [HT _] _ IH]; intros b HW.
    - injection HW as <-. exists []. auto.
    - cbn in HW. apply bind_ok_elim in HW as (r & Hr & HW). apply bind_ok_elim in HW as (b' & Hb' & HW).
      injection HW as <-. destruct (tre_write_record FO _ _ HT Hr) as (body & Hbody & HR).
      destruct (IH _ Hb') as (rs & -> & H1 & H2). exists ((tre_tag FO t, body, r) :: rs). split; auto. }
  destruct K as (rs & -> & HR & H2).
  destruct (stream_records FO reg rs _ HR (Nat.lt_succ_diag_r _)) as (ts1 & E & HD).
  exists ts1. split; [exact E|]. clear E HR HW.
  revert ts HF H2. induction HD as [|[[tag body] r] t1 rs ts1 Hd _ IH]; intros ts HF H2; inversion H2; subst.
  - constructor.
  - inversion_clear HF as [|? ? Hrec HF']. constructor; [|now apply IH].
    destruct H3 as [Et Eb]. cbn [fst snd] in *. subst tag.
    destruct x as [c st|tag body0]; cbn [tre_tag tre_body recognised] in *; destruct Hrec as [HT Hrec].
    + destruct Hrec as (Hreg & H6 & Hwf & HL). cbn [tre_tag] in *.
      destruct (C01_round_trip FO (tc_rows c) st (init_state FO) false body [] laws Hwf HL Eb) as (st1 & E1 & E2 & E3).
      rewrite app_nil_r in E1.
      destruct Hd as [(c1 & s1 & (R1 & _ & R3) & ->)|[N _]].
      * rewrite (registered_fun _ _ _ _ R1 Hreg) in *. cbn. split; auto.
        unfold fields_of in R3. rewrite E1 in R3. injection R3 as <-. split; auto.
      * exfalso. apply (N c st1). split; auto.
    + injection Eb as ->. destruct Hd as [(c1 & s1 & R & _)|[_ ->]]; [exfalso; eapply Hrec; eauto|]. cbn. auto.
Qed.

(** [stream] is made of the records of [rs], a list of (tag, body, record). *)
Definition framed (rs : list (list N * list N * list N)) (stream : list N) : Prop :=
  stream = List.concat (map snd rs) /\
  Forall (fun x => plain_tag (fst (fst x)) /\ is_record (snd x) (fst (fst x)) (snd (fst x))) rs.

(** Every record is decoded by itself: by the class registered for its tag if the fields of
    that class are exactly the body, and otherwise as an unknown TRE that is written back as
    the same bytes. *)
Theorem C21_framed FO reg rs stream : framed rs stream ->
  exists ts, read_tre_data FO reg stream = Ok ts /\
    Forall2 (fun x t =>
      let '(tag, body, r) := x in
      (exists c s, registered reg tag c /\ List.length tag = 6%nat
         /\ read FO (mk_fs (tc_rows c)) false (init_state FO) body = Ok (s, []) /\ t = TObj c s)
      \/ ((forall c s, registered reg tag c -> List.length tag = 6%nat ->
             read FO (mk_fs (tc_rows c)) false (init_state FO) body <> Ok (s, []))
          /\ t = TUnk tag body /\ tre_write FO t = Ok r)) rs ts.
Proof.
  intros [-> HF]. destruct (stream_records FO reg rs _ HF (Nat.lt_succ_diag_r _)) as (ts & E & HD).
  exists ts. split; [exact E|]. clear E.
  induction HD as [|[[tag body] r] t rs ts Hd _ IH]; constructor.
  - inversion_clear HF as [|? ? [HT HR] _]. cbn [fst snd] in *.
    destruct Hd as [(c & s & (H1 & H2 & H3) & ->)|[N ->]].
    + left. exists c, s. auto.
    + right. split; [|split; auto].
      * intros c s H1 H2 H3. apply (N c s). split; auto.
      * destruct (C19_write FO (TUnk tag body) HT) as [W _].
        apply is_record_eq in HR as [H5 ->]; auto.
        destruct (W body eq_refl) as [W1 _]. destruct (W1 H5) as (r & -> & HR).
        apply is_record_eq in HR as [_ ->]; auto.
  - apply IH. now inversion HF.
Qed.

(** In particular a stream that no class understands comes back byte for byte. *)
Theorem C21_identical FO reg rs stream : framed rs stream ->
  (forall tag body r c s, In (tag, body, r) rs -> registered reg tag c -> List.length tag = 6%nat ->
     read FO (mk_fs (tc_rows c)) false (init_state FO) body <> Ok (s, [])) ->
  exists ts, read_tre_data FO reg stream = Ok ts /\ write_all FO ts = Ok stream.
Proof.
  intros HF HN. destruct (C21_framed FO reg rs stream HF) as (ts & E & H2). exists ts. split; auto.
  destruct HF as [-> _]. clear E. induction H2 as [|[[tag body] r] t rs ts Hd _ IH]; [reflexivity|].
  cbn [map List.concat snd write_all].
  destruct Hd as [(c & s & H1 & H3 & H4 & _)|(_ & _ & ->)].
  - exfalso. apply (HN tag body r c s); auto. now left.
  - cbn [bind]. rewrite IH; auto. intros tag' body' r' c' s' I. apply HN with (1 := or_intror I).
Qed.

(** Outside the framing of [framed] the claim fails.  (1) Blanks in the length field, a tag
    ending in a tab or with a non-ASCII letter: decoded, but written back differently.
    (2) Three stray bytes after a good record: nothing is decoded.  (3) A negative length: the
    first record swallows the ones after it. *)
Definition ok_stream : list N := str "ABCDEF00002xy".
Theorem C21_ill_framed_refuted FO :
  (exists b1 b2 b3, b1 = str "ABCDEF   2 xy" /\ b2 = str "ABC" ++ [9; 9; 9]%N ++ str "00002xy"
     /\ b3 = [195; 169]%N ++ str "BCDE00002xy"
     /\ Forall (fun b => exists ts b', read_tre_data FO [] b = Ok ts /\ write_all FO ts = Ok b' /\ b' <> b) [b1; b2; b3])
  /\ (exists e, read_tre_data FO [] (ok_stream ++ str "   ") = Err e)
  /\ read_tre_data FO [] (str "ABCDEF-0001" ++ ok_stream) = Ok [TUnk (str "ABCDEF") ok_stream].
Proof.
  split; [|split].
  - do 3 eexists. do 3 (split; [reflexivity|]). repeat constructor.
    + exists [TUnk (str "ABCDEF") (str "xy")], (str "ABCDEF00002xy").
      split; [vm_compute; reflexivity|]. split; [vm_compute; reflexivity|discriminate].
    + exists [TUnk (str "ABC") (str "xy")], (str "ABC   00002xy").
      split; [vm_compute; reflexivity|]. split; [vm_compute; reflexivity|discriminate].
    + exists [TUnk ([233]%N ++ str "BCDE") (str "xy")], ([195; 169]%N ++ str "BCDE 00002xy").
      split; [vm_compute; reflexivity|]. split; [vm_compute; reflexivity|discriminate].
  - exists ERuntime. vm_compute. reflexivity.
  - vm_compute. reflexivity.
Qed.

(** ** C29: lookup *)

(** [r] is the part of [ts] with tag [tag], in order. *)
Inductive picked {FO} (tag : list N) : list (tre FO) -> list (tre FO) -> Prop :=
| picked_nil : picked tag [] []
| picked_take t ts r : tre_tag FO t = tag -> picked tag ts r -> picked tag (t :: ts) (t :: r)
| picked_skip t ts r : tre_tag FO t <> tag -> picked tag ts r -> picked tag (t :: ts) r.

Theorem C29_find FO tag (ts r : list (tre FO)) : find_tre FO tag ts = r <-> picked tag ts r.
Proof.
  split.
  - intros <-. induction ts as [|t ts IH]; cbn; [constructor|].
    destruct (list_eqb (tre_tag FO t) tag) eqn:E.
    + constructor; auto. now apply list_eqb_spec.
    + constructor; auto. intro F. apply list_eqb_spec in F. congruence.
  - induction 1 as [|t ts r E _ IH|t ts r E _ IH]; cbn; auto.
    + apply list_eqb_spec in E. rewrite E. now f_equal.
    + destruct (list_eqb (tre_tag FO t) tag) eqn:F; auto. apply list_eqb_spec in F. contradiction.
Qed.

Theorem C29_find_one FO tag (ts : list (tre FO)) r : picked tag ts r ->
  find_one_tre FO tag ts = match r with [] => Ok None | [t] => Ok (Some t) | _ :: _ :: _ => Err ERuntime end
  /\ find_exactly_one_tre FO tag ts = match r with [t] => Ok t | _ => Err ERuntime end.
Proof.
  intro H. apply C29_find in H. unfold find_exactly_one_tre, find_one_tre. rewrite H.
  destruct r as [|t [|t' r]]; auto.
Qed.

(** ** Examples *)

Definition ex_cls : tcls := {| tc_tag := str "EXAMPA"; tc_rows := ex_rows |}.
(** Two classes under the same tag: the later one counts. *)
Definition ex_reg : registry := [{| tc_tag := str "EXAMPA"; tc_rows := [] |}; ex_cls; {| tc_tag := str "OTHERA"; tc_rows := ex_rows |}].
Definition ex_tres : list (tre DecF) :=
  [TUnk (str "XY") (str "anything"); TObj ex_cls ex_st; TUnk (str "OTHERA") (str "too short")].

Lemma plain_check tag : forallb (fun c => (c <? 128)%N) tag && (List.length tag <=? 6)%nat
  && match rev tag with [] => true | c :: _ => negb (ws_byte c) end = true -> plain_tag tag.
Proof.
  intro H. apply andb_prop in H as [H H3]. apply andb_prop in H as [H1 H2]. split; [|split].
  - apply Forall_forall. rewrite forallb_forall in H1. intros c Hc. specialize (H1 c Hc). lia.
  - lia.
  - intros l c ->. rewrite rev_app_distr in H3. cbn in H3. now destruct (ws_byte c).
Qed.

Lemma ex_registered : registered ex_reg (str "EXAMPA") ex_cls.
Proof.
  split; [reflexivity|]. exists [{| tc_tag := str "EXAMPA"; tc_rows := [] |}], [{| tc_tag := str "OTHERA"; tc_rows := ex_rows |}].
  split; [reflexivity|]. intros c [<-|[]]. discriminate.
Qed.

Lemma ex_other c : registered ex_reg (str "OTHERA") c -> tc_rows c = ex_rows.
Proof.
  intro H. assert (R : registered ex_reg (str "OTHERA") {| tc_tag := str "OTHERA"; tc_rows := ex_rows |}).
  { split; [reflexivity|]. exists [{| tc_tag := str "EXAMPA"; tc_rows := [] |}; ex_cls], [].
    split; [reflexivity|]. intros c' []. }
  rewrite (registered_fun _ _ _ _ H R). reflexivity.
Qed.

Lemma ex_short : exists e, read DecF (mk_fs ex_rows) false (init_state DecF) (str "too short") = Err e.
Proof.
  assert (E : is_ok (read DecF (mk_fs ex_rows) false (init_state DecF) (str "too short")) = false) by (vm_compute; reflexivity).
  destruct (read DecF (mk_fs ex_rows) false (init_state DecF) (str "too short")) as [x|e]; [discriminate|eauto].
Qed.

Lemma ex_recognised : Forall (recognised DecF ex_reg) ex_tres.
Proof.
  apply Forall_cons; [|apply Forall_cons; [|apply Forall_cons; [|apply Forall_nil]]]; split;
    try (cbn [tre_tag tc_tag ex_cls]; apply plain_check; reflexivity).
  - intros c s (H1 & H2 & _). discriminate H2.
  - split; [exact ex_registered|]. split; [reflexivity|]. split; [exact ex_wf|exact ex_literals_ok].
  - intros c s (H1 & _ & H3). unfold fields_of in H3. rewrite (ex_other c H1) in H3.
    destruct ex_short as (e & E). rewrite E in H3. discriminate.
Qed.

Definition ex_stream : list N :=
  str "XY    00008anything" ++ str "EXAMPA" ++ len5 (List.length ex_bytes) ++ ex_bytes ++ str "OTHERA00009too short".
Lemma ex_tre_write : write_all DecF ex_tres = Ok ex_stream.
Proof. vm_compute. reflexivity. Qed.
Example ex_c20 : exists ts1, read_tre_data DecF ex_reg ex_stream = Ok ts1 /\ Forall2 (same_tre DecF) ex_tres ts1.
Proof. exact (C20_stream DecF ex_reg ex_tres ex_stream DecF_laws ex_recognised ex_tre_write). Qed.

(** The same stream, with the class reading one record and the others kept as bytes. *)
Definition ex_kind (t : tre DecF) : option (list N) := match t with TObj _ _ => None | TUnk _ b => Some b end.
Example ex_c21 : match read_tre_data DecF ex_reg ex_stream with
                 | Ok ts => (map ex_kind ts, write_all DecF ts) | Err e => ([], Err e) end
  = ([Some (str "anything"); None; Some (str "too short")], Ok ex_stream).
Proof. vm_compute. reflexivity. Qed.
Example ex_c21_framed : framed [(str "XY", str "anything", str "XY    00008anything");
    (str "OTHERA", str "too short", str "OTHERA00009too short")]
  (str "XY    00008anythingOTHERA00009too short").
Proof.
  split; [reflexivity|]. repeat constructor; cbn [fst snd];
    try (apply plain_check; reflexivity);
    (apply is_record_eq; [apply plain_check; reflexivity|]; split; [cbn; lia|reflexivity]).
Qed.
Example ex_c19 FO : tre_write FO (TUnk (str "XY") (str "anything")) = Ok (str "XY    00008anything").
Proof. vm_compute. reflexivity. Qed.
Example ex_c19_long FO : tre_write FO (TUnk (str "XY") (repeat 65%N (Z.to_nat 100000))) = Err ERuntime.
Proof. vm_compute. reflexivity. Qed.
(** The length says one byte less than the fields take. *)
Example ex_c19_refuse : match obj_read DecF ex_cls (str "EXAMPA" ++ len5 (List.length ex_bytes - 1) ++ ex_bytes) with
  | Err e => Some e | Ok _ => None end = Some ERuntime.
Proof. vm_compute. reflexivity. Qed.
Example ex_c29 : map (fun tag => (List.length (find_tre DecF tag (ex_tres ++ ex_tres)),
                                  is_ok (find_one_tre DecF tag ex_tres), is_ok (find_exactly_one_tre DecF tag ex_tres),
                                  is_ok (find_one_tre DecF tag (ex_tres ++ ex_tres)))) [str "XY"; str "NONE"]
  = [(2%nat, true, true, false); (0%nat, true, false, true)].
Proof. vm_compute. reflexivity. Qed.

Print Assumptions C19_write.
Print Assumptions C19_read_back.
Print Assumptions C19_read_back_unknown.
Print Assumptions C19_refuse.
Print Assumptions C19_unknown_refuted.
Print Assumptions C20_stream.
Print Assumptions C21_framed.
Print Assumptions C21_identical.
Print Assumptions C21_ill_framed_refuted.
Print Assumptions C29_find.
Print Assumptions C29_find_one.
