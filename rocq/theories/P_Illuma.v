(** What the ILLUMA TRE writes and reads (C49). *)
From Verif Require Import Base BaseLemmas Engine Utf8 Decimal Tre TreLemmas Illuma DecimalFit.
From Coq Require Import ZifyBool ZifyNat ZifyN.
Open Scope list_scope.

(** ** Terms of the statements *)

(** The attributes the class documents (nitf_tre_illuma.py:19-31). *)
Definition attributes : list (list N) :=
  map str ["sol_az"; "sol_el"; "com_sol_il"; "lun_el"; "lun_ph_ang"; "lun_az"; "com_lun_il";
           "com_tot_nat_il"; "sol_lun_dis_ad"; "art_il_min"; "art_il_max"]%string.

(** The name of an attribute in the XML schema: [sol_az] is [solAz] (STDI-0002-1 Appendix AL). *)
Fixpoint camel (up : bool) (l : list N) : list N :=
  match l with
  | [] => []
  | c :: l' => if (c =? 95)%N then camel true l' else (if up then c - 32 else c)%N :: camel false l'
  end.

(** Text a float may be printed as: letters, digits, signs and points. *)
Definition number_text (t : list N) : Prop :=
  t <> [] /\ Forall (fun c => (48 <= c <= 57) \/ (65 <= c <= 90) \/ (97 <= c <= 122) \/ c = 43 \/ c = 45 \/ c = 46)%N t.

(** The namespace of the schema (STDI-0002-1 Appendix AL). *)
Definition schema_ns : list N := str "http://namespaces.ic.gov/NSGPDD/2012/v1.0/ILLUMA".

(** [e] is the first of [es] with the name [nm] of the ILLUMA namespace. *)
Definition first_named (nm : list N) (es : list xml) (e : xml) : Prop :=
  exists l1 l2, es = l1 ++ e :: l2 /\ x_ns e = schema_ns /\ x_tag e = nm
    /\ forall e', In e' l1 -> x_ns e' = schema_ns -> x_tag e' <> nm.

(** ** The parser on what the writer writes *)

Lemma span_at p a c r : forallb p a = true -> p c = false -> span p (a ++ c :: r) = (a, c :: r).
Proof.
  intros Ha Hc. induction a as [|b a IH]; cbn [app span]; [now rewrite Hc|].
  cbn [forallb] in Ha. apply andb_true_iff in Ha as (Hb & Ha). rewrite Hb, IH by exact Ha. reflexivity.
Qed.

Lemma content_elem n ns tag nm t X : x_name_ok nm = true -> forallb x_name nm = true -> forallb x_char t = true ->
  content (S (S n)) ns tag (str "  <" ++ nm ++ str ">" ++ t ++ str "</" ++ nm ++ str ">" ++ X)
  = match content (S n) ns tag X with
    | Some (_, ch, r) => Some (str "  ", El ns nm t [] :: ch, r)
    | None => None
    end.
Proof.
  intros H1 H2 H3.
  assert (E : content (S n) ns nm (t ++ str "</" ++ nm ++ str ">" ++ X) = Some (t, [], X)).
  { cbn [content]. change (str "</" ++ nm ++ str ">" ++ X) with (60%N :: 47%N :: nm ++ 62%N :: X).
    rewrite (span_at x_char t 60%N _ H3 eq_refl). rewrite (span_at x_name nm 62%N X H2 eq_refl).
    replace (list_eqb nm nm) with true by (symmetry; now apply list_eqb_spec). reflexivity. }
  remember (S n) as m eqn:Em. cbn [content].
  change (str "  <" ++ nm ++ str ">" ++ t ++ str "</" ++ nm ++ str ">" ++ X)
    with (str "  " ++ 60%N :: nm ++ 62%N :: t ++ str "</" ++ nm ++ str ">" ++ X).
  rewrite (span_at x_char (str "  ") 60%N _ eq_refl eq_refl).
  destruct nm as [|c nm'] eqn:En; [discriminate H1|]. rewrite <- En in *.
  assert (G : forall Y, span x_name (nm ++ 62%N :: Y) = (nm, 62%N :: Y)) by (intro; now apply span_at).
  assert (Hc : exists y, (nm ++ 62%N :: t ++ str "</" ++ nm ++ str ">" ++ X) = c :: y /\ c <> 47%N).
  { exists (nm' ++ 62%N :: t ++ str "</" ++ nm ++ str ">" ++ X). split; [now rewrite En|]. rewrite En in H1. cbn [x_name_ok] in H1. lia. }
  destruct Hc as (y & Hy & Hc). specialize (G (t ++ str "</" ++ nm ++ str ">" ++ X)). rewrite Hy in *.
  replace (c =? 47)%N with false by (symmetry; now apply N.eqb_neq). rewrite G, H1. cbn [attrs span]. change (x_blank 62) with false. cbv iota beta. cbn [own_ns find]. rewrite E. reflexivity.
Qed.

(** ** Attributes and fields *)

Lemma fields_camel : field_list = map (fun a => (camel false a, a)) attributes.
Proof. reflexivity. Qed.

Lemma attributes_nodup : NoDup attributes.
Proof.
  assert (G : (fix nd l := match l with [] => true | a :: l' => negb (existsb (list_eqb a) l') && nd l' end) attributes = true) by reflexivity.
  induction attributes as [|a l IH]; [constructor|]. apply andb_true_iff in G as (G1 & G2). constructor; [|now apply IH].
  intro I. apply negb_true_iff in G1. assert (X : existsb (list_eqb a) l = true) by (apply existsb_exists; exists a; split; [exact I|now apply list_eqb_spec]).
  congruence.
Qed.

Lemma names_ok a : In a attributes -> x_name_ok (camel false a) = true /\ forallb x_name (camel false a) = true.
Proof.
  assert (G : forallb (fun a => x_name_ok (camel false a) && forallb x_name (camel false a)) attributes = true) by reflexivity.
  intro I. rewrite forallb_forall in G. specialize (G a I). now apply andb_true_iff in G.
Qed.

Lemma camel_inj a b : In a attributes -> In b attributes -> camel false a = camel false b -> a = b.
Proof.
  assert (G : forallb (fun a => forallb (fun b => implb (list_eqb (camel false a) (camel false b)) (list_eqb a b)) attributes) attributes = true) by reflexivity.
  intros Ia Ib E. rewrite forallb_forall in G. specialize (G a Ia). rewrite forallb_forall in G. specialize (G b Ib).
  assert (X : list_eqb (camel false a) (camel false b) = true) by now apply list_eqb_spec. rewrite X in G. now apply list_eqb_spec.
Qed.

Section P.
Variable FO : FloatOps.
Notation illuma := (illuma FO).

(** Every value of the object is printed as the text of a number. *)
Definition printable (o : illuma) : Prop := forall a v, In a attributes -> o a = Some v -> number_text (fl_str FO v).
(** Every value of the object is the number its text stands for. *)
Definition readable_back (o : illuma) : Prop := forall a v, In a attributes -> o a = Some v -> fl_parse FO (fl_str FO v) = Some v.

Lemma number_text_char t : number_text t -> forallb x_char t = true.
Proof.
  intros (_ & H). apply forallb_forall. rewrite Forall_forall in H. intros c I. specialize (H c I). unfold x_char. lia.
Qed.

(** The elements of an object's values. *)
Definition elems (o : illuma) (l : list (list N)) : list xml :=
  flat_map (fun a => match o a with Some v => [El schema_ns (camel false a) (fl_str FO v) []] | None => [] end) l.

Lemma content_fields o l m : incl l attributes -> printable o -> (List.length (elems o l) < m)%nat ->
  exists t, content m illuma_ns (str "ILLUMA")
    (List.concat (map (illuma_elem FO o) (map (fun a => (camel false a, a)) l)) ++ str "</ILLUMA>") = Some (t, elems o l, []).
Proof.
  intros HI HP. revert m. induction l as [|a l IH]; intros m Hm.
  - destruct m as [|m]; [lia|]. exists []. reflexivity.
  - assert (Ia : In a attributes) by (apply HI; now left).
    assert (HI' : incl l attributes) by (intros x Hx; apply HI; now right).
    cbn [map List.concat elems flat_map] in *. unfold illuma_elem at 1. cbn [snd fst].
    destruct (o a) as [v|] eqn:Ev; [|exact (IH HI' m Hm)]. cbn [app List.length] in Hm. fold (elems o l) in *.
    destruct m as [|[|m]]; [lia|lia|]. destruct (IH HI' (S m)) as (t & E); [lia|]. exists (str "  ").
    destruct (names_ok a Ia) as (N1 & N2).
    rewrite <- !app_assoc. rewrite content_elem by (auto; apply number_text_char; eapply HP; eauto).
    rewrite E. reflexivity.
Qed.

Lemma elems_length o l :
  (List.length (elems o l) <= List.length (List.concat (map (illuma_elem FO o) (map (fun a => (camel false a, a)) l))))%nat.
Proof.
  induction l as [|a l IH]; [reflexivity|]. cbn [elems flat_map map List.concat]. fold (elems o l). rewrite !app_length.
  unfold illuma_elem at 1. cbn [snd fst]. destruct (o a); cbn [List.length]; [|exact IH]. rewrite app_length. change (List.length (str "  <")) with 3%nat. lia.
Qed.

Lemma attrs_open n X : attrs (S (S (S (S n)))) (skipn 7 illuma_open ++ X)
  = Some ([(str "xmlns", illuma_ns); (str "xmlns:xs", str "http://www.w3.org/2001/XMLSchema"); (str "xmlns:ism", str "urn:us:gov:ic:ism")], false, X).
Proof. vm_compute. reflexivity. Qed.

Lemma fromstring_open X t ch : content (S (List.length X)) illuma_ns (str "ILLUMA") X = Some (t, ch, []) ->
  fromstring (illuma_decl ++ illuma_open ++ X) = Some (El illuma_ns (str "ILLUMA") t ch).
Proof.
  intro H. unfold fromstring.
  assert (U : undeclared (illuma_decl ++ illuma_open ++ X) = illuma_open ++ X) by (vm_compute; reflexivity).
  rewrite U.
  assert (B : snd (span x_blank (illuma_open ++ X)) = 60%N :: str "ILLUMA" ++ (32%N :: skipn 8 illuma_open ++ X)) by (vm_compute; reflexivity).
  rewrite B. rewrite (span_at x_name (str "ILLUMA") 32%N _ eq_refl eq_refl). cbv iota beta.
  change (x_name_ok (str "ILLUMA")) with true. cbv iota.
  change (32%N :: skipn 8 illuma_open ++ X) with (skipn 7 illuma_open ++ X).
  assert (L : exists n, S (List.length (skipn 7 illuma_open ++ X)) = S (S (S (S n)))).
  { rewrite app_length. change (List.length (skipn 7 illuma_open)) with (3 + (List.length (skipn 7 illuma_open) - 3))%nat. eexists. reflexivity. }
  destruct L as (n & L). rewrite L, attrs_open. cbv iota beta.
  change (own_ns [(str "xmlns", illuma_ns); (str "xmlns:xs", str "http://www.w3.org/2001/XMLSchema"); (str "xmlns:ism", str "urn:us:gov:ic:ism")] []) with illuma_ns.
  rewrite H. reflexivity.
Qed.

(** What is written is a well-formed document whose root [ILLUMA], in the namespace of the schema, has one
    child for each attribute that has a value: the schema's name for it, holding the value's text, in the order
    of the schema. *)
Theorem C49_written o : printable o -> exists t,
  fromstring (illuma_bytes FO o) = Some (El schema_ns (str "ILLUMA") t (elems o attributes)).
Proof.
  intro HP. unfold illuma_bytes. rewrite fields_camel.
  destruct (content_fields o attributes (S (List.length (List.concat (map (illuma_elem FO o) (map (fun a => (camel false a, a)) attributes)) ++ str "</ILLUMA>")))) as (t & E).
  - apply incl_refl.
  - exact HP.
  - rewrite app_length. apply Nat.lt_succ_r, (Nat.le_trans _ _ _ (elems_length o attributes)). lia.
  - exists t. apply fromstring_open. exact E.
Qed.

(** ** Reading *)

Lemma iset_same a v (o : illuma) : iset FO a v o a = Some v.
Proof. unfold iset. replace (list_eqb a a) with true by (symmetry; now apply list_eqb_spec). reflexivity. Qed.
Lemma iset_other a b v (o : illuma) : a <> b -> iset FO a v o b = o b.
Proof. intro H. unfold iset. destruct (list_eqb a b) eqn:E; [|reflexivity]. apply list_eqb_spec in E. contradiction. Qed.

Lemma fields_read root l o o' : NoDup l -> illuma_fields FO root (map (fun a => (camel false a, a)) l) o = Ok o' ->
  forall a, (In a l -> match illuma_find root (camel false a) with
                       | Some e => exists v, illuma_num FO e = Ok v /\ o' a = Some v
                       | None => o' a = o a
                       end)
         /\ (~ In a l -> o' a = o a).
Proof.
  intro ND. revert o. induction ND as [|b l NI ND IH]; intros o H a.
  - injection H as <-. split; [intros []|reflexivity].
  - cbn [map illuma_fields] in H. destruct (illuma_find root (camel false b)) as [e|] eqn:Ef.
    + apply bind_ok_elim in H as (v & Hv & H). destruct (IH _ H a) as (A & B). split.
      * intros [->|I]; [rewrite Ef; exists v; split; [exact Hv|]; rewrite (B NI); apply iset_same|].
        specialize (A I). destruct (illuma_find root (camel false a)); [exact A|]. rewrite A. apply iset_other. intros ->. contradiction.
      * intro N. rewrite B by (intro; apply N; now right). apply iset_other. intros ->. apply N. now left.
    + destruct (IH _ H a) as (A & B). split.
      * intros [->|I]; [rewrite Ef; now apply B|now apply A].
      * intro N. apply B. intro; apply N; now right.
Qed.

Lemma fields_ok root l o : (forall a, In a l -> match illuma_find root (camel false a) with
                                               | Some e => exists v, illuma_num FO e = Ok v
                                               | None => True end) ->
  exists o', illuma_fields FO root (map (fun a => (camel false a, a)) l) o = Ok o'.
Proof.
  revert o. induction l as [|a l IH]; intros o H; [exists o; reflexivity|]. cbn [map illuma_fields].
  assert (Ha := H a (or_introl eq_refl)). assert (Hl := fun b I => H b (or_intror I)).
  destruct (illuma_find root (camel false a)); [|now apply IH]. destruct Ha as (v & ->). cbn [bind]. now apply IH.
Qed.

(** Elements that are in no namespace have no children of their own. *)
Definition flat_plain (root : xml) : Prop := forall e, In e (x_children root) -> x_ns e = [] -> x_children e = [].

Lemma find_first nm root : flat_plain root ->
  match illuma_find root nm with
  | Some e => first_named nm (x_children root) e
  | None => forall e, In e (x_children root) -> x_ns e = schema_ns -> x_tag e <> nm
  end.
Proof.
  intro HF.
  assert (E : illuma_find root nm = xfind illuma_ns nm root).
  { unfold illuma_find. destruct (xfind [] nm root) as [e|] eqn:X; [|reflexivity].
    apply find_some in X as (I & X). apply andb_true_iff in X as (X & _). apply list_eqb_spec in X. now rewrite (HF e I X). }
  rewrite E. unfold xfind. clear. change illuma_ns with schema_ns. induction (x_children root) as [|e es IH]; cbn [find]; [intros e []|].
  destruct (list_eqb (x_ns e) schema_ns && list_eqb (x_tag e) nm) eqn:X.
  - apply andb_true_iff in X as (X1 & X2). apply list_eqb_spec in X1, X2. exists [], es. repeat split; auto; intros e' [].
  - assert (N : x_ns e = schema_ns -> x_tag e <> nm).
    { intros A B. apply andb_false_iff in X as [X|X]; [apply list_eqb_spec in A|apply list_eqb_spec in B]; congruence. }
    destruct (find _ es) as [e'|].
    + destruct IH as (l1 & l2 & -> & A & B & C). exists (e :: l1), l2. repeat split; auto. intros e2 [<-|I]; [exact N|now apply C].
    + intros e2 [<-|I]; [exact N|now apply IH].
Qed.

Lemma first_unique nm es e1 e2 : first_named nm es e1 -> first_named nm es e2 -> e1 = e2.
Proof.
  intros (a & b & -> & A1 & A2 & A3) (c & d & E & B1 & B2 & B3). revert c d E A3 B3.
  induction a as [|x a IH]; intros c d E A3 B3; destruct c as [|y c]; cbn [app] in E.
  - now injection E.
  - injection E as <- E. destruct (B3 e1); auto. now left.
  - injection E as -> E. destruct (A3 e2); auto. now left.
  - injection E as <- E. apply (IH c d E); intros e' I; [apply A3|apply B3]; now right.
Qed.

Lemma first_in nm es e : first_named nm es e -> In e es /\ x_ns e = schema_ns /\ x_tag e = nm.
Proof. intros (a & b & -> & A1 & A2 & _). split; [apply in_or_app; right; now left|auto]. Qed.

(** Reading sets an attribute to the number in the first child of the schema's name for it, and leaves an
    attribute without such a child as it was. *)
Theorem C49_read o bt root o' : fromstring bt = Some root -> flat_plain root -> illuma_parse FO o bt = Ok o' ->
  forall a, In a attributes ->
    (forall e, first_named (camel false a) (x_children root) e ->
       x_text e <> [] /\ exists v, fl_parse FO (x_text e) = Some v /\ o' a = Some v)
    /\ ((forall e, In e (x_children root) -> x_ns e = schema_ns -> x_tag e <> camel false a) -> o' a = o a).
Proof.
  intros R HF H a Ia. unfold illuma_parse in H. rewrite R, fields_camel in H.
  destruct (fields_read root attributes o o' attributes_nodup H a) as (A & _). specialize (A Ia).
  assert (F := find_first (camel false a) root HF). destruct (illuma_find root (camel false a)) as [e|].
  - destruct A as (v & Hv & A). split.
    + intros e2 F2. rewrite <- (first_unique _ _ _ _ F F2). unfold illuma_num in Hv. destruct (x_text e) as [|c t]; [discriminate Hv|].
      split; [discriminate|]. destruct (fl_parse FO (c :: t)) as [w|]; [|discriminate Hv]. injection Hv as ->. eauto.
    + intro N. destruct (first_in _ _ _ F) as (I & X & Y). destruct (N e I X Y).
  - split; [|intro; exact A]. intros e2 F2. destruct (first_in _ _ _ F2) as (I & X & Y). destruct (F e2 I X Y).
Qed.

(** Such a document is read unless one of those children holds no number. *)
Theorem C49_accepts o bt root : fromstring bt = Some root -> flat_plain root ->
  ((exists o', illuma_parse FO o bt = Ok o') <->
   forall a e, In a attributes -> first_named (camel false a) (x_children root) e ->
     x_text e <> [] /\ fl_parse FO (x_text e) <> None).
Proof.
  intros R HF. split.
  - intros (o' & H) a e Ia F. destruct (C49_read o bt root o' R HF H a Ia) as (A & _). destruct (A e F) as (B & v & C & _).
    split; [exact B|congruence].
  - intro H. unfold illuma_parse. rewrite R, fields_camel. apply fields_ok. intros a Ia.
    assert (F := find_first (camel false a) root HF). destruct (illuma_find root (camel false a)) as [e|]; [|exact I].
    destruct (H a e Ia F) as (A & B). unfold illuma_num. destruct (x_text e) as [|c t]; [contradiction|].
    destruct (fl_parse FO (c :: t)) as [v|]; [eauto|contradiction].
Qed.

(** A document whose elements are in no namespace is read without a complaint and none of its values is
    taken. *)
Theorem C49_plain_lost o bt root : fromstring bt = Some root ->
  (forall e, In e (x_children root) -> x_ns e = [] /\ x_children e = []) ->
  exists o', illuma_parse FO o bt = Ok o' /\ forall a, In a attributes -> o' a = o a.
Proof.
  intros R H. assert (HF : flat_plain root) by (intros e I _; now apply H).
  assert (N : forall e, In e (x_children root) -> x_ns e <> schema_ns) by (intros e I; destruct (H e I) as (-> & _); discriminate).
  assert (X : exists o', illuma_parse FO o bt = Ok o').
  { apply (C49_accepts o bt root R HF). intros a e Ia F. destruct (first_in _ _ _ F) as (I & Y & _). destruct (N e I Y). }
  destruct X as (o' & X). exists o'. split; [exact X|]. intros a Ia. apply (C49_read o bt root o' R HF X a Ia). intros e I Y. destruct (N e I Y).
Qed.

(** ** Round trip *)

Lemma elems_named o a e : In a attributes -> first_named (camel false a) (elems o attributes) e ->
  exists v, o a = Some v /\ x_text e = fl_str FO v.
Proof.
  intros Ia F. destruct (first_in _ _ _ F) as (I & _ & T). unfold elems in I. apply in_flat_map in I as (b & Ib & I).
  destruct (o b) as [v|] eqn:Ev; [|destruct I]. destruct I as [<-|[]]. cbn [x_tag x_text] in *.
  apply (camel_inj b a Ib Ia) in T as ->. eauto.
Qed.

Lemma elems_flat ns tag t o : flat_plain (El ns tag t (elems o attributes)).
Proof.
  intros e I _. unfold x_children in I. apply in_flat_map in I as (c & _ & I). destruct (o c); [|destruct I]. destruct I as [<-|[]]. reflexivity.
Qed.

Lemma elems_first o a v : In a attributes -> o a = Some v -> exists e, first_named (camel false a) (elems o attributes) e.
Proof.
  intros Ia Ev. assert (F := find_first (camel false a) (El [] [] [] (elems o attributes))).
  destruct (illuma_find (El [] [] [] (elems o attributes)) (camel false a)) as [e|].
  - exists e. apply F, elems_flat.
  - exfalso. refine (F (elems_flat _ _ _ _) (El schema_ns (camel false a) (fl_str FO v) []) _ eq_refl eq_refl). unfold x_children. apply in_flat_map. exists a. split; [exact Ia|]. rewrite Ev. now left.
Qed.

(** Every record that is written is read back, by a new object and whatever follows it in the file, with the
    same values, up to its end. *)
Theorem C49_round_trip o b rest : printable o -> readable_back o -> illuma_write FO o = Ok b ->
  exists o', illuma_read FO (illuma_new FO) (b ++ rest) = Ok (o', rest) /\ forall a, In a attributes -> o' a = o a.
Proof.
  intros HP HB H.
  assert (R : exists B, B = illuma_bytes FO o /\ (Z.of_nat (List.length B) <= 99999)%Z /\ b = ljust 6 (str "ILLUMA") ++ len5 (List.length B) ++ B).
  { unfold illuma_write in H. revert H. generalize (illuma_bytes FO o). intros B H. exists B. split; [reflexivity|].
    destruct (99999 <? Z.of_nat (List.length B))%Z eqn:EL; [discriminate H|]. split; [lia|]. now injection H. }
  destruct R as (B & EB & HL & ->). unfold illuma_read. rewrite <- !app_assoc. rewrite read_tag_plain.
  2: { unfold plain_tag. split; [|split].
       - cbv. repeat constructor; lia.
       - cbv. lia.
       - intros l c X. change (str "ILLUMA") with (str "ILLUM" ++ [65%N]) in X. apply app_inj_tail in X as (_ & <-). reflexivity. }
  cbn [bind]. change (negb (list_eqb (str "ILLUMA") (str "ILLUMA"))) with false. cbv iota.
  rewrite (read_cel_5 _ _ _ (len5_decimal _ HL)). cbn [bind]. unfold fread.
  replace (Z.of_nat (List.length B) <? 0)%Z with false by lia. rewrite Nat2Z.id, firstn_exact, skipn_exact by reflexivity. subst B.
  destruct (C49_written o HP) as (t & W).
  set (root := El schema_ns (str "ILLUMA") t (elems o attributes)) in W.
  assert (HF : flat_plain root) by apply elems_flat.
  assert (X : exists o', illuma_parse FO (illuma_new FO) (illuma_bytes FO o) = Ok o').
  { apply (C49_accepts _ _ root W HF). intros a e Ia F. destruct (elems_named o a e Ia F) as (v & Ev & ->).
    split; [apply (HP a v Ia Ev)|]. rewrite (HB a v Ia Ev). discriminate. }
  destruct X as (o' & X). rewrite X. cbn [bind]. exists o'. split; [reflexivity|]. intros a Ia.
  destruct (C49_read _ _ root o' W HF X a Ia) as (A & B). destruct (o a) as [v|] eqn:Ev.
  - destruct (elems_first o a v Ia Ev) as (e & F). destruct (A e F) as (_ & w & P & Q). destruct (elems_named o a e Ia F) as (v' & Ev' & T).
    rewrite Ev in Ev'. injection Ev' as <-. rewrite T, (HB a v Ia Ev) in P. congruence.
  - rewrite B; [reflexivity|]. intros e I _ T. unfold root, x_children in I. apply in_flat_map in I as (c & Ic & I).
    destruct (o c) as [v|] eqn:Ec; [|destruct I]. destruct I as [<-|[]]. cbn [x_tag] in T. apply (camel_inj c a Ic Ia) in T as ->. congruence.
Qed.

End P.

(** ** Concrete cases *)

Definition dec1 (neg : bool) (m : N) (e : Z) : fl DecF := {| d_neg := neg; d_man := m; d_ex := e |}.
(** Azimuth 12.5, elevation -3.25, brightest artificial light 7. *)
Definition ex_o : illuma DecF :=
  fun a => if list_eqb a (str "sol_az") then Some (dec1 false 125 (-1))
           else if list_eqb a (str "sol_el") then Some (dec1 true 325 (-2))
           else if list_eqb a (str "art_il_max") then Some (dec1 false 7 0) else None.

Lemma number_text_b t : match t with [] => false | _ => forallb (fun c => ((48 <=? c) && (c <=? 57) || (c =? 45) || (c =? 46))%N) t end = true -> number_text t.
Proof.
  intro H. destruct t as [|c t]; [discriminate H|]. split; [discriminate|]. apply Forall_forall. rewrite forallb_forall in H.
  intros d I. specialize (H d I). lia.
Qed.

Example ex_c49_hyps : printable DecF ex_o /\ readable_back DecF ex_o /\ exists b, illuma_write DecF ex_o = Ok b.
Proof.
  assert (G : forall a v, ex_o a = Some v -> v = dec1 false 125 (-1) \/ v = dec1 true 325 (-2) \/ v = dec1 false 7 0).
  { intros a v. unfold ex_o. destruct (list_eqb a (str "sol_az")); [intro H; injection H as <-; auto|].
    destruct (list_eqb a (str "sol_el")); [intro H; injection H as <-; auto|].
    destruct (list_eqb a (str "art_il_max")); [intro H; injection H as <-; auto|]. intro H. discriminate H. }
  split; [|split].
  - intros a v _ H. apply G in H as [-> | [-> | ->]]; apply number_text_b; vm_compute; reflexivity.
  - intros a v _ H. apply G in H as [-> | [-> | ->]]; vm_compute; reflexivity.
  - eexists. vm_compute. reflexivity.
Qed.

Example ex_c49_text : exists p q, illuma_bytes DecF ex_o = p ++ str "  <solAz>12.5</solAz>  <solEl>-3.25</solEl>  <artIlMax>7</artIlMax></ILLUMA>" ++ q.
Proof. exists (illuma_decl ++ illuma_open), []. vm_compute. reflexivity. Qed.

(** The same document without the namespace. *)
Definition ex_plain : list N := str "<ILLUMA><solAz>12.5</solAz></ILLUMA>".

(** Reading takes the values of a document that has the schema's elements without the namespace: refuted.
    The comment in the code says that such a document is meant to be read. *)
Theorem C49_plain_refuted : exists bt root e v o',
  fromstring bt = Some root /\ In e (x_children root) /\ x_tag e = camel false (str "sol_az")
  /\ fl_parse DecF (x_text e) = Some v
  /\ illuma_parse DecF (illuma_new DecF) bt = Ok o' /\ o' (str "sol_az") = None.
Proof.
  exists ex_plain, (El [] (str "ILLUMA") [] [El [] (str "solAz") (str "12.5") []]), (El [] (str "solAz") (str "12.5") []),
    (dec1 false 125 (-1)), (illuma_new DecF).
  repeat split; try (vm_compute; reflexivity). now left.
Qed.

(** Reading a record makes an object equal to the one written, whatever it held: refuted. *)
Theorem C49_stale_refuted : exists o1 o2 b o' a, printable DecF o1 /\ readable_back DecF o1
  /\ illuma_write DecF o1 = Ok b /\ illuma_read DecF o2 b = Ok (o', []) /\ In a attributes /\ o1 a = None /\ o' a <> None.
Proof.
  assert (P : printable DecF (illuma_new DecF)) by (intros a v _ H; discriminate H).
  assert (B : readable_back DecF (illuma_new DecF)) by (intros a v _ H; discriminate H).
  destruct (illuma_write DecF (illuma_new DecF)) as [b|] eqn:W; [|vm_compute in W; discriminate W].
  assert (R : exists o', illuma_read DecF ex_o b = Ok (o', []) /\ o' (str "sol_az") = ex_o (str "sol_az")).
  { vm_compute in W. injection W as <-. eexists. split; [vm_compute; reflexivity|]. vm_compute. reflexivity. }
  destruct R as (o' & R1 & R2). exists (illuma_new DecF), ex_o, b, o', (str "sol_az").
  split; [exact P|]. split; [exact B|]. split; [exact W|]. split; [exact R1|]. split; [now left|]. split; [reflexivity|]. rewrite R2. vm_compute. discriminate.
Qed.

Print Assumptions C49_written.
Print Assumptions C49_read.
Print Assumptions C49_accepts.
Print Assumptions C49_plain_lost.
Print Assumptions C49_round_trip.
Print Assumptions C49_plain_refuted.
Print Assumptions C49_stale_refuted.
