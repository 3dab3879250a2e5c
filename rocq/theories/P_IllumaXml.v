(** The documents the ILLUMA TRE reads (C49): the parser accepts exactly those of a grammar. *)
From Verif Require Import Base BaseLemmas Engine Utf8 Decimal DecimalLemmas Tre TreLemmas Illuma DecimalFit P_Illuma.
From Coq Require Import ZifyBool ZifyNat ZifyN.
Open Scope list_scope.

(** ** The grammar *)

Definition letter (c : N) : Prop := (65 <= c <= 90 \/ 97 <= c <= 122)%N.
Definition blank (c : N) : Prop := (c = 32 \/ c = 9 \/ c = 10)%N.
Definition name_char (c : N) : Prop := (letter c \/ 48 <= c <= 57 \/ c = 95 \/ c = 45 \/ c = 46)%N.
(** Text without markup. *)
Definition plain (c : N) : Prop := ((32 <= c <= 126 \/ c = 9 \/ c = 10) /\ c <> 60 /\ c <> 38)%N.
Definition starts (l : list N) : Prop := match l with c :: _ => letter c \/ c = 95%N | [] => False end.
Definition name (l : list N) : Prop := starts l /\ Forall name_char l.
Definition att_name (l : list N) : Prop := starts l /\ Forall (fun c => name_char c \/ c = 58%N) l.

(** The attributes of a tag, each after a blank, no name twice; and the blanks behind them. *)
Inductive att_text : list (list N * list N) -> list N -> Prop :=
| at_none b : Forall blank b -> att_text [] b
| at_more b nm v ats t : b <> [] -> Forall blank b -> att_name nm -> Forall (fun c => plain c /\ c <> 34%N) v ->
    ~ In nm (map fst ats) -> att_text ats t ->
    att_text ((nm, v) :: ats) (b ++ nm ++ str "=" ++ [34%N] ++ v ++ [34%N] ++ t).

(** The namespace of an element: its own attribute [xmlns], or else that around it. *)
Definition in_scope (ats : list (list N * list N)) (ns ns' : list N) : Prop :=
  In (str "xmlns", ns') ats \/ (~ In (str "xmlns") (map fst ats) /\ ns' = ns).

(** Elements, and what is in them: text, and elements with text behind each. *)
Inductive element (ns : list N) : xml -> list N -> Prop :=
| el_empty ns' nm ats t : name nm -> att_text ats t -> in_scope ats ns ns' ->
    element ns (El ns' nm [] []) (str "<" ++ nm ++ t ++ str "/>")
| el_full ns' nm ats t tx ch body b : name nm -> att_text ats t -> in_scope ats ns ns' ->
    inside ns' tx ch body -> Forall blank b ->
    element ns (El ns' nm tx ch) (str "<" ++ nm ++ t ++ str ">" ++ body ++ str "</" ++ nm ++ b ++ str ">")
with inside (ns : list N) : list N -> list xml -> list N -> Prop :=
| in_text tx : Forall plain tx -> inside ns tx [] tx
| in_more tx e et tail ch rest : Forall plain tx -> element ns e et -> inside ns tail ch rest ->
    inside ns tx (e :: ch) (tx ++ et ++ rest).
Scheme element_mut := Minimality for element Sort Prop with inside_mut := Minimality for inside Sort Prop.
Combined Scheme element_inside from element_mut, inside_mut.

(** A document: perhaps a declaration, one element, and blanks around it. *)
Definition document (l : list N) (e : xml) : Prop :=
  exists decl b1 et b2, l = decl ++ b1 ++ et ++ b2 /\ Forall blank b1 /\ Forall blank b2 /\ element [] e et
    /\ (decl = [] \/ exists d, decl = str "<?xml " ++ d ++ str "?>" /\ ~ In 63%N d).

(** ** The characters *)

Lemma x_blank_ok c : x_blank c = true <-> blank c.
Proof. unfold x_blank, blank. lia. Qed.
Lemma x_name_char c : x_name c = true <-> name_char c.
Proof. unfold x_name, name_char, letter. lia. Qed.
Lemma x_aname_char c : x_aname c = true <-> name_char c \/ c = 58%N.
Proof. unfold x_aname. now rewrite orb_true_iff, x_name_char, N.eqb_eq. Qed.
Lemma x_char_plain c : x_char c = true <-> plain c.
Proof. unfold x_char, plain. lia. Qed.
Lemma x_starts l : x_name_ok l = true <-> starts l.
Proof. destruct l as [|c l]; cbn; [split; [discriminate|tauto]|]. unfold letter. lia. Qed.

Lemma all_ok (p : N -> bool) (P : N -> Prop) l : (forall c, p c = true <-> P c) -> (forallb p l = true <-> Forall P l).
Proof.
  intro H. rewrite forallb_forall, Forall_forall. split; intros A c I; apply H; now apply A.
Qed.
Lemma blanks_ok l : forallb x_blank l = true <-> Forall blank l.
Proof. apply all_ok, x_blank_ok. Qed.
Lemma names_chars l : forallb x_name l = true <-> Forall name_char l.
Proof. apply all_ok, x_name_char. Qed.
Lemma anames_chars l : forallb x_aname l = true <-> Forall (fun c => name_char c \/ c = 58%N) l.
Proof. apply all_ok, x_aname_char. Qed.
Lemma plains_ok l : forallb x_char l = true <-> Forall plain l.
Proof. apply all_ok, x_char_plain. Qed.
Lemma values_ok l : forallb (fun c => x_char c && negb (c =? 34)%N) l = true <-> Forall (fun c => plain c /\ c <> 34%N) l.
Proof. apply all_ok. intro c. rewrite andb_true_iff, x_char_plain. split; intros [A B]; split; auto; lia. Qed.

(** ** What is accepted is of the grammar *)

Lemma attrs_sound n : forall l ats cl r, attrs n l = Some (ats, cl, r) ->
  exists t, att_text ats t /\ l = t ++ (if cl then str "/>" else str ">") ++ r.
Proof.
  induction n as [|n IH]; intros l ats cl r H; [discriminate H|]. cbn [attrs] in H.
  destruct (span x_blank l) as [bl l1] eqn:EB. apply span_split in EB as [-> HB]. apply blanks_ok in HB.
  assert (NIL : forall r0 cl0, Some ([], cl0, r0) = Some (ats, cl, r) -> l1 = (if cl0 then str "/>" else str ">") ++ r0 ->
    exists t, att_text ats t /\ bl ++ l1 = t ++ (if cl then str "/>" else str ">") ++ r).
  { intros r0 cl0 E ->. injection E as <- <- <-. exists bl. split; [now constructor|reflexivity]. }
  set (G := let '(nm, r0) := span x_aname l1 in
            if negb (x_name_ok nm) || (List.length bl =? 0)%nat then None
            else match r0 with
                 | 61%N :: 34%N :: r2 =>
                     let '(v, r3) := span (fun c => x_char c && negb (c =? 34)%N) r2 in
                     match r3 with
                     | 34%N :: r4 => match attrs n r4 with
                                     | Some (ats, cl, r5) => if existsb (fun a => list_eqb (fst a) nm) ats then None else Some ((nm, v) :: ats, cl, r5)
                                     | None => None end
                     | _ => None end
                 | _ => None end) in *.
  assert (HG : G = Some (ats, cl, r) -> exists t, att_text ats t /\ bl ++ l1 = t ++ (if cl then str "/>" else str ">") ++ r).
  { unfold G. clear G H NIL. destruct (span x_aname l1) as [nm r0] eqn:EN. apply span_split in EN as [-> HN]. apply anames_chars in HN.
    destruct (negb (x_name_ok nm) || (List.length bl =? 0)%nat) eqn:EC; [discriminate|]. apply orb_false_iff in EC as [EC1 EC2].
    apply negb_false_iff, x_starts in EC1.
    destruct r0 as [|c0 r0]; [discriminate|]. destruct (N.eq_dec c0 61) as [->|N1].
    2:{ intro H. exfalso. revert H. destruct c0 as [|p]; [discriminate|]. repeat (destruct p as [p|p|]; try discriminate). congruence. }
    destruct r0 as [|c1 r0]; [discriminate|]. destruct (N.eq_dec c1 34) as [->|N1].
    2:{ intro H. exfalso. revert H. destruct c1 as [|p]; [discriminate|]. repeat (destruct p as [p|p|]; try discriminate). congruence. }
    destruct (span (fun c => x_char c && negb (c =? 34)%N) r0) as [v r3] eqn:EV. apply span_split in EV as [-> HV]. apply values_ok in HV.
    destruct r3 as [|c2 r3]; [discriminate|]. destruct (N.eq_dec c2 34) as [->|N1].
    2:{ intro H. exfalso. revert H. destruct c2 as [|p]; [discriminate|]. repeat (destruct p as [p|p|]; try discriminate). congruence. }
    destruct (attrs n r3) as [[[ats0 cl0] r5]|] eqn:EA; [|discriminate]. destruct (IH _ _ _ _ EA) as (t & T1 & ->).
    destruct (existsb (fun a => list_eqb (fst a) nm) ats0) eqn:EE; [discriminate|]. intro H. injection H as <- <- <-.
    exists (bl ++ nm ++ str "=" ++ [34%N] ++ v ++ [34%N] ++ t). split.
    - constructor; auto; [destruct bl; [discriminate EC2|discriminate]|now split|].
      intro I. apply in_map_iff in I as (x & <- & I). assert (X : existsb (fun a => list_eqb (fst a) (fst x)) ats0 = true).
      { apply existsb_exists. exists x. split; [exact I|now apply list_eqb_spec]. } congruence.
    - rewrite <- !app_assoc. reflexivity. }
  clear IH. destruct l1 as [|c l2]; [now apply HG|].
  destruct (N.eq_dec c 62) as [->|N1]; [now apply (NIL l2 false H)|]. destruct (N.eq_dec c 47) as [->|N2].
  - destruct l2 as [|c2 l3]; [now apply HG|]. destruct (N.eq_dec c2 62) as [->|N3]; [now apply (NIL l3 true H)|].
    apply HG. rewrite <- H. symmetry. destruct c2 as [|p]; [reflexivity|]. repeat (destruct p as [p|p|]; try reflexivity). congruence.
  - apply HG. rewrite <- H. symmetry. destruct c as [|p]; [reflexivity|]. repeat (destruct p as [p|p|]; try reflexivity); congruence.
Qed.

Lemma head_62 {A} (f : list N -> option A) l x : match l with 62%N :: r => f r | _ => None end = Some x -> exists r, l = 62%N :: r /\ f r = Some x.
Proof.
  destruct l as [|c l]; [discriminate|]. destruct (N.eq_dec c 62) as [->|N1]; [eauto|]. intro H. exfalso. revert H.
  destruct c as [|p]; [discriminate|]. repeat (destruct p as [p|p|]; try discriminate). congruence.
Qed.
Lemma head_60 {A} (f : N -> list N -> option A) l x : match l with 60%N :: c :: r => f c r | _ => None end = Some x ->
  exists c r, l = 60%N :: c :: r /\ f c r = Some x.
Proof.
  destruct l as [|c l]; [discriminate|]. destruct (N.eq_dec c 60) as [->|N1]; [destruct l as [|c2 l]; [discriminate|eauto]|]. intro H. exfalso. revert H.
  destruct c as [|p]; [discriminate|]. repeat (destruct p as [p|p|]; try discriminate). congruence.
Qed.
Lemma head_60' {A} (f : list N -> option A) l x : match l with 60%N :: r => f r | _ => None end = Some x -> exists r, l = 60%N :: r /\ f r = Some x.
Proof.
  destruct l as [|c l]; [discriminate|]. destruct (N.eq_dec c 60) as [->|N1]; [eauto|]. intro H. exfalso. revert H.
  destruct c as [|p]; [discriminate|]. repeat (destruct p as [p|p|]; try discriminate). congruence.
Qed.

Lemma scope_own ats t ns : att_text ats t -> in_scope ats ns (own_ns ats ns).
Proof.
  unfold own_ns, in_scope. intros _. destruct (find (fun a => list_eqb (fst a) (str "xmlns")) ats) as [[nm v]|] eqn:E.
  - apply find_some in E as [I E]. apply list_eqb_spec in E. cbn [fst] in E. subst nm. now left.
  - right. split; auto. intro I. apply in_map_iff in I as ([nm v] & E1 & I). cbn in E1. subst nm.
    pose proof (find_none _ _ E _ I) as X. cbn [fst] in X. rewrite (proj2 (list_eqb_spec _ _) eq_refl) in X. discriminate X.
Qed.
Lemma att_unique ats t nm v v' : att_text ats t -> In (nm, v) ats -> In (nm, v') ats -> v = v'.
Proof.
  induction 1 as [|b n0 v0 ats t _ _ _ _ N _ IH]; [intros []|]. intros [E|I] [E'|I']; try congruence; auto.
  - injection E as -> ->. exfalso. apply N. change nm with (fst (nm, v')). now apply in_map.
  - injection E' as -> ->. exfalso. apply N. change nm with (fst (nm, v)). now apply in_map.
Qed.
Lemma scope_unique ats t ns ns' : att_text ats t -> in_scope ats ns ns' -> own_ns ats ns = ns'.
Proof.
  intros A H. destruct (scope_own ats t ns A) as [X|[X E]], H as [Y|[Y ->]]; auto.
  - eapply att_unique; eauto.
  - exfalso. apply Y. change (str "xmlns") with (fst (str "xmlns", own_ns ats ns)). now apply in_map.
  - exfalso. apply X. change (str "xmlns") with (fst (str "xmlns", ns')). now apply in_map.
Qed.

Lemma content_sound n : forall ns tag l t ch r, content n ns tag l = Some (t, ch, r) ->
  exists body b, inside ns t ch body /\ Forall blank b /\ l = body ++ str "</" ++ tag ++ b ++ str ">" ++ r.
Proof.
  induction n as [|n IH]; intros ns tag l t ch r H; [discriminate H|]. cbn [content] in H.
  destruct (span x_char l) as [t0 r0] eqn:ET. apply span_split in ET as [-> HT]. apply plains_ok in HT.
  apply head_60 in H as (c & r1 & -> & H). destruct (c =? 47)%N eqn:EC.
  - apply N.eqb_eq in EC. subst c. destruct (span x_name r1) as [nm r2] eqn:EN. apply span_split in EN as [-> _].
    destruct (list_eqb nm tag) eqn:E; [|discriminate H]. apply list_eqb_spec in E. subst nm.
    apply head_62 in H as (r3 & E & H). destruct (span x_blank r2) as [b r4] eqn:EB. apply span_split in EB as [-> HB]. cbn [snd] in E. subst r4.
    injection H as <- <- <-. exists t0, b. split; [now constructor|]. split; [now apply blanks_ok|]. reflexivity.
  - destruct (span x_name (c :: r1)) as [nm r2] eqn:EN. apply span_split in EN as [E1 HN]. rewrite E1. clear E1 EC c r1.
    destruct (x_name_ok nm) eqn:EO; [|discriminate H]. apply x_starts in EO. apply names_chars in HN.
    destruct (attrs (S (List.length r2)) r2) as [[[ats cl] r3]|] eqn:EA; [|discriminate H]. apply attrs_sound in EA as (ta & HA & ->).
    destruct (if cl then Some ([], [], r3) else content n (own_ns ats ns) nm r3) as [[[t1 ch1] r4]|] eqn:E1; [|discriminate H].
    destruct (content n ns tag r4) as [[[t2 ch2] r5]|] eqn:E2; [|discriminate H]. injection H as <- <- <-.
    apply IH in E2 as (body2 & b2 & I2 & B2 & ->).
    pose proof (scope_own ats ta ns HA) as SC. destruct cl.
    + injection E1 as <- <- E1. subst r3. exists (t0 ++ (str "<" ++ nm ++ ta ++ str "/>") ++ body2), b2. split.
      * apply (in_more ns t0 _ _ t2); auto. apply (el_empty ns _ _ ats); auto. now split.
      * split; auto. now rewrite <- !app_assoc.
    + apply IH in E1 as (body1 & b1 & I1 & B1 & ->).
      exists (t0 ++ (str "<" ++ nm ++ ta ++ str ">" ++ body1 ++ str "</" ++ nm ++ b1 ++ str ">") ++ body2), b2. split.
      * apply (in_more ns t0 _ _ t2); auto. apply (el_full ns _ _ ats); auto. now split.
      * split; auto. now rewrite <- !app_assoc.
Qed.

Lemma undeclared_sound l x r : undeclared l = x :: r -> exists decl, l = decl ++ x :: r
  /\ (decl = [] \/ exists d, decl = str "<?xml " ++ d ++ str "?>" /\ ~ In 63%N d).
Proof.
  unfold undeclared. destruct (list_eqb (firstn 6 l) (str "<?xml ")) eqn:E; [|intros ->; exists []; auto].
  apply list_eqb_spec in E. assert (EL : l = str "<?xml " ++ skipn 6 l) by (rewrite <- E; symmetry; apply firstn_skipn).
  revert EL. generalize (skipn 6 l). intros k ->. clear E.
  destruct (span (fun c => negb (c =? 63)%N) k) as [d t] eqn:ES. apply span_split in ES as [-> HD]. cbn [snd].
  intro H. assert (T : t = str "?>" ++ x :: r).
  { destruct t as [|c t]; [discriminate H|]. destruct (N.eq_dec c 63) as [->|N1].
    - destruct t as [|c t]; [discriminate H|]. destruct (N.eq_dec c 62) as [->|N1]; [now rewrite H|]. exfalso. revert H.
      destruct c as [|p]; [discriminate|]. repeat (destruct p as [p|p|]; try discriminate). congruence.
    - exfalso. revert H. destruct c as [|p]; [discriminate|]. repeat (destruct p as [p|p|]; try discriminate). congruence. }
  subst t. exists (str "<?xml " ++ d ++ str "?>"). split; [now rewrite <- !app_assoc|]. right. exists d. split; auto.
  intro I. rewrite forallb_forall in HD. specialize (HD _ I). discriminate HD.
Qed.

Lemma fromstring_sound l e : fromstring l = Some e -> document l e.
Proof.
  unfold fromstring. intro H. apply head_60' in H as (r1 & E0 & H).
  destruct (span x_blank (undeclared l)) as [b1 l1] eqn:EB. cbn [snd] in E0. subst l1. apply span_split in EB as [EU HB]. apply blanks_ok in HB.
  assert (ED : exists decl, l = decl ++ b1 ++ 60%N :: r1 /\ (decl = [] \/ exists d, decl = str "<?xml " ++ d ++ str "?>" /\ ~ In 63%N d)).
  { destruct b1 as [|c b1]; cbn [app] in EU; exact (undeclared_sound l _ _ EU). }
  destruct ED as (decl & -> & ED). clear EU.
  destruct (span x_name r1) as [nm r2] eqn:EN. apply span_split in EN as [-> HN]. apply names_chars in HN.
  destruct (x_name_ok nm) eqn:EO; [|discriminate H]. apply x_starts in EO.
  destruct (attrs (S (List.length r2)) r2) as [[[ats cl] r3]|] eqn:EA; [|discriminate H]. apply attrs_sound in EA as (ta & HA & ->).
  destruct (if cl then Some ([], [], r3) else content (S (List.length r3)) (own_ns ats []) nm r3) as [[[t1 ch1] r4]|] eqn:E1; [|discriminate H].
  destruct (forallb x_blank r4) eqn:EF; [|discriminate H]. injection H as <-. apply blanks_ok in EF.
  pose proof (scope_own ats ta [] HA) as SC. destruct cl.
  - injection E1 as <- <- ->. exists decl, b1, (str "<" ++ nm ++ ta ++ str "/>"), r4. split; [now rewrite <- !app_assoc|]. repeat (split; auto).
    apply (el_empty [] _ _ ats); auto. now split.
  - apply content_sound in E1 as (body & b & I1 & B & ->).
    exists decl, b1, (str "<" ++ nm ++ ta ++ str ">" ++ body ++ str "</" ++ nm ++ b ++ str ">"), r4. split; [now rewrite <- !app_assoc|]. repeat (split; auto).
    apply (el_full [] _ _ ats); auto. now split.
Qed.

(** ** What is of the grammar is accepted *)

Definition stops (p : N -> bool) (l : list N) : Prop := match l with c :: _ => p c = false | [] => True end.

Lemma att_head ats t : att_text ats t -> forall e X, (e = 62 \/ e = 47)%N -> exists c y, t ++ e :: X = c :: y /\ (blank c \/ c = e) /\ x_name c = false.
Proof.
  intros H e X HE. assert (F : forall c, blank c \/ c = e -> x_name c = false) by (unfold blank, x_name; intros; lia).
  destruct H as [b HB|b nm v ats t NB HB _ _ _ _].
  - destruct HB as [|c b HC HB]; cbn; eauto 10.
  - destruct HB as [|c b HC HB]; [congruence|]. cbn. eauto 10.
Qed.

Lemma pick {A} (f g : list N -> A) z c l : (c <> 62 -> c <> 47 ->
  match c :: l with 62 :: r => f r | 47 :: 62 :: r => g r | _ => z end = z)%N.
Proof. intros N1 N2. destruct c as [|p]; [reflexivity|]. repeat (destruct p as [p|p|]; try reflexivity); congruence. Qed.

Lemma attrs_complete ats t : att_text ats t -> forall n (cl : bool) X, (List.length t < n)%nat ->
  attrs n (t ++ (if cl then str "/>" else str ">") ++ X) = Some (ats, cl, X).
Proof.
  induction 1 as [b HB|b nm v ats t NB HB [HN1 HN2] HV NI HA IH]; intros n cl X L.
  - destruct n as [|n]; [lia|]. cbn [attrs]. rewrite span_app.
    + destruct cl; reflexivity.
    + now apply blanks_ok.
    + destruct cl; reflexivity.
  - destruct n as [|n]; [lia|]. cbn [attrs]. rewrite <- !app_assoc. rewrite span_app.
    2: now apply blanks_ok.
    2:{ destruct nm as [|c nm]; [destruct HN1|]. cbn in *. unfold letter in HN1. unfold x_blank. lia. }
    set (T := str "=" ++ [34%N] ++ v ++ [34%N] ++ t ++ (if cl then str "/>" else str ">") ++ X).
    assert (SA : span x_aname (nm ++ T) = (nm, T)).
    { apply span_app; [now apply anames_chars|reflexivity]. }
    assert (SV : span (fun c => x_char c && negb (c =? 34)%N) (v ++ [34%N] ++ t ++ (if cl then str "/>" else str ">") ++ X) = (v, [34%N] ++ t ++ (if cl then str "/>" else str ">") ++ X)).
    { apply span_app; [now apply values_ok|reflexivity]. }
    assert (HX : existsb (fun a => list_eqb (fst a) nm) ats = false).
    { destruct (existsb (fun a => list_eqb (fst a) nm) ats) eqn:E; auto. apply existsb_exists in E as (x & I & E). apply list_eqb_spec in E. exfalso. apply NI. rewrite <- E. now apply in_map. }
    assert (HO := proj2 (x_starts nm) HN1). assert (HLb : (List.length b =? 0)%nat = false) by (destruct b; [congruence|reflexivity]).
    assert (R : attrs n (t ++ (if cl then str "/>" else str ">") ++ X) = Some (ats, cl, X)).
    { apply IH. rewrite !app_length in L. cbn in L. lia. }
    destruct nm as [|c nm]; [destruct HN1|]. cbn [starts] in HN1. unfold letter in HN1. cbn [app] in SA |- *.
    etransitivity; [apply (pick (fun r => Some ([], false, r)) (fun r => Some ([], true, r))); lia|]. cbv beta. rewrite SA, HO, HLb. cbn [negb orb]. unfold T. change (str "=") with [61%N]. cbn [app]. cbn [app] in SV. rewrite SV, R, HX. reflexivity.
Qed.

Lemma name_first nm X : name nm -> exists c y, nm ++ X = c :: y /\ (c =? 47)%N = false.
Proof.
  intros [H _]. destruct nm as [|c nm]; [destruct H|]. exists c, (nm ++ X). split; auto. cbn in H. unfold letter in H. lia.
Qed.

Lemma open_span nm ats t e X : name nm -> att_text ats t -> (e = 62 \/ e = 47)%N ->
  span x_name (nm ++ t ++ e :: X) = (nm, t ++ e :: X).
Proof.
  intros [_ HN] HA HE. apply span_app; [now apply names_chars|]. destruct (att_head ats t HA e X HE) as (c & y & -> & _ & E). exact E.
Qed.

(** The parser in the middle of an element's content. *)
Lemma parse_complete : forall ns,
  (forall e et, element ns e et -> forall n tag tx0 X, Forall plain tx0 -> (List.length et <= n)%nat ->
     content (S n) ns tag (tx0 ++ et ++ X) =
     match content n ns tag X with Some (_, ch2, r) => Some (tx0, e :: ch2, r) | None => None end)
  /\ (forall tx ch body, inside ns tx ch body -> forall n tag b X, name tag -> Forall blank b -> (List.length body < n)%nat ->
     content n ns tag (body ++ str "</" ++ tag ++ b ++ str ">" ++ X) = Some (tx, ch, X)).
Proof.
  apply (element_inside
    (fun ns e et => forall n tag tx0 X, Forall plain tx0 -> (List.length et <= n)%nat ->
       content (S n) ns tag (tx0 ++ et ++ X) =
       match content n ns tag X with Some (_, ch2, r) => Some (tx0, e :: ch2, r) | None => None end)
    (fun ns tx ch body => forall n tag b X, name tag -> Forall blank b -> (List.length body < n)%nat ->
       content n ns tag (body ++ str "</" ++ tag ++ b ++ str ">" ++ X) = Some (tx, ch, X))).
  - intros ns ns' nm ats t HN HA HS n tag tx0 X HT L. cbn [content]. rewrite <- !app_assoc. change (str "<") with [60%N]. cbn [app].
    rewrite span_app; [|now apply plains_ok|reflexivity].
    destruct (name_first nm (t ++ str "/>" ++ X) HN) as (c & y & EC & NC). rewrite EC, NC. rewrite <- EC.
    change (str "/>" ++ X) with (47%N :: 62%N :: X). rewrite (open_span nm ats t 47 (62%N :: X) HN HA) by auto.
    rewrite (proj2 (x_starts nm) (proj1 HN)).
    pose proof (attrs_complete ats t HA (S (List.length (t ++ 47%N :: 62%N :: X))) true X) as AC.
    cbv iota in AC. change (str "/>" ++ X) with (47%N :: 62%N :: X) in AC. rewrite AC by (rewrite app_length; lia).
    rewrite (scope_unique ats t ns ns' HA HS). reflexivity.
  - intros ns ns' nm ats t tx ch body b HN HA HS _ IH HB n tag tx0 X HT L. cbn [content]. rewrite <- !app_assoc. change (str "<") with [60%N]. cbn [app].
    rewrite span_app; [|now apply plains_ok|reflexivity].
    set (Y := body ++ str "</" ++ nm ++ b ++ str ">" ++ X).
    destruct (name_first nm (t ++ str ">" ++ Y) HN) as (c & y & EC & NC). rewrite EC, NC. rewrite <- EC.
    change (str ">" ++ Y) with (62%N :: Y). rewrite (open_span nm ats t 62 Y HN HA) by auto.
    rewrite (proj2 (x_starts nm) (proj1 HN)).
    pose proof (attrs_complete ats t HA (S (List.length (t ++ 62%N :: Y))) false Y) as AC.
    cbv iota in AC. change (str ">" ++ Y) with (62%N :: Y) in AC. rewrite AC by (rewrite app_length; lia).
    rewrite (scope_unique ats t ns ns' HA HS). unfold Y. rewrite IH; auto. rewrite !app_length in L. cbn in L. lia.
  - intros ns tx HT n tag b X HN HB L. destruct n as [|n]; [lia|]. cbn [content]. change (str "</") with [60%N; 47%N]. cbn [app].
    rewrite span_app; [|now apply plains_ok|reflexivity]. change ((47 =? 47)%N) with true. cbv iota.
    rewrite span_app; [|now apply names_chars; apply HN|].
    2:{ destruct HB as [|c b HC HB]; [reflexivity|]. cbn. unfold blank in HC. unfold x_name. lia. }
    rewrite (proj2 (list_eqb_spec _ _) eq_refl). rewrite span_app; [reflexivity|now apply blanks_ok|reflexivity].
  - intros ns tx e et tail ch rest HT HE IHe _ IHr n tag b X HN HB L. destruct n as [|n]; [lia|]. rewrite <- !app_assoc.
    rewrite !app_length in L. rewrite IHe by (auto; lia). rewrite IHr; auto.
    assert (List.length et > 0)%nat by (destruct HE; cbn; lia). lia.
Qed.

Lemma undeclared_complete decl b1 et b2 e : (decl = [] \/ exists d, decl = str "<?xml " ++ d ++ str "?>" /\ ~ In 63%N d) ->
  Forall blank b1 -> element [] e et -> undeclared (decl ++ b1 ++ et ++ b2) = b1 ++ et ++ b2.
Proof.
  intros [->|(d & -> & ND)] HB HE.
  - cbn [app]. unfold undeclared. destruct (list_eqb (firstn 6 (b1 ++ et ++ b2)) (str "<?xml ")) eqn:E; [|reflexivity].
    exfalso. apply list_eqb_spec in E. destruct HB as [|c b HC HB].
    + assert (X : exists c0 y, et ++ b2 = 60%N :: c0 :: y /\ c0 <> 63%N).
      { destruct HE as [ns' nm ats t [H1 _] _ _|ns' nm ats t tx ch body b [H1 _] _ _ _ _]; (destruct nm as [|c0 nm]; [destruct H1|]);
          (exists c0; eexists; split; [cbn [app str]; reflexivity|]; cbn in H1; unfold letter in H1; lia). }
      destruct X as (c0 & y & X & N0). cbn [app] in E. rewrite X in E. change (firstn 6 (60%N :: c0 :: y)) with (60%N :: c0 :: firstn 4 y) in E. injection E as E _. congruence.
    + cbn [app firstn] in E. change (str "<?xml ") with [60; 63; 120; 109; 108; 32]%N in E. injection E as E _. subst c. unfold blank in HC. lia.
  - rewrite <- !app_assoc. unfold undeclared.
    replace (firstn 6 (str "<?xml " ++ d ++ str "?>" ++ b1 ++ et ++ b2)) with (str "<?xml ") by reflexivity.
    rewrite (proj2 (list_eqb_spec _ _) eq_refl).
    replace (skipn 6 (str "<?xml " ++ d ++ str "?>" ++ b1 ++ et ++ b2)) with (d ++ str "?>" ++ b1 ++ et ++ b2) by reflexivity.
    rewrite span_app; [reflexivity| |reflexivity]. apply forallb_forall. intros c I. apply negb_true_iff, N.eqb_neq. intros ->. contradiction.
Qed.

Lemma fromstring_complete l e : document l e -> fromstring l = Some e.
Proof.
  intros (decl & b1 & et & b2 & -> & HB1 & HB2 & HE & HD). unfold fromstring. rewrite (undeclared_complete decl b1 et b2 e) by auto.
  assert (HF : exists y, et = 60%N :: y) by (destruct HE; eexists; reflexivity). destruct HF as (y & EY).
  rewrite span_app; [|now apply blanks_ok|rewrite EY; reflexivity]. cbn [snd].
  destruct HE as [ns' nm ats t HN HA HS|ns' nm ats t tx ch body b HN HA HS HI HB]; clear EY; rewrite <- !app_assoc; change (str "<") with [60%N]; cbn [app].
  - change (str "/>" ++ b2) with (47%N :: 62%N :: b2). rewrite (open_span nm ats t 47 (62%N :: b2) HN HA) by auto.
    rewrite (proj2 (x_starts nm) (proj1 HN)).
    pose proof (attrs_complete ats t HA (S (List.length (t ++ 47%N :: 62%N :: b2))) true b2) as AC.
    cbv iota in AC. change (str "/>" ++ b2) with (47%N :: 62%N :: b2) in AC. rewrite AC by (rewrite app_length; lia).
    rewrite (proj2 (blanks_ok b2) HB2). now rewrite (scope_unique ats t [] ns' HA HS).
  - set (Y := body ++ str "</" ++ nm ++ b ++ str ">" ++ b2). change (str ">" ++ Y) with (62%N :: Y). rewrite (open_span nm ats t 62 Y HN HA) by auto.
    rewrite (proj2 (x_starts nm) (proj1 HN)).
    pose proof (attrs_complete ats t HA (S (List.length (t ++ 62%N :: Y))) false Y) as AC.
    cbv iota in AC. change (str ">" ++ Y) with (62%N :: Y) in AC. rewrite AC by (rewrite app_length; lia).
    rewrite (scope_unique ats t [] ns' HA HS). unfold Y at 2. rewrite (proj2 (parse_complete ns') tx ch body HI); auto.
    + now rewrite (proj2 (blanks_ok b2) HB2).
    + unfold Y. rewrite app_length. lia.
Qed.

(** ** C49 *)

(** The parser accepts exactly the documents of the grammar, and gives the element they stand for. *)
Theorem C49_parser l e : fromstring l = Some e <-> document l e.
Proof. split; [apply fromstring_sound|apply fromstring_complete]. Qed.

(** Reading succeeds on such documents only; of another one nothing is taken. *)
Theorem C49_documents FO (o : illuma FO) bt :
  (forall o', illuma_parse FO o bt = Ok o' -> exists e, document bt e)
  /\ ((forall e, ~ document bt e) -> illuma_parse FO o bt = Err ESyntax).
Proof.
  unfold illuma_parse. split.
  - intros o' H. destruct (fromstring bt) as [e|] eqn:E; [|discriminate H]. exists e. now apply C49_parser.
  - intro H. destruct (fromstring bt) as [e|] eqn:E; [|reflexivity]. exfalso. apply (H e). now apply C49_parser.
Qed.

(** What is written says that it is UTF-8, which holds as it is ASCII. *)
Theorem C49_declared FO (o : illuma FO) : printable FO o ->
  (exists r, illuma_bytes FO o = str "<?xml version=" ++ [34%N] ++ str "1.0" ++ [34%N] ++ str " encoding=" ++ [34%N] ++ str "UTF-8" ++ [34%N] ++ str " ?><ILLUMA " ++ r)
  /\ Forall (fun c => c < 128)%N (illuma_bytes FO o).
Proof.
  intro HP. split.
  - exists (skipn 8 illuma_open ++ List.concat (map (illuma_elem FO o) field_list) ++ str "</ILLUMA>"). reflexivity.
  - unfold illuma_bytes. rewrite !Forall_app. assert (G : forall l, forallb (fun c => c <? 128)%N l = true -> Forall (fun c => c < 128)%N l).
    { intros l H. apply Forall_forall. rewrite forallb_forall in H. intros c I. specialize (H c I). lia. }
    repeat split; try (apply G; reflexivity). apply Forall_concat. apply Forall_forall. intros x I. apply in_map_iff in I as ([nm a] & <- & I).
    rewrite fields_camel in I. apply in_map_iff in I as (a' & E & I). injection E as <- <-. unfold illuma_elem. cbn [fst snd].
    destruct (o a') as [v|] eqn:EV; [|constructor]. destruct (HP a' v I EV) as [_ HV]. destruct (names_ok a' I) as [_ HN]. apply names_chars in HN.
    rewrite !Forall_app. assert (HN' : Forall (fun c => c < 128)%N (camel false a')) by (eapply Forall_impl; [|exact HN]; unfold name_char, letter; intros; lia).
    repeat split; try (apply G; reflexivity); auto. eapply Forall_impl; [|exact HV]. cbv beta. intros; lia.
Qed.

(** ** Examples *)

Definition dq (s : string) : list N := map (fun c => if (c =? 39)%N then 34%N else c) (str s).
(** Accepted with namespaces and nested elements; refused: an attribute twice, another end tag, text behind the
    document, a tag that does not end. *)
Example C49_doc :
  fromstring (dq "<?xml version='1.0'?> <a xmlns='u'> x<b k='1' />y<c xmlns=''>z</c ></a> ")
  = Some (El (str "u") (str "a") (str " x") [El (str "u") (str "b") [] []; El [] (str "c") (str "z") []])
  /\ map fromstring [dq "<a k='1' k='2'/>"; dq "<a></b>"; dq "<a/>x"; dq "<a"; dq "<a k='1'l='2'/>"; dq "<1a/>"; dq "<a><b></a></b>"] = repeat None 7.
Proof. vm_compute. split; reflexivity. Qed.
Example C49_doc_is : document (dq "<a xmlns='u'>x<b/></a>") (El (str "u") (str "a") (str "x") [El (str "u") (str "b") [] []])
  /\ forall e, ~ document (dq "<a></b>") e.
Proof.
  split; [apply C49_parser; vm_compute; reflexivity|]. intros e H. apply C49_parser in H. vm_compute in H. discriminate H.
Qed.
(** The whole text written for three values. *)
Example C49_text : illuma_bytes DecF ex_o = dq ("<?xml version='1.0' encoding='UTF-8' ?><ILLUMA xmlns='http://namespaces.ic.gov/NSGPDD/2012/v1.0/ILLUMA'"
  ++ "     xmlns:xs='http://www.w3.org/2001/XMLSchema' xmlns:ism='urn:us:gov:ic:ism'>  <solAz>12.5</solAz>  <solEl>-3.25</solEl>  <artIlMax>7</artIlMax></ILLUMA>").
Proof. vm_compute. reflexivity. Qed.

Print Assumptions C49_parser.
Print Assumptions C49_documents.
Print Assumptions C49_declared.
