(** What comparing two files logs: the verdict and the log agree, and each entry names the part
    that differs (C62). *)
From Verif Require Import Base BaseLemmas Engine Wf EngineLemmas RoundTrip Keys Deps Utf8 Tre Handles TrePlace Security Image DescsHdr File Diff P_Diff FileDiff P_FileDiff FileLog.
From Coq Require Import ZifyBool ZifyNat ZifyN.
Open Scope list_scope.
Ltac Zify.zify_post_hook ::= idtac.

(** ** Computations that log *)

(** Is a difference (that counts) logged? *)
Definition found (l : list entry) : bool := existsb (fun e => match e_level e with LFound => true | _ => false end) l.
(** The result says the same as the log. *)
Definition fair (m : lg bool) : Prop := forall b, snd m = Ok b -> b = negb (found (fst m)).
Definition only {A} (P : entry -> Prop) (m : lg A) : Prop := forall e, In e (fst m) -> P e.

Lemma found_spec l : found l = true <-> exists e, In e l /\ e_level e = LFound.
Proof.
  unfold found. rewrite existsb_exists. split; intros (e & I & H); exists e; (split; [exact I|]); destruct (e_level e); try discriminate H; reflexivity.
Qed.
Lemma found_app a b : found (a ++ b) = found a || found b.
Proof. apply existsb_app. Qed.
Lemma snd_lbind {A B} (m : lg A) (k : A -> lg B) : snd (lbind m k) = do a <- snd m; snd (k a).
Proof. destruct m as [l [a|e]]; reflexivity. Qed.
Lemma fst_lbind_ok {A B} (m : lg A) (k : A -> lg B) a : snd m = Ok a -> fst (lbind m k) = fst m ++ fst (k a).
Proof. destruct m as [l [x|e]]; cbn; intro E; [injection E as ->; reflexivity|discriminate E]. Qed.
Lemma lbind_ok {A B} (m : lg A) (k : A -> lg B) b : snd (lbind m k) = Ok b ->
  exists a, snd m = Ok a /\ snd (k a) = Ok b /\ fst (lbind m k) = fst m ++ fst (k a).
Proof. rewrite snd_lbind. intro E. apply bind_ok_elim in E as (a & E1 & E2). exists a. split; [exact E1|]. split; [exact E2|]. now apply fst_lbind_ok. Qed.
Lemma in_lbind {A B} (m : lg A) (k : A -> lg B) e : In e (fst (lbind m k)) -> In e (fst m) \/ exists a, snd m = Ok a /\ In e (fst (k a)).
Proof. destruct m as [l [a|x]]; cbn; [|auto]. rewrite in_app_iff. intros [H|H]; [auto|right; eauto]. Qed.
Lemma fair_quiet r : (forall b, r = Ok b -> b = true) -> fair (quiet r).
Proof. intros H b E. cbn in E. rewrite (H b E). reflexivity. Qed.
Lemma fair_found m : fair m -> found (fst m) = true -> snd m <> Ok true.
Proof. intros H F E. apply H in E. rewrite F in E. discriminate E. Qed.
(** Two results put together. *)
Lemma fair_and (m : lg bool) (k : bool -> lg bool) : fair m ->
  (forall a, snd m = Ok a -> forall b, snd (k a) = Ok b -> b = (a && negb (found (fst (k a))))%bool) -> fair (lbind m k).
Proof.
  intros Hm Hk b E. apply lbind_ok in E as (a & E1 & E2 & ->). rewrite found_app, (Hk a E1 b E2), (Hm a E1). now rewrite negb_orb.
Qed.

(** Three results put together (stated for any three, which keeps the tables out of the proofs). *)
Definition three (m1 m2 m3 : lg bool) : lg bool := log a <- m1; log b <- m2; log c <- m3; quiet (Ok (a && b && c)).
Lemma three_same m1 m2 m3 r1 r2 r3 : snd m1 = r1 -> snd m2 = r2 -> snd m3 = r3 ->
  snd (three m1 m2 m3) = do a <- r1; do b <- r2; do c <- r3; Ok (a && b && c).
Proof.
  intros <- <- <-. unfold three. rewrite snd_lbind. destruct (snd m1) as [a|]; [|reflexivity]. cbn [bind]. rewrite snd_lbind.
  destruct (snd m2) as [b|]; [|reflexivity]. cbn [bind]. rewrite snd_lbind. reflexivity.
Qed.
Lemma fair_three m1 m2 m3 : fair m1 -> fair m2 -> fair m3 -> fair (three m1 m2 m3).
Proof.
  intros F1 F2 F3 x E. unfold three in *. apply lbind_ok in E as (a & A & E & ->). apply lbind_ok in E as (b & B & E & ->). apply lbind_ok in E as (c & D & E & ->).
  cbn in E. injection E as <-. apply F1 in A. apply F2 in B. apply F3 in D. subst a b c.
  rewrite !found_app. cbn [quiet fst found existsb]. rewrite orb_false_r, !negb_orb. now rewrite !andb_assoc.
Qed.
Lemma in_three m1 m2 m3 e : In e (fst (three m1 m2 m3)) -> In e (fst m1) \/ In e (fst m2) \/ In e (fst m3).
Proof.
  unfold three. intro I. apply in_lbind in I as [I|(a & _ & I)]; [auto|]. apply in_lbind in I as [I|(b & _ & I)]; [auto|].
  apply in_lbind in I as [I|(c & _ & [])]. auto.
Qed.
Lemma three_told m1 m2 m3 b : snd (three m1 m2 m3) = Ok b ->
  (exists x, snd m1 = Ok x) /\ (exists x, snd m2 = Ok x) /\ (exists x, snd m3 = Ok x)
  /\ incl (fst m1) (fst (three m1 m2 m3)) /\ incl (fst m2) (fst (three m1 m2 m3)) /\ incl (fst m3) (fst (three m1 m2 m3)).
Proof.
  unfold three. intro E. apply lbind_ok in E as (x & X & E & ->). apply lbind_ok in E as (y & Y & E & ->). apply lbind_ok in E as (z & Z & E & ->).
  split; [eauto|]. split; [eauto|]. split; [eauto|]. split; [|split]; intros e I; rewrite !in_app_iff; tauto.
Qed.

Section P.
Variable FO : FloatOps.
Variable CO : CmpOps FO.
Variable fp : dtype -> dtype -> item -> item -> bool.
Notation pyval := (pyval FO).
Notation state := (state FO).
Notation config := (config FO).
Notation hdr := (hdr FO).
Notation tre := (tre FO).
Notation seg := (seg FO).
Notation sdata := (sdata FO).
Notation nfile := (nfile FO).

(** ** One structure *)
Section Two.
Variables (fs1 fs2 : fstruct) (s1 s2 : state) (ctx : list N).

Lemma lcount_same nm f g cmp : forall ks1 ks2,
  (do n <- snd (lcount FO fs1 fs2 s1 s2 ctx nm f g cmp ks1 ks2); Ok (fst n)) = count_diff FO fs1 fs2 s1 s2 f g cmp ks1 ks2.
Proof.
  induction ks1 as [|k ks1 IH]; intros ks2; [destruct ks2; reflexivity|]. cbn [lcount count_diff].
  rewrite snd_lbind. cbn [quiet snd]. destruct (fget FO fs1 s1 f k) as [a|]; [|reflexivity]. cbn [bind].
  rewrite snd_lbind. cbn [quiet snd]. destruct (match ks2 with [] => Ok VNone | k2 :: _ => fget FO fs2 s2 g k2 end) as [b|]; [|reflexivity]. cbn [bind].
  rewrite snd_lbind. cbn [quiet snd]. destruct (cmp a b) as [r|]; [|reflexivity]. cbn [bind].
  rewrite <- IH. destruct r; rewrite !snd_lbind; cbn [quiet say snd bind]; destruct (snd (lcount FO fs1 fs2 s1 s2 ctx nm f g cmp ks1 (tl ks2))) as [n|]; reflexivity.
Qed.
Lemma lcount_details nm f g cmp : forall ks1 ks2, only (fun e => e_level e = LDetail /\ e_ctx e = ctx /\ exists k, In k ks1 /\ e_what e = WElem nm k)
  (lcount FO fs1 fs2 s1 s2 ctx nm f g cmp ks1 ks2).
Proof.
  induction ks1 as [|k ks1 IH]; intros ks2 e I; [destruct ks2; destruct I|]. cbn [lcount] in I.
  apply in_lbind in I as [[]|(a & _ & I)]. apply in_lbind in I as [[]|(b & _ & I)]. apply in_lbind in I as [[]|(r & _ & I)].
  apply in_lbind in I as [I|(x & _ & I)].
  - destruct r; [destruct I|]. destruct I as [<-|[]]. cbn. split; [reflexivity|]. split; [reflexivity|]. exists k. split; [now left|reflexivity].
  - apply in_lbind in I as [I|(n & _ & [])]. apply IH in I as (A & B & k' & I & D). split; [exact A|]. split; [exact B|]. exists k'. split; [now right|exact D].
Qed.
Lemma no_found_details l : (forall e, In e l -> e_level e = LDetail) -> found l = false.
Proof.
  intro H. destruct (found l) eqn:F; [|reflexivity]. apply found_spec in F as (e & I & E). rewrite (H e I) in E. discriminate E.
Qed.

(** The entry at the end, and whether it counts. *)
Definition is_found (lv : level) : bool := match lv with LFound => true | _ => false end.
Lemma say_found lv w : found [Entry lv ctx w] = is_found lv.
Proof. destruct lv; reflexivity. Qed.

Lemma lfield_same lv nm f g cmp : snd (lfield FO fs1 fs2 s1 s2 ctx lv nm f g cmp) = cmp_field FO fs1 fs2 s1 s2 f g cmp.
Proof.
  unfold lfield, cmp_field. rewrite snd_lbind. cbn [quiet snd]. destruct (shape_equal FO fs1 fs2 s1 s2 f g) as [sh|]; [|reflexivity]. cbn [bind].
  destruct sh; [|reflexivity]. rewrite snd_lbind. cbn [quiet snd]. destruct (field_keys FO fs1 s1 f) as [ks1|]; [|reflexivity]. cbn [bind].
  rewrite snd_lbind. cbn [quiet snd]. destruct (field_keys FO fs2 s2 g) as [ks2|]; [|reflexivity]. cbn [bind].
  rewrite snd_lbind. rewrite <- (lcount_same nm). destruct (snd (lcount FO fs1 fs2 s1 s2 ctx nm f g cmp ks1 ks2)) as [[n t]|]; [|reflexivity]. cbn [bind fst snd].
  destruct n; reflexivity.
Qed.
Lemma lfield_found lv nm f g cmp d : snd (lfield FO fs1 fs2 s1 s2 ctx lv nm f g cmp) = Ok d ->
  found (fst (lfield FO fs1 fs2 s1 s2 ctx lv nm f g cmp)) = (d && is_found lv)%bool.
Proof.
  unfold lfield. intro E. apply lbind_ok in E as (sh & _ & E & ->). cbn [quiet fst app]. destruct sh.
  - apply lbind_ok in E as (ks1 & _ & E & ->). cbn [quiet fst app]. apply lbind_ok in E as (ks2 & _ & E & ->). cbn [quiet fst app].
    apply lbind_ok in E as ((n & t) & _ & E & ->). rewrite found_app.
    rewrite (no_found_details (fst (lcount FO fs1 fs2 s1 s2 ctx nm f g cmp ks1 ks2))); [|intros e I; now apply lcount_details in I as (A & _)].
    cbn [orb fst snd] in E |- *. destruct n.
    + cbn in E. injection E as <-. reflexivity.
    + cbn in E. injection E as <-. apply say_found.
  - cbn in E. injection E as <-. apply say_found.
Qed.

Lemma ldiffers_same lv c nm a b : snd (ldiffers FO CO fs1 fs2 s1 s2 ctx lv c nm a b) = differs FO CO fs1 fs2 s1 s2 c nm a b.
Proof.
  unfold ldiffers. destruct a as [v|f], b as [w|g]; try apply lfield_same; rewrite snd_lbind; cbn [quiet snd];
    match goal with |- bind ?x _ = _ => destruct x as [[]|]; reflexivity end.
Qed.
Lemma ldiffers_found lv c nm a b d : snd (ldiffers FO CO fs1 fs2 s1 s2 ctx lv c nm a b) = Ok d ->
  found (fst (ldiffers FO CO fs1 fs2 s1 s2 ctx lv c nm a b)) = (d && is_found lv)%bool.
Proof.
  unfold ldiffers. destruct a as [v|f], b as [w|g]; try apply lfield_found; intro E; apply lbind_ok in E as ([] & _ & E & ->); cbn in E; injection E as <-;
    cbn [quiet fst app]; try apply say_found; reflexivity.
Qed.

Lemma lcompare_from_same c : forall n ns1 ns2,
  snd (lcompare_from FO CO fs1 fs2 s1 s2 ctx n c ns1 ns2) = do r <- compare_from FO CO fs1 fs2 s1 s2 n c ns1 ns2; Ok (fst r).
Proof.
  induction n as [|n IH]; intros ns1 ns2; [reflexivity|]. cbn [lcompare_from compare_from].
  rewrite snd_lbind. cbn [quiet snd]. destruct (next_item FO fs1 s1 ns1) as [p|]; [|reflexivity]. cbn [bind].
  rewrite snd_lbind. cbn [quiet snd]. destruct (next_item FO fs2 s2 ns2) as [q|]; [|reflexivity]. cbn [bind].
  destruct (negb (String.eqb (fst p) (fst q))); [reflexivity|]. destruct (skipped FO c (fst p)); [apply IH|].
  rewrite snd_lbind, ldiffers_same. destruct (differs FO CO fs1 fs2 s1 s2 c (fst p) (snd p) (snd q)) as [d|]; [|reflexivity]. cbn [bind].
  rewrite snd_lbind, IH. destruct (compare_from FO CO fs1 fs2 s1 s2 n c (tl ns1) (tl ns2)) as [r|]; [|reflexivity]. cbn [bind quiet snd].
  destruct d; cbn [andb negb]; [|now rewrite andb_true_r].
  destruct (existsb (String.eqb (fst p)) (c_warn FO c)); cbn [negb]; [now rewrite andb_true_r|now rewrite andb_false_r].
Qed.
Lemma lcompare_from_fair c : forall n ns1 ns2, fair (lcompare_from FO CO fs1 fs2 s1 s2 ctx n c ns1 ns2).
Proof.
  induction n as [|n IH]; intros ns1 ns2; [apply fair_quiet; intros b E; now injection E as <-|]. cbn [lcompare_from]. intros b E.
  apply lbind_ok in E as (p & _ & E & ->). apply lbind_ok in E as (q & _ & E & ->). cbn [quiet fst app].
  destruct (negb (String.eqb (fst p) (fst q))); [cbn in E; injection E as <-; reflexivity|]. destruct (skipped FO c (fst p)); [now apply IH|].
  apply lbind_ok in E as (d & D & E & ->). apply lbind_ok in E as (r & R & E & ->). cbn in E. injection E as <-.
  rewrite !found_app, (ldiffers_found _ _ _ _ _ _ D). apply IH in R. rewrite R. cbn [quiet fst found existsb]. rewrite orb_false_r.
  destruct d; cbn [andb negb orb]; [|now rewrite andb_true_r]. destruct (existsb (String.eqb (fst p)) (c_warn FO c)); cbn [is_found negb orb].
  - now rewrite andb_true_r.
  - now rewrite andb_false_r.
Qed.
Lemma lcompare_from_ctx c : forall n ns1 ns2, only (fun e => e_ctx e = ctx) (lcompare_from FO CO fs1 fs2 s1 s2 ctx n c ns1 ns2).
Proof.
  induction n as [|n IH]; intros ns1 ns2 e I; [destruct I|]. cbn [lcompare_from] in I.
  apply in_lbind in I as [[]|(p & _ & I)]. apply in_lbind in I as [[]|(q & _ & I)].
  destruct (negb (String.eqb (fst p) (fst q))); [destruct I as [<-|[]]; reflexivity|]. destruct (skipped FO c (fst p)); [exact (IH _ _ e I)|].
  apply in_lbind in I as [I|(d & _ & I)].
  - unfold ldiffers in I. destruct (snd p) as [v|f], (snd q) as [w|g];
      try (apply in_lbind in I as [[]|(b & _ & I)]; destruct b; [destruct I as [<-|[]]; reflexivity|destruct I]).
    unfold lfield in I. apply in_lbind in I as [[]|(sh & _ & I)]. destruct sh; [|destruct I as [<-|[]]; reflexivity].
    apply in_lbind in I as [[]|(ks1 & _ & I)]. apply in_lbind in I as [[]|(ks2 & _ & I)]. apply in_lbind in I as [I|((m & t) & _ & I)].
    + now apply lcount_details in I as (_ & A & _).
    + cbn [fst] in I. destruct m; [destruct I|destruct I as [<-|[]]; reflexivity].
  - apply in_lbind in I as [I|(r & _ & [])]. exact (IH _ _ e I).
Qed.
End Two.

Lemma lfields_same ctx r1 r2 s1 s2 c : snd (lfields FO CO ctx r1 r2 s1 s2 c) = fields_same FO CO r1 r2 s1 s2 c.
Proof. apply lcompare_from_same. Qed.
Lemma lfields_fair ctx r1 r2 s1 s2 c : fair (lfields FO CO ctx r1 r2 s1 s2 c).
Proof. apply lcompare_from_fair. Qed.
Lemma lfields_ctx ctx r1 r2 s1 s2 c : only (fun e => e_ctx e = ctx) (lfields FO CO ctx r1 r2 s1 s2 c).
Proof. apply lcompare_from_ctx. Qed.

(** ** Files: the result is the one of C47, and fits the log *)
Section Cfg.
Variable C : fcfg FO.

Lemma tre_log_same ctx t1 t2 : snd (tre_log FO CO C ctx t1 t2) = tre_same FO CO C t1 t2.
Proof.
  destruct t1 as [c1 s1|g1 b1], t2 as [c2 s2|g2 b2]; cbn [tre_log tre_same];
    try (destruct (negb (list_eqb _ _)); [reflexivity|apply lfields_same]).
  destruct (negb (list_eqb g1 g2)); [reflexivity|]. destruct (list_eqb b1 b2); [reflexivity|].
  destruct (utf8_dec b1); [|reflexivity]. destruct (utf8_dec b2); reflexivity.
Qed.
Lemma fair_say ctx w : fair (log _ <- say LFound ctx w; quiet (Ok false)).
Proof. intros b E. cbn in E. injection E as <-. reflexivity. Qed.
Lemma fair_err e : fair (quiet (Err e)).
Proof. intros b E. discriminate E. Qed.
Lemma fair_true : fair (quiet (Ok true)).
Proof. intros b E. cbn in E. now injection E as <-. Qed.
Lemma tre_log_fair ctx t1 t2 : fair (tre_log FO CO C ctx t1 t2).
Proof.
  destruct t1 as [c1 s1|g1 b1], t2 as [c2 s2|g2 b2]; cbn [tre_log];
    try (destruct (negb (list_eqb _ _)); [apply fair_say|apply lfields_fair]).
  destruct (negb (list_eqb g1 g2)); [apply fair_say|]. destruct (list_eqb b1 b2); [apply fair_true|].
  destruct (utf8_dec b1); [|apply fair_err]. destruct (utf8_dec b2); [apply fair_say|apply fair_err].
Qed.

Lemma pairs_log_same {A} (p : A -> A -> lg bool) q : (forall a b, snd (p a b) = q a b) -> forall l1 l2, snd (pairs_log p l1 l2) = pairs_same q l1 l2.
Proof.
  intro H. induction l1 as [|a l1 IH]; intros [|b l2]; try reflexivity. cbn [pairs_log pairs_same].
  rewrite snd_lbind, H. destruct (q a b) as [r|]; [|reflexivity]. cbn [bind]. rewrite snd_lbind, IH.
  destruct (pairs_same q l1 l2); reflexivity.
Qed.
Lemma pairs_log_fair {A} (p : A -> A -> lg bool) : (forall a b, fair (p a b)) -> forall l1 l2, fair (pairs_log p l1 l2).
Proof.
  intro H. induction l1 as [|a l1 IH]; intros [|b l2]; try apply fair_true. cbn [pairs_log]. apply fair_and; [apply H|].
  intros r _ b' E. apply lbind_ok in E as (r' & E1 & E2 & ->). cbn in E2. injection E2 as <-. cbn [quiet fst]. rewrite app_nil_r. now rewrite <- (IH l2 _ E1).
Qed.
Lemma lists_log_same {A} ctx w (p : A -> A -> lg bool) q : (forall a b, snd (p a b) = q a b) -> forall l1 l2, snd (lists_log ctx w p l1 l2) = lists_same q l1 l2.
Proof.
  intros H l1 l2. unfold lists_log, lists_same. rewrite <- (pairs_log_same p q H).
  destruct (Nat.eqb (List.length l1) (List.length l2)); rewrite !snd_lbind; cbn [quiet say snd bind]; destruct (snd (pairs_log p l1 l2)); reflexivity.
Qed.
Lemma lists_log_fair {A} ctx w (p : A -> A -> lg bool) : (forall a b, fair (p a b)) -> forall l1 l2, fair (lists_log ctx w p l1 l2).
Proof.
  intros H l1 l2 b E. unfold lists_log in *. apply lbind_ok in E as (x & _ & E & ->). apply lbind_ok in E as (r & R & E & ->).
  cbn in E. injection E as <-. apply pairs_log_fair in R; [|exact H]. rewrite R, !found_app. cbn [quiet fst]. rewrite orb_false_r, negb_orb. f_equal.
  destruct (Nat.eqb _ _); reflexivity.
Qed.

Lemma sub_log_same ctx k h1 h2 : snd (sub_log FO CO C ctx k h1 h2) = sub_same FO CO C k h1 h2.
Proof.
  unfold sub_log, sub_same. rewrite snd_lbind. cbn [quiet snd]. destruct (skip_pair FO k h1 h2) as [[]|]; try reflexivity. apply lfields_same.
Qed.
Lemma fair_after {A} (r : res A) k : (forall a, fair (k a)) -> fair (log a <- quiet r; k a).
Proof. intros H b E. apply lbind_ok in E as (a & _ & E & ->). now apply H. Qed.
Lemma sub_log_fair ctx k h1 h2 : fair (sub_log FO CO C ctx k h1 h2).
Proof. apply fair_after. intros []; [apply fair_true|apply lfields_fair]. Qed.
Lemma ush_log_same o1 o2 : snd (ush_log FO CO C o1 o2) = ush_same FO CO C o1 o2.
Proof.
  destruct o1 as [u1|]; [|destruct o2; reflexivity]. destruct o2 as [u2|]; [|reflexivity]. cbn [ush_log ush_same].
  destruct (negb _); [reflexivity|]. destruct (fc_ush FO C _); [apply lfields_same|reflexivity].
Qed.
Lemma ush_log_fair o1 o2 : fair (ush_log FO CO C o1 o2).
Proof.
  destruct o1 as [u1|]; [|destruct o2; apply fair_true]. destruct o2 as [u2|]; [|apply fair_err]. cbn [ush_log].
  destruct (negb _); [apply fair_err|]. destruct (fc_ush FO C _); [apply lfields_fair|apply fair_err].
Qed.
Lemma text_log_same ctx d1 d2 : snd (text_log FO ctx d1 d2) = text_same FO d1 d2.
Proof. unfold text_log. rewrite snd_lbind. cbn [quiet snd]. destruct (text_same FO d1 d2) as [[]|]; reflexivity. Qed.
Lemma text_log_fair ctx d1 d2 : fair (text_log FO ctx d1 d2).
Proof. apply fair_after. intros []; [apply fair_true|apply fair_say]. Qed.
Lemma image_log_same ctx h1 h2 b1 b2 : snd (image_log FO fp C ctx h1 h2 b1 b2) = image_same FO fp C h1 h2 b1 b2.
Proof.
  unfold image_log, image_same. rewrite snd_lbind. cbn [quiet snd]. destruct (image_plan FO C h1 b1) as [p1|]; [|reflexivity]. cbn [bind].
  rewrite snd_lbind. cbn [quiet snd]. destruct (image_plan FO C h2 b2) as [p2|]; [|reflexivity]. cbn [bind].
  destruct p1 as [m1|], p2 as [m2|]; try reflexivity. unfold arrays_same.
  destruct (mp_dims m1) as ((nb & nr) & nc), (mp_dims m2) as ((nb' & nr') & nc').
  destruct ((nb =? nb')%Z && (nr =? nr')%Z && (nc =? nc')%Z); cbn [negb andb]; [|reflexivity]. destruct (forallb _ _); reflexivity.
Qed.
Lemma image_log_fair ctx h1 h2 b1 b2 : fair (image_log FO fp C ctx h1 h2 b1 b2).
Proof.
  apply fair_after. intro p1. apply fair_after. intro p2. destruct p1 as [m1|], p2 as [m2|]; try apply fair_err.
  - destruct (mp_dims m1) as ((nb & nr) & nc), (mp_dims m2) as ((nb' & nr') & nc'). destruct (negb (_ && _)); [apply fair_say|].
    destruct (negb _); [apply fair_say|apply fair_true].
  - intros b E. cbn in E. injection E as <-. reflexivity.
Qed.
Lemma data_log_same ctx k h1 h2 d1 d2 : snd (data_log FO CO fp C ctx k h1 h2 d1 d2) = data_same FO CO fp C k h1 h2 d1 d2.
Proof.
  unfold data_log, data_same. destruct d1, d2, k; try reflexivity; try apply text_log_same; try apply image_log_same.
  destruct (negb _); [reflexivity|]. apply lfields_same.
Qed.
Lemma data_log_fair ctx k h1 h2 d1 d2 : fair (data_log FO CO fp C ctx k h1 h2 d1 d2).
Proof.
  unfold data_log. destruct d1, d2, k; try apply fair_err; try apply text_log_fair; try apply image_log_fair;
    try (intros b E; cbn in E; injection E as <-; reflexivity).
  destruct (negb _); [apply fair_err|]. apply lfields_fair.
Qed.

Lemma seg_log_same k s1 s2 : snd (seg_log FO CO fp C k s1 s2) = seg_same FO CO fp C k s1 s2.
Proof.
  unfold seg_log, seg_same. rewrite snd_lbind. cbn [quiet snd]. destruct (skip_pair FO k _ _) as [[]|]; try reflexivity. cbn [bind].
  rewrite snd_lbind. cbn [quiet snd]. destruct (map_res _ (short_fields k)) as [vs|]; [|reflexivity]. cbn [bind]. cbv zeta.
  rewrite snd_lbind, sub_log_same. destruct (sub_same FO CO C k _ _) as [a|]; [|reflexivity]. cbn [bind].
  rewrite snd_lbind, ush_log_same. destruct (ush_same FO CO C _ _) as [b|]; [|reflexivity]. cbn [bind].
  rewrite snd_lbind, (lists_log_same _ _ _ (tre_same FO CO C) (tre_log_same _)). destruct (lists_same _ _ _) as [c|]; [|reflexivity]. cbn [bind].
  rewrite snd_lbind, data_log_same. destruct (data_same FO CO fp C k _ _ _ _) as [d|]; reflexivity.
Qed.
Lemma seg_log_fair k s1 s2 : fair (seg_log FO CO fp C k s1 s2).
Proof.
  apply fair_after. intros []; [apply fair_true|]. apply fair_after. intro vs. cbv zeta.
  intros x E. apply lbind_ok in E as (a & A & E & ->). apply lbind_ok in E as (b & B & E & ->). apply lbind_ok in E as (c & D & E & ->).
  apply lbind_ok in E as (d & F & E & ->). cbn in E. injection E as <-.
  apply sub_log_fair in A. apply ush_log_fair in B. apply lists_log_fair in D; [|apply tre_log_fair]. apply data_log_fair in F. subst a b c d.
  rewrite !found_app. cbn [quiet fst found existsb]. rewrite orb_false_r, !negb_orb. now rewrite !andb_assoc.
Qed.

Lemma kinds_log_same f1 f2 : forall l, snd (kinds_log FO CO fp C l f1 f2) = kinds_same FO CO fp C l f1 f2.
Proof.
  induction l as [|k l IH]; [reflexivity|]. cbn [kinds_log kinds_same]. rewrite snd_lbind, (lists_log_same _ _ _ (seg_same FO CO fp C k) (seg_log_same k)).
  destruct (lists_same _ _ _) as [a|]; [|reflexivity]. cbn [bind]. rewrite snd_lbind, IH. destruct (kinds_same FO CO fp C l f1 f2); reflexivity.
Qed.
Lemma kinds_log_fair f1 f2 : forall l, fair (kinds_log FO CO fp C l f1 f2).
Proof.
  induction l as [|k l IH]; [apply fair_true|]. cbn [kinds_log]. apply fair_and; [apply lists_log_fair, seg_log_fair|].
  intros a _ b E. apply lbind_ok in E as (r & R & E & ->). cbn in E. injection E as <-. apply IH in R. subst r. cbn [quiet fst]. now rewrite app_nil_r.
Qed.
(** Unfolded last when terms are compared, so that tables are not computed with. *)
Strategy 100 [lfields lcompare lcompare_from fields_same lists_log kinds_log].
Definition header_log (f1 f2 : nfile) : lg bool :=
  lfields FO CO (str "NITF File Header") desc_NitfFileHeader desc_NitfFileHeader (h_st (nf_hdr FO f1)) (h_st (nf_hdr FO f2)) (fc_hdr FO C).
Definition tres_log (f1 f2 : nfile) : lg bool :=
  lists_log file_ctx (fun n m => WCount n "file level TREs"%string m) (tre_log FO CO C file_ctx) (kept_tres FO C (nf_tres FO f1)) (kept_tres FO C (nf_tres FO f2)).
Lemma file_log_three f1 f2 : file_log FO CO fp C f1 f2 = three (header_log f1 f2) (tres_log f1 f2) (kinds_log FO CO fp C kinds f1 f2).
Proof. unfold file_log, three, header_log, tres_log. reflexivity. Qed.
Lemma file_log_same f1 f2 : snd (file_log FO CO fp C f1 f2) = file_same FO CO fp C f1 f2.
Proof.
  rewrite file_log_three. unfold file_same. apply three_same.
  - unfold header_log. apply lfields_same.
  - unfold tres_log. apply lists_log_same, tre_log_same.
  - apply kinds_log_same.
Qed.
Lemma file_log_fair f1 f2 : fair (file_log FO CO fp C f1 f2).
Proof.
  rewrite file_log_three. apply fair_three.
  - unfold header_log. apply lfields_fair.
  - unfold tres_log. apply lists_log_fair, tre_log_fair.
  - apply kinds_log_fair.
Qed.

(** The verdict and the log say the same: files are found to differ if and only if a difference
    is logged that is not an ignored one. *)
Theorem C62_verdict f1 f2 b : snd (file_log FO CO fp C f1 f2) = Ok b ->
  b = false <-> exists e, In e (fst (file_log FO CO fp C f1 f2)) /\ e_level e = LFound.
Proof.
  intro E. rewrite <- found_spec, (file_log_fair f1 f2 b E). destruct (found _); cbn; split; congruence.
Qed.
(** The verdict is the one C47 is about. *)
Theorem C62_result f1 f2 : snd (file_log FO CO fp C f1 f2) = file_same FO CO fp C f1 f2.
Proof. apply file_log_same. Qed.

(** ** Where the difference is *)

(** The text that names a segment. *)
Definition named (k : kind) (s : seg) (d : list N) : Prop :=
  let shows nm t := exists v, hget FO (sub_rows k) (s_hdr FO s) nm = Ok v /\ t = conv_str FO v in
  match k with
  | KImage => exists t, shows "iid1"%string t /\ d = str "ImageSegment " ++ t
  | KGraphic => exists t u, shows "sid"%string t /\ shows "sname"%string u /\ d = str "GraphicSegment " ++ t ++ str " """ ++ u ++ str """"
  | KText => exists t, shows "textid"%string t /\ d = str "TextSegment " ++ t
  | KDes => exists t, shows "desid"%string t /\ d = str "DesSegment " ++ t
  | KRes => exists t, shows "resid"%string t /\ d = str "ResSegment " ++ t
  end.
(** Something in TREs [l1] and [l2] differs: their number, or a pair of them. *)
Definition in_tres (d : list N) (l1 l2 : list tre) (w : nat -> nat -> what) (e : entry) : Prop :=
  List.length l1 <> List.length l2 /\ e_ctx e = d /\ e_what e = w (List.length l1) (List.length l2)
  \/ exists i t1 t2, nth_error l1 i = Some t1 /\ nth_error l2 i = Some t2 /\ tre_same FO CO C t1 t2 <> Ok true
       /\ (e_ctx e = d \/ e_ctx e = d ++ str " TRE '" ++ tre_tag FO t1 ++ str "'").
(** The data of a DES is named by its tag behind the segment, except for five classes. *)
Definition des_named (d t : list N) (c : list N) : Prop :=
  t = str "CSATTA" /\ c = str "DesCSATTB"
  \/ (t = str "CSATTB" \/ t = str "CSCSDB" \/ t = str "CSEPHB" \/ t = str "CSSFAB") /\ c = str "Des" ++ t
  \/ c = d ++ str " DES '" ++ t ++ str "'".
Definition in_seg (k : kind) (s1 s2 : seg) (e : entry) : Prop :=
  exists d, named k s1 d /\
  (  sub_same FO CO C k (s_hdr FO s1) (s_hdr FO s2) <> Ok true /\ e_ctx e = d ++ str " Subheader"
  \/ ush_same FO CO C (s_ush FO s1) (s_ush FO s2) <> Ok true /\ (exists u, s_ush FO s1 = Some u /\ e_ctx e = str (uc_name (us_cls FO u)))
  \/ in_tres d (left_tres FO C (s_tres FO s1)) (left_tres FO C (s_tres FO s2)) WTreCount e
  \/ data_same FO CO fp C k (s_hdr FO s1) (s_hdr FO s2) (s_data FO s1) (s_data FO s2) <> Ok true
     /\ (k = KImage /\ e_ctx e = d \/ k = KText /\ e_ctx e = d ++ str " TextStr"
         \/ exists c s x, k = KDes /\ s_data FO s1 = DFields FO c s x /\ des_named d (dc_tag c) (e_ctx e))).

Lemma entry_bad m e : fair m -> In e (fst m) -> e_level e = LFound -> snd m <> Ok true.
Proof. intros F I L. apply fair_found; [exact F|]. apply found_spec. eauto. Qed.
Lemma in_pairs {A} (p : A -> A -> lg bool) e : forall l1 l2, In e (fst (pairs_log p l1 l2)) ->
  exists i a b, nth_error l1 i = Some a /\ nth_error l2 i = Some b /\ In e (fst (p a b)).
Proof.
  induction l1 as [|a l1 IH]; intros [|b l2] I; try destruct I. cbn [pairs_log] in I. apply in_lbind in I as [I|(r & _ & I)].
  - exists O, a, b. split; [reflexivity|]. split; [reflexivity|exact I].
  - apply in_lbind in I as [I|(r' & _ & [])]. destruct (IH l2 I) as (i & x & y & X & Y & I'). exists (S i), x, y. auto.
Qed.
Lemma in_lists {A} ctx w (p : A -> A -> lg bool) e l1 l2 : In e (fst (lists_log ctx w p l1 l2)) ->
  List.length l1 <> List.length l2 /\ e = Entry LFound ctx (w (List.length l1) (List.length l2))
  \/ exists i a b, nth_error l1 i = Some a /\ nth_error l2 i = Some b /\ In e (fst (p a b)).
Proof.
  unfold lists_log. intro I. apply in_lbind in I as [I|(x & _ & I)].
  - left. destruct (Nat.eqb (List.length l1) (List.length l2)) eqn:E; [destruct I|]. destruct I as [<-|[]]. apply Nat.eqb_neq in E. auto.
  - right. apply in_lbind in I as [I|(r & _ & [])]. exact (in_pairs p e l1 l2 I).
Qed.
Lemma tre_ctx ctx t1 t2 e : In e (fst (tre_log FO CO C ctx t1 t2)) -> e_ctx e = ctx \/ e_ctx e = ctx ++ str " TRE '" ++ tre_tag FO t1 ++ str "'".
Proof.
  assert (W : forall t, within ctx (quoted "TRE" t) = ctx ++ str " TRE '" ++ t ++ str "'") by (intro t; reflexivity).
  destruct t1 as [c1 s1|g1 b1], t2 as [c2 s2|g2 b2]; cbn [tre_log];
    try (destruct (negb (list_eqb _ _)); [intros [<-|[]]; now left|]; intro I; right; rewrite <- W; exact (lfields_ctx _ _ _ _ _ _ e I)).
  destruct (negb (list_eqb g1 g2)); [intros [<-|[]]; now left|]. destruct (list_eqb b1 b2); [intros []|].
  destruct (utf8_dec b1); [|intros []]. destruct (utf8_dec b2); [intros [<-|[]]; now left|intros []].
Qed.
Lemma tres_located ctx w l1 l2 e : In e (fst (lists_log ctx w (tre_log FO CO C ctx) l1 l2)) -> e_level e = LFound -> in_tres ctx l1 l2 w e.
Proof.
  intros I L. apply in_lists in I as [(N & ->)|(i & a & b & A & B & I)].
  - left. split; [exact N|]. split; reflexivity.
  - right. exists i, a, b. split; [exact A|]. split; [exact B|]. split; [|now apply (tre_ctx ctx a b)].
    rewrite <- (tre_log_same ctx). exact (entry_bad _ e (tre_log_fair ctx a b) I L).
Qed.
Lemma short_named k s vs : map_res (hget FO (sub_rows k) (s_hdr FO s)) (short_fields k) = Ok vs -> named k s (short_desc FO k vs).
Proof.
  unfold named. destruct k; cbn [short_fields map_res]; intro E; apply bind_ok_elim in E as (v & V & E);
    try (apply bind_ok_elim in E as (x & X & E); injection X as <-; injection E as <-; eexists; split; [exists v; split; [exact V|reflexivity]|reflexivity]).
  apply bind_ok_elim in E as (x & X & E). apply bind_ok_elim in X as (v' & V' & X). apply bind_ok_elim in X as (y & Y & X). injection Y as <-. injection X as <-.
  injection E as <-. eexists. eexists. split; [exists v; split; [exact V|reflexivity]|]. split; [exists v'; split; [exact V'|reflexivity]|reflexivity].
Qed.
Lemma des_ctx_named d t : des_named d t (des_ctx d t).
Proof.
  unfold des_named, des_ctx. destruct (list_eqb t (str "CSATTA")) eqn:E; [left; apply list_eqb_spec in E; auto|].
  destruct (existsb (list_eqb t) _) eqn:E'; [|right; right; reflexivity].
  right. left. apply existsb_exists in E' as (x & I & X). apply list_eqb_spec in X. subst x. split; [|reflexivity].
  destruct I as [<-|[<-|[<-|[<-|[]]]]]; tauto.
Qed.

Lemma seg_located k s1 s2 e : In e (fst (seg_log FO CO fp C k s1 s2)) -> e_level e = LFound -> in_seg k s1 s2 e.
Proof.
  intros I L. unfold seg_log in I. apply in_lbind in I as [[]|(o & _ & I)]. destruct o; [destruct I|].
  apply in_lbind in I as [[]|(vs & V & I)]. cbn [quiet snd] in V. cbv zeta in I. apply short_named in V. set (d := short_desc FO k vs) in *.
  exists d. split; [exact V|]. apply in_lbind in I as [I|(a & _ & I)].
  { left. split; [rewrite <- (sub_log_same d); exact (entry_bad _ e (sub_log_fair d k _ _) I L)|].
    unfold sub_log in I. apply in_lbind in I as [[]|(o & _ & I)]. destruct o; [destruct I|]. exact (lfields_ctx _ _ _ _ _ _ e I). }
  right. apply in_lbind in I as [I|(b & _ & I)].
  { left. split; [rewrite <- ush_log_same; exact (entry_bad _ e (ush_log_fair _ _) I L)|].
    destruct (s_ush FO s1) as [u1|]; [|destruct (s_ush FO s2); destruct I]. exists u1. split; [reflexivity|].
    destruct (s_ush FO s2) as [u2|]; [|destruct I]. cbn [ush_log] in I. destruct (negb _); [destruct I|].
    destruct (fc_ush FO C _); [|destruct I]. exact (lfields_ctx _ _ _ _ _ _ e I). }
  right. apply in_lbind in I as [I|(c & _ & I)]; [left; exact (tres_located d _ _ _ e I L)|].
  right. apply in_lbind in I as [I|(x & _ & [])]. split; [rewrite <- (data_log_same d); exact (entry_bad _ e (data_log_fair d k _ _ _ _) I L)|].
  unfold data_log in I.
  assert (T : forall d1 d2, In e (fst (text_log FO d d1 d2)) -> e_ctx e = d ++ str " TextStr").
  { intros d1 d2 J. unfold text_log in J. apply in_lbind in J as [[]|([] & _ & J)]; [destruct J|]. destruct J as [<-|[]]. reflexivity. }
  assert (M : forall h1 h2 b1 b2, In e (fst (image_log FO fp C d h1 h2 b1 b2)) -> e_ctx e = d).
  { intros h1 h2 b1 b2 J. unfold image_log in J. apply in_lbind in J as [[]|(p1 & _ & J)]. apply in_lbind in J as [[]|(p2 & _ & J)].
    destruct p1 as [m1|], p2 as [m2|]; try destruct J as [<-|[]]; try destruct J; try reflexivity.
    destruct (mp_dims m1) as ((nb & nr) & nc), (mp_dims m2) as ((nb' & nr') & nc'). destruct (negb (_ && _)); [destruct J as [<-|[]]; reflexivity|].
    destruct (negb _); [destruct J as [<-|[]]; reflexivity|destruct J]. }
  destruct (s_data FO s1) as [ | | | | |] eqn:D1, (s_data FO s2) as [ | | | | |] eqn:D2, k; try (destruct I; fail);
    try (right; left; split; [reflexivity|exact (T _ _ I)]); try (left; split; [reflexivity|exact (M _ _ _ _ I)]);
    try (destruct I as [<-|[]]; discriminate L).
  destruct (negb _); [destruct I|]. right. right. eexists. eexists. eexists. split; [reflexivity|]. split; [reflexivity|].
  rewrite (lfields_ctx _ _ _ _ _ _ e I). apply des_ctx_named.
Qed.

Definition seg_words (k : kind) : string :=
  match k with KImage => "image segments" | KGraphic => "graphic segments" | KText => "text segments" | KDes => "des segments" | KRes => "res segments" end.
Definition in_file (f1 f2 : nfile) (e : entry) : Prop :=
  fields_same FO CO desc_NitfFileHeader desc_NitfFileHeader (h_st (nf_hdr FO f1)) (h_st (nf_hdr FO f2)) (fc_hdr FO C) <> Ok true
    /\ e_ctx e = str "NITF File Header"
  \/ in_tres (str "File level") (left_tres FO C (nf_tres FO f1)) (left_tres FO C (nf_tres FO f2)) (fun n m => WCount n "file level TREs"%string m) e
  \/ exists k, let l1 := left_segs FO C k (nf_segs FO f1 k) in let l2 := left_segs FO C k (nf_segs FO f2 k) in
       List.length l1 <> List.length l2 /\ e_ctx e = str "File level" /\ e_what e = WCount (List.length l1) (seg_words k) (List.length l2)
       \/ exists i s1 s2, nth_error l1 i = Some s1 /\ nth_error l2 i = Some s2 /\ seg_same FO CO fp C k s1 s2 <> Ok true /\ in_seg k s1 s2 e.

Lemma segs_located k l1 l2 e : In e (fst (lists_log file_ctx (fun n m => WCount n (kind_desc k) m) (seg_log FO CO fp C k) l1 l2)) -> e_level e = LFound ->
  List.length l1 <> List.length l2 /\ e_ctx e = str "File level" /\ e_what e = WCount (List.length l1) (seg_words k) (List.length l2)
  \/ exists i s1 s2, nth_error l1 i = Some s1 /\ nth_error l2 i = Some s2 /\ seg_same FO CO fp C k s1 s2 <> Ok true /\ in_seg k s1 s2 e.
Proof.
  intros I L. apply in_lists in I as [(N & ->)|(i & a & b & A & B & I)].
  - left. split; [exact N|]. split; [reflexivity|]. destruct k; reflexivity.
  - right. exists i, a, b. split; [exact A|]. split; [exact B|]. split; [|now apply seg_located].
    rewrite <- seg_log_same. exact (entry_bad _ e (seg_log_fair k a b) I L).
Qed.
Lemma in_kinds f1 f2 e : forall l, In e (fst (kinds_log FO CO fp C l f1 f2)) ->
  exists k, In e (fst (lists_log file_ctx (fun n m => WCount n (kind_desc k) m) (seg_log FO CO fp C k)
                                 (left_segs FO C k (nf_segs FO f1 k)) (left_segs FO C k (nf_segs FO f2 k)))).
Proof.
  induction l as [|k l IH]; intro I; [destruct I|]. cbn [kinds_log] in I. apply in_lbind in I as [I|(a & _ & I)]; [exists k; exact I|].
  apply in_lbind in I as [I|(b & _ & [])]. exact (IH I).
Qed.

(** Every difference logged belongs to a part of the file that is not the same in both, and the
    context names this part.  This holds as well if the comparison is ended by an exception. *)
Theorem C62_located_partial f1 f2 e : In e (fst (file_log FO CO fp C f1 f2)) -> e_level e = LFound -> in_file f1 f2 e.
Proof.
  intros I L. rewrite file_log_three in I. apply in_three in I as [I|[I|I]]; unfold header_log, tres_log in I.
  - left. split; [|exact (lfields_ctx _ _ _ _ _ _ e I)].
    rewrite <- (lfields_same (str "NITF File Header")). exact (entry_bad _ e (lfields_fair _ _ _ _ _ _) I L).
  - right. left. exact (tres_located file_ctx _ _ _ e I L).
  - right. right. apply in_kinds in I as (k & I). exists k. cbv zeta. exact (segs_located k _ _ e I L).
Qed.

(** ** Nothing goes unmentioned *)

Lemma pairs_told {A} (p : A -> A -> lg bool) : forall l1 l2 r, snd (pairs_log p l1 l2) = Ok r ->
  forall i a b, nth_error l1 i = Some a -> nth_error l2 i = Some b -> (exists x, snd (p a b) = Ok x) /\ incl (fst (p a b)) (fst (pairs_log p l1 l2)).
Proof.
  induction l1 as [|x l1 IH]; intros l2 r E i a b A' B; [destruct i; discriminate A'|].
  destruct l2 as [|y l2]; [destruct i; discriminate B|]. cbn [pairs_log] in E |- *. apply lbind_ok in E as (q & Q & E & ->).
  apply lbind_ok in E as (q' & Q' & E & ->). destruct i as [|i].
  - cbn in A', B. injection A' as <-. injection B as <-. split; [eauto|]. intros e I. apply in_or_app. now left.
  - cbn in A', B. destruct (IH l2 q' Q' i a b A' B) as (X & Y). split; [exact X|]. intros e I. apply in_or_app. right. apply in_or_app. left. now apply Y.
Qed.
Lemma lists_told {A} ctx w (p : A -> A -> lg bool) l1 l2 r : snd (lists_log ctx w p l1 l2) = Ok r ->
  forall i a b, nth_error l1 i = Some a -> nth_error l2 i = Some b -> (exists x, snd (p a b) = Ok x) /\ incl (fst (p a b)) (fst (lists_log ctx w p l1 l2)).
Proof.
  unfold lists_log. intros E i a b A' B. apply lbind_ok in E as (x & X & E & ->). apply lbind_ok in E as (q & Q & E & ->).
  destruct (pairs_told p l1 l2 q Q i a b A' B) as (Y & I). split; [exact Y|]. intros e H. apply in_or_app. right. apply in_or_app. left. now apply I.
Qed.
Lemma kinds_told f1 f2 : forall l r, snd (kinds_log FO CO fp C l f1 f2) = Ok r -> forall k, In k l ->
  let m := lists_log file_ctx (fun n m => WCount n (kind_desc k) m) (seg_log FO CO fp C k) (left_segs FO C k (nf_segs FO f1 k)) (left_segs FO C k (nf_segs FO f2 k)) in
  (exists x, snd m = Ok x) /\ incl (fst m) (fst (kinds_log FO CO fp C l f1 f2)).
Proof.
  induction l as [|k' l IH]; intros r E k I; [destruct I|]. cbn [kinds_log] in E |- *. apply lbind_ok in E as (a & A & E & ->).
  apply lbind_ok in E as (b & B & E & ->). destruct I as [->|I].
  - split; [eauto|]. intros e J. apply in_or_app. now left.
  - destruct (IH b B k I) as (X & Y). split; [exact X|]. intros e J. apply in_or_app. right. apply in_or_app. left. now apply Y.
Qed.

(** If the comparison ends without an exception, each pair of segments found to differ has a
    difference of its own in the log, and so have the file header and the TREs of the file. *)
Theorem C62_told f1 f2 b : snd (file_log FO CO fp C f1 f2) = Ok b ->
  (fields_same FO CO desc_NitfFileHeader desc_NitfFileHeader (h_st (nf_hdr FO f1)) (h_st (nf_hdr FO f2)) (fc_hdr FO C) = Ok false ->
     exists e, In e (fst (file_log FO CO fp C f1 f2)) /\ e_level e = LFound /\ e_ctx e = str "NITF File Header")
  /\ (forall i t1 t2, nth_error (left_tres FO C (nf_tres FO f1)) i = Some t1 -> nth_error (left_tres FO C (nf_tres FO f2)) i = Some t2 ->
        tre_same FO CO C t1 t2 = Ok false -> exists e, In e (fst (file_log FO CO fp C f1 f2)) /\ e_level e = LFound
          /\ (e_ctx e = str "File level" \/ e_ctx e = str "File level" ++ str " TRE '" ++ tre_tag FO t1 ++ str "'"))
  /\ forall k i s1 s2, nth_error (left_segs FO C k (nf_segs FO f1 k)) i = Some s1 -> nth_error (left_segs FO C k (nf_segs FO f2 k)) i = Some s2 ->
        seg_same FO CO fp C k s1 s2 = Ok false -> exists e, In e (fst (file_log FO CO fp C f1 f2)) /\ e_level e = LFound /\ in_seg k s1 s2 e.
Proof.
  assert (F : forall m, fair m -> snd m = Ok false -> exists e, In e (fst m) /\ e_level e = LFound).
  { intros m Hm E. apply found_spec. apply Hm in E. destruct (found (fst m)); [reflexivity|discriminate E]. }
  rewrite file_log_three. intro E. apply three_told in E as (_ & (y & Y) & (z & Z) & I1 & I2 & I3). unfold tres_log in Y.
  split; [|split].
  - intro H. rewrite <- (lfields_same (str "NITF File Header")) in H. destruct (F _ (lfields_fair _ _ _ _ _ _) H) as (e & I & L).
    exists e. split; [apply I1; unfold header_log; exact I|]. split; [exact L|]. exact (lfields_ctx _ _ _ _ _ _ e I).
  - intros i t1 t2 T1 T2 H. destruct (lists_told _ _ _ _ _ _ Y i t1 t2 T1 T2) as (_ & J). rewrite <- (tre_log_same file_ctx) in H.
    destruct (F _ (tre_log_fair _ _ _) H) as (e & I & L). exists e. split; [apply I2; unfold tres_log; apply J; exact I|].
    split; [exact L|]. exact (tre_ctx _ _ _ e I).
  - intros k i s1 s2 S1 S2 H. assert (K : In k kinds) by (destruct k; cbn; tauto). destruct (kinds_told _ _ _ _ Z k K) as ((r & R) & J).
    destruct (lists_told _ _ _ _ _ _ R i s1 s2 S1 S2) as (_ & J'). rewrite <- seg_log_same in H.
    destruct (F _ (seg_log_fair _ _ _) H) as (e & I & L). exists e.
    split; [apply I3, J, J'; exact I|]. split; [exact L|]. now apply seg_located.
Qed.
(** Data that was not read on either side and so not compared. *)
Definition unread (s1 s2 : seg) (w : what) : Prop :=
  match s_data FO s1, s_data FO s2 with
  | DHole _ _, DHole _ _ => w = WSkipData
  | DFile _ b1, DFile _ b2 => image_plan FO C (s_hdr FO s1) b1 = Ok None /\ image_plan FO C (s_hdr FO s2) b2 = Ok None /\ w = WSkipImage
  | _, _ => False
  end.
Lemma seg_unread k s1 s2 b w : snd (seg_log FO CO fp C k s1 s2) = Ok b -> (k = KDes -> is_overflow FO (s_hdr FO s1) <> Ok true) ->
  unread s1 s2 w -> exists d, named k s1 d /\ In (Entry LWarn d w) (fst (seg_log FO CO fp C k s1 s2)).
Proof.
  unfold seg_log. intros E O U. apply lbind_ok in E as (o & Eo & E & ->). cbn [quiet snd] in Eo. destruct o.
  { exfalso. destruct k; try discriminate Eo. apply O; [reflexivity|]. cbn [skip_pair] in Eo. unfold both_overflow in Eo. unfold is_overflow.
    apply bind_ok_elim in Eo as (v & -> & Eo). apply bind_ok_elim in Eo as (a & A & Eo). destruct a; [|discriminate Eo].
    cbn [bind]. destruct v; try discriminate A. cbn in A. injection A as A. apply list_eqb_spec in A. rewrite A. vm_compute. reflexivity. }
  apply lbind_ok in E as (vs & V & E & ->). cbn [quiet snd] in V. apply short_named in V. cbv zeta in E |- *.
  set (d := short_desc FO k vs) in *. exists d. split; [exact V|].
  apply lbind_ok in E as (a & _ & E & ->). apply lbind_ok in E as (x & _ & E & ->). apply lbind_ok in E as (c & _ & E & ->). apply lbind_ok in E as (y & Y & E & ->).
  rewrite !in_app_iff. right. right. right. right. right. left. revert Y. unfold data_log. unfold unread in U.
  destruct (s_data FO s1); try destruct U; destruct (s_data FO s2); try destruct U; [|intros _; left; reflexivity].
  rename H into U1. destruct H0 as (U2 & ->). destruct k; try (intro Y; discriminate Y). intros _. unfold image_log. rewrite U1, U2. left. reflexivity.
Qed.
(** If the comparison ends without an exception, each pair of segments whose data was not read
    on either side has a warning in the log, with the description of the segment. *)
Theorem C62_unread f1 f2 b k i s1 s2 w : snd (file_log FO CO fp C f1 f2) = Ok b ->
  nth_error (left_segs FO C k (nf_segs FO f1 k)) i = Some s1 -> nth_error (left_segs FO C k (nf_segs FO f2 k)) i = Some s2 ->
  (k = KDes -> is_overflow FO (s_hdr FO s1) <> Ok true) -> unread s1 s2 w ->
  exists d, named k s1 d /\ In (Entry LWarn d w) (fst (file_log FO CO fp C f1 f2)).
Proof.
  rewrite file_log_three. intros E S1 S2 O U. apply three_told in E as (_ & _ & (z & Z) & _ & _ & I3).
  assert (K : In k kinds) by (destruct k; cbn; tauto). destruct (kinds_told _ _ _ _ Z k K) as ((r & R) & J).
  destruct (lists_told _ _ _ _ _ _ R i s1 s2 S1 S2) as ((q & Q) & J'). destruct (seg_unread k s1 s2 q w Q O U) as (d & D & I).
  exists d. split; [exact D|]. apply I3, J, J'. exact I.
Qed.
End Cfg.

(** ** Fields *)

(** The fields the log reports as different, in order. *)
Definition reports (l : list entry) : list report :=
  flat_map (fun e => match e_level e, e_what e with
                     | LFound, (WValue nm | WShape nm | WArray nm _ _) => [RDiff nm]
                     | LIgnored, (WValue nm | WShape nm | WArray nm _ _) => [RIgnored nm]
                     | LFound, WStop a b => [RStop a b]
                     | _, _ => []
                     end) l.
Lemma reports_app a b : reports (a ++ b) = reports a ++ reports b.
Proof. apply flat_map_app. Qed.
Lemma reports_details l : (forall e, In e l -> e_level e = LDetail) -> reports l = [].
Proof.
  induction l as [|e l IH]; intro H; [reflexivity|]. unfold reports in *. cbn [flat_map]. rewrite (H e (or_introl eq_refl)). apply IH. intros x I. apply H. now right.
Qed.
Definition report_at (lv : level) (nm : string) : list report := match lv with LFound => [RDiff nm] | LIgnored => [RIgnored nm] | _ => [] end.
Lemma ldiffers_reports fs1 fs2 s1 s2 ctx lv c nm a b d : snd (ldiffers FO CO fs1 fs2 s1 s2 ctx lv c nm a b) = Ok d ->
  reports (fst (ldiffers FO CO fs1 fs2 s1 s2 ctx lv c nm a b)) = if d then report_at lv nm else [].
Proof.
  unfold ldiffers. destruct a as [v|f], b as [w|g];
    try (intro E; apply lbind_ok in E as ([] & _ & E & ->); cbn in E; injection E as <-; [destruct lv|]; reflexivity).
  unfold lfield. intro E. apply lbind_ok in E as (sh & _ & E & ->). cbn [quiet fst app]. destruct sh; [|cbn in E; injection E as <-; destruct lv; reflexivity].
  apply lbind_ok in E as (ks1 & _ & E & ->). cbn [quiet fst app]. apply lbind_ok in E as (ks2 & _ & E & ->). cbn [quiet fst app].
  apply lbind_ok in E as ((n & t) & _ & E & ->). rewrite reports_app.
  rewrite reports_details; [|intros e I; now apply lcount_details in I as (A & _)]. cbn [app fst snd] in *.
  destruct n; cbn in E; injection E as <-; [reflexivity|destruct lv; reflexivity].
Qed.
(** What the log says of the fields is what C40 is about. *)
Theorem C62_reports fs1 fs2 s1 s2 ctx c b : snd (lcompare FO CO fs1 fs2 s1 s2 ctx c) = Ok b ->
  compare FO CO fs1 fs2 s1 s2 c = Ok (b, reports (fst (lcompare FO CO fs1 fs2 s1 s2 ctx c))).
Proof.
  unfold lcompare, compare. revert b. generalize (dict_names fs2) as ns2. generalize (dict_names fs1) as ns1. intros ns1 ns2.
  generalize (Nat.max (List.length ns1) (List.length ns2)) as n. intro n. revert ns1 ns2.
  induction n as [|n IH]; intros ns1 ns2 b E; [cbn in E; injection E as <-; reflexivity|]. cbn [lcompare_from compare_from] in *.
  apply lbind_ok in E as (p & P & E & ->). apply lbind_ok in E as (q & Q & E & ->). cbn [quiet snd fst app] in *. rewrite P, Q. cbn [bind].
  destruct (negb (String.eqb (fst p) (fst q))); [cbn in E; injection E as <-; reflexivity|]. destruct (skipped FO c (fst p)); [now apply IH|].
  apply lbind_ok in E as (d & D & E & ->). apply lbind_ok in E as (r & R & E & ->). cbn in E. injection E as <-.
  rewrite !reports_app, (ldiffers_reports _ _ _ _ _ _ _ _ _ _ _ D). rewrite ldiffers_same in D. rewrite D. cbn [bind]. rewrite (IH _ _ _ R). cbn [bind fst snd quiet].
  change (reports []) with (@nil report). rewrite app_nil_r. destruct d; cbn [andb negb]; [|now rewrite andb_true_r].
  destruct (existsb (String.eqb (fst p)) (c_warn FO c)); cbn [negb report_at app]; [now rewrite andb_true_r|now rewrite andb_false_r].
Qed.

(** ** Elements of arrays *)
Section Arrays.
Variable fs : fstruct.
Variables s1 s2 : state.
Variable ctx : list N.
Variable c : config.

Lemma lcount_ok nm f cmp : forall ks r, snd (lcount FO fs fs s1 s2 ctx nm f f cmp ks ks) = Ok r ->
  snd r = List.length ks /\ fst r = List.length (fst (lcount FO fs fs s1 s2 ctx nm f f cmp ks ks))
  /\ forall k, In (Entry LDetail ctx (WElem nm k)) (fst (lcount FO fs fs s1 s2 ctx nm f f cmp ks ks)) <->
       In k ks /\ exists v w, fget FO fs s1 f k = Ok v /\ fget FO fs s2 f k = Ok w /\ cmp v w = Ok false.
Proof.
  induction ks as [|k ks IH]; intros r E.
  - cbn in E. injection E as <-. split; [reflexivity|]. split; [reflexivity|]. intro k. cbn. tauto.
  - cbn [lcount tl] in E |- *. apply lbind_ok in E as (a & A & E & ->). apply lbind_ok in E as (b & B & E & ->). apply lbind_ok in E as (q & Q & E & ->).
    cbn [quiet snd fst app] in A, B, Q |- *. apply lbind_ok in E as (x & X & E & ->). apply lbind_ok in E as (n & N & E & ->). cbn in E. injection E as <-.
    destruct (IH n N) as (T & D & I). cbn [fst snd quiet]. rewrite app_nil_r, app_length, T. split; [reflexivity|]. split.
    + rewrite D. destruct q; reflexivity.
    + intro k'. rewrite in_app_iff, I. destruct q; cbn [quiet say fst In].
      * split; [intros [[]|(J & v & w & V)]; split; [now right|eauto]|]. intros ([<-|J] & v & w & V & W & Z); [|right; split; [exact J|eauto]].
        rewrite A in V. rewrite B in W. injection V as <-. injection W as <-. rewrite Q in Z. discriminate Z.
      * split.
        -- intros [[J|[]]|(J & v & w & V)]; [|split; [now right|eauto]]. injection J as <-. split; [now left|]. exists a, b. auto.
        -- intros ([<-|J] & v & w & V & W & Z); [left; now left|right; split; [exact J|eauto]].
Qed.

(** The entries about one field. *)
Definition lvl (nm : string) : level := if existsb (String.eqb nm) (c_warn FO c) then LIgnored else LFound.
Definition lstep (nm : string) : lg bool :=
  log a <- quiet (getattr FO fs s1 nm); log b <- quiet (getattr FO fs s2 nm);
  if skipped FO c nm then quiet (Ok false) else ldiffers FO CO fs fs s1 s2 ctx (lvl nm) c nm a b.
Lemma lsteps ns : forall n b, n = List.length ns -> snd (lcompare_from FO CO fs fs s1 s2 ctx n c ns ns) = Ok b ->
  fst (lcompare_from FO CO fs fs s1 s2 ctx n c ns ns) = flat_map (fun nm => fst (lstep nm)) ns
  /\ forall nm, In nm ns -> exists d, snd (lstep nm) = Ok d.
Proof.
  induction ns as [|nm ns IH]; intros n b -> E; [split; [reflexivity|intros nm []]|]. cbn [List.length lcompare_from flat_map] in *.
  apply lbind_ok in E as (p & P & E & ->). apply lbind_ok in E as (q & Q & E & ->). cbn [quiet snd fst app next_item tl] in *.
  apply bind_ok_elim in P as (x & X & P). injection P as <-. apply bind_ok_elim in Q as (y & Y & Q). injection Q as <-. cbn [fst snd] in *.
  rewrite String.eqb_refl in *. cbn [negb] in *.
  assert (S : lstep nm = if skipped FO c nm then quiet (Ok false) else ldiffers FO CO fs fs s1 s2 ctx (lvl nm) c nm x y).
  { unfold lstep. rewrite X, Y. cbn [quiet lbind fst snd app]. destruct (skipped FO c nm); [reflexivity|]. apply surjective_pairing || (symmetry; apply surjective_pairing). }
  destruct (skipped FO c nm) eqn:Sk.
  - destruct (IH _ b eq_refl E) as (F & G). rewrite F, S. split; [reflexivity|]. intros z [<-|I]; [rewrite S; exists false; reflexivity|now apply G].
  - apply lbind_ok in E as (d & D & E & ->). apply lbind_ok in E as (r & R & E & ->). destruct (IH _ r eq_refl R) as (F & G).
    change (if existsb (String.eqb nm) (c_warn FO c) then LIgnored else LFound) with (lvl nm) in *. rewrite <- S in *. rewrite F. cbn [quiet fst]. rewrite app_nil_r.
    split; [reflexivity|]. intros z [<-|I]; [eauto|now apply G].
Qed.

(** What an entry says about which field. *)
Definition names (nm : string) (e : entry) : Prop :=
  match e_what e with WValue n | WShape n | WArray n _ _ | WElem n _ => n = nm | _ => False end.
Lemma ldiffers_names lv nm a b : only (names nm) (ldiffers FO CO fs fs s1 s2 ctx lv c nm a b).
Proof.
  intros e I. unfold ldiffers in I. destruct a as [v|f], b as [w|g];
    try (apply in_lbind in I as [[]|(x & _ & I)]; destruct x; [destruct I as [<-|[]]; reflexivity|destruct I]).
  unfold lfield in I. apply in_lbind in I as [[]|(sh & _ & I)]. destruct sh; [|destruct I as [<-|[]]; reflexivity].
  apply in_lbind in I as [[]|(ks1 & _ & I)]. apply in_lbind in I as [[]|(ks2 & _ & I)]. apply in_lbind in I as [I|((m & t) & _ & I)].
  - apply lcount_details in I as (_ & _ & k & _ & W). unfold names. now rewrite W.
  - cbn [fst] in I. destruct m; [destruct I|destruct I as [<-|[]]; reflexivity].
Qed.
Lemma lstep_names nm : only (names nm) (lstep nm).
Proof.
  intros e I. unfold lstep in I. apply in_lbind in I as [[]|(a & _ & I)]. apply in_lbind in I as [[]|(b & _ & I)].
  destruct (skipped FO c nm); [destruct I|]. exact (ldiffers_names _ _ _ _ e I).
Qed.

Lemma only_step b nm : snd (lcompare FO CO fs fs s1 s2 ctx c) = Ok b -> In nm (dict_names fs) ->
  (exists d, snd (lstep nm) = Ok d) /\ (forall e, names nm e -> In e (fst (lcompare FO CO fs fs s1 s2 ctx c)) <-> In e (fst (lstep nm)))
  /\ filter (fun e => match e_what e with WElem n _ => String.eqb nm n | _ => false end) (fst (lcompare FO CO fs fs s1 s2 ctx c))
     = filter (fun e => match e_what e with WElem n _ => String.eqb nm n | _ => false end) (fst (lstep nm)).
Proof.
  unfold lcompare. rewrite Nat.max_id. intros E I. destruct (lsteps _ _ b eq_refl E) as (F & G). split; [now apply G|].
  assert (U : forall e nm', names nm e -> names nm' e -> nm' = nm) by (unfold names; intros e nm' X Y; destruct (e_what e); try contradiction; congruence).
  rewrite F. split.
  - intros e N. rewrite in_flat_map. split; [|eauto]. intros (nm' & _ & J). now rewrite <- (U e nm' N (lstep_names nm' e J)).
  - pose proof (dict_names_nodup fs) as ND. clear E F G. induction (dict_names fs) as [|x l IH]; [destruct I|]. cbn [flat_map]. rewrite filter_app.
    assert (Z : forall y, y <> nm -> filter (fun e => match e_what e with WElem n _ => String.eqb nm n | _ => false end) (fst (lstep y)) = []).
    { intros y Hy. assert (H : forall e, In e (fst (lstep y)) -> names y e) by (intros e J; now apply lstep_names).
      induction (fst (lstep y)) as [|e r IH']; [reflexivity|]. cbn [filter]. rewrite IH' by (intros; apply H; now right).
      pose proof (H e (or_introl eq_refl)) as N. unfold names in N. destruct (e_what e); try reflexivity. subst nm0.
      destruct (String.eqb nm y) eqn:X; [apply String.eqb_eq in X; congruence|reflexivity]. }
    inversion_clear ND as [|? ? N1 N2]. destruct (String.eqb x nm) eqn:X.
    + apply String.eqb_eq in X. subst x. rewrite <- (app_nil_r (filter _ (fst (lstep nm)))) at 2. f_equal. clear IH I.
      induction l as [|y l IH]; [reflexivity|]. cbn [flat_map]. rewrite filter_app, Z; [|intros ->; apply N1; now left]. apply IH; [|now inversion_clear N2].
      intro J. apply N1. now right.
    + destruct I as [->|I]; [rewrite String.eqb_refl in X; discriminate X|]. rewrite Z; [|intros ->; rewrite String.eqb_refl in X; discriminate X]. exact (IH I N2).
Qed.

(** Arrays, unless their shapes are reported: the elements logged are exactly those that differ,
    and the summary counts them. *)
Theorem C62_elements b nm f ks : snd (lcompare FO CO fs fs s1 s2 ctx c) = Ok b -> lookup fs nm = Some f -> f_loops f <> [] -> nonfloat f ->
  looked_at FO c nm -> c_eq FO c nm = None -> field_keys FO fs s1 f = Ok ks -> field_keys FO fs s2 f = Ok ks ->
  let l := fst (lcompare FO CO fs fs s1 s2 ctx c) in
  In (Entry (lvl nm) ctx (WShape nm)) l
  \/ (forall k, In (Entry LDetail ctx (WElem nm k)) l <-> In k ks /\ exists v w, fget FO fs s1 f k = Ok v /\ fget FO fs s2 f k = Ok w /\ v <> w)
     /\ (forall lv d t, In (Entry lv ctx (WArray nm d t)) l <->
          lv = lvl nm /\ t = List.length ks /\ d <> O
          /\ d = List.length (filter (fun e => match e_what e with WElem n _ => String.eqb nm n | _ => false end) l)).
Proof.
  intros E L Sh NF LA CE K1 K2 l. assert (I : In nm (dict_names fs)) by (apply dict_names_lookup; eauto).
  destruct (only_step b nm E I) as ((d & D) & M & Fl). unfold l. rewrite Fl. clear Fl.
  assert (N : forall w, match w with WValue n | WShape n | WArray n _ _ | WElem n _ => n = nm | _ => False end -> forall lv c', names nm (Entry lv c' w)) by (intros w H lv c'; exact H).
  rewrite (M _ (N (WShape nm) eq_refl _ _)). setoid_rewrite (fun k => M _ (N (WElem nm k) eq_refl LDetail ctx)).
  setoid_rewrite (fun lv d t => M _ (N (WArray nm d t) eq_refl lv ctx)). clear M N.
  apply skipped_spec in LA. unfold lstep in *. rewrite LA, !(getattr_fld FO _ _ _ _ L Sh) in *. cbn [quiet lbind fst snd app ldiffers] in *.
  unfold lfield in *. apply lbind_ok in D as (sh & S & D & ->). cbn [quiet fst app]. destruct sh; [right|left; now left].
  rewrite K1, K2 in *. apply lbind_ok in D as (x & X & D & ->). cbn [quiet snd] in X. injection X as <-. cbn [quiet fst app].
  apply lbind_ok in D as (x & X & D & ->). cbn [quiet snd] in X. injection X as <-. cbn [quiet fst app].
  apply lbind_ok in D as (r & R & D & ->). pose proof (lcount_ok nm f _ ks r R) as (T & Dn & El).
  pose proof (lcount_details fs fs s1 s2 ctx nm f f (cmp_fun FO CO c nm match fd_ty (f_d f) with TFloat => true | _ => false end) ks ks) as Det.
  set (m := fst (lcount FO fs fs s1 s2 ctx nm f f _ ks ks)) in *.
  assert (Fm : filter (fun e => match e_what e with WElem n _ => String.eqb nm n | _ => false end) m = m).
  { unfold only in Det. clear - Det. fold m in Det. induction m as [|e m IH]; [reflexivity|]. cbn [filter].
    destruct (Det e (or_introl eq_refl)) as (_ & _ & k & _ & W). rewrite W, String.eqb_refl. f_equal. apply IH. intros x J. apply Det. now right. }
  assert (Nf : match fd_ty (f_d f) with TFloat => true | _ => false end = false) by (destruct NF as (A & _); destruct (fd_ty (f_d f)); congruence).
  assert (El' : forall k, In (Entry LDetail ctx (WElem nm k)) m <-> In k ks /\ exists v w, fget FO fs s1 f k = Ok v /\ fget FO fs s2 f k = Ok w /\ v <> w).
  { intro k. rewrite El. unfold cmp_fun. rewrite CE, Nf. split; intros (J & v & w & V & W & Q); (split; [exact J|]); exists v, w; (split; [exact V|]); (split; [exact W|]).
    - injection Q as Q. intros ->. rewrite py_eq_refl in Q; [discriminate Q|]. intros x ->. destruct (fget_plain FO _ _ _ _ _ NF V).
    - f_equal. destruct (py_eq FO CO v w) eqn:P; [|reflexivity]. exfalso. apply Q.
      exact (py_eq_plain FO CO v w (fget_plain FO _ _ _ _ _ NF V) (fget_plain FO _ _ _ _ _ NF W) P). }
  assert (Na : forall lv d' t, ~ In (Entry lv ctx (WArray nm d' t)) m).
  { intros lv d' t J. destruct (Det _ J) as (_ & _ & k & _ & W). discriminate W. }
  split.
  - intro k. rewrite in_app_iff, <- El'. split; [|now left]. intros [J|J]; [exact J|]. destruct (fst r); [destruct J|destruct J as [J|[]]; discriminate J].
  - intros lv d' t. rewrite in_app_iff, filter_app, Fm. fold m in Dn. destruct (fst r) as [|n] eqn:Er.
    + cbn [quiet fst filter In]. rewrite app_nil_r, <- Dn. split; [intros [J|[]]; now apply Na in J|]. intros (_ & _ & Z & ->). now destruct Z.
    + cbn [say quiet lbind fst app filter e_what In]. rewrite app_nil_r, <- Dn, T. split.
      * intros [J|[J|[]]]; [now apply Na in J|]. injection J as <- <- <-. split; [reflexivity|]. split; [reflexivity|]. split; [discriminate|reflexivity].
      * intros (-> & -> & _ & ->). right. now left.
Qed.
End Arrays.
End P.

(** ** The tool *)

(** Exit status 0 means that the comparison took place and found the files to be the same. *)
Theorem C62_status o m : r_status (nitf_diff o m) = 0%Z <-> snd m = Ok true.
Proof. cbn [nitf_diff r_status]. destruct (snd m) as [[]|]; split; congruence. Qed.

Lemma shown_found t l : (t <= 39)%Z -> (exists e, In (LEntry e) (shown t l) /\ e_level e = LFound) <-> exists e, In e l /\ e_level e = LFound.
Proof.
  intro T. unfold shown. split.
  - intros (e & I & L). apply in_map_iff in I as (x & X & I). injection X as ->. apply filter_In in I as (I & _). eauto.
  - intros (e & I & L). exists e. split; [|exact L]. apply in_map, filter_In. split; [exact I|]. rewrite L. cbn [level_no]. lia.
Qed.
(** Unless told to be quiet the tool prints a difference if it ends with status 1 without an
    exception, and none if it ends with status 0; it ends with the verdict. *)
Theorem C62_screen FO (CO : CmpOps FO) fp C o f1 f2 b : snd (file_log FO CO fp C f1 f2) = Ok b ->
  o_quiet o = false -> o_only o = false -> let r := nitf_diff o (file_log FO CO fp C f1 f2) in
  ((exists e, In (LEntry e) (r_screen r) /\ e_level e = LFound) <-> r_status r = 1%Z)
  /\ exists l, r_screen r = l ++ [if b then LSame else LDiffer] /\ ~ In LSame l /\ ~ In LDiffer l.
Proof.
  intros E Q O r. pose proof (C62_verdict FO CO fp C f1 f2 b E) as V. unfold r. clear r. generalize dependent (file_log FO CO fp C f1 f2). intros m E V.
  cbn [nitf_diff r_screen r_status]. rewrite E, Q, O. assert (T : (threshold o <= 39)%Z) by (unfold threshold; rewrite Q; destruct (o_debug o), (o_verbose o); lia).
  split.
  - rewrite <- (shown_found (threshold o) (fst m) T) in V. destruct b; cbn [fst].
    + split; [|intro X; discriminate X]. intros (e & I & L). apply in_app_or in I as [I|[I|[]]]; [|discriminate I]. destruct V as (_ & V). discriminate V. eauto.
    + split; [reflexivity|]. intros _. destruct V as (V & _). destruct (V eq_refl) as (e & I & L). exists e. split; [apply in_or_app; now left|exact L].
  - exists (shown (threshold o) (fst m)). split; [destruct b; reflexivity|].
    unfold shown. split; intro I; apply in_map_iff in I as (x & X & _); discriminate X.
Qed.
(** Which messages of the comparison reach the screen: all with [--debug] or [--verbose];
    otherwise, unless told to be quiet, all but the single elements of arrays. *)
Theorem C62_shown o m e : In (LEntry e) (r_screen (nitf_diff o m))
  <-> In e (fst m) /\ o_only o = false
      /\ (o_debug o = true \/ o_verbose o = true \/ (o_quiet o = false /\ e_level e <> LDetail)).
Proof.
  cbn [nitf_diff r_screen]. rewrite in_app_iff.
  assert (N : ~ In (LEntry e) (fst match snd m with
                  | Ok false => (if o_quiet o then [] else [LDiffer], [LDiffer])
                  | Ok true => if o_quiet o then ([], []) else ([LSame], [LSame])
                  | Err _ => ([], [])
                  end)).
  { destruct (snd m) as [[]|], (o_quiet o); cbn [fst In]; intros I; repeat destruct I as [I|I]; try discriminate I; destruct I. }
  destruct (o_only o).
  { cbn [In]. split; [intros [[]|I]; now apply N in I|]. intros (_ & X & _). discriminate X. }
  unfold shown. rewrite in_map_iff. split.
  - intros [(x & X & I)|I]; [|now apply N in I]. injection X as ->. apply filter_In in I as (I & T).
    split; [exact I|]. split; [reflexivity|]. apply Z.leb_le in T. unfold threshold in T.
    destruct (o_debug o); [now left|]. destruct (o_verbose o); [right; now left|]. right; right.
    destruct (o_quiet o); [|split; [reflexivity|]]; destruct (e_level e); cbn [level_no] in T; try lia; discriminate.
  - intros (I & _ & T). left. exists e. split; [reflexivity|]. apply filter_In. split; [exact I|]. apply Z.leb_le. unfold threshold.
    destruct (o_debug o); [destruct (e_level e); cbn; lia|]. destruct (o_verbose o); [destruct (e_level e); cbn; lia|].
    destruct T as [T|[T|(Q & L)]]; try discriminate T. rewrite Q. destruct (e_level e); cbn [level_no]; try lia. now destruct L.
Qed.
(** There is a log file if one of its two options is given; the same messages reach it. *)
Theorem C62_log_file o m : (r_file (nitf_diff o m) = None <-> o_file o = false /\ o_only o = false)
  /\ forall l e, r_file (nitf_diff o m) = Some l -> (In (LEntry e) l
       <-> In e (fst m) /\ (o_debug o = true \/ o_verbose o = true \/ (o_quiet o = false /\ e_level e <> LDetail))).
Proof.
  cbn [nitf_diff r_file]. split; [destruct (o_file o), (o_only o); cbn; split; try (intros (X & Y)); try intro X; try discriminate; auto|].
  intros l e E. destruct (o_file o || o_only o); [|discriminate E]. injection E as <-. rewrite in_app_iff.
  assert (N : ~ In (LEntry e) (snd match snd m with
                  | Ok false => (if o_quiet o then [] else [LDiffer], [LDiffer])
                  | Ok true => if o_quiet o then ([], []) else ([LSame], [LSame])
                  | Err _ => ([], [])
                  end)).
  { destruct (snd m) as [[]|], (o_quiet o); cbn [snd In]; intros I; repeat destruct I as [I|I]; try discriminate I; destruct I. }
  unfold shown. rewrite in_map_iff. split.
  - intros [(x & X & I)|I]; [|now apply N in I]. injection X as ->. apply filter_In in I as (I & T).
    split; [exact I|]. apply Z.leb_le in T. unfold threshold in T.
    destruct (o_debug o); [now left|]. destruct (o_verbose o); [right; now left|]. right; right.
    destruct (o_quiet o); [|split; [reflexivity|]]; destruct (e_level e); cbn [level_no] in T; try lia; discriminate.
  - intros (I & T). left. exists e. split; [reflexivity|]. apply filter_In. split; [exact I|]. apply Z.leb_le. unfold threshold.
    destruct (o_debug o); [destruct (e_level e); cbn; lia|]. destruct (o_verbose o); [destruct (e_level e); cbn; lia|].
    destruct T as [T|[T|(Q & L)]]; try discriminate T. rewrite Q. destruct (e_level e); cbn [level_no]; try lia. now destruct L.
Qed.
(** Quietly nothing is printed. *)
Theorem C62_quiet o m : o_quiet o = true -> o_debug o = false -> o_verbose o = false -> r_screen (nitf_diff o m) = [].
Proof.
  intros Q D V. cbn [nitf_diff r_screen]. unfold threshold. rewrite Q, D, V. replace (shown 1000 (fst m)) with (@nil line).
  - destruct (o_only o), (snd m) as [[]|]; reflexivity.
  - unfold shown. induction (fst m) as [|e l IH]; [reflexivity|]. cbn [filter]. destruct (e_level e); cbn; exact IH.
Qed.
Print Assumptions C62_verdict.
Print Assumptions C62_located_partial.
Print Assumptions C62_told.
Print Assumptions C62_reports.
Print Assumptions C62_elements.
Print Assumptions C62_status.
Print Assumptions C62_screen.
Print Assumptions C62_shown.
Print Assumptions C62_log_file.
Print Assumptions C62_unread.
Print Assumptions C62_quiet.
