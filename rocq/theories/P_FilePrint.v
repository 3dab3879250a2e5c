(** Printing a file: what the text consists of, hooks, and what printing changes (C63). *)
From Verif Require Import Base BaseLemmas Engine Utf8 Tre Handles TrePlace Security Image DescsHdr File Hooks Listing DesPrint Diff FileDiff FileLog FilePrint.
From Coq Require Import ZifyBool ZifyNat ZifyN.
Open Scope list_scope.
Ltac Zify.zify_post_hook ::= idtac.

Lemma ok_eq {A} (a b : A) : Ok a = Ok b -> a = b.
Proof. congruence. Qed.
Lemma ok_pair {A B} (a c : A) (b d : B) : Ok (a, b) = Ok (c, d) -> a = c /\ b = d.
Proof. intro E. split; congruence. Qed.
Lemma map_res_all {A B} (f : A -> res B) l r : map_res f l = Ok r -> Forall2 (fun a b => f a = Ok b) l r.
Proof.
  revert r. induction l as [|a l IH]; intros r E; cbn [map_res] in E; [injection E as <-; constructor|].
  apply bind_ok_elim in E as (x & X & E). apply bind_ok_elim in E as (y & Y & E). apply ok_eq in E; rewrite <- E; clear E. constructor; auto.
Qed.

Section P.
Variable FO : FloatOps.
Notation state := (state FO).
Notation hdr := (hdr FO).
Notation tre := (tre FO).
Notation seg := (seg FO).
Notation nfile := (nfile FO).
Variable ext : field -> list N -> res (list N).
Variable source : expr -> list N.
Variable H : Type.
Variable rm : H -> bool.
Variable h_str : H -> kind -> seg -> res (list N).
Variable h_tre : H -> kind -> seg -> tre -> res (bool * list N).
Notation seg_print := (seg_print FO ext source H rm h_str h_tre).
Notation file_print := (file_print FO ext source H rm h_str h_tre).
Notation fields_text := (fun rows s => print FO ext source (mk_fs rows) s).
Notation nl := [10%N].

(** ** What the text consists of *)

(** What is said of one TRE: its name and either its fields or its bytes. *)
Definition tells_tre (t : tre) (x : list N) : Prop :=
  match t with
  | TObj c s => exists b, fields_text (tc_rows c) s = Ok b /\ x = str "TRE - " ++ tc_tag c ++ nl ++ b ++ nl
  | TUnk g b => x = str "TRE - " ++ g ++ nl ++ str "   String: " ++ bytes_repr b ++ nl
  end.
Lemma tre_text_tells t x : tre_text FO ext source t = Ok x -> tells_tre t x.
Proof.
  destruct t as [c s|g b]; cbn [tre_text tells_tre]; intro E.
  - apply bind_ok_elim in E as (b & B & E). apply ok_eq in E; rewrite <- E; clear E. exists b. split; [exact B|]. unfold line. now rewrite <- !app_assoc.
  - apply ok_eq in E; rewrite <- E; clear E. unfold line. now rewrite <- !app_assoc.
Qed.

Section Opts.
Variable o : popts H.

(** The segment's own text, without hooks: subheader, user subheader, TREs, data. *)
Definition tells_ush (u : option (ush FO)) (x : list N) : Prop :=
  match u with
  | None => x = []
  | Some u => exists t, fields_text (uc_rows (us_cls FO u)) (us_st FO u) = Ok t /\ x = str "User-Defined Subheader: " ++ nl ++ t ++ nl
  end.
Definition tells_tres (k : kind) (s : seg) (x : list N) : Prop :=
  match k with
  | KDes | KRes => x = []
  | _ => match s_tres FO s with
         | [] => x = str "TREs:" ++ nl ++ str "No segment level TREs" ++ nl
         | ts => exists xs, Forall2 tells_tre ts xs /\ x = str "TREs:" ++ nl ++ flat_map (fun x => x ++ nl) xs
         end
  end.
Definition tells (k : kind) (s : seg) (data t : list N) : Prop :=
  exists sub u ts, fields_text (sub_rows k) (h_st (s_hdr FO s)) = Ok sub /\ tells_ush (s_ush FO s) u /\ tells_tres k s ts
    /\ t = str "Sub header:" ++ nl ++ sub ++ nl ++ u ++ ts ++ str "Data" ++ nl ++ data ++ nl.

Lemma ush_part_tells u x : ush_part FO ext source u = Ok x -> tells_ush u x.
Proof.
  destruct u as [u|]; cbn [ush_part tells_ush]; intro E; [|now injection E as <-].
  apply bind_ok_elim in E as (t & T & E). apply ok_eq in E; rewrite <- E; clear E. exists t. split; [exact T|]. unfold line. now rewrite <- !app_assoc.
Qed.
Lemma tre_part_none k s t x : po_hooks o = [] -> tre_part FO ext source H rm h_tre o k s t = Ok x ->
  s_linked FO s = true /\ exists y, tre_text FO ext source t = Ok y /\ x = y ++ nl.
Proof.
  intros N E. unfold tre_part in E. destruct (s_linked FO s); [|discriminate E]. split; [reflexivity|]. rewrite N in E.
  cbn [on_str_tre fold_res bind] in E. apply bind_ok_elim in E as (y & Y & E). apply ok_eq in E; rewrite <- E; clear E. exists y. split; [exact Y|reflexivity].
Qed.
Lemma tres_part_tells k s x : po_hooks o = [] -> tres_part FO ext source H rm h_tre o k s = Ok x -> tells_tres k s x.
Proof.
  intros N E. assert (Q : has_tres k = true -> tells_tres KText s x).
  { intro K. unfold tres_part in E. rewrite K in E. cbn [negb] in E. apply bind_ok_elim in E as (r & R & E). apply ok_eq in E; rewrite <- E; clear E. cbn [tells_tres].
    destruct (s_tres FO s) as [|t ts]; [injection R as <-; unfold line; cbn [List.concat]; now rewrite app_nil_r, <- !app_assoc|].
    apply map_res_all in R. assert (F : exists xs, Forall2 tells_tre (t :: ts) xs /\ r = map (fun x => x ++ nl) xs).
    { clear - R N. induction R as [|a b l r E _ (xs & F & ->)]; [exists []; split; [constructor|reflexivity]|].
      apply tre_part_none in E as (_ & y & Y & ->); [|exact N]. exists (y :: xs). split; [constructor; [now apply tre_text_tells|exact F]|reflexivity]. }
    destruct F as (xs & F & ->). exists xs. split; [exact F|]. unfold line. rewrite <- app_assoc, flat_map_concat_map. reflexivity. }
  destruct k; cbn [tells_tres]; try (apply Q; reflexivity); unfold tres_part in E; cbn [has_tres negb] in E; now apply ok_eq in E; rewrite <- E; clear E.
Qed.
Lemma hook_none k s : po_hooks o = [] -> hook_text FO H rm h_str o k s = Ok [].
Proof. intro N. unfold hook_text. rewrite N. now destruct (s_linked FO s). Qed.

(** What [str(segment)] is, for a file without hooks: an overflow segment is one line, and every
    other segment tells its subheader, user subheader, TREs and data, once and in this order.
    Only the data object can be another one afterwards. *)
Theorem C63_segment k size s s' t : po_hooks o = [] -> seg_print o k size s = Ok (s', t) ->
  (k = KDes /\ is_overflow FO (s_hdr FO s) = Ok true /\ t = str "TRE_OVERFLOW" ++ nl /\ s' = s)
  \/ ((k = KDes -> is_overflow FO (s_hdr FO s) = Ok false)
      /\ exists data, data_text FO ext source H o k s size = Ok (s_data FO s', data) /\ tells k s data t
         /\ s_hdr FO s' = s_hdr FO s /\ s_ush FO s' = s_ush FO s /\ s_tres FO s' = s_tres FO s /\ s_linked FO s' = s_linked FO s).
Proof.
  intros N E. unfold FilePrint.seg_print in E. apply bind_ok_elim in E as (skip & K & E). destruct skip.
  { left. destruct k; try discriminate K. apply ok_pair in E as (<- & <-). auto. }
  right. split; [intros ->; exact K|].
  apply bind_ok_elim in E as (a & A & E). apply bind_ok_elim in E as (b & B & E). apply bind_ok_elim in E as (u & U & E).
  apply bind_ok_elim in E as (ts & T & E). apply bind_ok_elim in E as ((d & x) & D & E). apply ok_pair in E as (<- & <-).
  exists x. split; [exact D|]. split; [|repeat split].
  rewrite (hook_none k s N) in A. injection A as <-. exists b, u, ts. split; [exact B|]. split; [now apply ush_part_tells|].
  split; [now apply tres_part_tells|]. cbn [app]. unfold line. now rewrite <- !app_assoc.
Qed.

(** The text of a file: the header, the TREs of the file, then for each kind one section for each
    segment, in order, headed by its number. *)
Definition tells_file_tres (ts : list tre) (x : list N) : Prop :=
  match ts with
  | [] => x = str "No file level TREs" ++ nl
  | _ => exists xs, Forall2 tells_tre ts xs /\ x = str "File level TRES:" ++ nl ++ flat_map (fun x => x ++ nl) xs ++ rule
  end.
Definition section (k : kind) (n : nat) (p : nat * list N) : list N :=
  kind_title k ++ str " segment " ++ str_of_Z (Z.of_nat (fst p + 1)) ++ str " of " ++ str_of_Z (Z.of_nat n) ++ nl ++ snd p ++ rule.
Definition tells_kind (size : kind -> nat -> option Z) (f : nfile) (k : kind) (x : list N) : Prop :=
  exists ts, List.length ts = List.length (nf_segs FO f k)
    /\ (forall i s t, nth_error (nf_segs FO f k) i = Some s -> nth_error ts i = Some t -> exists s', seg_print o k (size k i) s = Ok (s', t))
    /\ x = (match nf_segs FO f k with [] => str "No " ++ kind_title k ++ str " segments" ++ nl | _ => rule end)
           ++ flat_map (section k (List.length ts)) (enumerate ts).

Lemma segs_print_tells k size n : forall l i l' x, segs_print FO ext source H rm h_str h_tre o k size n i l = Ok (l', x) ->
  exists ts, List.length ts = List.length l /\ List.length l' = List.length l
    /\ (forall j s t, nth_error l j = Some s -> nth_error ts j = Some t ->
          exists s', seg_print o k (size (i + j)%nat) s = Ok (s', t) /\ nth_error l' j = Some s')
    /\ x = flat_map (section k n) (combine (seq i (List.length ts)) ts).
Proof.
  induction l as [|s l IH]; intros i l' x E; cbn [segs_print] in E.
  - apply ok_pair in E as (<- & <-). exists []. split; [reflexivity|]. split; [reflexivity|]. split; [intros [|j]; discriminate|reflexivity].
  - apply bind_ok_elim in E as ((s' & t) & S & E). apply bind_ok_elim in E as ((r & y) & R & E). apply ok_pair in E as (<- & <-).
    destruct (IH _ _ _ R) as (ts & L & L' & F & ->). exists (t :: ts). split; [cbn; now rewrite L|]. split; [cbn; now rewrite L'|]. split.
    + intros [|j] s0 t0 A B; cbn in A, B.
      * injection A as <-. injection B as <-. exists s'. rewrite Nat.add_0_r. split; [exact S|reflexivity].
      * destruct (F j s0 t0 A B) as (z & Z1 & Z2). exists z. replace (i + Datatypes.S j)%nat with (Datatypes.S i + j)%nat by lia. auto.
    + cbn [List.length seq combine flat_map fst snd]. change (section k n (i, t)) with (kind_title k ++ str " segment " ++ str_of_Z (Z.of_nat (i + 1)) ++ str " of " ++ str_of_Z (Z.of_nat n) ++ nl ++ t ++ rule). unfold count_line, line.
      replace (i + 1)%nat with (Datatypes.S i) by lia. now rewrite <- !app_assoc.
Qed.
Lemma kind_print_tells size f k l x : kind_print FO ext source H rm h_str h_tre o size f k = Ok (l, x) -> tells_kind size f k x.
Proof.
  unfold kind_print. intro E. apply bind_ok_elim in E as ((l' & t) & P & E). apply ok_pair in E as (<- & <-).
  destruct (segs_print_tells _ _ _ _ _ _ _ P) as (ts & L & _ & F & ->). exists ts. split; [exact L|]. split.
  - intros i s t A B. destruct (F i s t A B) as (s' & X & _). exists s'. exact X.
  - unfold enumerate. rewrite L. destruct (nf_segs FO f k); [unfold line; now rewrite <- !app_assoc|reflexivity].
Qed.
Lemma file_tres_tells ts x : file_tres FO (fun t => do x <- tre_text FO ext source t; Ok (line x)) ts = Ok x -> tells_file_tres ts x.
Proof.
  unfold file_tres, tells_file_tres. destruct ts as [|t ts]; intro E; [now apply ok_eq in E|].
  apply bind_ok_elim in E as (r & R & E). apply ok_eq in E; rewrite <- E; clear E. apply map_res_all in R.
  assert (F : exists xs, Forall2 tells_tre (t :: ts) xs /\ r = map (fun x => x ++ nl) xs).
  { clear - R. induction R as [|a b l r E _ (xs & F & ->)]; [exists []; split; [constructor|reflexivity]|].
    apply bind_ok_elim in E as (y & Y & E). apply ok_eq in E; rewrite <- E; clear E. exists (y :: xs). split; [constructor; [now apply tre_text_tells|exact F]|reflexivity]. }
  destruct F as (xs & F & ->). exists xs. split; [exact F|]. unfold line. rewrite <- app_assoc, flat_map_concat_map. reflexivity.
Qed.
Theorem C63_text size f f' t : file_print o size f = Ok (f', t) ->
  exists h ts (parts : kind -> list N), fields_text desc_NitfFileHeader (h_st (nf_hdr FO f)) = Ok h /\ tells_file_tres (nf_tres FO f) ts
    /\ (forall k, tells_kind size f k (parts k))
    /\ t = rule ++ str "File Header:" ++ nl ++ h ++ nl ++ rule ++ ts ++ flat_map parts kinds.
Proof.
  unfold FilePrint.file_print. intro E. apply bind_ok_elim in E as (h & Eh & E). apply bind_ok_elim in E as (ts & T & E).
  apply bind_ok_elim in E as ((im & ti) & I & E). apply bind_ok_elim in E as ((gr & tg) & G & E). apply bind_ok_elim in E as ((tx & tt) & X & E).
  apply bind_ok_elim in E as ((de & td) & D & E). apply bind_ok_elim in E as ((rs & tr) & R & E). apply ok_pair in E as (_ & <-).
  exists h, ts, (fun k => match k with KImage => ti | KGraphic => tg | KText => tt | KDes => td | KRes => tr end).
  split; [exact Eh|]. split; [now apply file_tres_tells|]. split.
  - intros []; [exact (kind_print_tells _ _ _ _ _ I)|exact (kind_print_tells _ _ _ _ _ G)|exact (kind_print_tells _ _ _ _ _ X)
               |exact (kind_print_tells _ _ _ _ _ D)|exact (kind_print_tells _ _ _ _ _ R)].
  - cbn [kinds flat_map]. unfold line. now rewrite <- !app_assoc, app_nil_r.
Qed.

(** ** What printing changes *)

(** The segment as it was, but for the fields and the data to copy of a DES of fields. *)
Definition same_but_fields (s s' : seg) : Prop :=
  s_hdr FO s' = s_hdr FO s /\ s_ush FO s' = s_ush FO s /\ s_tres FO s' = s_tres FO s /\ s_linked FO s' = s_linked FO s
  /\ match s_data FO s with
     | DFields _ c _ _ => exists st x, s_data FO s' = DFields FO c st x
     | d => s_data FO s' = d
     end.
Lemma fd_update_cls d d' : fd_update FO d = Ok d' -> fd_cls d' = fd_cls d.
Proof.
  unfold fd_update. intro E. apply bind_ok_elim in E as (b & _ & E). apply bind_ok_elim in E as (((g & d1) & p) & R & E). apply ok_eq in E; rewrite <- E; clear E.
  unfold fd_read in R. destruct (negb _); [now injection R as _ <- _|]. apply bind_ok_elim in R as ((s & rest) & _ & R). cbv zeta in R.
  destruct (match fd_seg d with Some n => _ | None => _ end =? 0)%Z; [injection R as _ <- _; reflexivity|].
  destruct (negb _); [discriminate R|]. destruct (dc_copy _); [destruct (take_at _ _ _); injection R as _ <- _; reflexivity|].
  apply bind_ok_elim in R as (q & _ & R). injection R as _ <- _. reflexivity.
Qed.
Lemma data_text_same k s size d x : data_text FO ext source H o k s size = Ok (d, x) ->
  match s_data FO s with DFields _ c _ _ => exists st y, d = DFields FO c st y | d0 => d = d0 end.
Proof.
  unfold data_text. destruct (s_data FO s) as [[b|]|t|c st y|b|m g|n]; intro E.
  - apply bind_ok_elim in E as (t & _ & E). apply ok_pair in E as (<- & _). reflexivity.
  - apply ok_pair in E as (<- & _). reflexivity.
  - apply ok_pair in E as (<- & _). reflexivity.
  - apply bind_ok_elim in E as (v & _ & E). destruct v; try discriminate E. apply bind_ok_elim in E as ((d1 & t1) & P & E). apply ok_pair in E as (<- & _).
    unfold fd_print in P. apply bind_ok_elim in P as (d2 & U & P). apply bind_ok_elim in P as (u & _ & P). apply bind_ok_elim in P as (t2 & _ & P).
    injection P as <- _. eauto.
  - apply bind_ok_elim in E as (t & _ & E). apply ok_pair in E as (<- & _). reflexivity.
  - apply ok_pair in E as (<- & _). reflexivity.
  - apply bind_ok_elim in E as (t & _ & E). apply ok_pair in E as (<- & _). reflexivity.
Qed.
Lemma seg_print_same k size s s' t : seg_print o k size s = Ok (s', t) -> same_but_fields s s'.
Proof.
  unfold FilePrint.seg_print. intro E. apply bind_ok_elim in E as (skip & K & E). destruct skip.
  { apply ok_pair in E as (<- & _). repeat split; auto. destruct (s_data FO s); auto. eauto. }
  apply bind_ok_elim in E as (a & A & E). apply bind_ok_elim in E as (b & B & E). apply bind_ok_elim in E as (u & U & E).
  apply bind_ok_elim in E as (ts & T & E). apply bind_ok_elim in E as ((d & x) & D & E). apply ok_pair in E as (<- & _).
  repeat split. cbn [with_data s_data]. exact (data_text_same k s size d x D).
Qed.

(** The file afterwards: the header, the TREs and the lists are as they were. *)
Definition afterwards (size : kind -> nat -> option Z) (f f' : nfile) : Prop :=
  nf_hdr FO f' = nf_hdr FO f /\ nf_tres FO f' = nf_tres FO f /\ nf_refs FO f' = nf_refs FO f
  /\ forall k, List.length (nf_segs FO f' k) = List.length (nf_segs FO f k)
       /\ forall i s s', nth_error (nf_segs FO f k) i = Some s -> nth_error (nf_segs FO f' k) i = Some s' ->
            exists t, seg_print o k (size k i) s = Ok (s', t).
Lemma kind_print_after size f k l x : kind_print FO ext source H rm h_str h_tre o size f k = Ok (l, x) ->
  List.length l = List.length (nf_segs FO f k)
  /\ forall i s s', nth_error (nf_segs FO f k) i = Some s -> nth_error l i = Some s' -> exists t, seg_print o k (size k i) s = Ok (s', t).
Proof.
  unfold kind_print. intro E. apply bind_ok_elim in E as ((l' & t) & P & E). apply ok_pair in E as (<- & _).
  destruct (segs_print_tells _ _ _ _ _ _ _ P) as (ts & L & L' & F & _). split; [exact L'|].
  intros i s s' A B. destruct (nth_error ts i) as [t0|] eqn:T.
  - destruct (F i s t0 A T) as (z & Z1 & Z2). cbn [Nat.add] in Z1. assert (z = s') by congruence. subst z. eauto.
  - apply nth_error_None in T. assert (i < List.length (nf_segs FO f k))%nat by (apply nth_error_Some; congruence). lia.
Qed.
Lemma file_print_after size f f' t : file_print o size f = Ok (f', t) -> afterwards size f f'.
Proof.
  unfold FilePrint.file_print. intro E. apply bind_ok_elim in E as (h & Eh & E). apply bind_ok_elim in E as (ts & T & E).
  apply bind_ok_elim in E as ((im & ti) & I & E). apply bind_ok_elim in E as ((gr & tg) & G & E). apply bind_ok_elim in E as ((tx & tt) & X & E).
  apply bind_ok_elim in E as ((de & td) & D & E). apply bind_ok_elim in E as ((rs & tr) & R & E). apply ok_pair in E as (<- & _).
  unfold afterwards. cbn [nf_hdr nf_tres nf_refs nf_segs]. repeat (split; [reflexivity|]).
  intros []; [exact (kind_print_after _ _ _ _ _ I)|exact (kind_print_after _ _ _ _ _ G)|exact (kind_print_after _ _ _ _ _ X)
             |exact (kind_print_after _ _ _ _ _ D)|exact (kind_print_after _ _ _ _ _ R)].
Qed.
Theorem C63_changes size f f' t : file_print o size f = Ok (f', t) ->
  nf_hdr FO f' = nf_hdr FO f /\ nf_tres FO f' = nf_tres FO f /\ nf_refs FO f' = nf_refs FO f
  /\ forall k, Forall2 same_but_fields (nf_segs FO f k) (nf_segs FO f' k).
Proof.
  intro E. apply file_print_after in E as (A & B & C & D). repeat (split; [assumption|]). intro k. destruct (D k) as (L & F). clear D.
  revert F L. generalize (size k), (nf_segs FO f k), (nf_segs FO f' k). intros z l. revert z. induction l as [|s l IH]; intros z [|s' l'] F L; try discriminate L; [constructor|].
  constructor; [destruct (F O s s' eq_refl eq_refl) as (x & X); exact (seg_print_same _ _ _ _ _ X)|].
  apply (IH (fun i => z (S i))); [intros i a b; exact (F (S i) a b)|now injection L].
Qed.

(** A file without DESs of fields is not changed at all. *)
Definition no_fields (f : nfile) : Prop := forall k s, In s (nf_segs FO f k) -> match s_data FO s with DFields _ _ _ _ => False | _ => True end.
Lemma same_no_fields s s' : same_but_fields s s' -> match s_data FO s with DFields _ _ _ _ => False | _ => True end -> s' = s.
Proof.
  destruct s as [a b c d e], s' as [a' b' c' d' e']. unfold same_but_fields. cbn. intros (-> & -> & -> & -> & D).
  destruct d; intro N; try destruct N; now rewrite D.
Qed.
Theorem C63_unchanged size f f' t : file_print o size f = Ok (f', t) -> no_fields f -> forall k, nf_segs FO f' k = nf_segs FO f k.
Proof.
  intros E N k. apply C63_changes in E as (_ & _ & _ & E). specialize (E k). specialize (N k). revert E N.
  generalize (nf_segs FO f' k). induction 1 as [|s s' l l' X _ IH]; intro N; [reflexivity|].
  f_equal; [exact (same_no_fields _ _ X (N s (or_introl eq_refl)))|]. apply IH. intros s0 I. exact (N s0 (or_intror I)).
Qed.

(** ** Writing what was printed *)

Definition same_bytes (s s' : seg) : Prop :=
  s_hdr FO s' = s_hdr FO s /\ s_ush FO s' = s_ush FO s /\ s_tres FO s' = s_tres FO s /\ s_linked FO s' = s_linked FO s
  /\ forall h, data_bytes FO h (s_data FO s') = data_bytes FO h (s_data FO s).
Definition alike {A} (R : A -> A -> Prop) (r r' : res A) : Prop :=
  match r, r' with Ok a, Ok a' => R a a' | Err e, Err e' => e = e' | _, _ => False end.
Lemma alike_bind {A B} (R : A -> A -> Prop) (S : B -> B -> Prop) r r' (k k' : A -> res B) : alike R r r' ->
  (forall a a', R a a' -> alike S (k a) (k' a')) -> alike S (do a <- r; k a) (do a <- r'; k' a).
Proof. destruct r, r'; cbn; intros X Y; try contradiction; auto. Qed.
Lemma alike_refl {A} (R : A -> A -> Prop) r : (forall a, R a a) -> alike R r r.
Proof. intro X. destruct r; cbn; auto. Qed.
Lemma drop_alike l l' : Forall2 same_bytes l l' -> alike (Forall2 same_bytes) (drop_overflow FO l) (drop_overflow FO l').
Proof.
  induction 1 as [|s s' l l' X _ IH]; cbn [drop_overflow]; [cbn; constructor|].
  rewrite (proj1 X). destruct (is_overflow FO (s_hdr FO s)) as [b|]; cbn [bind]; [|reflexivity].
  refine (alike_bind _ _ _ _ _ _ IH _). intros r r' F. cbn. destruct b; [exact F|constructor; assumption].
Qed.
Lemma same_bytes_refl s : same_bytes s s. Proof. repeat split. Qed.
Lemma same_bytes_all l : Forall2 same_bytes l l. Proof. induction l; constructor; auto using same_bytes_refl. Qed.
Definition two {A B} (R : A -> A -> Prop) (p q : B * A) : Prop := fst p = fst q /\ R (snd p) (snd q).
Lemma prep_alike rows areas pre idx h ts l l' : Forall2 same_bytes l l' ->
  alike (two (Forall2 same_bytes)) (prep FO rows areas pre idx h ts l) (prep FO rows areas pre idx h ts l').
Proof.
  intro F. unfold prep. replace (List.length l') with (List.length l) by (induction F; cbn; congruence).
  destruct (prepare FO rows areas (Z.of_nat idx) h ts (List.length l)) as [[h' [ov|]] [u|e]]; try reflexivity; [|split; [reflexivity|exact F]].
  destruct (get_security FO rows h' pre) as [sec|]; [|reflexivity]. cbn [bind]. destruct (overflow_seg FO ov sec) as [dh [v|e]]; [|reflexivity].
  split; [reflexivity|]. cbn [snd]. apply Forall2_app; [exact F|apply same_bytes_all].
Qed.
Lemma prep_segs_alike k : forall l l' i des des', Forall2 same_bytes l l' -> Forall2 same_bytes des des' ->
  alike (fun p q => Forall2 same_bytes (fst p) (fst q) /\ Forall2 same_bytes (snd p) (snd q)) (prep_segs FO k i l des) (prep_segs FO k i l' des').
Proof.
  intros l l' i des des' F. revert i des des'. induction F as [|s s' l l' X _ IH]; intros i des des' D; cbn [prep_segs]; [cbn; split; [constructor|exact D]|].
  destruct X as (X1 & X2 & X3 & X4 & X5). rewrite X1, X3.
  apply (alike_bind (two (Forall2 same_bytes))).
  - destruct (has_tres k); [now apply prep_alike|split; [reflexivity|exact D]].
  - intros (h & d1) (h' & d1') (Eh & D1). cbn [fst snd] in Eh, D1. subst h'. refine (alike_bind _ _ _ _ _ _ (IH (S i) d1 d1' D1) _).
    intros (r & d2) (r' & d2') (R & D2). cbn. split; [|exact D2]. constructor; [|exact R]. unfold same_bytes, with_hdr. cbn. auto.
Qed.
Definition three {A B C} (R : A -> A -> Prop) (p q : A * B * C) : Prop := R (fst (fst p)) (fst (fst q)) /\ snd (fst p) = snd (fst q) /\ snd p = snd q.
Lemma seg_write_alike E k i s s' hs file : same_bytes s s' -> alike (three same_bytes) (seg_write FO E k i s hs file) (seg_write FO E k i s' hs file).
Proof.
  intros (X1 & X2 & X3 & X4 & X5). unfold seg_write, put_ush. rewrite X1, X2, X4.
  apply (alike_bind eq); [apply alike_refl; reflexivity|]. intros c ? <-. apply (alike_bind eq); [apply alike_refl; reflexivity|]. intros u ? <-.
  apply (alike_bind eq); [apply alike_refl; reflexivity|]. intros h ? <-. apply (alike_bind eq); [apply alike_refl; reflexivity|]. intros b ? <-.
  rewrite (X5 h). apply (alike_bind eq); [apply alike_refl; reflexivity|]. intros d ? <-. cbv zeta.
  assert (W : same_bytes (with_hdr FO s h) (with_hdr FO s' h)) by (unfold same_bytes, with_hdr; cbn; auto).
  destruct (s_linked FO s); [|split; [exact W|split; reflexivity]].
  destruct (update_field FO _ hs _ _ _ _) as [hs1 [f1|e]]; [|reflexivity]. destruct (update_field FO _ hs1 _ _ _ _) as [hs2 [f2|e]]; [|reflexivity].
  split; [exact W|split; reflexivity].
Qed.
Lemma segs_write_alike E k : forall l l' i hs file, Forall2 same_bytes l l' ->
  alike (three (Forall2 same_bytes)) (segs_write FO E k i l hs file) (segs_write FO E k i l' hs file).
Proof.
  intros l l' i hs file F. revert i hs file. induction F as [|s s' l l' X _ IH]; intros i hs file; cbn [segs_write]; [split; [constructor|split; reflexivity]|].
  refine (alike_bind _ _ _ _ _ _ (seg_write_alike E k i s s' hs file X) _). intros ((a & h1) & f1) ((a' & h1') & f1') (A & B & C).
  cbn [fst snd] in A, B, C. subst h1' f1'. refine (alike_bind _ _ _ _ _ _ (IH (S i) h1 f1) _). intros ((r & h2) & f2) ((r' & h2') & f2') (R & B & C).
  cbn [fst snd] in R, B, C. subst h2' f2'. split; [constructor; assumption|split; reflexivity].
Qed.
Definition alike_files (f f' : nfile) : Prop :=
  nf_hdr FO f' = nf_hdr FO f /\ nf_tres FO f' = nf_tres FO f /\ nf_refs FO f' = nf_refs FO f /\ forall k, Forall2 same_bytes (nf_segs FO f k) (nf_segs FO f' k).
Lemma prepare_alike f f' : alike_files f f' ->
  alike (fun p q => fst p = fst q /\ forall k, Forall2 same_bytes (snd p k) (snd q k)) (prepare_file FO f) (prepare_file FO f').
Proof.
  intros (A & B & C & D). unfold prepare_file. rewrite A, B.
  refine (alike_bind _ _ _ _ _ _ (drop_alike _ _ (D KDes)) _). intros d0 d0' D0.
  refine (alike_bind _ _ _ _ _ _ (prep_alike _ _ _ _ _ _ _ _ D0) _). intros (h0 & d1) (h0' & d1') (Eh & D1). cbn [fst snd] in Eh, D1. subst h0'.
  refine (alike_bind _ _ _ _ _ _ (prep_segs_alike _ _ _ _ _ _ (D KImage) D1) _). intros (im & d2) (im' & d2') (I & D2). cbn [fst snd] in I, D2.
  refine (alike_bind _ _ _ _ _ _ (prep_segs_alike _ _ _ _ _ _ (D KGraphic) D2) _). intros (gr & d3) (gr' & d3') (G & D3). cbn [fst snd] in G, D3.
  refine (alike_bind _ _ _ _ _ _ (prep_segs_alike _ _ _ _ _ _ (D KText) D3) _). intros (tx & d4) (tx' & d4') (T & D4). cbn [fst snd] in T, D4. cbv zeta.
  assert (L : forall l l', Forall2 same_bytes l l' -> List.length l' = List.length l) by (induction 1; cbn; congruence).
  assert (M : map (fun k h => hset FO desc_NitfFileHeader h (count_name k) (VInt (Z.of_nat (List.length (match k with KImage => im' | KGraphic => gr' | KText => tx' | KDes => d4' | KRes => nf_segs FO f' KRes end))))) kinds
            = map (fun k h => hset FO desc_NitfFileHeader h (count_name k) (VInt (Z.of_nat (List.length (match k with KImage => im | KGraphic => gr | KText => tx | KDes => d4 | KRes => nf_segs FO f KRes end))))) kinds).
  { unfold kinds. cbn [map]. rewrite (L _ _ I), (L _ _ G), (L _ _ T), (L _ _ D4), (L _ _ (D KRes)). reflexivity. }
  rewrite M. destruct (steps FO _ h0) as [h1 [u|e]]; [|reflexivity]. split; [reflexivity|]. cbn [snd]. intros []; auto.
Qed.
Lemma write_alike E f f' : alike_files f f' -> alike (fun p q => snd p = snd q) (file_write FO E f) (file_write FO E f').
Proof.
  intro F. assert (P := prepare_alike f f' F). unfold file_write. refine (alike_bind _ _ _ _ _ _ P _). intros (h1 & g) (h1' & g') (Eh & G). cbn [fst snd] in Eh, G. subst h1'.
  cbv zeta. apply (alike_bind eq); [apply alike_refl; reflexivity|]. intros (s1 & f1) ? <-.
  destruct (update_field FO _ s1 f1 _ _ _) as [s2 [f2|e]]; [|reflexivity].
  refine (alike_bind _ _ _ _ _ _ (segs_write_alike E _ _ _ _ _ _ (G KImage)) _). intros ((im & s3) & f3) ((im' & s3') & f3') (I & B & C). cbn [fst snd] in I, B, C. subst s3' f3'.
  refine (alike_bind _ _ _ _ _ _ (segs_write_alike E _ _ _ _ _ _ (G KGraphic)) _). intros ((gr & s4) & f4) ((gr' & s4') & f4') (I2 & B & C). cbn [fst snd] in I2, B, C. subst s4' f4'.
  refine (alike_bind _ _ _ _ _ _ (segs_write_alike E _ _ _ _ _ _ (G KText)) _). intros ((tx & s5) & f5) ((tx' & s5') & f5') (I3 & B & C). cbn [fst snd] in I3, B, C. subst s5' f5'.
  refine (alike_bind _ _ _ _ _ _ (segs_write_alike E _ _ _ _ _ _ (G KDes)) _). intros ((de & s6) & f6) ((de' & s6') & f6') (I4 & B & C). cbn [fst snd] in I4, B, C. subst s6' f6'.
  refine (alike_bind _ _ _ _ _ _ (segs_write_alike E _ _ _ _ _ _ (G KRes)) _). intros ((rs & s7) & f7) ((rs' & s7') & f7') (I5 & B & C). cbn [fst snd] in I5, B, C. subst s7' f7'.
  destruct (update_field FO _ s7 f7 _ _ _) as [s8 [f8|e]]; [|reflexivity].
  refine (alike_bind _ _ _ _ _ _ (drop_alike _ _ I4) _). intros x x' _. reflexivity.
Qed.

(** [update_raw_field] does not change what a DES of fields writes. *)
Definition steady (size : option Z) (s : seg) : Prop :=
  match s_data FO s with
  | DFields _ c st x => forall id d', fd_update FO {| fd_cls := c; fd_id := id; fd_seg := size; fd_st := st; fd_left := None; fd_copy := x |} = Ok d' ->
      fd_write FO d' = fd_write FO {| fd_cls := c; fd_id := id; fd_seg := size; fd_st := st; fd_left := None; fd_copy := x |}
  | _ => True
  end.
Lemma seg_print_bytes k size s s' t : seg_print o k size s = Ok (s', t) -> steady size s -> same_bytes s s'.
Proof.
  intros E S. assert (Q := seg_print_same _ _ _ _ _ E). destruct Q as (A & B & C & D & F). repeat (split; [assumption|]). intro h.
  unfold FilePrint.seg_print in E. apply bind_ok_elim in E as (skip & K & E). destruct skip; [injection E as <- _; reflexivity|].
  apply bind_ok_elim in E as (a & _ & E). apply bind_ok_elim in E as (b & _ & E). apply bind_ok_elim in E as (u & _ & E).
  apply bind_ok_elim in E as (ts & _ & E). apply bind_ok_elim in E as ((d & x) & T & E). apply ok_pair in E as (<- & _). cbn [with_data s_data] in F |- *.
  destruct (s_data FO s) as [ob|tt|c st y|b0|m g|n] eqn:SD; try (rewrite F; reflexivity). clear F.
  unfold data_text in T. rewrite SD in T. apply bind_ok_elim in T as (v & _ & T). destruct v; try discriminate T.
  apply bind_ok_elim in T as ((d1 & t1) & P & T). injection T as <- _.
  unfold fd_print in P. apply bind_ok_elim in P as (d2 & U & P). apply bind_ok_elim in P as (u2 & _ & P). apply bind_ok_elim in P as (t2 & _ & P).
  injection P as <- _. unfold steady in S. rewrite SD in S. assert (W := S _ _ U). assert (Cl := fd_update_cls _ _ U). cbn [fd_cls] in Cl.
  unfold fd_write in W. cbn [fd_cls fd_st fd_copy] in W. rewrite Cl in W. exact W.
Qed.
(** Printing does not change what is written: neither the bytes nor the exception, if writing
    raises one. *)
Theorem C63_written E size f f' t : file_print o size f = Ok (f', t) ->
  (forall k i s, nth_error (nf_segs FO f k) i = Some s -> steady (size k i) s) ->
  match file_write FO E f, file_write FO E f' with
  | Ok (_, b), Ok (_, b') => b = b'
  | Err e, Err e' => e = e'
  | _, _ => False
  end.
Proof.
  intros P S. apply file_print_after in P as (A & B & C & D). assert (W : alike_files f f').
  { repeat (split; [assumption|]). intro k. destruct (D k) as (L & F). specialize (S k). revert F L S. clear D.
    generalize (size k), (nf_segs FO f k), (nf_segs FO f' k). intros z l. revert z. induction l as [|s l IH]; intros z [|s' l'] F L S; try discriminate L; [constructor|].
    constructor; [destruct (F O s s' eq_refl eq_refl) as (x & X); exact (seg_print_bytes _ _ _ _ _ X (S O s eq_refl))|].
    apply (IH (fun i => z (Datatypes.S i))); [intros i a b; exact (F (Datatypes.S i) a b)|now injection L|intros i a; exact (S (Datatypes.S i) a)]. }
  apply (write_alike E) in W. destruct (file_write FO E f) as [(g & b)|], (file_write FO E f') as [(g' & b')|]; exact W.
Qed.
End Opts.

(** ** Hooks *)

(** With [report_raw] the text is the one that the hooks that stay would give. *)
Definition kept (o : popts H) : popts H :=
  {| po_hooks := filter (fun h => negb (rm h)) (po_hooks o); po_raw := po_raw o; po_numpy := po_numpy o |}.
Lemma fold_kept {W} (m : H -> W -> res W) hs : forall w,
  fold_res (fun h w => if negb (true && rm h) then m h w else Ok w) hs w = fold_res (fun h w => if negb (true && rm h) then m h w else Ok w) (filter (fun h => negb (rm h)) hs) w.
Proof.
  induction hs as [|h hs IH]; intro w; [reflexivity|]. cbn [filter fold_res andb]. destruct (rm h) eqn:R; cbn [negb bind]; [apply IH|].
  cbn [fold_res andb]. rewrite R. cbn [negb]. destruct (m h w); cbn [bind]; auto.
Qed.
Theorem C63_raw o size f : po_raw o = true -> file_print o size f = file_print (kept o) size f.
Proof.
  intro R. assert (A : forall k s, hook_text FO H rm h_str o k s = hook_text FO H rm h_str (kept o) k s).
  { intros k s. unfold hook_text, on_str, kept. cbn [po_hooks po_raw]. rewrite R. destruct (s_linked FO s); [apply fold_kept|reflexivity]. }
  assert (B : forall k s t, tre_part FO ext source H rm h_tre o k s t = tre_part FO ext source H rm h_tre (kept o) k s t).
  { intros k s t. unfold tre_part, on_str_tre, kept. cbn [po_hooks po_raw]. rewrite R. destruct (s_linked FO s); [|reflexivity].
    now rewrite (fold_kept (fun h (p : bool * list N) => if fst p then Ok p else do (b, x) <- h_tre h k s t; Ok (b, snd p ++ x))). }
  assert (M : forall k s l, map_res (tre_part FO ext source H rm h_tre o k s) l = map_res (tre_part FO ext source H rm h_tre (kept o) k s) l).
  { intros k s. induction l as [|t l IH]; [reflexivity|]. cbn [map_res]. now rewrite B, IH. }
  assert (S : forall k z s, seg_print o k z s = seg_print (kept o) k z s).
  { intros k z s. unfold FilePrint.seg_print, tres_part. rewrite A. destruct (s_tres FO s); [reflexivity|]. now rewrite M. }
  assert (L : forall k z n l i, segs_print FO ext source H rm h_str h_tre o k z n i l = segs_print FO ext source H rm h_str h_tre (kept o) k z n i l).
  { intros k z n. induction l as [|s l IH]; intro i; [reflexivity|]. cbn [segs_print]. now rewrite S, IH. }
  unfold FilePrint.file_print, kind_print. now rewrite !L.
Qed.

(** The hooks that are asked, and what is said of a TRE: what they say until one has taken it, and
    if none has, the TRE itself. *)
Definition asked (o : popts H) : list H := filter (fun h => negb (po_raw o && rm h)) (po_hooks o).
Inductive hooked_tre (k : kind) (s : seg) (t : tre) : list H -> list N -> Prop :=
| ht_none x : tells_tre t x -> hooked_tre k s t [] (x ++ nl)
| ht_taken h hs x : h_tre h k s t = Ok (true, x) -> hooked_tre k s t (h :: hs) x
| ht_left h hs x y : h_tre h k s t = Ok (false, x) -> hooked_tre k s t hs y -> hooked_tre k s t (h :: hs) (x ++ y).
Definition hooked_tres (o : popts H) (k : kind) (s : seg) (x : list N) : Prop :=
  match k with
  | KDes | KRes => x = []
  | _ => match s_tres FO s with
         | [] => x = str "TREs:" ++ nl ++ str "No segment level TREs" ++ nl
         | ts => exists xs, Forall2 (fun t x => hooked_tre k s t (asked o) x) ts xs /\ x = str "TREs:" ++ nl ++ List.concat xs
         end
  end.
Lemma on_str_asked (o : popts H) k s : forall hs w x, fold_res (fun h w => if negb (po_raw o && rm h) then do t <- h_str h k s; Ok (w ++ t) else Ok w) hs w = Ok x ->
  exists ts, Forall2 (fun h t => h_str h k s = Ok t) (filter (fun h => negb (po_raw o && rm h)) hs) ts /\ x = w ++ List.concat ts.
Proof.
  induction hs as [|h hs IH]; intros w x E; cbn [fold_res] in E.
  - injection E as <-. exists []. split; [constructor|]. now rewrite app_nil_r.
  - cbn [filter]. destruct (negb (po_raw o && rm h)); cbn [bind] in E.
    + destruct (h_str h k s) as [t|] eqn:T; cbn [bind] in E; [|discriminate E]. apply IH in E as (ts & F & ->). exists (t :: ts). split; [now constructor|].
      cbn [List.concat]. now rewrite app_assoc.
    + exact (IH _ _ E).
Qed.
Lemma on_tre_taken (o : popts H) k s t : forall hs w, fold_res (fun h (p : bool * list N) => if negb (po_raw o && rm h) then if fst p then Ok p else do (b, x) <- h_tre h k s t; Ok (b, snd p ++ x) else Ok p) hs (true, w) = Ok (true, w).
Proof. induction hs as [|h hs IH]; intro w; [reflexivity|]. cbn [fold_res fst]. destruct (negb _); cbn [bind]; apply IH. Qed.
Lemma on_tre_asked (o : popts H) k s t y : forall hs w b v,
  fold_res (fun h (p : bool * list N) => if negb (po_raw o && rm h) then if fst p then Ok p else do (b, x) <- h_tre h k s t; Ok (b, snd p ++ x) else Ok p) hs (false, w) = Ok (b, v) ->
  (b = false -> tells_tre t y) -> exists x, hooked_tre k s t (filter (fun h => negb (po_raw o && rm h)) hs) x /\ (if b then v = w ++ x else v ++ y ++ nl = w ++ x).
Proof.
  induction hs as [|h hs IH]; intros w b v E Y; cbn [fold_res] in E.
  - injection E as <- <-. exists (y ++ nl). split; [apply ht_none; auto|reflexivity].
  - cbn [filter]. destruct (negb (po_raw o && rm h)); cbn [bind fst snd] in E.
    + destruct (h_tre h k s t) as [([] & x)|] eqn:T; cbn [bind] in E; [| |discriminate E].
      * rewrite on_tre_taken in E. injection E as <- <-. exists x. split; [now apply ht_taken|reflexivity].
      * apply IH in E as (x' & F & E); [|exact Y]. exists (x ++ x'). split; [now apply ht_left|]. destruct b; rewrite E; now rewrite app_assoc.
    + exact (IH _ _ _ E Y).
Qed.
(** The text of a segment of a file with hooks. *)
Theorem C63_hooked o k size s s' t : seg_print o k size s = Ok (s', t) -> s_linked FO s = true -> (k = KDes -> is_overflow FO (s_hdr FO s) = Ok false) ->
  exists before sub u ts data, Forall2 (fun h x => h_str h k s = Ok x) (asked o) before
    /\ fields_text (sub_rows k) (h_st (s_hdr FO s)) = Ok sub /\ tells_ush (s_ush FO s) u /\ hooked_tres o k s ts
    /\ data_text FO ext source H o k s size = Ok (s_data FO s', data)
    /\ t = List.concat before ++ str "Sub header:" ++ nl ++ sub ++ nl ++ u ++ ts ++ str "Data" ++ nl ++ data ++ nl.
Proof.
  intros E L K. unfold FilePrint.seg_print in E. apply bind_ok_elim in E as (skip & K' & E).
  destruct skip; [destruct k; try discriminate K'; rewrite (K eq_refl) in K'; discriminate K'|].
  apply bind_ok_elim in E as (a & A & E). apply bind_ok_elim in E as (b & B & E). apply bind_ok_elim in E as (u & U & E).
  apply bind_ok_elim in E as (ts & T & E). apply bind_ok_elim in E as ((d & x) & D & E). apply ok_pair in E as (<- & <-).
  unfold hook_text in A. rewrite L in A. apply on_str_asked in A as (before & F & ->).
  exists before, b, u, ts, x. split; [exact F|]. split; [exact B|]. split; [now apply ush_part_tells|]. split; [|split; [exact D|cbn [app]; unfold line; now rewrite <- !app_assoc]].
  unfold tres_part in T. unfold hooked_tres.
  assert (Q : has_tres k = true -> match s_tres FO s with
      | [] => ts = str "TREs:" ++ nl ++ str "No segment level TREs" ++ nl
      | l => exists xs, Forall2 (fun t x => hooked_tre k s t (asked o) x) l xs /\ ts = str "TREs:" ++ nl ++ List.concat xs end).
  { intro KT. rewrite KT in T. cbn [negb] in T. apply bind_ok_elim in T as (r & R & T). apply ok_eq in T. rewrite <- T. clear T.
    destruct (s_tres FO s) as [|t0 l]; [injection R as <-; unfold line; cbn [List.concat]; now rewrite app_nil_r, <- !app_assoc|].
    apply map_res_all in R. exists r. split; [|unfold line; now rewrite <- app_assoc].
    clear - R L. induction R as [|t1 x1 l1 r1 P _ IH]; [constructor|]. constructor; [|exact IH]. unfold tre_part in P. rewrite L in P.
    apply bind_ok_elim in P as ((g & v) & P & Y). unfold on_str_tre in P. destruct g.
    - injection Y as <-. destruct (on_tre_asked o k s t1 [] (po_hooks o) [] true v P ltac:(intro X; discriminate X)) as (x' & P' & ->). exact P'.
    - apply bind_ok_elim in Y as (y & TT & Y). apply ok_eq in Y. rewrite <- Y. destruct (on_tre_asked o k s t1 y (po_hooks o) [] false v P (fun _ => tre_text_tells _ _ TT)) as (x' & P' & Q).
      cbn [app] in Q. unfold line. rewrite Q. exact P'. }
  destruct k; try (apply Q; reflexivity); cbn [has_tres negb] in T; now injection T as <-.
Qed.
End P.
Print Assumptions C63_segment.
Print Assumptions C63_text.
Print Assumptions C63_changes.
Print Assumptions C63_unchanged.
Print Assumptions C63_written.
Print Assumptions C63_raw.
Print Assumptions C63_hooked.
