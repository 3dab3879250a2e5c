(** C46: a file that was read and is written again, unchanged, has the same bytes. *)
From Verif Require Import Base BaseLemmas Engine Wf EngineLemmas Codec RoundTrip Rewrite Literal
  Positions Keys Deps Assign Update Spec Reach Decimal DecimalLemmas DescsHdr Utf8 Handles Tre TreLemmas P_RoundTrip P_Fields P_Tre
  TrePlace TrePlaceLemmas P_TrePlace Scalar Security P_Security Image ImageLemmas P_Image File FileLemmas P_File FileRead P_FileKeep P_FileRead P_Skip.
From Verif Require Import ImageNew Ext PrepTwice FileTwice P_FileTwice P_FileBuilt FileAgain.
From Coq Require Import ZifyBool ZifyNat ZifyN Permutation.
Open Scope list_scope.
Ltac Zify.zify_post_hook ::= idtac.

Section P.
Variable FO : FloatOps.
Notation st := (state FO).
Notation hdr := (hdr FO).
Notation seg := (seg FO).

(** ** Headers *)

(** No field is a float, and optional text is filled with spaces. *)
Definition plain_fields (rows : list row) : bool :=
  forallb (fun f => match fd_ty (f_d f) with TFloat => false | TStr => negb (fd_optional (f_d f)) || (fd_optchar (f_d f) =? 32)%N | _ => true end)
    (fs_fields (mk_fs rows)).
Lemma plain_rewritable rows (s : st) : plain_fields rows = true -> no_literals FO (mk_fs rows) s -> rewritable FO rows s.
Proof.
  intros H HN. unfold plain_fields in H. rewrite forallb_forall in H. split; [|split; [exact HN|]].
  - intros f sz Hf T. specialize (H f Hf). rewrite T in H. discriminate.
  - intros f k t Hf T O _ _. specialize (H f Hf). rewrite T, O in H. cbn [negb orb] in H. now apply N.eqb_eq.
Qed.
Lemma header_plain : plain_fields desc_NitfFileHeader = true.
Proof. vm_compute. reflexivity. Qed.
Lemma sub_plain k : plain_fields (sub_rows k) = true.
Proof. destruct k; vm_compute; reflexivity. Qed.

Lemma kept_sym k (s s' : seg) : kept FO k s s' -> kept FO k s' s.
Proof.
  intros ((A & B & C & D) & K). split; [repeat split; congruence|]. intros nm key HI. symmetry. exact (K nm key HI).
Qed.

(** What else is asked of a segment: its user subheader and its data can be rewritten, and the
    reader does not skip the data. *)
Definition stays (E : env) (k : kind) (s : seg) : Prop :=
  ush_rewritable FO s /\ data_rewritable FO s /\ not_skipped FO E k s.

Lemma kept_stays E k (s s' : seg) : kept FO k s s' -> plain_seg FO k s' -> image_placed FO k s -> stays E k s -> seg_rewritable FO E k s'.
Proof.
  intros K HN HP (S1 & S2 & S3). destruct (proj1 K) as (KU & _ & KD & _). split; [exact (plain_rewritable _ _ (sub_plain k) HN)|].
  split; [unfold ush_rewritable in *; rewrite KU; exact S1|]. split; [unfold data_rewritable in *; rewrite KD; exact S2|].
  intros b Hb HT. rewrite (kept_data FO k s s' K HP) in Hb. exact (S3 b Hb (kept_taken FO E k s' s b HHole (kept_sym k s s' K) HT)).
Qed.
Lemma kept_all E k l l' : Forall2 (kept FO k) l l' -> Forall (plain_seg FO k) l' -> Forall (ready FO E k) l -> Forall (stays E k) l ->
  Forall (seg_rewritable FO E k) l'.
Proof.
  induction 1 as [|s s' l l' K _ IH]; intros HN HR HS; [constructor|]. inversion_clear HN as [|? ? N1 N2].
  inversion_clear HR as [|? ? (_ & _ & R3 & _) R5]. inversion_clear HS as [|? ? S1 S2].
  constructor; [exact (kept_stays E k s s' K N1 R3 S1)|exact (IH N2 R5 S2)].
Qed.

(** ** C46 *)

Theorem C46_same_bytes E f f' bytes : FloatLaws FO -> linked FO f -> file_write FO E f = Ok (f', bytes) ->
  Z.of_nat (List.length bytes) <> 999999999999%Z ->
  no_literals FO (mk_fs desc_NitfFileHeader) (h_st (nf_hdr FO f)) ->
  tre_ready_in FO E desc_NitfFileHeader file_areas (nf_hdr FO f) (nf_tres FO f) ->
  (forall k, Forall (tre_ready FO E k) (nf_segs FO f k)) ->
  Forall (tre_rewritable FO) (nf_tres FO f) ->
  (forall k, Forall (fun s => Forall (tre_rewritable FO) (s_tres FO s)) (nf_segs FO f k)) ->
  (forall k, Forall (ready FO E k) (nf_segs FO f k)) -> (forall k, Forall (stays E k) (nf_segs FO f k)) -> overflow_ready E ->
  exists g, file_read FO E bytes = Ok g
    /\ (Forall (ordinary_des FO) (nf_segs FO g KDes) -> exists g', file_write FO E g = Ok (g', bytes)).
Proof.
  intros laws HL HW HF HN HT HTS HRT HRS HR HS HO.
  assert (HP : forall k, Forall (plain_seg FO k) (nf_segs FO f' k)).
  { apply (segs_no_lit FO E f f' bytes HL HW). intro k'. eapply Forall_impl; [|exact (HR k')]. intros s Hs. exact (proj1 Hs). }
  apply (file_again FO laws E f f' bytes HL HW HF); try assumption.
  - apply plain_rewritable; [exact header_plain|]. exact (header_no_lit FO E f f' bytes HN HW).
  - exact (file_readable FO E f f' bytes HL HW HR).
  - destruct (C27_keeps FO E f f' bytes HL HW) as (_ & K1 & K2 & _). intro k. destruct (kind_eqb k KDes) eqn:EK.
    + assert (k = KDes) by (destruct k; try discriminate; reflexivity). subst k.
      destruct (wo_split FO _ _ _ K2) as (l0 & F & I0). apply (kept_all E KDes _ _ F (HP KDes)).
      * apply Forall_forall. intros s Hs. pose proof (HR KDes) as X. rewrite Forall_forall in X. exact (X s (I0 s Hs)).
      * apply Forall_forall. intros s Hs. pose proof (HS KDes) as X. rewrite Forall_forall in X. exact (X s (I0 s Hs)).
    + exact (kept_all E k _ _ (K1 k ltac:(intros ->; discriminate)) (HP k) (HR k) (HS k)).
Qed.

(** Reading and writing any number of times. *)
Fixpoint cycles (E : env) (n : nat) (bytes : list N) : res (list N) :=
  match n with
  | O => Ok bytes
  | S n => do g <- file_read FO E bytes; do (_, b) <- file_write FO E g; cycles E n b
  end.
Corollary C46_for_ever E f f' bytes : FloatLaws FO -> linked FO f -> file_write FO E f = Ok (f', bytes) ->
  Z.of_nat (List.length bytes) <> 999999999999%Z ->
  no_literals FO (mk_fs desc_NitfFileHeader) (h_st (nf_hdr FO f)) ->
  tre_ready_in FO E desc_NitfFileHeader file_areas (nf_hdr FO f) (nf_tres FO f) ->
  (forall k, Forall (tre_ready FO E k) (nf_segs FO f k)) ->
  Forall (tre_rewritable FO) (nf_tres FO f) ->
  (forall k, Forall (fun s => Forall (tre_rewritable FO) (s_tres FO s)) (nf_segs FO f k)) ->
  (forall k, Forall (ready FO E k) (nf_segs FO f k)) -> (forall k, Forall (stays E k) (nf_segs FO f k)) -> overflow_ready E ->
  (forall g, file_read FO E bytes = Ok g -> Forall (ordinary_des FO) (nf_segs FO g KDes)) ->
  forall n, cycles E n bytes = Ok bytes.
Proof.
  intros laws HL HW HF HN HT HTS HRT HRS HR HS HO HD.
  destruct (C46_same_bytes E f f' bytes laws HL HW HF HN HT HTS HRT HRS HR HS HO) as (g & R & W). destruct (W (HD g R)) as (g' & W').
  induction n as [|n IH]; [reflexivity|]. cbn [cycles]. rewrite R. cbn [bind]. rewrite W'. cbn [bind]. exact IH.
Qed.

(** ** A case: an image, a text and a DES, with TREs in the file and in the segments *)

Definition again_env : env := {| e_reg := []; e_des := []; e_res := [];
  e_levels := [[HOverflow; HNumpy; HText]; [HImageHole; HDesCopy]; [HHole]] |}.
Lemma again_skips k (s : seg) b : taken_by FO again_env k s b HHole ->
  declines FO k (s_hdr FO s) HText /\ declines FO k (s_hdr FO s) HImageHole /\ declines FO k (s_hdr FO s) HDesCopy.
Proof.
  intros (_ & before & l1 & l2 & after & EL & HD). rewrite Forall_forall in HD. cbn [e_levels again_env] in EL.
  assert (X : forall A (x : A) l m a, l ++ x :: m = a -> In x a) by (intros A x l m a <-; apply in_elt).
  assert (before = [[HOverflow; HNumpy; HText]; [HImageHole; HDesCopy]]).
  { destruct before as [|l before]; injection EL as E1 E2.
    - exfalso. symmetry in E1. apply X in E1. cbn in E1. intuition discriminate.
    - subst l. destruct before as [|l before]; injection E2 as E1 E2.
      + exfalso. symmetry in E1. apply X in E1. cbn in E1. intuition discriminate.
      + subst l. destruct before as [|l before]; [reflexivity|]. injection E2 as E1 E2. destruct before; discriminate. }
  subst before. split; [|split]; apply HD; cbn; tauto.
Qed.
Lemma takes_all k (h : hdr) hd : (hd = HText \/ hd = HImageHole \/ hd = HDesCopy) -> In k (kinds_of hd) -> declines FO k h hd -> False.
Proof. intros H HI HD. destruct HD as [hd HK|t -> _ _|c t -> _ _| -> _]; [contradiction|intuition discriminate ..]. Qed.

Definition again_image : seg := ex_seg FO (ex_hdr FO GAll U2 2 3 12) (DImage FO GAll (ex_supplier GAll)) [TUnk (str "IMTRE") (str "abc")].
Definition again_text : seg := ex_seg FO (new_hdr FO) (DStr FO (str "hello")) [TUnk (str "SMALL") (str "x")].
Definition again_des : seg := ex_seg FO (new_hdr FO) (DBytes FO (Some (str "data"))) [].
Definition file_tres (f : nfile FO) (ts : list (tre FO)) : nfile FO :=
  {| nf_hdr := nf_hdr FO f; nf_tres := ts; nf_segs := nf_segs FO f; nf_refs := nf_refs FO f |}.
Lemma file_tres_hdr f ts : nf_hdr FO (file_tres f ts) = nf_hdr FO f.
Proof. reflexivity. Qed.
Lemma file_tres_segs f ts : nf_segs FO (file_tres f ts) = nf_segs FO f.
Proof. reflexivity. Qed.
Lemma file_tres_tres f ts : nf_tres FO (file_tres f ts) = ts.
Proof. reflexivity. Qed.
Definition again_file : nfile FO :=
  file_tres (append_seg FO (append_seg FO (append_seg FO (fst (new_file FO (sec_default FO))) KImage again_image) KText again_text) KDes again_des)
    [TUnk (str "FTRE") (str "of the file")].

Definition linked_as (s : seg) (l : bool) : seg :=
  {| s_hdr := s_hdr FO s; s_ush := s_ush FO s; s_tres := s_tres FO s; s_data := s_data FO s; s_linked := l |}.
Lemma linked_self (s : seg) : linked_as s (s_linked FO s) = s.
Proof. destruct s. reflexivity. Qed.
Lemma again_all_segs (P : kind -> seg -> Prop) : (forall l, P KImage (linked_as again_image l)) -> (forall l, P KText (linked_as again_text l)) ->
  (forall l, P KDes (linked_as again_des l)) -> forall k, Forall (P k) (nf_segs FO again_file k).
Proof.
  intros H1 H2 H3. unfold again_file. rewrite file_tres_segs.
  apply all_append; [|exact (eq_ind _ (P KDes) (H3 _) _ (linked_self again_des))|exact (H3 true)].
  apply all_append; [|exact (eq_ind _ (P KText) (H2 _) _ (linked_self again_text))|exact (H2 true)].
  apply all_append; [|exact (eq_ind _ (P KImage) (H1 _) _ (linked_self again_image))|exact (H1 true)]. apply all_new.
Qed.
Lemma again_image_ready l : ready FO again_env KImage (linked_as again_image l).
Proof.
  unfold linked_as, again_image, ex_seg, ex_hdr. cbn [s_hdr s_ush s_tres s_data].
  destruct (new_image FO GAll 2 3 (Np true U2) 12 ex_args (sec_default FO)) as [h u] eqn:E. cbn [fst].
  apply (C26_new_image FO again_env GAll 2 3 true U2 12 ex_args (sec_default FO) (ex_supplier GAll) ex_px h u _ l [] [HOverflow] [HText] [[HImageHole; HDesCopy]; [HHole]]);
    try exact E; try lia.
  - apply ex_marking.
  - apply ex_supplies.
  - intros [[b r] c] _. reflexivity.
  - reflexivity.
  - do 2 (apply Forall_cons; [cbn; intuition discriminate|]). apply Forall_nil.
Qed.
Lemma again_text_ready l : ready FO again_env KText (linked_as again_text l).
Proof.
  split; [exact (no_literals_init FO desc_NitfTextSubheader)|]. split; [reflexivity|]. split; [exact I|].
  intros b _. exists HText. split; [split; [now left|exact I]|]. exists [], [HOverflow; HNumpy], [], [[HImageHole; HDesCopy]; [HHole]].
  split; [reflexivity|]. do 2 (apply Forall_cons; [apply dec_kind; cbn; intuition discriminate|]). apply Forall_nil.
Qed.
Lemma again_des_ready l : ready FO again_env KDes (linked_as again_des l).
Proof.
  assert (D : des_id FO (new_hdr FO) []) by (vm_compute; reflexivity).
  split; [exact (no_literals_init FO desc_NitfDesSubheader)|]. split; [exists []; split; [exact D|exact (fun H => H)]|]. split; [exact I|].
  intros b _. exists HDesCopy. split; [split; [cbn; tauto|exact I]|]. exists [[HOverflow; HNumpy; HText]], [HImageHole], [], [[HHole]].
  split; [reflexivity|]. apply Forall_cons; [apply (dec_overflow FO _ _ [] eq_refl D); discriminate|].
  do 3 (apply Forall_cons; [apply dec_kind; cbn; intuition discriminate|]). apply Forall_nil.
Qed.
Lemma again_overflow_ready : overflow_ready again_env.
Proof.
  split; [exact (fun H => H)|]. exists [], [], HOverflow, [HNumpy; HText], [[HImageHole; HDesCopy]; [HHole]].
  split; [reflexivity|]. split; [now left|]. do 2 (apply Forall_cons; [left; cbn; intuition discriminate|]). apply Forall_nil.
Qed.
Lemma again_one t body : plain_tag t -> Forall (recognised FO (e_reg again_env)) [TUnk t body].
Proof. intro H. apply Forall_cons; [apply unk_recognised; exact H|apply Forall_nil]. Qed.
Lemma again_tre : forall k, Forall (tre_ready FO again_env k) (nf_segs FO again_file k).
Proof.
  apply again_all_segs; intro l; [| |reflexivity]; unfold tre_ready, linked_as, again_image, again_text, ex_seg; cbn [s_hdr s_tres].
  - apply settled_empty; [exact (proj1 (proj2 areas_shipped))|exact (ex_hdr_settled FO)| |].
    + intros x [<-|[<-|[]]]; vm_compute; reflexivity.
    + apply again_one, plain_check. reflexivity.
  - apply settled_empty; [exact (proj2 (proj2 areas_shipped))|exact (settled_new FO KText)| |].
    + intros x [<-|[]]; vm_compute; reflexivity.
    + apply again_one, plain_check. reflexivity.
Qed.
Lemma again_hdr : nf_hdr FO again_file = nf_hdr FO (fst (new_file FO (sec_default FO))).
Proof. unfold again_file. rewrite file_tres_hdr, !append_hdr. reflexivity. Qed.
Lemma again_stays : forall k, Forall (stays again_env k) (nf_segs FO again_file k).
Proof.
  apply again_all_segs; intro l; (split; [exact I|split; [exact I|]]); intros b _ HT; destruct (again_skips _ _ _ HT) as (D1 & D2 & D3).
  - apply (takes_all KImage _ HImageHole) in D2; [exact D2|tauto|cbn; tauto].
  - apply (takes_all KText _ HText) in D1; [exact D1|tauto|cbn; tauto].
  - apply (takes_all KDes _ HDesCopy) in D3; [exact D3|tauto|cbn; tauto].
Qed.
Lemma again_run : match file_write FO again_env again_file with
  | Ok (_, b) => ((1000 <? Z.of_nat (List.length b)) && (Z.of_nat (List.length b) <? 99999))%Z = true /\ match file_read FO again_env b with
      | Ok g => forallb (fun s => match is_overflow FO (s_hdr FO s) with Ok false => true | _ => false end) (nf_segs FO g KDes) = true
                /\ map (fun k => List.length (nf_segs FO g k)) kinds = [1; 0; 1; 1; 0]%nat
      | Err _ => False end
  | Err _ => False end.
Proof. vm_compute. repeat split; reflexivity. Qed.
Lemma linked_tres f ts : linked FO f -> linked FO (file_tres f ts).
Proof. exact (fun H => H). Qed.
Lemma again_linked : linked FO again_file.
Proof. unfold again_file. apply linked_tres. do 3 (apply linked_append; [|vm_compute; reflexivity]). apply linked_new. Qed.
Example ex_c46 : FloatLaws FO -> exists f' bytes, file_write FO again_env again_file = Ok (f', bytes)
  /\ (1000 < Z.of_nat (List.length bytes))%Z /\ forall n, cycles again_env n bytes = Ok bytes.
Proof.
  intro laws. pose proof again_run as X.
  destruct (file_write FO again_env again_file) as [[f' b]|e] eqn:E; [|destruct X]. destruct X as (X & Y).
  apply andb_true_iff in X as (X1 & X2). exists f', b. split; [reflexivity|]. split; [clear - X1; lia|].
  apply (C46_for_ever again_env again_file f' b laws again_linked E).
  - clear - X2. lia.
  - rewrite again_hdr. apply new_plain.
  - rewrite again_hdr. unfold again_file. rewrite file_tres_tres. apply settled_empty; [exact (proj1 areas_shipped)|exact (ex_new_settled FO)| |].
    + intros x [<-|[<-|[]]]; vm_compute; reflexivity.
    + apply again_one, plain_check. reflexivity.
  - exact again_tre.
  - unfold again_file. rewrite file_tres_tres. apply Forall_cons; [exact I|apply Forall_nil].
  - apply again_all_segs; intro l; unfold linked_as, again_image, again_text, again_des, ex_seg; cbn [s_tres];
      [apply Forall_cons; [exact I|apply Forall_nil]|apply Forall_cons; [exact I|apply Forall_nil]|apply Forall_nil].
  - apply again_all_segs; [exact again_image_ready|exact again_text_ready|exact again_des_ready].
  - exact again_stays.
  - exact again_overflow_ready.
  - intros g R. rewrite R in Y. destruct Y as (Y & _). rewrite forallb_forall in Y. apply Forall_forall. intros s Hs. specialize (Y s Hs).
    apply is_overflow_false. destruct (is_overflow FO (s_hdr FO s)) as [[]|]; (reflexivity || discriminate).
Qed.

(** ** With overflow segments the bytes need not be the same *)

(** Three TREs that do not fit together into the two areas of an image segment: the third goes
    into an overflow segment.  Reading gives the third one first, and it is then the second that
    is moved into an overflow segment. *)
Definition swap_image : seg := ex_seg FO (ex_hdr FO GAll U2 2 3 12) (DImage FO GAll (ex_supplier GAll))
  [TUnk (str "FIRST") (repeat 65%N (Z.to_nat 60000)); TUnk (str "SECOND") (repeat 66%N (Z.to_nat 60000)); TUnk (str "THIRD") (repeat 67%N (Z.to_nat 60000))].
Definition swap_file : nfile FO := append_seg FO (fst (new_file FO (sec_default FO))) KImage swap_image.
Lemma swap_run : match file_write FO again_env swap_file with
  | Ok (f1, b1) => match file_read FO again_env b1 with
      | Ok g => match file_write FO again_env g with Ok (g1, b2) => list_eqb b1 b2 = false | Err _ => False end
      | Err _ => False end
  | Err _ => False end.
Proof. vm_compute. reflexivity. Qed.
Theorem C46_overflow_refuted : exists f f1 b1 g g1 b2, linked FO f
  /\ file_write FO again_env f = Ok (f1, b1) /\ file_read FO again_env b1 = Ok g /\ file_write FO again_env g = Ok (g1, b2) /\ b1 <> b2.
Proof.
  pose proof swap_run as H. assert (HL : linked FO swap_file) by (apply linked_append; [apply linked_new|vm_compute; reflexivity]).
  remember swap_file as f eqn:F0. clear F0.
  remember (file_write FO again_env f) as r1 eqn:R1. destruct r1 as [[f1 b1]|]; [|destruct H].
  remember (file_read FO again_env b1) as r2 eqn:R2. destruct r2 as [g|]; [|destruct H].
  remember (file_write FO again_env g) as r3 eqn:R3. destruct r3 as [[g1 b2]|]; [|destruct H].
  exists f, f1, b1, g, g1, b2. symmetry in R1, R2, R3. repeat (split; [assumption|]). intros ->.
  rewrite (proj2 (list_eqb_spec b2 b2) eq_refl) in H. discriminate.
Qed.
End P.

Print Assumptions C46_same_bytes.
Print Assumptions C46_for_ever.
Print Assumptions C46_overflow_refuted.
