(** Writing again what was read: lemmas for P_FileAgain.v. *)
From Verif Require Import Base BaseLemmas Engine Wf EngineLemmas Codec RoundTrip Rewrite Literal
  Positions Keys Deps Assign Update Spec Reach Decimal DecimalLemmas DescsHdr Utf8 Handles Tre TreLemmas P_RoundTrip P_Fields P_Tre
  TrePlace TrePlaceLemmas P_TrePlace Scalar Security P_Security Image ImageLemmas P_Image File FileLemmas P_File FileRead P_FileKeep P_FileRead P_Skip.
From Verif Require Import ImageNew Ext PrepTwice FileTwice P_FileTwice P_FileBuilt.
From Coq Require Import ZifyBool ZifyNat ZifyN Permutation.
Open Scope list_scope.
Ltac Zify.zify_post_hook ::= idtac.

Section A.
Variable FO : FloatOps.
Notation st := (state FO).
Notation hdr := (hdr FO).
Notation seg := (seg FO).
Hypothesis laws : FloatLaws FO.

(** ** What a structure that was read holds *)

(** Values of a structure that survive writing, reading and writing again to the byte. *)
Definition rewritable (rows : list row) (s : st) : Prop :=
  FloatStable FO (mk_fs rows) /\ no_literals FO (mk_fs rows) s /\ no_fill_text FO (mk_fs rows) s.

Section Reread.
Variables (rows : list row) (s s1 : st) (b rest rest' : list N).
Let fs := mk_fs rows.
Hypothesis Hwf : wf_rows rows = true.
Hypothesis HL : literals_ok FO fs s.
Hypothesis HW : write FO fs s = Ok b.
Hypothesis HR : read FO fs false (init_state FO) (b ++ rest) = Ok (s1, rest').

Lemma reread_slot f k ks : In f (fs_fields fs) -> field_keys FO fs s f = Ok ks -> In k ks ->
  exists c, check_condition FO (G FO fs s) fs f k = Ok c /\
    (c = true -> fd_name (f_d f) <> None -> exists bb sv, parse_field FO (f_d f) false bb = Ok sv /\ st_val FO s1 (f_id f) k = Some sv).
Proof.
  intros Hf HK Hk. assert (HW' := HW). unfold write in HW'. apply bind_ok_elim in HW' as (cs & Hcs & E). injection E as E.
  destruct (read_write_rt FO laws rows s false HL (init_state FO) cs rest Hwf Hcs) as (st1 & V & R & I1 & K & _).
  change (mk_fs rows) with fs in R. rewrite E in R. rewrite HR in R. injection R as <- _.
  destruct (K f Hf) as (ks' & K1 & K2 & _). change (field_keys FO fs s f = Ok ks') in K1. rewrite HK in K1. injection K1 as <-.
  destruct (proj2 I1 f k (K2 k Hk)) as (_ & _ & c & C1 & C2). exists c. split; [exact C1|]. intros Hc Hn.
  destruct (C2 Hc Hn) as (bb & sv & _ & P & V1 & _). eauto.
Qed.

Lemma reread_same nm f k v : lookup fs nm = Some f -> exactb f = true -> valid_index FO fs s f k ->
  get FO fs s nm k = Ok v -> get FO fs s1 nm k = Ok v.
Proof.
  intros L HE HV Hg. destruct (C01_round_trip FO rows s (init_state FO) false b rest laws Hwf HL HW) as (st1 & R & H1 & H2).
  change (mk_fs rows) with fs in R. rewrite HR in R. injection R as <- _.
  exact (same_exact FO rows s s1 nm f k v (conj H1 H2) L HE HV Hg).
Qed.

Lemma get_inner (t : st) nm f k v : lookup fs nm = Some f -> get FO fs t nm k = Ok v -> v <> VNone ->
  fd_value (f_d f) = None -> exists w, check_condition FO (G FO fs t) fs f k = Ok true /\ convert FO (f_d f) (stored FO t f k) = Ok w
    /\ (match fd_ty (f_d f), w with TData _, VBytes x => unpack FO (G FO fs t) fs f k x | _, _ => Ok w end) = Ok v.
Proof.
  intros L Hg Hv LV. unfold get in Hg. rewrite L in Hg. destruct (key_shape_ok f k); [|discriminate].
  unfold fget, get_pub in Hg. apply bind_ok_elim in Hg as (w & Hw & Hg). unfold get_base in Hw.
  rewrite (has_name_lookup rows nm f L) in Hw. apply bind_ok_elim in Hw as ([] & _ & Hw).
  apply bind_ok_elim in Hw as (c & Hc & Hw). destruct c; cbn [negb] in Hw.
  - rewrite LV in Hw. destruct (convert FO (f_d f) (stored FO t f k)) as [w'|]; [|discriminate]. injection Hw as ->.
    exists w. auto.
  - injection Hw as <-. destruct (fd_ty (f_d f)); injection Hg as <-; contradiction.
Qed.

Lemma reread_int nm f k z : lookup fs nm = Some f -> fd_ty (f_d f) = TInt -> fd_value (f_d f) = None ->
  valid_index FO fs s f k -> get FO fs s nm k = Ok (VInt z) -> get FO fs s1 nm k = Ok (VInt z) /\ stored FO s1 f k = SVal (VInt z).
Proof.
  intros L T LV HV Hg. assert (Hf := lookup_in _ _ _ L). assert (HN := has_name_lookup rows nm f L).
  assert (G1 : get FO fs s1 nm k = Ok (VInt z)) by (apply (reread_same nm f k); auto; unfold exactb; now rewrite T).
  split; [exact G1|].
  destruct (get_inner s nm f k _ L Hg ltac:(discriminate) LV) as (w & C & _).
  destruct (get_inner s1 nm f k _ L G1 ltac:(discriminate) LV) as (w1 & _ & C1 & C2). rewrite T in C2. injection C2 as ->.
  assert (HK : exists ks, field_keys FO fs s f = Ok ks).
  { destruct (round_trip FO laws rows s false HL (init_state FO) b rest Hwf HW) as (x & _ & X & _).
    destruct (X f Hf) as (ks & X1 & _). eauto. }
  destruct HK as (ks & HK).
  destruct (reread_slot f k ks Hf HK) as (c & D1 & D2); [now apply (valid_key FO fs s f ks k HK)|].
  rewrite C in D1. injection D1 as <-. destruct (D2 eq_refl ltac:(congruence)) as (bb & sv & P & V).
  unfold stored in *. rewrite V in *. unfold parse_field in P. destruct (fd_optional (f_d f) && is_blank (f_d f) bb) eqn:EB.
  - injection P as <-. apply andb_true_iff in EB as [O _]. cbn [convert] in C1. rewrite O in C1. discriminate.
  - rewrite T in P. destruct (rstrip_by ws_byte bb) as [|x l]; [discriminate|]. destruct (conv_int FO (VBytes (x :: l))) as [z'|]; [|discriminate].
    injection P as <-. cbn [convert] in C1. rewrite T in C1. cbn in C1. now injection C1 as ->.
Qed.

Lemma reread_bytes nm f k x : lookup fs nm = Some f -> fd_ty (f_d f) = TData KBytes -> fd_value (f_d f) = None ->
  valid_index FO fs s f k -> get FO fs s nm k = Ok (VBytes x) -> get FO fs s1 nm k = Ok (VBytes x) /\ stored FO s1 f k = SVal (VBytes x).
Proof.
  intros L T LV HV Hg. assert (Hf := lookup_in _ _ _ L). assert (HN := has_name_lookup rows nm f L).
  assert (G1 : get FO fs s1 nm k = Ok (VBytes x)) by (apply (reread_same nm f k); auto; unfold exactb; now rewrite T).
  split; [exact G1|].
  destruct (get_inner s nm f k _ L Hg ltac:(discriminate) LV) as (w & C & _).
  destruct (get_inner s1 nm f k _ L G1 ltac:(discriminate) LV) as (w1 & _ & C1 & C2). rewrite T in C2.
  assert (HK : exists ks, field_keys FO fs s f = Ok ks).
  { destruct (round_trip FO laws rows s false HL (init_state FO) b rest Hwf HW) as (y & _ & X & _).
    destruct (X f Hf) as (ks & X1 & _). eauto. }
  destruct HK as (ks & HK).
  destruct (reread_slot f k ks Hf HK) as (c & D1 & D2); [now apply (valid_key FO fs s f ks k HK)|].
  rewrite C in D1. injection D1 as <-. destruct (D2 eq_refl ltac:(congruence)) as (bb & sv & P & V).
  unfold stored in *. rewrite V in *. unfold parse_field in P. destruct (fd_optional (f_d f) && is_blank (f_d f) bb) eqn:EB.
  - injection P as <-. apply andb_true_iff in EB as [O _]. cbn [convert] in C1. rewrite O in C1. injection C1 as <-. discriminate.
  - rewrite T in P. injection P as <-. cbn [convert] in C1. rewrite T in C1. cbn [conv_bytes bind] in C1. injection C1 as <-.
    unfold unpack in C2. rewrite T in C2. now injection C2 as ->.
Qed.

Lemma reread_impl : st_impl FO s1 = false.
Proof.
  assert (HR' := HR). unfold read in HR'.
  refine (read_items_pres FO fs false (fun t => st_impl FO t = false) _ _ _ _ _ _ _ (incl_refl _) HR' eq_refl).
  intros t f k bb v _ _ _ H. exact H.
Qed.
Lemma reread_write : rewritable rows s -> write FO fs s1 = Ok b.
Proof.
  intros (R1 & R2 & R3). exact (C03_rewrite_identical FO rows s (init_state FO) s1 b rest rest' laws R1 Hwf R2 R3 (rc_init FO rows) HW HR).
Qed.
End Reread.

(** ** First fit *)

Lemma split_app {X} (a b l1 : list X) x l2 : a ++ b = l1 ++ x :: l2 ->
  (exists l, a = l1 ++ x :: l /\ l2 = l ++ b) \/ (exists l, l1 = a ++ l /\ b = l ++ x :: l2).
Proof.
  revert l1. induction a as [|y a IH]; intros l1 H; [right; exists l1; auto|].
  destruct l1 as [|z l1']; cbn in H; injection H as -> H; [left; exists a; auto|].
  destruct (IH l1' H) as [(l & -> & ->)|(l & -> & ->)]; [left|right]; exists l; auto.
Qed.
Lemma filter_split {X} (p : X -> bool) l l1 x l2 : filter p l = l1 ++ x :: l2 ->
  exists q1 q2, l = q1 ++ x :: q2 /\ filter p q1 = l1 /\ p x = true.
Proof.
  revert l1. induction l as [|y l IH]; intros l1 H; cbn [filter] in H; [destruct l1; discriminate|].
  destruct (p y) eqn:E.
  - destruct l1 as [|z l1']; cbn in H; injection H as -> H; [exists [], l; auto|].
    destruct (IH l1' H) as (q1 & q2 & -> & E' & Hx). subst l1'. exists (z :: q1), q2. cbn [filter]. rewrite E. auto.
  - destruct (IH l1 H) as (q1 & q2 & -> & <- & Hx). exists (y :: q1), q2. cbn [filter]. rewrite E. auto.
Qed.

Lemma ff_split n qs : first_fit n qs -> forall l1 i r l2, qs = l1 ++ (i, r) :: l2 ->
  (forall j, (j < i)%nat -> ~ room l1 j r) /\ ((i < n)%nat -> room l1 i r).
Proof.
  induction 1 as [|ps i0 r0 HF IH Hi Hno Hroom]; intros l1 i r l2 E; [destruct l1; discriminate|].
  apply split_app in E as [(l & E1 & E2)|(l & E1 & E2)]; [exact (IH l1 i r l E1)|].
  destruct l as [|y l]; [|destruct l; discriminate]. cbn in E2. injection E2 as <- <- <-. rewrite app_nil_r in E1. subst. auto.
Qed.
Lemma ff_intro n ps : (forall l1 i r l2, ps = l1 ++ (i, r) :: l2 ->
    (i <= n)%nat /\ (forall j, (j < i)%nat -> ~ room l1 j r) /\ ((i < n)%nat -> room l1 i r)) -> first_fit n ps.
Proof.
  induction ps as [|[i r] ps IH] using rev_ind; intro H; [constructor|].
  destruct (H ps i r [] eq_refl) as (H1 & H2 & H3). constructor; auto.
  apply IH. intros l1 i' r' l2 ->. apply (H l1 i' r' (l2 ++ [(i, r)])). now rewrite <- app_assoc.
Qed.

(** Only one placement is first fit. *)
Lemma ff_unique n ps : first_fit n ps -> forall qs, first_fit n qs -> map snd ps = map snd qs -> ps = qs.
Proof.
  induction 1 as [|ps i r HF IH Hi Hno Hroom]; intros qs HQ E.
  - destruct qs; [reflexivity|discriminate].
  - inversion HQ as [E0|qs' i' r' HF' Hi' Hno' Hroom' E0]; subst qs; rewrite map_app in E; cbn [map snd] in E; [destruct (map snd ps); discriminate|].
    rewrite map_app in E. cbn [map snd] in E. apply app_inj_tail in E as [E <-]. specialize (IH qs' HF' E). subst qs'.
    assert (i = i'); [|now subst]. destruct (Nat.lt_trichotomy i i') as [L|[L|L]]; [|exact L|].
    + exfalso. apply (Hno' i L). apply Hroom. lia.
    + exfalso. apply (Hno i' L). apply Hroom'. lia.
Qed.

(** The records area by area. *)
Definition block (qs : list (nat * list N)) (i : nat) : list (nat * list N) := filter (fun p => Nat.eqb (fst p) i) qs.
Lemma part_app a b i : part (a ++ b) i = part a i ++ part b i.
Proof. unfold part. now rewrite filter_app, map_app, concat_app. Qed.
Lemma block_in qs i p : In p (block qs i) -> fst p = i.
Proof. unfold block. intro H. apply filter_In in H as [_ H]. now apply Nat.eqb_eq in H. Qed.
Lemma block_same qs i : part (block qs i) i = part qs i.
Proof.
  unfold part, block. f_equal. f_equal. induction qs as [|p qs IH]; [reflexivity|]. cbn [filter].
  destruct (Nat.eqb (fst p) i) eqn:E; [|exact IH]. cbn [filter]. now rewrite E, IH.
Qed.
Lemma part_other ps i : (forall p, In p ps -> fst p <> i) -> part ps i = [].
Proof.
  unfold part. intro H. replace (filter _ ps) with (@nil (nat * list N)); [reflexivity|]. symmetry.
  induction ps as [|p ps IH]; [reflexivity|]. cbn [filter]. replace (Nat.eqb (fst p) i) with false.
  - apply IH. intros q Hq. apply H. now right.
  - symmetry. apply Nat.eqb_neq. apply H. now left.
Qed.
Lemma blocks_in qs k m p : In p (flat_map (block qs) (seq k m)) -> (k <= fst p < k + m)%nat.
Proof. intro H. apply in_flat_map in H as (i & Hi & H). apply block_in in H. apply in_seq in Hi. lia. Qed.

Lemma blocks_split qs : forall m k l1 i r l2, flat_map (block qs) (seq k m) = l1 ++ (i, r) :: l2 ->
  (k <= i < k + m)%nat /\ (forall j, (k <= j < i)%nat -> part l1 j = part qs j)
  /\ exists q1 q2, qs = q1 ++ (i, r) :: q2 /\ part l1 i = part q1 i.
Proof.
  induction m as [|m IH]; intros k l1 i r l2 H; cbn [seq flat_map] in H; [destruct l1; discriminate|].
  apply split_app in H as [(l & E1 & E2)|(l & E1 & E2)].
  - unfold block in E1. destruct (filter_split _ _ _ _ _ E1) as (q1 & q2 & Eq & <- & Hx). cbn [fst] in Hx. apply Nat.eqb_eq in Hx. subst i.
    split; [lia|]. split; [intros j Hj; lia|]. exists q1, q2. split; [exact Eq|]. exact (block_same q1 k).
  - destruct (IH (S k) l i r l2 E2) as (H1 & H2 & q1 & q2 & H3 & H4). split; [lia|].
    assert (HL : forall p, In p l -> fst p <> k).
    { intros p Hp. assert (In p (flat_map (block qs) (seq (S k) m))) by (rewrite E2; apply in_or_app; now left).
      apply blocks_in in H. lia. }
    split.
    + intros j Hj. subst l1. rewrite part_app. destruct (Nat.eq_dec j k) as [->|N].
      * rewrite block_same, (part_other l k HL). apply app_nil_r.
      * rewrite (part_other (block qs k) j), H2 by (try lia; intros p Hp; apply block_in in Hp; lia). reflexivity.
    + exists q1, q2. split; [exact H3|]. subst l1. rewrite part_app, (part_other (block qs k) i) by (intros p Hp; apply block_in in Hp; lia). exact H4.
Qed.

Lemma blocks_part qs n : (forall p, In p qs -> (fst p < n)%nat) -> forall i, part (flat_map (block qs) (seq 0 n)) i = part qs i.
Proof.
  intros H i.
  assert (G : forall m k, part (flat_map (block qs) (seq k m)) i = if (k <=? i)%nat && (i <? k + m)%nat then part qs i else []).
  { induction m as [|m IH]; intro k; cbn [seq flat_map].
    - destruct (k <=? i)%nat eqn:E1, (i <? k + 0)%nat eqn:E2; cbn [andb]; try reflexivity. exfalso; lia.
    - rewrite part_app, IH. destruct (Nat.eq_dec k i) as [->|N].
      + rewrite block_same. replace (S i <=? i)%nat with false by lia. replace ((i <=? i)%nat && (i <? i + S m)%nat) with true by lia.
        cbn [andb]. apply app_nil_r.
      + rewrite (part_other (block qs k) i) by (intros p Hp; apply block_in in Hp; lia). cbn [app].
        replace ((S k <=? i)%nat && (i <? S k + m)%nat) with ((k <=? i)%nat && (i <? k + S m)%nat) by lia. reflexivity. }
  rewrite G. destruct (i <? 0 + n)%nat eqn:E; [reflexivity|]. cbn [andb].
  symmetry. apply part_other. intros p Hp. specialize (H p Hp). lia.
Qed.

(** Sorting the records by area changes nothing about where they go. *)
Lemma ff_sorted n qs : first_fit n qs -> first_fit n (flat_map (block qs) (seq 0 n)).
Proof.
  intro HF. apply ff_intro. intros l1 i r l2 E. destruct (blocks_split qs n 0 l1 i r l2 E) as (H1 & H2 & q1 & q2 & H3 & H4).
  destruct (ff_split n qs HF q1 i r q2 H3) as (K1 & K2). split; [lia|]. split.
  - intros j Hj R. apply (K1 j Hj). unfold room in *. rewrite H2 in R by lia. rewrite H3, part_app, app_length in R. lia.
  - intro Hi. specialize (K2 Hi). unfold room in *. rewrite H4. exact K2.
Qed.

Lemma records_fun (ts : list (tre FO)) r1 r2 : records FO ts r1 -> records FO ts r2 -> r1 = r2.
Proof. intro H. revert r2. induction H; intros r2 H2; inversion H2; subst; auto. f_equal; [congruence|auto]. Qed.

Lemma place_sorted (ts : list (tre FO)) (areas : list tarea) qs :
  first_fit (List.length areas) qs -> (forall p, In p qs -> (fst p < List.length areas)%nat) ->
  records FO ts (map snd (flat_map (block qs) (seq 0 (List.length areas)))) ->
  place FO ts (map (fun _ => []) areas) [] = Ok (map (part qs) (seq 0 (List.length areas)), []).
Proof.
  intros HF HB HR. set (n := List.length areas) in *.
  destruct (place_total FO ts _ (map (fun _ => []) areas) [] HR) as ([heads des] & HP). rewrite HP.
  replace (map (fun _ : tarea => @nil N) areas) with (repeat (@nil N) n) in HP by (unfold n; clear; induction areas; cbn; congruence).
  destruct (place_start FO _ _ _ _ HP) as (ps & P1 & P2 & P3 & P4 & P5).
  assert (ps = flat_map (block qs) (seq 0 n)) by (apply (ff_unique n ps P2 _ (ff_sorted n qs HF)); exact (records_fun ts _ _ P1 HR)).
  subst ps. rewrite (blocks_part qs n HB) in P5. rewrite (part_other qs n) in P5 by (intros p Hp; specialize (HB p Hp); lia). subst des.
  do 2 f_equal. apply (nth_ext _ _ [] (part qs 0)); [now rewrite map_length, seq_length|].
  intros j Hj. rewrite P3 in Hj. rewrite P4 by exact Hj. rewrite (map_nth (part qs) (seq 0 n) 0%nat j), seq_nth by exact Hj.
  now rewrite (blocks_part qs n HB).
Qed.

(** ** TREs that are read and written again *)

Definition tre_rewritable (t : tre FO) : Prop :=
  match t with TObj c s => rewritable (tc_rows c) s | TUnk _ _ => True end.

Lemma tre_write_eq (t t' : tre FO) : tre_tag FO t = tre_tag FO t' -> tre_body FO t = tre_body FO t' -> tre_write FO t = tre_write FO t'.
Proof. intros H1 H2. unfold tre_write. now rewrite H1, H2. Qed.

Lemma stream_again reg (ts : list (tre FO)) rs0 : Forall (recognised FO reg) ts -> Forall tre_rewritable ts -> records FO ts rs0 ->
  exists ts1, read_tre_data FO reg (List.concat rs0) = Ok ts1 /\ records FO ts1 rs0.
Proof.
  intros HF HRW HR0. unfold read_tre_data.
  assert (K : exists rs, map snd rs = rs0
     /\ Forall (fun x => plain_tag (fst (fst x)) /\ is_record (snd x) (fst (fst x)) (snd (fst x))) rs
     /\ Forall2 (fun (t : tre FO) x => tre_tag FO t = fst (fst x) /\ tre_body FO t = Ok (snd (fst x)) /\ tre_write FO t = Ok (snd x)) ts rs).
  { clear HRW. revert HF. induction HR0 as [|t r ts rs0 Hr _ IH]; intro HF; [exists []; auto|].
    inversion_clear HF as [|? ? [HT _] HF']. destruct (IH HF') as (rs & E1 & H1 & H2).
    destruct (tre_write_record FO _ _ HT Hr) as (body & Hbody & HR).
    exists ((tre_tag FO t, body, r) :: rs). cbn [map snd]. split; [congruence|]. split; constructor; auto. }
  destruct K as (rs & <- & HR & H2).
  destruct (stream_records FO reg rs _ HR (Nat.lt_succ_diag_r _)) as (ts1 & E & HD).
  exists ts1. split; [exact E|]. clear E HR HR0.
  revert ts HF HRW H2. induction HD as [|[[tag body] r] t1 rs ts1 Hd _ IH]; intros ts HF HRW H2; inversion H2 as [|x ? xs ? H3 H4]; subst; cbn [map snd].
  - constructor.
  - inversion_clear HF as [|? ? Hrec HF']. inversion_clear HRW as [|? ? Hrw HRW']. constructor; [|exact (IH xs HF' HRW' H4)].
    destruct H3 as (Et & Eb & Ew). cbn [fst snd] in *. rewrite <- Ew. subst tag.
    destruct x as [c st|tag body0]; cbn [tre_tag tre_body recognised tre_rewritable] in *; destruct Hrec as [HT Hrec].
    + destruct Hrec as (Hreg & H6 & Hwf & HL). cbn [tre_tag] in *.
      destruct (C01_round_trip FO (tc_rows c) st (init_state FO) false body [] laws Hwf HL Eb) as (st1 & E1 & _).
      assert (E2 := reread_write (tc_rows c) st st1 body [] [] Hwf Eb E1 Hrw). rewrite app_nil_r in E1.
      destruct Hd as [(c1 & s1 & (R1 & _ & R3) & ->)|[N _]].
      * rewrite (registered_fun _ _ _ _ R1 Hreg) in *. unfold fields_of in R3. rewrite E1 in R3. injection R3 as <-.
        apply tre_write_eq; [reflexivity|]. cbn [tre_body]. now rewrite E2.
      * exfalso. apply (N c st1). split; auto.
    + injection Eb as ->. destruct Hd as [(c1 & s1 & R & _)|[_ ->]]; [exfalso; eapply Hrec; eauto|]. reflexivity.
Qed.

(** An area that shows the records [b]. *)
Definition holds (rows : list row) (s : st) (a : tarea) (b : list N) : Prop :=
  (b = [] /\ get FO (mk_fs rows) s (ta_len a) [] = Ok (VInt 0))
  \/ (b <> [] /\ get FO (mk_fs rows) s (ta_len a) [] = Ok (VInt (Z.of_nat (List.length b) + 3))
      /\ get FO (mk_fs rows) s (ta_ofl a) [] = Ok (VInt 0) /\ get FO (mk_fs rows) s (ta_data a) [] = Ok (VBytes b)).

Lemma read_again rows areas idx (h : hdr) ts nd h' reg :
  areas_ok rows areas -> sound_header FO rows areas h ->
  (forall a, In a areas -> no_stale FO rows h a) -> refilled FO rows areas h ts ->
  Forall (recognised FO reg) ts -> Forall tre_rewritable ts ->
  prepare FO rows areas idx h ts nd = (h', None, Ok tt) ->
  exists ts1 heads, (forall des, read_areas FO rows reg h' des areas = Ok ts1)
    /\ place FO ts1 (map (fun _ => []) areas) [] = Ok (heads, []) /\ Forall2 (holds rows (h_st h')) areas heads.
Proof.
  intros (Hwf & HA & ND) HS HQ HU HC HRW H.
  assert (HR : exists rs, records FO ts rs).
  { unfold prepare in H. destruct (place FO ts (map (fun _ => []) areas) []) as [[heads des]|] eqn:HP; [|discriminate].
    replace (map (fun _ : tarea => @nil N) areas) with (repeat (@nil N) (List.length areas)) in HP
      by (clear; induction areas; cbn; congruence).
    destruct (place_start _ _ _ _ _ HP) as (ps & P & _). eauto. }
  destruct HR as (rs & HR).
  destruct (prepare_ok FO rows Hwf areas HA ND idx h ts nd rs HS HR) as (ps & E & HF & [(h1 & ov1 & H1 & P)|(h1 & ov1 & e & H1 & _)]);
    rewrite H1 in H; [|discriminate].
  injection H as <- ->. subst rs. clear H1. destruct P as (_ & _ & _ & P & _ & PO).
  specialize (fun i a => HU ps i a HR HF).
  destruct (numbered FO ts ps HR) as (qs & Eqs & HN). destruct HS as [_ HSL].
  assert (HNE := records_nonempty FO ts ps HR).
  assert (HB : forall p, In p ps -> (fst p < List.length areas)%nat).
  { intros p Hp. assert (X := first_fit_number _ _ _ HF Hp). assert (Y := proj1 (part_nil ps _ HNE) PO p Hp). lia. }
  assert (RD : forall i, exists t, read_tre_data FO reg (part ps i) = Ok t /\ records FO t (map snd (block ps i))).
  { intro i. apply (stream_again reg (sel qs i)).
    - rewrite Forall_forall in *. intros t Ht. apply HC. apply sel_in in Ht. congruence.
    - rewrite Forall_forall in *. intros t Ht. apply HRW. apply sel_in in Ht. congruence.
    - clear - HN. unfold sel, block. induction HN as [|[a t] [b r] qs ps [E1 E2] _ IH]; [constructor|]. cbn in E1, E2. subst b.
      cbn [filter fst]. destruct (Nat.eqb a i); cbn [map snd]; [constructor; [exact E2|exact IH]|exact IH]. }
  set (n := List.length areas) in *.
  assert (AR : forall i a, nth_error areas i = Some a -> holds rows (h_st h1) a (part ps i)
     /\ exists t, (forall des, area_reads FO rows reg h1 des a t) /\ records FO t (map snd (block ps i))).
  { intros i a Hi. assert (Ha : In a areas) by (eapply nth_error_In; eauto).
    assert (OKa : area_ok rows a) by (rewrite Forall_forall in HA; auto). destruct OKa as (D1 & D2 & D3).
    destruct (P i a Hi) as [X Y]. destruct (HSL a Ha) as (m & Hm0 & Hm).
    destruct (RD i) as (t2 & R2 & F2).
    destruct (part ps i) as [|b0 b1] eqn:EP.
    - destruct (HU i a Hi) as [|HZ]; [congruence|]. destruct X as [X _]. split; [left; split; [reflexivity|congruence]|].
      exists []. split; [intro des; left; split; auto; unfold hint; rewrite (hget_area FO rows h1 _ _ D1), X, HZ; reflexivity|].
      cbv in R2. injection R2 as <-. exact F2.
    - assert (Hne : b0 :: b1 <> []) by discriminate. rewrite <- EP in *.
      assert (XX : len_is FO rows (h_st h1) a (Z.of_nat (List.length (part ps i)) + 3) /\
         get FO (mk_fs rows) (h_st h1) (ta_data a) [] = Ok (VBytes (part ps i))) by (destruct (part ps i); [congruence|exact X]).
      clear X. destruct XX as [X1 X2].
      assert (Hlen : (0 < List.length (part ps i))%nat) by (destruct (part ps i); [congruence|cbn; lia]).
      assert (YY : get FO (mk_fs rows) (h_st h1) (ta_ofl a) [] = Ok (VInt 0)).
      { apply (Y m _ Hm X1); [lia| |now right]. destruct (HQ a Ha) as [(m' & Hm' & HQ')|HQ'].
        - left. unfold len_is in Hm. assert (m = m') by congruence. lia.
        - right. split; [congruence|exact HQ']. }
      split; [right; split; [exact Hne|]; split; [exact X1|]; split; [exact YY|exact X2]|].
      exists t2. split; [|exact F2]. intro des. right.
      do 5 eexists. unfold hint. rewrite (hget_area FO rows h1 _ _ D1), (hget_area FO rows h1 _ _ D2), (hget_area FO rows h1 _ _ D3).
      rewrite YY. unfold len_is in X1. rewrite X1, X2. cbn [bind]. split; [reflexivity|]. split; [lia|]. split; [reflexivity|].
      split; [left; split; reflexivity|]. split; [reflexivity|]. split; [exact R2|reflexivity]. }
  assert (ALL : exists tss, (forall des, Forall2 (area_reads FO rows reg h1 des) areas tss)
     /\ records FO (List.concat tss) (map snd (flat_map (block ps) (seq 0 n)))
     /\ Forall2 (holds rows (h_st h1)) areas (map (part ps) (seq 0 n))).
  { assert (G : forall l k, (forall i a, nth_error l i = Some a -> nth_error areas (k + i) = Some a) ->
       exists tss, (forall des, Forall2 (area_reads FO rows reg h1 des) l tss)
         /\ records FO (List.concat tss) (map snd (flat_map (block ps) (seq k (List.length l))))
         /\ Forall2 (holds rows (h_st h1)) l (map (part ps) (seq k (List.length l)))).
    { induction l as [|a l IH]; intros k Hk; [exists []; cbn; split; [auto|]; split; constructor|].
      destruct (AR (k + 0)%nat a (Hk 0%nat a eq_refl)) as (T0 & t & T1 & T2). rewrite Nat.add_0_r in T0, T2.
      destruct (IH (S k)) as (tss & T3 & T4 & T5).
      { intros i a' Hi. replace (S k + i)%nat with (k + S i)%nat by lia. now apply Hk. }
      exists (t :: tss). cbn [List.length seq map List.concat flat_map]. split; [intro des; constructor; auto|].
      split; [rewrite map_app; apply Forall2_app; assumption|constructor; assumption]. }
    apply (G areas 0%nat). auto. }
  destruct ALL as (tss & T1 & T2 & T3). exists (List.concat tss), (map (part ps) (seq 0 n)).
  split; [intro des; apply read_areas_all; auto|]. split; [|exact T3]. exact (place_sorted (List.concat tss) areas ps HF HB T2).
Qed.

(** ** Preparing a header that was read *)

Definition filled (rows : list row) (s : st) (a : tarea) (b : list N) : Prop :=
  declared rows (ta_len a) = true /\
  ((b = [] /\ get FO (mk_fs rows) s (ta_len a) [] = Ok (VInt 0))
   \/ (b <> [] /\ area_ok rows a /\ get FO (mk_fs rows) s (ta_len a) [] = Ok (VInt (Z.of_nat (List.length b) + 3)) /\ fixed FO rows s a b)).

Lemma store_filled rows : wf_rows rows = true -> forall areas heads (h : hdr), st_impl FO (h_st h) = false ->
  Forall2 (filled rows (h_st h)) areas heads ->
  exists h', store_areas FO rows h areas heads = (h', Ok tt) /\ eqh FO rows h' h.
Proof.
  intros Hwf areas heads h HI HF. induction HF as [|a b areas heads (D & F) HF IH].
  - exists h. split; [reflexivity|apply eqh_refl].
  - assert (DA : forallb (fun a => declared rows (ta_len a)) areas = true).
    { clear - HF. induction HF as [|x y l m (H & _) _ IH]; [reflexivity|]. cbn [forallb]. now rewrite H. }
    assert (S1 : exists n h1, get FO (mk_fs rows) (h_st h) (ta_len a) [] = Ok (VInt n) /\ step1 FO rows a h n b = (h1, Ok tt) /\ eqh FO rows h1 h).
    { destruct F as [(-> & F)|(Hb & Ha & F1 & F2)].
      - exists 0%Z, h. split; [exact F|]. split; [reflexivity|apply eqh_refl].
      - destruct (area_fields rows a Ha) as (lf & of & df & A).
        assert (T : twin rows a a) by (repeat split; now left).
        destruct (step1_again FO rows Hwf a a lf of df A T h _ b HI F1) as (h1 & E1 & Q1);
          [clear; lia|exact (F2 lf df (af_len _ _ _ _ _ A) (af_dat _ _ _ _ _ A))|].
        eauto. }
    destruct S1 as (n & h1 & G & E1 & Q1). rewrite (store_step FO rows a areas b heads h n G D), E1.
    destruct IH as (h' & E' & Q').
    assert (X := store_eq FO rows areas DA heads h1 h Q1). rewrite E' in X. destruct (store_areas FO rows h1 areas heads) as [h2 r2].
    cbn [fst snd] in X. destruct X as (X1 & ->). exists h2. split; [reflexivity|]. exact (eqh_trans _ _ _ _ _ X1 Q').
Qed.

Lemma prepare_filled rows areas idx (h : hdr) ts n heads : wf_rows rows = true -> st_impl FO (h_st h) = false ->
  place FO ts (map (fun _ => []) areas) [] = Ok (heads, []) -> Forall2 (filled rows (h_st h)) areas heads ->
  exists h', prepare FO rows areas idx h ts n = (h', None, Ok tt) /\ eqh FO rows h' h.
Proof.
  intros Hwf HI HP HF. unfold prepare. rewrite HP. destruct (store_filled rows Hwf areas heads h HI HF) as (h' & E & Q).
  rewrite E. exists h'. split; [reflexivity|exact Q].
Qed.

(** A header that needs no overflow segment, whatever the number of segments before. *)
Definition keeps rows areas prefix (h : hdr) (ts : list (tre FO)) : Prop :=
  forall idx des, exists h', prep FO rows areas prefix idx h ts des = Ok (h', des) /\ eqx FO rows h' h.
Lemma keeps_filled rows areas prefix (h : hdr) ts heads : wf_rows rows = true -> areas_fieldb rows areas = true -> st_impl FO (h_st h) = false ->
  place FO ts (map (fun _ => []) areas) [] = Ok (heads, []) -> Forall2 (filled rows (h_st h)) areas heads -> keeps rows areas prefix h ts.
Proof.
  intros Hwf HA HI HP HF idx des.
  destruct (prepare_filled rows areas (Z.of_nat idx) h ts (List.length des) heads Hwf HI HP HF) as (h' & E & Q).
  exists h'. unfold prep. rewrite E. split; [reflexivity|]. split; [exact Q|]. exact (prepare_attr FO rows areas _ _ _ _ _ _ _ HA E).
Qed.

Lemma no_loops_valid rows (s : st) f : f_loops f = [] -> valid_index FO (mk_fs rows) s f [].
Proof. intro H. split; rewrite H; [reflexivity|]. intros j Hj. cbn in Hj. clear - Hj; lia. Qed.

(** What the areas of the written header hold, the header that is read is filled with. *)
Lemma holds_filled rows (s s1 : st) b rest rest' a x : wf_rows rows = true -> literals_ok FO (mk_fs rows) s ->
  write FO (mk_fs rows) s = Ok b -> read FO (mk_fs rows) false (init_state FO) (b ++ rest) = Ok (s1, rest') ->
  (x <> [] -> area_ok rows a) ->
  (exists lf, lookup (mk_fs rows) (ta_len a) = Some lf /\ fd_ty (f_d lf) = TInt /\ fd_value (f_d lf) = None /\ f_loops lf = []) ->
  holds rows s a x -> filled rows s1 a x.
Proof.
  intros Hwf HL HW HR HA (lf & L1 & L2 & L3 & L4) H. split; [unfold declared; now rewrite L1|].
  destruct H as [(-> & H)|(Hx & H1 & H2 & H3)].
  - left. split; [reflexivity|].
    exact (proj1 (reread_int rows s s1 b rest rest' Hwf HL HW HR _ lf [] 0 L1 L2 L3 (no_loops_valid rows s lf L4) H)).
  - right. assert (Ha := HA Hx). split; [exact Hx|]. split; [exact Ha|].
    destruct (area_fields rows a Ha) as (lf' & of & df & A). assert (lf' = lf) by (assert (X := af_len _ _ _ _ _ A); congruence). subst lf'.
    destruct (reread_int rows s s1 b rest rest' Hwf HL HW HR _ lf [] _ L1 L2 L3 (no_loops_valid rows s lf L4) H1) as (G1 & S1).
    split; [exact G1|].
    assert (DO := af_ofld _ _ _ _ _ A). assert (DD := af_datd _ _ _ _ _ A).
    destruct (reread_int rows s s1 b rest rest' Hwf HL HW HR _ of [] _ (af_ofl _ _ _ _ _ A) ltac:(now rewrite DO) ltac:(now rewrite DO)
       (no_loops_valid rows s of (af_ofll _ _ _ _ _ A)) H2) as (_ & S2).
    destruct (reread_bytes rows s s1 b rest rest' Hwf HL HW HR _ df [] _ (af_dat _ _ _ _ _ A) ltac:(now rewrite DD) ltac:(now rewrite DD)
       (no_loops_valid rows s df (af_datl _ _ _ _ _ A)) H3) as (_ & S3).
    intros lf' df' E1 E2. rewrite L1 in E1. injection E1 as <-. rewrite (af_dat _ _ _ _ _ A) in E2. injection E2 as <-.
    split; [auto|]. intros f Lf. rewrite (af_ofl _ _ _ _ _ A) in Lf. injection Lf as <-. exact S2.
Qed.

(** ** Writing a file that needs no overflow segment *)

(** The segment [t] will be written as [p]. *)
Definition again (E : env) (k : kind) (t : seg) (p : list N * list N) : Prop :=
  (exists h2, put_ush FO k t = Ok h2 /\ eqx FO (sub_rows k) h2 (s_hdr FO t))
  /\ write FO (mk_fs (sub_rows k)) (h_st (s_hdr FO t)) = Ok (fst p)
  /\ (forall h, data_bytes FO h (s_data FO t) = Ok (snd p)) /\ ush_check FO E k t /\ s_linked FO t = true.

Lemma again_eqseg E k t t' p : again E k t p -> eqseg FO k t' t -> again E k t' p.
Proof.
  intros ((h2 & P1 & P2) & W & D & (c & C1 & C2) & L) HE. assert (HE' := HE). destruct HE' as (T1 & (B1 & B2 & B3 & B4)).
  split; [|split; [rewrite (eq_write FO _ _ _ (proj1 T1)); exact W|split; [intro h; rewrite B3; apply D|split; [|congruence]]]].
  - destruct (put_ush_again FO k t t' h2 P1) as (h3 & Q1 & Q2).
    { split; [exact (eqx_trans FO _ _ _ _ T1 (eqx_sym FO _ _ _ P2))|cbn; repeat split; assumption]. }
    exists h3. split; [exact Q1|]. exact (eqx_trans FO _ _ _ _ (eqx_trans FO _ _ _ _ Q2 P2) (eqx_sym FO _ _ _ T1)).
  - exists c. rewrite B4, B1, (ush_cls_eqx FO E k _ _ T1). auto.
Qed.

Lemma seg_write_anew E n k i t p (hs H : st) file tail : again E k t p ->
  eqst FO hrows hs H -> counts FO H n -> (i < n k)%nat -> st_impl FO H = false ->
  size_stored FO H k true i = SVal (VInt (Z.of_nat (List.length (fst p)))) ->
  size_stored FO H k false i = SVal (VInt (Z.of_nat (List.length (snd p)))) ->
  in_file FO hfs hs [] file tail ->
  exists t' hs', seg_write FO E k i t hs file = Ok (t', hs', file ++ fst p ++ snd p) /\ eqseg FO k t' t
    /\ eqst FO hrows hs' H /\ in_file FO hfs hs' [] (file ++ fst p ++ snd p) (tail ++ fst p ++ snd p).
Proof.
  intros ((h2 & P1 & P2) & P3 & P4 & (c & C1 & C2) & P5) HE C Hi HI Z1 Z2 HF.
  unfold seg_write. rewrite P5 in *. rewrite C1. cbn [bind]. rewrite C2. cbn [bind]. rewrite P1. cbn [bind].
  rewrite (eq_write FO _ _ _ (proj1 P2)), P3. cbn [bind].
  rewrite P4. cbn [bind]. change (fst (size_names k)) with (size_name k true). change (snd (size_names k)) with (size_name k false).
  destruct (size_patch FO hs H n _ _ k true i _ HE C Hi HI Z1 (in_file_app FO _ _ _ (fst p ++ snd p) HF)) as (s1 & U1 & E1 & F1).
  rewrite U1. destruct (size_patch FO s1 H n _ _ k false i _ E1 C Hi HI Z2 F1) as (s2 & U2 & E2 & F2). rewrite U2.
  exists (with_hdr FO t h2), s2. split; [reflexivity|]. split; [|split; [exact E2|exact F2]].
  split; [exact P2|]. apply sbh_hdr.
Qed.

Lemma segs_write_anew E n k ts ps (H : st) : Forall2 (again E k) ts ps -> counts FO H n -> st_impl FO H = false -> forall i hs file tail,
  (i + List.length ts <= n k)%nat ->
  (forall j p, nth_error ps j = Some p -> size_stored FO H k true (i + j) = SVal (VInt (Z.of_nat (List.length (fst p))))
          /\ size_stored FO H k false (i + j) = SVal (VInt (Z.of_nat (List.length (snd p))))) ->
  eqst FO hrows hs H -> in_file FO hfs hs [] file tail ->
  exists ts' hs', segs_write FO E k i ts hs file = Ok (ts', hs', file ++ flat ps) /\ Forall2 (eqseg FO k) ts' ts
    /\ eqst FO hrows hs' H /\ in_file FO hfs hs' [] (file ++ flat ps) (tail ++ flat ps).
Proof.
  intros HR C HI. induction HR as [|t p ts ps H1 _ IH]; intros i hs file tail Hi HZ HE HF.
  - exists [], hs. unfold flat. cbn [map List.concat]. rewrite !app_nil_r. split; [reflexivity|]. split; [constructor|]. split; [exact HE|exact HF].
  - cbn [List.length] in Hi. assert (Hi1 : (i < n k)%nat) by (clear - Hi; lia). assert (Hi2 : (S i + List.length ts <= n k)%nat) by (clear - Hi; lia).
    assert (Z0 := HZ 0%nat p eq_refl). rewrite Nat.add_0_r in Z0. destruct Z0 as (Z1 & Z2).
    destruct (seg_write_anew E n k i t p hs H file tail H1 HE C Hi1 HI Z1 Z2 HF) as (t' & hs1 & W1 & T1 & E1 & F1).
    destruct (IH (S i) hs1 (file ++ fst p ++ snd p) (tail ++ fst p ++ snd p) Hi2) as (ts' & hs2 & W2 & T2 & E2 & F2); [|exact E1|exact F1|].
    { intros j q Hq. replace (S i + j)%nat with (i + S j)%nat by (clear; lia). exact (HZ (S j) q Hq). }
    assert (FL : flat (p :: ps) = (fst p ++ snd p) ++ flat ps) by reflexivity. rewrite FL.
    exists (t' :: ts'), hs2. cbn [segs_write]. rewrite W1. cbn [bind]. rewrite W2. cbn [bind].
    rewrite !app_assoc in *. split; [reflexivity|]. split; [constructor; assumption|]. split; [exact E2|exact F2].
Qed.

Definition seg_keeps (k : kind) (t : seg) : Prop := keeps (sub_rows k) (sub_areas k) (sec_prefix k) (s_hdr FO t) (s_tres FO t).

Lemma prep_segs_keeps k l : has_tres k = true -> Forall (seg_keeps k) l -> forall i des,
  exists l2, prep_segs FO k i l des = Ok (l2, des) /\ Forall2 (eqseg FO k) l2 l.
Proof.
  intro HK. induction 1 as [|t l H _ IH]; intros i des.
  - exists []. split; [reflexivity|constructor].
  - destruct (H i des) as (h' & E1 & Q1). destruct (IH (S i) des) as (l2 & E2 & Q2).
    exists (with_hdr FO t h' :: l2). cbn [prep_segs]. rewrite HK, E1. cbn [bind]. rewrite E2. cbn [bind]. split; [reflexivity|].
    constructor; [|exact Q2]. split; [exact Q1|apply sbh_hdr].
Qed.

Lemma F2_len {X Y} (R : X -> Y -> Prop) l m : Forall2 R l m -> List.length l = List.length m.
Proof. induction 1; cbn; congruence. Qed.
Lemma again_all E k l l2 ps : Forall2 (again E k) l ps -> Forall2 (eqseg FO k) l2 l -> Forall2 (again E k) l2 ps.
Proof.
  intro H. revert l2. induction H as [|t p l ps H _ IH]; intros l2 HE; inversion HE; subst; constructor; [|apply IH; assumption].
  eapply again_eqseg; eauto.
Qed.

Lemma write_anew E (g : nfile FO) (ps : kind -> list (list N * list N)) hb bytes :
  let H := h_st (nf_hdr FO g) in
  Forall (fun s => is_overflow FO (s_hdr FO s) = Ok false) (nf_segs FO g KDes) ->
  keeps hrows file_areas "fs" (nf_hdr FO g) (nf_tres FO g) ->
  (forall k, has_tres k = true -> Forall (seg_keeps k) (nf_segs FO g k)) ->
  (forall k, Forall2 (again E k) (nf_segs FO g k) (ps k)) ->
  write FO hfs H = Ok hb -> st_impl FO H = false ->
  (forall k, stored FO H (hfld (count_name k)) [] = SVal (VInt (Z.of_nat (List.length (ps k))))) ->
  (forall k j p, nth_error (ps k) j = Some p -> size_stored FO H k true j = SVal (VInt (Z.of_nat (List.length (fst p))))
          /\ size_stored FO H k false j = SVal (VInt (Z.of_nat (List.length (snd p))))) ->
  stored FO H (hfld "hl") [] = SVal (VInt (Z.of_nat (List.length hb))) ->
  stored FO H (hfld "fl") [] = SVal (VInt (Z.of_nat (List.length bytes))) ->
  bytes = hb ++ flat_map (fun k => flat (ps k)) kinds ->
  exists g', file_write FO E g = Ok (g', bytes).
Proof.
  intros H HD HK HS HA HW HI HC HZ HHl HFl HB.
  assert (DD : drop_overflow FO (nf_segs FO g KDes) = Ok (nf_segs FO g KDes)).
  { rewrite <- (app_nil_r (nf_segs FO g KDes)) at 1. apply drop_overflow_split; [exact HD|constructor]. }
  destruct (HK 0%nat (nf_segs FO g KDes)) as (k0 & P0 & X0).
  destruct (prep_segs_keeps KImage _ eq_refl (HS KImage eq_refl) 0 (nf_segs FO g KDes)) as (l1 & P1 & X1).
  destruct (prep_segs_keeps KGraphic _ eq_refl (HS KGraphic eq_refl) 0 (nf_segs FO g KDes)) as (l2 & P2 & X2).
  destruct (prep_segs_keeps KText _ eq_refl (HS KText eq_refl) 0 (nf_segs FO g KDes)) as (l3 & P3 & X3).
  set (g2 := fun k => match k with KImage => l1 | KGraphic => l2 | KText => l3 | KDes => nf_segs FO g KDes | KRes => nf_segs FO g KRes end).
  assert (RD : forall k, Forall2 (again E k) (g2 k) (ps k)).
  { intros [| | | |]; cbn [g2]; [exact (again_all _ _ _ _ _ (HA KImage) X1)|exact (again_all _ _ _ _ _ (HA KGraphic) X2)|exact (again_all _ _ _ _ _ (HA KText) X3)|apply HA|apply HA]. }
  assert (LG : forall k, List.length (g2 k) = List.length (ps k)) by (intro k; exact (F2_len _ _ _ (RD k))).
  destruct (counts_again FO (fun k => Z.of_nat (List.length (g2 k))) (nf_hdr FO g) HI kinds) with (h := k0) as (h2 & C1 & C2).
  { intros k _. rewrite LG. apply HC. }
  { exact X0. }
  assert (PF : prepare_file FO g = Ok (h2, g2)).
  { unfold prepare_file. rewrite DD. cbn [bind]. change desc_NitfFileHeader with hrows. rewrite P0. cbn [bind].
    rewrite P1. cbn [bind]. rewrite P2. cbn [bind]. rewrite P3. cbn [bind].
    match goal with |- context [steps FO ?a k0] => change (steps FO a k0) with
      (steps FO (map (fun k h => hset FO hrows h (count_name k) (VInt (Z.of_nat (List.length (g2 k))))) kinds) k0) end.
    rewrite C1. reflexivity. }
  set (n := fun k => List.length (ps k)) in *. assert (WC : counts FO H n) by (apply stored_counts; exact HC).
  assert (WR : write FO hfs (h_st h2) = Ok hb) by (rewrite (eq_write FO hrows _ _ (proj1 C2)); exact HW).
  assert (WF : exists s1, write_file FO hfs (h_st h2) [] = Ok (s1, hb) /\ eqst FO hrows s1 H /\ in_file FO hfs s1 [] hb []).
  { unfold write in WR. apply bind_ok_elim in WR as (cs & Hcs & WR). injection WR as WR.
    assert (WX : write_file FO hfs (h_st h2) [] = Ok (record_locs FO (h_st h2) (Z.of_nat (List.length (@nil N))) cs, hb)).
    { unfold write_file. rewrite Hcs. cbn [bind]. rewrite <- WR. reflexivity. }
    eexists. split; [exact WX|]. destruct (record_locs_val FO cs (h_st h2) (Z.of_nat (List.length (@nil N)))) as (V & _ & VI). split.
    - eapply eqst_trans; [|exact (proj1 C2)]. split; [exact VI|]. intros y p _. unfold stored. now rewrite V.
    - assert (HF := write_file_in_file FO hrows _ _ _ _ [] WX). rewrite app_nil_r in HF. exact HF. }
  destruct WF as (s1 & WF & Q1 & F1).
  destruct (total_patch FO s1 H hb [] "hl" _ (or_introl eq_refl) Q1 HI HHl F1) as (s2 & U1 & Q2 & F2).
  assert (LE : forall k, (0 + List.length (g2 k) <= n k)%nat) by (intro k; rewrite LG; apply le_n).
  destruct (segs_write_anew E n KImage _ _ H (RD KImage) WC HI 0 s2 hb [] (LE KImage) (HZ KImage) Q2 F2) as (t1 & s3 & V1 & T1 & Q3 & F3).
  destruct (segs_write_anew E n KGraphic _ _ H (RD KGraphic) WC HI 0 s3 _ _ (LE KGraphic) (HZ KGraphic) Q3 F3) as (t2 & s4 & V2 & T2 & Q4 & F4).
  destruct (segs_write_anew E n KText _ _ H (RD KText) WC HI 0 s4 _ _ (LE KText) (HZ KText) Q4 F4) as (t3 & s5 & V3 & T3 & Q5 & F5).
  destruct (segs_write_anew E n KDes _ _ H (RD KDes) WC HI 0 s5 _ _ (LE KDes) (HZ KDes) Q5 F5) as (t4 & s6 & V4 & T4 & Q6 & F6).
  destruct (segs_write_anew E n KRes _ _ H (RD KRes) WC HI 0 s6 _ _ (LE KRes) (HZ KRes) Q6 F6) as (t5 & s7 & V5 & T5 & Q7 & F7).
  assert (BY : ((((hb ++ flat (ps KImage)) ++ flat (ps KGraphic)) ++ flat (ps KText)) ++ flat (ps KDes)) ++ flat (ps KRes) = bytes).
  { rewrite HB. cbn [flat_map kinds app]. rewrite app_nil_r, <- !app_assoc. reflexivity. }
  rewrite BY in *.
  destruct (total_patch FO s7 H bytes _ "fl" _ (or_intror eq_refl) Q7 HI HFl F7) as (s8 & U2 & Q8 & F8).
  assert (DO : exists de, drop_overflow FO t4 = Ok de).
  { exists t4. rewrite <- (app_nil_r t4) at 1. apply drop_overflow_split; [|constructor]. cbn [g2] in T4.
    revert HD. clear - T4. induction T4 as [|a b l m (HE & _) _ IH]; intro KA; [constructor|]. inversion_clear KA as [|? ? A1 A2].
    constructor; [|exact (IH A2)]. rewrite <- A1. apply is_overflow_same. exact (proj2 (proj1 HE) _ _ desid_in). }
  destruct DO as (de & DO).
  eexists. unfold file_write. rewrite PF. cbn [bind]. rewrite WF. cbn [bind]. rewrite U1. rewrite V1. cbn [bind]. rewrite V2. cbn [bind].
  rewrite V3. cbn [bind]. rewrite V4. cbn [bind]. rewrite V5. cbn [bind]. rewrite U2. rewrite DO. cbn [bind]. reflexivity.
Qed.

(** ** Reading a segment that will be written again *)

Definition ush_rewritable (s : seg) : Prop :=
  match s_ush FO s with Some u => rewritable (uc_rows (us_cls FO u)) (us_st FO u) | None => True end.
Definition data_rewritable (s : seg) : Prop :=
  match s_data FO s with DFields _ c t _ => rewritable (dc_rows c) t | _ => True end.
(** The reader of [E] does not skip the data of the segment. *)
Definition not_skipped (E : env) (k : kind) (s : seg) : Prop :=
  forall b, data_bytes FO (s_hdr FO s) (s_data FO s) = Ok b -> ~ taken_by FO E k s b HHole.

Lemma handle_rewrites k (s : seg) (h1 : hdr) pre b post hd : agree FO k (s_hdr FO s) h1 -> accepts FO k s b hd ->
  data_bytes FO (s_hdr FO s) (s_data FO s) = Ok b -> hd <> HHole -> data_rewritable s ->
  exists d, handle_h FO k h1 (Z.of_nat (List.length b)) (pre ++ b ++ post) hd (List.length pre) = Ok (Some d, List.length (pre ++ b))
    /\ forall h, data_bytes FO h d = Ok b.
Proof.
  intros A HA HB HN HD.
  destruct hd as [|c| | | | | | |];
    try (destruct (handle_accepts FO laws k s h1 pre b post _ A HA HB) as (d & H1 & H2); cbn [data_read] in H2; subst d;
         eexists; split; [exact H1|]; intro h; reflexivity); [|congruence].
  destruct HA as (Hk & HI & Hwf & s0 & ex & ED & HL & HX). unfold handle_h. rewrite (proj1 (kinds_of_for (HFields c) k) Hk). cbn [negb].
  cbn in Hk. destruct Hk as [<-|[]].
  rewrite desid_hget, (A _ desid_plain). unfold des_id in HI. cbn [sub_rows]. rewrite HI. cbn [bind py_eqb].
  replace (list_eqb (dc_tag c) (dc_tag c)) with true by (symmetry; now apply list_eqb_spec). cbn [negb].
  unfold data_rewritable in HD. rewrite ED in HB, HD. cbn [data_bytes] in HB. apply bind_ok_elim in HB as (b0 & HW & HB). injection HB as <-.
  fold (opt_bytes ex). rewrite <- app_assoc.
  destruct (C01_round_trip FO (dc_rows c) s0 (init_state FO) false b0 (opt_bytes ex ++ post) laws Hwf HL HW) as (s1 & R1 & _).
  destruct (read_at_ok FO laws (dc_rows c) s0 b0 pre (opt_bytes ex ++ post) Hwf HL HW) as (s1' & R & _).
  assert (s1' = s1).
  { unfold read_at in R. rewrite skipn_pre, R1 in R. cbn [bind] in R. now injection R. }
  subst s1'. rewrite R. cbn [bind].
  assert (W1 := reread_write (dc_rows c) s0 s1 b0 (opt_bytes ex ++ post) (opt_bytes ex ++ post) Hwf HW R1 HD).
  replace (Z.of_nat (List.length (b0 ++ opt_bytes ex)) - (Z.of_nat (List.length (pre ++ b0)) - Z.of_nat (List.length pre)))%Z
    with (Z.of_nat (List.length (opt_bytes ex))) by (rewrite !app_length; clear; lia).
  destruct (opt_bytes ex) as [|x l] eqn:EX.
  - cbn [List.length Z.of_nat Z.eqb]. eexists. split; [rewrite app_nil_r; reflexivity|].
    intro h. cbn [data_bytes]. rewrite W1. reflexivity.
  - destruct HX as [HX|[HX1 HX2]]; [discriminate|]. replace (_ =? 0)%Z with false by (cbn [List.length]; clear; lia).
    rewrite HX1, HX2. cbn [negb]. rewrite app_assoc, take_at_ok. eexists. split; [rewrite <- !app_assoc; reflexivity|].
    intro h. cbn [data_bytes]. rewrite W1. reflexivity.
Qed.

Lemma levels_rewrites k (s : seg) (h1 : hdr) pre b post hd E : agree FO k (s_hdr FO s) h1 -> taken_by FO E k s b hd ->
  data_bytes FO (s_hdr FO s) (s_data FO s) = Ok b -> hd <> HHole -> data_rewritable s ->
  exists d, handle_levels handler nat (sdata FO) (handle_h FO k h1 (Z.of_nat (List.length b)) (pre ++ b ++ post)) (e_levels E) (List.length pre)
      = Ok (d, List.length (pre ++ b)) /\ forall h, data_bytes FO h d = Ok b.
Proof.
  intros A (HA & before & l1 & l2 & after & EL & HD) HB HN HDR. rewrite EL. clear EL.
  destruct (handle_rewrites k s h1 pre b post hd A HA HB HN HDR) as (d & H1 & H2). exists d. split; [|exact H2].
  apply Forall_app in HD as (D1 & D2). apply Forall_app in D2 as (D2 & D3).
  induction before as [|lv before IH]; cbn [app handle_levels].
  - rewrite (try_level_app _ _ _ _ l1 _ _ _ _ _ (try_declined FO k (s_hdr FO s) h1 _ _ _ l1 None A D2)). cbn [try_level].
    rewrite H1. cbn [bind]. rewrite (try_declined FO k (s_hdr FO s) h1 _ _ _ l2 (Some d) A D3). reflexivity.
  - cbn [List.concat] in D1. apply Forall_app in D1 as (D0 & D1).
    rewrite (try_declined FO k (s_hdr FO s) h1 _ _ _ lv None A D0). cbn [bind]. exact (IH D1).
Qed.

(** What the subheader of a written DES holds of its user subheader. *)
Definition ush_value (s : seg) (ub : list N) : Prop :=
  match s_ush FO s with None => ub = [] | Some u => write FO (mk_fs (uc_rows (us_cls FO u))) (us_st FO u) = Ok ub end.
Definition ush_held (s : seg) : Prop := exists ub, ush_value s ub
  /\ get FO (mk_fs desc_NitfDesSubheader) (h_st (s_hdr FO s)) "desshf" [] = Ok (VBytes ub)
  /\ get FO (mk_fs desc_NitfDesSubheader) (h_st (s_hdr FO s)) "desshl" [] = Ok (VInt (Z.of_nat (List.length ub))).

Notation drows := desc_NitfDesSubheader.
Lemma wrote_held (s s' : seg) p : wrote FO KDes s s' p -> ush_held s'.
Proof.
  intros (h & HP & -> & _). unfold put_ush in HP. apply bind_ok_elim in HP as (v & Hv & HP).
  assert (HB : exists ub, ush_value s ub /\ as_bytes FO v = Ok ub).
  { unfold ush_value. destruct (s_ush FO s) as [u|].
    - apply bind_ok_elim in Hv as (ub & Hw & Hv). injection Hv as <-. exists ub. split; [exact Hw|reflexivity].
    - injection Hv as <-. exists []. split; reflexivity. }
  destruct HB as (ub & U & HB). exists ub. split; [exact U|].
  destruct desshf_facts as (L1 & L2 & _). destruct (dessh_descs) as (D1 & P1 & D2 & P2).
  cbn [sub_rows ush_name] in HP. unfold hset in HP. rewrite L1 in HP. rewrite set_desshf, HB in HP.
  destruct (st_impl FO (h_st (s_hdr FO s))); [discriminate|]. injection HP as <-. cbn [with_hdr s_hdr h_st].
  assert (I1 := lookup_in _ _ _ L1). assert (I2 := lookup_in _ _ _ L2).
  assert (NE : desshf_fld <> desshl_fld) by (apply (lookup_ne drows _ _ _ _ L1 L2); discriminate).
  assert (S1 : stored FO (with_ush FO (h_st (s_hdr FO s)) ub) desshf_fld [] = SVal (VBytes ub)).
  { unfold with_ush. rewrite (assigned_same FO drows _ _ _ _ I2 _ _ I1 NE). apply assigned_self. }
  assert (S2 : stored FO (with_ush FO (h_st (s_hdr FO s)) ub) desshl_fld [] = SVal (VInt (Z.of_nat (List.length ub)))).
  { unfold with_ush. rewrite assigned_self. do 2 f_equal. destruct (Z.of_nat (List.length ub) =? 0)%Z eqn:E0; clear - E0; lia. }
  generalize dependent (with_ush FO (h_st (s_hdr FO s)) ub). intros t S1 S2. split.
  - unfold get. rewrite L1. unfold key_shape_ok, depth. rewrite P1. cbn [List.length].
    unfold fget, get_pub, get_base, check_index, check_condition. rewrite P1, S1. rewrite !D1. reflexivity.
  - unfold get. rewrite L2. unfold key_shape_ok, depth. rewrite P2. cbn [List.length].
    unfold fget, get_pub, get_base, check_index, check_condition. rewrite P2, S2. rewrite !D2. reflexivity.
Qed.

Definition seg_rewritable (E : env) (k : kind) (s : seg) : Prop :=
  rewritable (sub_rows k) (h_st (s_hdr FO s)) /\ ush_rewritable s /\ data_rewritable s /\ not_skipped E k s.

Lemma seg_read_again E k (s : seg) p pre post s1 q : segment_bytes FO k s p -> (k = KDes -> ush_held s) -> readable FO E k s ->
  seg_rewritable E k s ->
  seg_read FO E k (Z.of_nat (List.length (snd p))) (pre ++ (fst p ++ snd p) ++ post) (List.length pre) = Ok (s1, q) ->
  q = List.length (pre ++ fst p ++ snd p) /\ s_tres FO s1 = []
  /\ (exists rest rest', read FO (mk_fs (sub_rows k)) false (init_state FO) (fst p ++ rest) = Ok (h_st (s_hdr FO s1), rest'))
  /\ again E k s1 p.
Proof.
  intros (HW & HB) HU (HL & HUO & HT) (RW & RU & RD & NS) HR. destruct p as [sub data]. cbn [fst snd] in *.
  destruct (HT data HB) as (hd & HTk). unfold seg_read in HR. rewrite <- app_assoc in HR.
  destruct (C01_round_trip FO (sub_rows k) _ (init_state FO) false sub (data ++ post) laws (sub_rows_wf k) HL HW) as (st1 & R1 & _).
  destruct (read_at_ok FO laws (sub_rows k) _ sub pre (data ++ post) (sub_rows_wf k) HL HW) as (st1' & R & HS).
  assert (st1' = st1).
  { unfold read_at in R. rewrite skipn_pre, R1 in R. cbn [bind] in R. now injection R. }
  subst st1'. rewrite R in HR. cbn [bind] in HR. set (h1 := {| h_st := st1; h_attr := [] |}) in *.
  assert (A : agree FO k (s_hdr FO s) h1).
  { intros nm Hnm. exact (same_plain FO laws (sub_rows k) _ st1 sub nm (sub_rows_wf k) HL HW HS Hnm). }
  apply bind_ok_elim in HR as (c & HC & HR). apply bind_ok_elim in HR as (u & Hu & HR).
  assert (HN : hd <> HHole) by (intros ->; exact (NS data HB HTk)).
  destruct (levels_rewrites k s h1 (pre ++ sub) data post hd E A HTk HB HN RD) as (d & D1 & D2). rewrite <- !app_assoc in D1.
  rewrite D1 in HR. cbn [bind] in HR. injection HR as <- <-.
  split; [reflexivity|]. split; [reflexivity|]. split; [exists (data ++ post), (data ++ post); exact R1|].
  assert (W1 := reread_write (sub_rows k) _ st1 sub (data ++ post) (data ++ post) (sub_rows_wf k) HW R1 RW).
  assert (HI := reread_impl (sub_rows k) st1 sub (data ++ post) (data ++ post) R1).
  split; [|split; [exact W1|split; [exact D2|split; [|reflexivity]]]].
  - (* the user subheader *)
    destruct (kind_eqb k KDes) eqn:EK.
    + assert (k = KDes) by (destruct k; (reflexivity || discriminate)). subst k. clear EK.
      destruct (HU eq_refl) as (ub & U1 & U2 & U3). destruct HUO as (t & HId & HUO).
      destruct desshf_facts as (L1 & L2 & _). destruct dessh_descs as (E1 & P1 & E2 & P2).
      assert (I1 := lookup_in _ _ _ L1). assert (I2 := lookup_in _ _ _ L2).
      destruct (reread_bytes drows _ st1 sub (data ++ post) (data ++ post) (sub_rows_wf KDes) HL HW R1 _ _ [] ub L1 ltac:(now rewrite E1) ltac:(now rewrite E1)
        (no_loops_valid drows _ _ P1) U2) as (G1 & S1).
      destruct (reread_int drows _ st1 sub (data ++ post) (data ++ post) (sub_rows_wf KDes) HL HW R1 _ _ [] _ L2 ltac:(now rewrite E2) ltac:(now rewrite E2)
        (no_loops_valid drows _ _ P2) U3) as (G2 & S2).
      assert (UV : exists v, match u with
             | Some u => do b <- write FO (mk_fs (uc_rows (us_cls FO u))) (us_st FO u); Ok (VBytes b)
             | None => Ok (VStr []) end = Ok v /\ as_bytes FO v = Ok ub).
      { cbn [ush_cls] in HC. rewrite desid_hget, (A _ desid_plain) in HC. unfold des_id in HId. cbn [sub_rows] in HC. rewrite HId in HC. cbn [bind] in HC.
        unfold ush_value in U1. unfold ush_rewritable in RU. destruct (s_ush FO s) as [u0|].
        - destruct HUO as (HCf & HWf & HLu). rewrite (reg_get_class FO _ _ _ HCf) in HC. injection HC as <-. cbn [ush_name] in Hu.
          rewrite (hget_field FO (sub_rows KDes) h1 "desshf") in Hu by (vm_compute; discriminate). cbn [h1 h_st sub_rows] in Hu. rewrite G1 in Hu. cbn [bind] in Hu.
          apply bind_ok_elim in Hu as ([us1 ur] & RU1 & Hu). injection Hu as <-.
          rewrite <- (app_nil_r ub) in RU1.
          assert (WU := reread_write (uc_rows (us_cls FO u0)) (us_st FO u0) us1 ub [] ur HWf U1 RU1 RU).
          exists (VBytes ub). cbn [us_cls us_st]. rewrite WU. split; reflexivity.
        - rewrite (reg_get_none FO _ _ HUO) in HC. injection HC as <-. injection Hu as <-. subst ub. exists (VStr []). split; reflexivity. }
      destruct UV as (v & V1 & V2). unfold put_ush. cbn [s_ush s_hdr]. rewrite V1. cbn [bind]. cbn [sub_rows ush_name].
      unfold hset. rewrite L1, set_desshf, V2. cbn [h1 h_st]. rewrite HI.
      eexists. split; [reflexivity|]. split; [|intros nm _; reflexivity]. unfold eqh. cbn [h_st]. unfold with_ush.
      eapply eqst_trans; [apply eq_assigned; [exact I2|apply eq_reassigned; [exact I1|exact S1]]|apply eq_reassigned; [exact I2|]].
      etransitivity; [exact S2|]. do 2 f_equal. clear. destruct (_ =? 0)%Z eqn:E0; lia.
    + assert (Hk : k <> KDes) by (intros ->; discriminate).
      assert (L : lookup (mk_fs (sub_rows k)) (ush_name k) = None) by (destruct k; [vm_compute; reflexivity ..|congruence|vm_compute; reflexivity]).
      assert (u = None).
      { destruct k; cbn [ush_cls] in HC; try (injection HC as <-; now injection Hu); [congruence|].
        destruct HUO as (_ & t & HId & HUO).
        rewrite (hget_field FO (sub_rows KRes) h1 "resid") in HC by (vm_compute; discriminate).
        rewrite (A _ resid_plain) in HC. cbn [sub_rows] in HC. rewrite HId in HC. cbn [bind] in HC. rewrite (reg_get_none FO _ _ HUO) in HC.
        injection HC as <-. now injection Hu. }
      subst u. unfold put_ush. cbn [s_ush s_hdr bind].
      destruct (hset FO (sub_rows k) h1 (ush_name k) (VStr [])) as [h2 r2] eqn:EH.
      assert (AT : attr_same FO h2 h1).
      { eapply hset_attr; [|exact EH]. destruct k; try congruence; vm_compute; reflexivity. }
      unfold hset in EH. rewrite L in EH. injection EH as E1 <-. exists h2. split; [reflexivity|]. split; [|exact AT].
      unfold eqh. rewrite <- E1. apply eqst_refl.
  - exists c. cbn [s_linked s_hdr s_ush]. split; [exact HC|]. destruct c as [c|]; [|reflexivity].
    apply bind_ok_elim in Hu as (v & _ & Hu). apply bind_ok_elim in Hu as (vb & _ & Hu). apply bind_ok_elim in Hu as ([us1 ur] & _ & Hu).
    injection Hu as <-. cbn [us_cls]. now rewrite String.eqb_refl.
Qed.

Lemma segs_read_again E k l ps : Forall2 (segment_bytes FO k) l ps -> (k = KDes -> Forall ush_held l) -> Forall (readable FO E k) l ->
  Forall (seg_rewritable E k) l -> forall pre post l1 q,
  segs_read FO E k (map (fun p => Z.of_nat (List.length (snd p))) ps) (pre ++ flat ps ++ post) (List.length pre) = Ok (l1, q) ->
  q = List.length (pre ++ flat ps)
  /\ Forall2 (fun s1 p => s_tres FO s1 = []
       /\ (exists rest rest', read FO (mk_fs (sub_rows k)) false (init_state FO) (fst p ++ rest) = Ok (h_st (s_hdr FO s1), rest'))
       /\ again E k s1 p) l1 ps.
Proof.
  induction 1 as [|s p l ps HB _ IH]; intros HU HR HW pre post l1 q H.
  - cbn [map segs_read] in H. injection H as <- <-. split; [|constructor]. cbn. now rewrite app_nil_r.
  - inversion_clear HR as [|? ? R1 R2]. inversion_clear HW as [|? ? W1 W2]. cbn [map segs_read] in H. rewrite flat_cons, <- app_assoc in H.
    apply bind_ok_elim in H as ([s1 q1] & H1 & H). apply bind_ok_elim in H as ([l2 q2] & H2 & H). injection H as <- <-.
    assert (HU1 : k = KDes -> ush_held s) by (intro Hk; specialize (HU Hk); now inversion_clear HU).
    assert (HU2 : k = KDes -> Forall ush_held l) by (intro Hk; specialize (HU Hk); now inversion_clear HU).
    destruct (seg_read_again E k s p pre (flat ps ++ post) s1 q1 HB HU1 R1 W1 H1) as (-> & S2).
    assert (X : pre ++ (fst p ++ snd p) ++ flat ps ++ post = (pre ++ fst p ++ snd p) ++ flat ps ++ post) by (rewrite <- !app_assoc; reflexivity).
    rewrite X in H2.
    destruct (IH HU2 R2 W2 (pre ++ fst p ++ snd p) post l2 q2 H2) as (-> & L2).
    split; [rewrite flat_cons, <- !app_assoc; reflexivity|]. constructor; [exact S2|exact L2].
Qed.

(** ** The TREs of segments that were read *)

Definition area_holds (rows : list row) (s : st) (a : tarea) (x : list N) : Prop :=
  holds rows s a x /\ (x <> [] -> area_ok rows a).
Definition shown_again (E : env) (k : kind) (s : seg) : Prop :=
  exists ts1 heads, (forall h1 des, passes FO (sub_rows k) (s_hdr FO s) h1 -> read_areas FO (sub_rows k) (e_reg E) h1 des (sub_areas k) = Ok ts1)
    /\ place FO ts1 (map (fun _ => []) (sub_areas k)) [] = Ok (heads, [])
    /\ Forall2 (area_holds (sub_rows k) (h_st (s_hdr FO s))) (sub_areas k) heads.

Lemma F2_areas rows (s : st) areas heads : Forall (area_ok rows) areas -> Forall2 (holds rows s) areas heads -> Forall2 (area_holds rows s) areas heads.
Proof. intros HA H. induction H as [|a x l m H _ IH]; constructor; inversion_clear HA as [|? ? A1 A2]; [split; auto|exact (IH A2)]. Qed.

Lemma ready_again E k (s : seg) idx n h : has_tres k = true -> tre_ready FO E k s -> Forall tre_rewritable (s_tres FO s) ->
  prepare FO (sub_rows k) (sub_areas k) idx (s_hdr FO s) (s_tres FO s) n = (h, None, Ok tt) -> shown_again E k (with_hdr FO s h).
Proof.
  intros Hk HR HRW HP. destruct areas_shipped as (_ & AI & AT). unfold shown_again. cbn [with_hdr s_hdr]. destruct k; try discriminate.
  - destruct HR as (R1 & R2 & R3 & R4).
    destruct (read_again _ _ _ _ _ _ _ (e_reg E) AI R2 R3 R4 R1 HRW HP) as (ts1 & heads & A & B & C).
    exists ts1, heads. split; [|split; [exact B|exact (F2_areas _ _ _ _ (proj1 (proj2 AI)) C)]].
    intros h1 des H1. exact (read_areas_passes FO _ _ h h1 _ _ H1 (areas_exact KImage (or_introl eq_refl)) ts1 (A des)).
  - destruct HR as (HT & HZ). exists [], [[]]. rewrite HT in HP. unfold prepare in HP. cbn [sub_areas graphic_areas map place store_areas ta_len] in HP.
    assert (Z0 : hint FO (sub_rows KGraphic) (s_hdr FO s) "sxshdl" = Ok 0%Z) by (rewrite sxshdl_look, HZ; reflexivity).
    rewrite Z0 in HP. cbn [Z.gtb Z.compare] in HP. injection HP as <-.
    split; [|split; [reflexivity|]].
    + intros h1 des H1. assert (E1 : exact_name (sub_rows KGraphic) "sxshdl" = true) by (vm_compute; reflexivity).
      unfold sub_areas, graphic_areas. cbn [read_areas ta_len]. rewrite (hint_passes FO _ _ h1 _ _ H1 E1 Z0). reflexivity.
    + constructor; [|constructor]. split; [left; split; [reflexivity|exact HZ]|congruence].
  - destruct HR as (R1 & R2 & R3 & R4).
    destruct (read_again _ _ _ _ _ _ _ (e_reg E) AT R2 R3 R4 R1 HRW HP) as (ts1 & heads & A & B & C).
    exists ts1, heads. split; [|split; [exact B|exact (F2_areas _ _ _ _ (proj1 (proj2 AT)) C)]].
    intros h1 des H1. exact (read_areas_passes FO _ _ h h1 _ _ H1 (areas_exact KText (or_intror eq_refl)) ts1 (A des)).
Qed.

Lemma no_overflow_none o : Forall2 (ov_is FO) (ov_list o) [] -> o = None.
Proof. destruct o; [intro H; inversion H|reflexivity]. Qed.

Lemma prepped_again E k i l n l' ov : has_tres k = true -> prepped FO k i l n l' ov -> ov = [] -> Forall (tre_ready FO E k) l ->
  Forall (fun s => Forall tre_rewritable (s_tres FO s)) l -> Forall (shown_again E k) l'.
Proof.
  intros Hk. induction 1 as [i n|i s l n h o ov l' ov' H1 H2 _ IH]; intros HN HR HW; [constructor|].
  apply app_eq_nil in HN as (-> & HN). inversion_clear HR as [|? ? R1 R2]. inversion_clear HW as [|? ? W1 W2].
  rewrite Hk in H1. rewrite (no_overflow_none o H2) in H1. constructor; [|exact (IH HN R2 W2)].
  exact (ready_again E k s _ _ h Hk R1 W1 H1).
Qed.

Definition len_fieldb (rows : list row) (a : tarea) : bool :=
  match lookup (mk_fs rows) (ta_len a) with
  | Some lf => match fd_ty (f_d lf), fd_value (f_d lf), f_loops lf with TInt, None, [] => true | _, _, _ => false end
  | None => false
  end.
Lemma len_field rows a : len_fieldb rows a = true ->
  exists lf, lookup (mk_fs rows) (ta_len a) = Some lf /\ fd_ty (f_d lf) = TInt /\ fd_value (f_d lf) = None /\ f_loops lf = [].
Proof.
  unfold len_fieldb. destruct (lookup (mk_fs rows) (ta_len a)) as [lf|]; [|discriminate]. intro H. exists lf. split; [reflexivity|].
  destruct (fd_ty (f_d lf)); try discriminate. destruct (fd_value (f_d lf)); [discriminate|]. destruct (f_loops lf); [auto|discriminate].
Qed.
Lemma areas_filled rows (s s1 : st) b rest rest' areas heads : wf_rows rows = true -> literals_ok FO (mk_fs rows) s ->
  write FO (mk_fs rows) s = Ok b -> read FO (mk_fs rows) false (init_state FO) (b ++ rest) = Ok (s1, rest') ->
  forallb (len_fieldb rows) areas = true ->
  Forall2 (area_holds rows s) areas heads -> Forall2 (filled rows s1) areas heads.
Proof.
  intros Hwf HL HW HR HA H. induction H as [|a x l m (H1 & H2) _ IH]; [constructor|]. cbn [forallb] in HA. apply andb_true_iff in HA as (A1 & A2).
  constructor; [|exact (IH A2)]. exact (holds_filled rows s s1 b rest rest' a x Hwf HL HW HR H2 (len_field rows a A1) H1).
Qed.
Lemma sub_len_fields k : forallb (len_fieldb (sub_rows k)) (sub_areas k) = true.
Proof. destruct k; vm_compute; reflexivity. Qed.

Lemma read_same_fields rows (s s1 : st) b rest rest' : wf_rows rows = true -> literals_ok FO (mk_fs rows) s ->
  write FO (mk_fs rows) s = Ok b -> read FO (mk_fs rows) false (init_state FO) (b ++ rest) = Ok (s1, rest') -> same_fields FO rows s s1.
Proof.
  intros Hwf HL HW HR. destruct (C01_round_trip FO rows s (init_state FO) false b rest laws Hwf HL HW) as (s2 & R & H1 & H2).
  assert (s2 = s1) by congruence. subst s2. split; assumption.
Qed.

Lemma with_tres_again E k dd l l' ps l1 l2 : has_tres k = true -> wrote_all FO k l l' ps -> Forall (shown_again E k) l ->
  Forall (fun s => literals_ok FO (mk_fs (sub_rows k)) (h_st (s_hdr FO s))) l' ->
  Forall2 (fun s1 p => s_tres FO s1 = []
       /\ (exists rest rest', read FO (mk_fs (sub_rows k)) false (init_state FO) (fst p ++ rest) = Ok (h_st (s_hdr FO s1), rest'))
       /\ again E k s1 p) l1 ps ->
  map_res (with_tres FO E k dd) l1 = Ok l2 -> Forall (seg_keeps k) l2 /\ Forall2 (again E k) l2 ps.
Proof.
  intros Hk HW. revert l1 l2. induction HW as [|s l s' l' p ps W _ IH]; intros l1 l2 HS HL H1 H2.
  - inversion H1; subst. cbn [map_res] in H2. injection H2 as <-. split; constructor.
  - inversion_clear HS as [|? ? S1 S2]. inversion_clear HL as [|? ? L1 L2]. inversion H1 as [|s1 ? l1' ? (T1 & (rest & rest' & R1) & A1) R2]; subst.
    cbn [map_res] in H2. apply bind_ok_elim in H2 as (s2 & H2 & H3). apply bind_ok_elim in H3 as (l2' & H3 & H4). injection H4 as <-.
    destruct (IH l1' l2' S2 L2 R2 H3) as (I1 & I2). unfold with_tres in H2. rewrite Hk in H2.
    apply bind_ok_elim in H2 as (ts & H2 & H4). injection H4 as <-.
    assert (NK : k <> KDes) by (intros ->; discriminate).
    assert (W' := W). destruct W' as (h & HP & ES & WW & _). destruct (put_ush_plain FO k s h NK HP) as (EH & _).
    destruct (wrote_passes FO k s s' p NK W) as (P1 & _). subst s'. cbn [with_hdr s_hdr] in *.
    assert (HS := read_same_fields (sub_rows k) _ _ _ _ _ (sub_rows_wf k) L1 WW R1).
    destruct S1 as (ts1 & heads & B1 & B2 & B3).
    rewrite (B1 (s_hdr FO s1) dd (passes_trans FO _ _ _ _ P1 (same_passes FO _ _ _ HS))) in H2. injection H2 as <-.
    rewrite <- EH in B3. assert (F := areas_filled (sub_rows k) _ _ _ _ _ _ _ (sub_rows_wf k) L1 WW R1 (sub_len_fields k) B3).
    split; constructor; try assumption.
    unfold seg_keeps. cbn [s_hdr s_tres].
    exact (keeps_filled _ _ _ _ _ _ (sub_rows_wf k) (sub_fields k) (reread_impl (sub_rows k) _ _ _ _ R1) B2 F).
Qed.

(** ** The file header *)

Lemma header_same (h0 h1 : hdr) : (forall y p, In y (fs_fields hfs) -> y <> hfld "hl" -> y <> hfld "fl" ->
     (forall k b, y <> hfld (size_name k b)) -> (forall k, y <> hfld (count_name k)) ->
     stored FO (h_st h1) y p = stored FO (h_st h0) y p) ->
  forall a nm, In a file_areas -> In nm (area_names a) -> get FO hfs (h_st h1) nm [] = get FO hfs (h_st h0) nm [].
Proof.
  intros HS.
  destruct areas_shipped as ((_ & AF & _) & _). rewrite Forall_forall in AF.
  assert (ST : forall a nm f p, In a file_areas -> In nm (area_names a) -> lookup hfs nm = Some f ->
     stored FO (h_st h1) f p = stored FO (h_st h0) f p).
  { intros a nm f p Ha Hn L.
    assert (NE : forall nm' f', In nm' touched -> lookup hfs nm' = Some f' -> f <> f').
    { intros nm' f' Ht L'. apply (lookup_ne hrows nm nm' f f' L L'). exact (area_apart a nm nm' Ha Hn Ht). }
    apply HS; [exact (lookup_in _ _ _ L)|..].
    - apply (NE "hl"%string); [cbn; tauto|]. apply (total_fld "hl" (or_introl eq_refl)).
    - apply (NE "fl"%string); [cbn; tauto|]. apply (total_fld "fl" (or_intror eq_refl)).
    - intros k b. apply (NE (size_name k b)); [destruct k, b; cbn; tauto|]. apply (lp_look _ _ _ (size_fld k b)).
    - intros k. apply (NE (count_name k)); [destruct k; cbn; tauto|]. apply (proj1 (proj1 (count_fld k))). }
  intros a nm Ha Hn. assert (HE := file_areas_exact a nm Ha Hn). apply exact_look in HE.
  destruct (lookup (mk_fs hrows) nm) as [f|] eqn:L; [|congruence].
  apply (get_same_reads FO hrows _ _ nm f [] L).
  - exact (ST a nm f [] Ha Hn L).
  - intros y p Hy. assert (Ly := area_reaches hrows a nm f y (AF a Ha) Hn L Hy).
    apply (ST a (ta_len a) y p Ha); [cbn; tauto|exact Ly].
Qed.
Lemma holds_same rows (s s' : st) areas heads : (forall a nm, In a areas -> In nm (area_names a) -> get FO (mk_fs rows) s' nm [] = get FO (mk_fs rows) s nm []) ->
  Forall2 (holds rows s) areas heads -> Forall2 (holds rows s') areas heads.
Proof.
  intros HG H. induction H as [|a x l m H _ IH]; constructor.
  - unfold holds in *. rewrite !(HG a) by (cbn; tauto). exact H.
  - apply IH. intros a' nm Ha. apply HG. now right.
Qed.

Lemma scalar_reread (s s1 : st) b rest rest' nm z : literals_ok FO hfs s -> write FO hfs s = Ok b ->
  read FO hfs false (init_state FO) (b ++ rest) = Ok (s1, rest') ->
  scalar hrows nm (hfld nm) -> fd_ty (f_d (hfld nm)) = TInt -> fd_optional (f_d (hfld nm)) = false ->
  stored FO s (hfld nm) [] = SVal (VInt z) -> stored FO s1 (hfld nm) [] = SVal (VInt z).
Proof.
  intros HL HW HR Sc T1 T2 HS.
  assert (G : get FO hfs s nm [] = Ok (VInt z)) by (rewrite (get_scalar FO hrows _ _ _ Sc); exact (conv_of_int FO _ _ _ T1 T2 HS)).
  destruct Sc as (L & SL & _ & _ & V & _).
  exact (proj2 (reread_int hrows s s1 b rest rest' eq_refl HL HW HR nm _ [] z L T1 V (no_loops_valid hrows s _ SL) G)).
Qed.
Lemma size_reread (s s1 : st) b rest rest' n k bl j z : literals_ok FO hfs s -> write FO hfs s = Ok b ->
  read FO hfs false (init_state FO) (b ++ rest) = Ok (s1, rest') -> counts FO s n -> (j < n k)%nat ->
  size_stored FO s k bl j = SVal (VInt z) -> size_stored FO s1 k bl j = SVal (VInt z).
Proof.
  intros HL HW HR HC Hj HZ. assert (G := get_size_int FO s n k bl j z HC Hj HZ).
  destruct (size_keys FO s n k bl HC) as (ks & K1 & K2).
  assert (HV : valid_index FO hfs s (hfld (size_name k bl)) [Z.of_nat j]) by (apply (valid_key FO hfs s _ ks _ K1); exact (K2 j Hj)).
  destruct (size_fld k bl) as [L1 L2 L3 L4 L5 L6 L7 L8].
  exact (proj2 (reread_int hrows s s1 b rest rest' eq_refl HL HW HR _ _ [Z.of_nat j] z L1 L6 L5 HV G)).
Qed.

(** ** The file *)

Lemma is_overflow_reread (s s1 : seg) b : same_fields FO drows (h_st (s_hdr FO s)) (h_st (s_hdr FO s1)) ->
  is_overflow FO (s_hdr FO s) = Ok b -> is_overflow FO (s_hdr FO s1) = Ok b.
Proof.
  intros HS H. unfold is_overflow in *. apply bind_ok_elim in H as (v & Hv & H).
  rewrite (hget_passes FO (sub_rows KDes) _ (s_hdr FO s1) "desid" v (same_passes FO _ _ _ HS) (eq_refl _) Hv). exact H.
Qed.
Lemma ordinary_overflow (s : seg) : ordinary_des FO s -> overflow_des FO s -> False.
Proof. intros (t & H & N) HO. unfold overflow_des, des_says in *. rewrite H in HO. injection HO as ->. contradiction. Qed.

Lemma file_again E f f' bytes : linked FO f -> file_write FO E f = Ok (f', bytes) ->
  Z.of_nat (List.length bytes) <> 999999999999%Z ->
  rewritable desc_NitfFileHeader (h_st (nf_hdr FO f')) ->
  tre_ready_in FO E desc_NitfFileHeader file_areas (nf_hdr FO f) (nf_tres FO f) ->
  (forall k, Forall (tre_ready FO E k) (nf_segs FO f k)) ->
  Forall tre_rewritable (nf_tres FO f) ->
  (forall k, Forall (fun s => Forall tre_rewritable (s_tres FO s)) (nf_segs FO f k)) ->
  (forall k, Forall (readable FO E k) (nf_segs FO f' k)) -> overflow_ready E ->
  (forall k, Forall (seg_rewritable E k) (nf_segs FO f' k)) ->
  exists g, file_read FO E bytes = Ok g /\ (Forall (ordinary_des FO) (nf_segs FO g KDes) -> exists g', file_write FO E g = Ok (g', bytes)).
Proof.
  intros HL HW Hfl HRH HTF HTS HRT HRS HRd HOv HSR.
  assert (HLit : literals_ok FO hfs (h_st (nf_hdr FO f'))) by (apply no_literals_ok; exact (proj1 (proj2 HRH))).
  destruct (C26_round_trip FO laws E f f' bytes HL HW Hfl HLit HTF HTS HRd HOv) as (g0 & R & _ & _ & _ & des & ov & GD & FD & FOv).
  exists g0. split; [exact R|]. intro HOrd.
  assert (ov = []).
  { rewrite GD in HOrd. apply Forall_app in HOrd as (_ & HO). destruct ov as [|s ov]; [reflexivity|]. exfalso.
    inversion_clear HO as [|? ? O1 _]. inversion_clear FOv as [|? ? V1 _]. exact (ordinary_overflow s O1 V1). }
  subst ov. rewrite app_nil_r in GD. clear FOv. assert (FS := FD). apply F2_len in FD.
  destruct (file_write_ok FO E f f' bytes HL HW) as (h1 & g & g' & ps & hb & [WP WA WH WB WAt WC WS WHl WFl WO WT WSg WD WR WRaw WCk WI]).
  destruct WP as (des0 & h0 & o & ov0 & ov1 & ov2 & ov3 & D0 & PF & O0 & P1 & P2 & P3 & G1 & G2 & _ & _ & HC).
  (* the header *)
  destruct (C01_round_trip FO hrows _ (init_state FO) false hb (flat_map (fun k => flat (ps k)) kinds) laws eq_refl HLit WH) as (st1 & R1 & _).
  assert (S0 := read_same_fields hrows _ _ _ _ _ eq_refl HLit WH R1).
  assert (R0 : read_at FO hrows bytes 0 = Ok (st1, List.length hb)).
  { destruct (read_at_ok FO laws hrows _ hb [] (flat_map (fun k => flat (ps k)) kinds) eq_refl HLit WH) as (st2 & X & _).
    cbn [app List.length] in X. rewrite <- WB in X. rewrite X. unfold read_at in X. cbn [skipn] in X. rewrite WB, R1 in X. cbn [bind] in X. injection X as <-. reflexivity. }
  assert (SZ : forall k, sizes FO st1 k = Ok (map (fun p => Z.of_nat (List.length (snd p))) (ps k))).
  { intro k. apply (sizes_ok FO _ st1 (ps k) _ k S0 WC); [|exact (WS k)]. destruct (wrote_all_len _ _ _ _ _ (WA k)) as (_ & X). now symmetry. }
  unfold file_read in R. change desc_NitfFileHeader with hrows in R. rewrite R0 in R. cbn [bind] in R.
  set (hd := {| h_st := st1; h_attr := [] |} : hdr) in *.
  apply bind_ok_elim in R as (fl & _ & R). apply bind_ok_elim in R as (strm & _ & R). destruct strm; [discriminate|].
  rewrite !SZ in R. cbn [bind] in R.
  apply bind_ok_elim in R as ([im q1] & RI & R). apply bind_ok_elim in R as ([gr q2] & RG & R).
  apply bind_ok_elim in R as ([tx q3] & RT & R). apply bind_ok_elim in R as ([de q4] & RDe & R). apply bind_ok_elim in R as ([rs q5] & RR & R).
  apply bind_ok_elim in R as (ts & RTs & R). apply bind_ok_elim in R as (im' & MI & R). apply bind_ok_elim in R as (gr' & MG & R).
  apply bind_ok_elim in R as (tx' & MT & R). injection R as <-. cbn [nf_segs] in GD, HOrd. subst des.
  set (dd := map (des_data FO) de) in *.
  (* no overflow *)
  assert (LS : forall k zs file p l q, segs_read FO E k zs file p = Ok (l, q) -> List.length l = List.length zs).
  { clear. intros k zs file. induction zs as [|z zs IH]; intros p l q H; cbn [segs_read] in H; [injection H as <- _; reflexivity|].
    apply bind_ok_elim in H as ([s1 p1] & _ & H). apply bind_ok_elim in H as ([l2 p2] & H2 & H). injection H as <- <-. cbn. f_equal. eauto. }
  assert (LD := LS _ _ _ _ _ _ RDe). rewrite map_length in LD. destruct (wrote_all_len _ _ _ _ _ (WA KDes)) as (LG1 & LG2).
  destruct WD as (ovw & WD1 & WD2 & WD3).
  assert (ovw = []).
  { apply (f_equal (@List.length _)) in WD1. rewrite app_length in WD1. destruct ovw; [reflexivity|]. exfalso. cbn [List.length] in WD1. clear - WD1 FD LD LG1 LG2. lia. }
  subst ovw. rewrite app_nil_r in WD1. clear WD3.
  assert (NO : ov0 ++ ov1 ++ ov2 ++ ov3 = []).
  { destruct (prepped_linked _ _ _ _ _ _ _ P1) as (_ & _ & O1). destruct (prepped_linked _ _ _ _ _ _ _ P2) as (_ & _ & O2).
    destruct (prepped_linked _ _ _ _ _ _ _ P3) as (_ & _ & O3). apply (ov_all FO) in O0 as O0'.
    assert (OVS : Forall (fun s => exists o, ov_is FO o s) (ov0 ++ ov1 ++ ov2 ++ ov3)) by (repeat (apply Forall_app; split); assumption).
    assert (WDes := WA KDes). rewrite G1 in WDes. replace (((des0 ++ ov0) ++ ov1) ++ ov2) with (des0 ++ ov0 ++ ov1 ++ ov2) in WDes by (rewrite <- !app_assoc; reflexivity).
    destruct (ov0 ++ ov1 ++ ov2 ++ ov3) as [|s l] eqn:EO; [reflexivity|]. exfalso.
    assert (G1' : g KDes = des0 ++ s :: l) by (rewrite G1, <- EO, <- !app_assoc; reflexivity).
    assert (WDe2 := WA KDes). rewrite G1' in WDe2.
    destruct (wrote_all_app _ _ _ _ _ _ WDe2) as (dl' & ov' & pa & pb & E1 & E2 & WDa & WDb).
    assert (KB : Forall (fun s => is_overflow FO (s_hdr FO s) = Ok true) ov').
    { apply (wrote_all_desid _ _ _ _ _ WDb). eapply Forall_impl; [|exact OVS]. intros s' (o' & _ & Ho & _). exact Ho. }
    destruct ov' as [|s' ov']; [inversion WDb|]. rewrite WD1 in E1. rewrite E1 in WD2. apply Forall_app in WD2 as (_ & WD2).
    inversion_clear WD2 as [|? ? X _]. inversion_clear KB as [|? ? Y _]. rewrite X in Y. discriminate. }
  apply app_eq_nil in NO as (-> & NO). apply app_eq_nil in NO as (-> & NO). apply app_eq_nil in NO as (-> & ->).
  rewrite (no_overflow_none o O0) in PF.
  assert (GF : forall k, g' k = nf_segs FO f' k) by (intros [| | | |]; [symmetry; apply WSg; discriminate ..|exact WD1|symmetry; apply WSg; discriminate]).
  assert (RDg : forall k, Forall (readable FO E k) (g' k)) by (intro k; rewrite GF; apply HRd).
  assert (RWg : forall k, Forall (seg_rewritable E k) (g' k)) by (intro k; rewrite GF; apply HSR).
  assert (LIg : forall k, Forall (fun s => literals_ok FO (mk_fs (sub_rows k)) (h_st (s_hdr FO s))) (g' k)).
  { intro k. eapply Forall_impl; [|exact (RDg k)]. intros s Hs. exact (proj1 Hs). }
  assert (SB := fun k => wrote_bytes FO k _ _ _ (WA k)).
  assert (UH : forall k, k = KDes -> Forall ush_held (g' k)).
  { intros k ->. assert (W := WA KDes). clear - W. induction W; constructor; [eapply wrote_held; eauto|assumption]. }
  (* the segments *)
  assert (WB' : bytes = hb ++ flat (ps KImage) ++ flat (ps KGraphic) ++ flat (ps KText) ++ flat (ps KDes) ++ flat (ps KRes)).
  { rewrite WB. cbn [flat_map kinds]. rewrite app_nil_r. reflexivity. }
  assert (SA := fun k => segs_read_again E k _ _ (SB k) (UH k) (RDg k) (RWg k)).
  rewrite WB' in RI. destruct (SA KImage hb _ _ _ RI) as (-> & AI).
  rewrite WB', (app_assoc hb) in RG. destruct (SA KGraphic (hb ++ flat (ps KImage)) _ _ _ RG) as (-> & AG).
  rewrite WB', (app_assoc hb), (app_assoc (hb ++ _)) in RT. destruct (SA KText _ _ _ _ RT) as (-> & AT).
  rewrite WB', (app_assoc hb), (app_assoc (hb ++ _)), (app_assoc ((hb ++ _) ++ _)) in RDe. destruct (SA KDes _ _ _ _ RDe) as (-> & AD).
  rewrite WB', (app_assoc hb), (app_assoc (hb ++ _)), (app_assoc ((hb ++ _) ++ _)), (app_assoc (((hb ++ _) ++ _) ++ _)) in RR.
  rewrite <- (app_nil_r (flat (ps KRes))) in RR at 1. destruct (SA KRes _ _ _ _ RR) as (-> & AR).
  destruct (with_tres_again E KImage dd _ _ _ _ _ eq_refl (WA KImage) (prepped_again E KImage _ _ _ _ _ eq_refl P1 eq_refl (HTS KImage) (HRS KImage)) (LIg KImage) AI MI) as (KI1 & KI2).
  destruct (with_tres_again E KGraphic dd _ _ _ _ _ eq_refl (WA KGraphic) (prepped_again E KGraphic _ _ _ _ _ eq_refl P2 eq_refl (HTS KGraphic) (HRS KGraphic)) (LIg KGraphic) AG MG) as (KG1 & KG2).
  destruct (with_tres_again E KText dd _ _ _ _ _ eq_refl (WA KText) (prepped_again E KText _ _ _ _ _ eq_refl P3 eq_refl (HTS KText) (HRS KText)) (LIg KText) AT MT) as (KT1 & KT2).
  (* the TREs of the file *)
  destruct areas_shipped as (AF & _). destruct HTF as (F1 & F2 & F3 & F4).
  destruct (read_again _ _ _ _ _ _ _ (e_reg E) AF F2 F3 F4 F1 HRT PF) as (ts1 & heads & T1 & T2 & T3).
  assert (HSame : forall y p, In y (fs_fields hfs) -> y <> hfld "hl" -> y <> hfld "fl" -> (forall k b, y <> hfld (size_name k b)) ->
     (forall k, y <> hfld (count_name k)) -> stored FO (h_st (nf_hdr FO f')) y p = stored FO (h_st h0) y p).
  { intros y p Hy N1 N2 N3 N4. rewrite (WO y p Hy N1 N2 N3). exact (HC y p Hy N4). }
  assert (T4 : read_areas FO hrows (e_reg E) hd dd file_areas = Ok ts1).
  { apply (header_areas FO h0 (nf_hdr FO f')) with (2 := T1 dd); [exact HSame|exact (same_passes FO hrows (nf_hdr FO f') hd S0)]. }
  rewrite T4 in RTs. injection RTs as <-.
  apply (holds_same hrows _ (h_st (nf_hdr FO f'))) in T3; [|exact (header_same h0 (nf_hdr FO f') HSame)].
  assert (LF : forallb (len_fieldb hrows) file_areas = true) by (vm_compute; reflexivity).
  assert (FI := areas_filled hrows _ _ _ _ _ _ _ eq_refl HLit WH R1 LF (F2_areas _ _ _ _ (proj1 (proj2 AF)) T3)).
  assert (IM := reread_impl hrows _ _ _ _ R1).
  apply (write_anew E _ ps hb bytes); cbn [nf_hdr nf_tres nf_segs]; change (h_st hd) with st1.
  - clear - FS WD2. induction FS as [|s s1 l m (S1 & _) _ IH]; constructor; inversion_clear WD2 as [|? ? W1 W2]; [|exact (IH W2)].
    exact (is_overflow_reread s s1 false (proj1 S1) W1).
  - exact (keeps_filled hrows file_areas "fs" hd ts1 heads eq_refl file_fields IM T2 FI).
  - intros [| | | |] Hk; [exact KI1|exact KG1|exact KT1|discriminate|discriminate].
  - intros [| | | |]; [exact KI2|exact KG2|exact KT2| |].
    + clear - AD. induction AD as [|? ? ? ? (_ & _ & X) _ IH]; constructor; [exact X|exact IH].
    + clear - AR. induction AR as [|? ? ? ? (_ & _ & X) _ IH]; constructor; [exact X|exact IH].
  - exact (reread_write hrows _ _ _ _ _ eq_refl WH R1 HRH).
  - exact IM.
  - intro k. destruct (count_fld k) as (Sc & C1 & _). destruct Sc as (L & SL & _ & _ & V & _).
    destruct (wrote_all_len _ _ _ _ _ (WA k)) as (_ & X). rewrite X.
    exact (proj2 (reread_int hrows _ st1 hb _ _ eq_refl HLit WH R1 _ _ [] _ L C1 V (no_loops_valid hrows _ _ SL) (WC k))).
  - intros k j p Hp. destruct (WS k j p Hp) as (Z1 & Z2). destruct (wrote_all_len _ _ _ _ _ (WA k)) as (_ & X).
    assert (Hj : (j < List.length (g k))%nat) by (rewrite <- X; apply nth_error_Some; rewrite Hp; discriminate).
    split; [exact (size_reread _ st1 hb _ _ _ k true j _ HLit WH R1 WC Hj Z1)|exact (size_reread _ st1 hb _ _ _ k false j _ HLit WH R1 WC Hj Z2)].
  - destruct (total_fld "hl" (or_introl eq_refl)) as ((Sc & X1 & X2) & _). exact (scalar_reread _ st1 hb _ _ "hl" _ HLit WH R1 Sc X1 X2 WHl).
  - destruct (total_fld "fl" (or_intror eq_refl)) as ((Sc & X1 & X2) & _). exact (scalar_reread _ st1 hb _ _ "fl" _ HLit WH R1 Sc X1 X2 WFl).
  - exact WB.
Qed.
End A.
