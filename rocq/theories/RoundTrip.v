(** Reading what was written: simulation between the written structure and the one read. *)
From Verif Require Import Base BaseLemmas Engine Wf EngineLemmas Codec.
From Coq Require Import ZifyBool ZifyNat ZifyN.
Open Scope list_scope.

Lemma firstn_removelast {A} (l : list A) m : (m <= List.length l - 1)%nat ->
  firstn m (removelast l) = firstn m l.
Proof.
  destruct l as [|a l] using rev_ind; intro H.
  - cbn in *. now replace m with O by lia.
  - rewrite removelast_last. rewrite app_length in H. cbn in H.
    rewrite firstn_app. replace (m - List.length l)%nat with O by lia. cbn. now rewrite app_nil_r.
Qed.

Lemma firstn_app_le {A} (a b : list A) m : (m <= List.length a)%nat -> firstn m (a ++ b) = firstn m a.
Proof. intro H. rewrite firstn_app. replace (m - List.length a)%nat with O by lia. cbn. now rewrite app_nil_r. Qed.

Lemma upd_eq {A} (m : nat -> list Z -> option A) i k v : upd m i k v i k = v.
Proof. unfold upd. now rewrite Nat.eqb_refl, keyeqb_refl. Qed.

Lemma upd_neq {A} (m : nat -> list Z -> option A) i k v i' k' :
  (i <> i' \/ k <> k') -> upd m i k v i' k' = m i' k'.
Proof.
  intro H. unfold upd. destruct (Nat.eqb i i') eqn:E; auto. apply Nat.eqb_eq in E.
  destruct H as [H|H]; [contradiction|]. now rewrite (keyeqb_neq _ _ H).
Qed.

(** ** Positions and scopes *)

Section Scope.
Variable fs : fstruct.

Definition pos := (field * list Z)%type.

(** Reference [r], used at index [p] of which [d] components are available, is a visited
    exact field. *)
Definition ref_in (V : list pos) (p : list Z) (d : nat) (r : string * nat) : Prop :=
  exists f, lookup fs (fst r) = Some f /\ depth f = snd r /\ (snd r <= d)%nat
            /\ exact f = true /\ In (f, firstn (snd r) p) V.

Definition pos_closed (V : list pos) (y : field) (p : list Z) : Prop :=
  List.length p = depth y
  /\ Forall (ref_in V p (List.length p)) (own_refs y)
  /\ Forall (ref_in V p (List.length p - 1)) (shape_refs y).

Definition closed (V : list pos) : Prop := forall y p, In (y, p) V -> pos_closed V y p.

Lemma ref_in_incl V V' p d r : incl V V' -> ref_in V p d r -> ref_in V' p d r.
Proof. intros H (f & H1 & H2 & H3 & H4 & H5). exists f. repeat split; auto. Qed.

Lemma pos_closed_incl V V' y p : incl V V' -> pos_closed V y p -> pos_closed V' y p.
Proof.
  intros H (H1 & H2 & H3). repeat split; auto;
    (eapply Forall_impl; [|eassumption]; intros r; now apply ref_in_incl).
Qed.

Lemma closed_cons V y p : closed V -> pos_closed V y p -> closed ((y, p) :: V).
Proof.
  intros HC HP y' p' [E|Hin].
  - injection E as <- <-. eapply pos_closed_incl; [|exact HP]. now apply incl_tl, incl_refl.
  - eapply pos_closed_incl; [|now apply HC]. now apply incl_tl, incl_refl.
Qed.

(** All fields of the scope have been visited along the index [k]. *)
Definition env_in (env : list field) (k : list Z) (V : list pos) : Prop :=
  forall y, In y env -> In (y, firstn (depth y) k) V.

Lemma ref_ok_in env k d V r :
  (forall y y', In y (fs_fields fs) -> In y' (fs_fields fs) -> f_id y = f_id y' -> y = y') ->
  incl env (fs_fields fs) -> env_in env k V -> ref_ok fs env d r = true -> ref_in V k d r.
Proof.
  intros Hinj Henv HV H. unfold ref_ok in H. destruct (lookup fs (fst r)) as [f|] eqn:L; [|discriminate].
  apply andb_true_iff in H as [H H4]. apply andb_true_iff in H as [H H3].
  apply andb_true_iff in H as [H1 H2]. apply Nat.eqb_eq in H2. apply Nat.leb_le in H3.
  apply existsb_exists in H1 as (y & Hy & E). apply Nat.eqb_eq in E.
  assert (y = f) by (apply Hinj; auto; eapply lookup_in; eauto). subst y.
  exists f. repeat split; auto. rewrite <- H2. now apply HV.
Qed.

Lemma refs_ok_in env k d V rs :
  (forall y y', In y (fs_fields fs) -> In y' (fs_fields fs) -> f_id y = f_id y' -> y = y') ->
  incl env (fs_fields fs) -> env_in env k V -> forallb (ref_ok fs env d) rs = true ->
  Forall (ref_in V k d) rs.
Proof.
  intros Hinj Henv HV H. apply Forall_forall. intros r Hr. rewrite forallb_forall in H.
  eapply ref_ok_in; eauto.
Qed.

Lemma env_in_incl env k V V' : incl V V' -> env_in env k V -> env_in env k V'.
Proof. intros H HV y Hy. apply H. auto. Qed.

Lemma env_in_ext env k i V : Forall (fun y => (depth y <= List.length k)%nat) env ->
  env_in env k V -> env_in env (k ++ [i]) V.
Proof.
  intros Hd HV y Hy. rewrite Forall_forall in Hd. rewrite firstn_app_le by (now apply Hd).
  now apply HV.
Qed.

End Scope.

(** The loops [shs] under [lead] have the same counts in both structures, wherever they are reached. *)
Fixpoint same_counts FO (fs : fstruct) (s s' : state FO) (lead : list Z) (shs : list expr) : Prop :=
  match shs with
  | [] => True
  | e :: r => exists n, eval_shape FO (G FO fs s) fs lead e = Ok n /\ eval_shape FO (G FO fs s') fs lead e = Ok n
                /\ forall i, In i (zrange n) -> same_counts FO fs s s' (lead ++ [i]) r
  end.

Section RT.
Variable FO : FloatOps.
Hypothesis laws : FloatLaws FO.
Variable rows : list row.
Let fs := mk_fs rows.
Variables (st : state FO) (lit : bool).
Hypothesis Hlits : literals_ok FO fs st.
Notation g := (G FO fs st).

Let Hinj : forall y y', In y (fs_fields fs) -> In y' (fs_fields fs) -> f_id y = f_id y' -> y = y'.
Proof. apply mk_fs_id_inj. Qed.

(** Conditions on a single field that the codec needs. *)
Definition fd_ok (f : field) : Prop :=
  optchar_ok (f_d f)
  /\ (is_bytes_ty (fd_ty (f_d f)) = true -> fd_optional (f_d f) = false).

(** What the reading structure [st1] holds for a visited position. *)
Definition slot_ok (st1 : state FO) (y : field) (p : list Z) : Prop :=
  In y (fs_fields fs) /\ fd_ok y /\
  exists c, check_condition FO g fs y p = Ok c /\
    (c = true -> fd_name (f_d y) <> None ->
     exists b sv, field_bytes FO g fs st y p = Ok b /\ parse_field FO (f_d y) lit b = Ok sv
        /\ st_val FO st1 (f_id y) p = Some sv /\ st_raw FO st1 (f_id y) p = Some b).

Definition Inv (V : list pos) (st1 : state FO) : Prop :=
  closed fs V /\ forall y p, In (y, p) V -> slot_ok st1 y p.

Lemma refs_in_agree g1 g2 V p d rs :
  (forall y q v, In (y, q) V -> exact y = true -> g1 y q = Ok v -> g2 y q = Ok v) ->
  Forall (ref_in fs V p d) rs -> refs_agree FO g1 g2 fs p rs.
Proof.
  intros Hag HF nm m f v Hin HL Hg. rewrite Forall_forall in HF.
  destruct (HF _ Hin) as (f' & L & D & _ & Ex & HV). cbn in *.
  rewrite HL in L. injection L as <-. eapply Hag; eauto.
Qed.

Lemma refs_in_agree_rl g1 g2 V p rs :
  (forall y q v, In (y, q) V -> exact y = true -> g1 y q = Ok v -> g2 y q = Ok v) ->
  Forall (ref_in fs V p (List.length p - 1)) rs -> refs_agree FO g1 g2 fs (removelast p) rs.
Proof.
  intros Hag HF nm m f v Hin HL Hg. rewrite Forall_forall in HF.
  destruct (HF _ Hin) as (f' & L & D & Hm & Ex & HV). cbn in *.
  rewrite HL in L. injection L as <-. rewrite firstn_removelast in * by exact Hm.
  eapply Hag; eauto.
Qed.

(** A stored exact field converts to the same value in both structures. *)
Lemma slot_convert st1 y p v :
  slot_ok st1 y p -> fd_name (f_d y) <> None -> check_condition FO g fs y p = Ok true ->
  fd_value (f_d y) = None -> exact y = true ->
  convert FO (f_d y) (stored FO st y p) = Ok v ->
  (exists w, get_base FO g fs st y p = Ok w) ->
  convert FO (f_d y) (stored FO st1 y p) = Ok v.
Proof.
  intros (Hin & (Ho & Hob) & c & Hc & Hs) Hn Ht Hv Ex HC (w & Hw).
  rewrite Ht in Hc. injection Hc as <-. destruct (Hs eq_refl Hn) as (b & sv & HB & HP & Hval & _).
  destruct (field_bytes_parse FO laws fs st y p b lit Hlits Hin Ho Hob Hn Ht HB) as (sv' & HP' & Hg).
  rewrite HP in HP'. injection HP' as <-.
  destruct (Hg w Hv Hw) as (v' & sz & _ & HCv & HR).
  apply reads_back_exact in HR; auto. subst v'.
  apply get_base_stored in Hw; auto. rewrite HC in Hw. injection Hw as <-.
  unfold stored at 1. rewrite Hval. exact HCv.
Qed.

Lemma getf_agree V st1 : Inv V st1 -> forall n y p v, (n <= fuel fs)%nat ->
  In (y, p) V -> exact y = true -> getf FO n fs st y p = Ok v -> getf FO n fs st1 y p = Ok v.
Proof.
  intros (HC & HS) n. induction n as [|n IH]; intros y p v Hn HV Ex H; [discriminate|].
  change (get_pub FO (getf FO n fs st) fs st y p = Ok v) in H.
  change (get_pub FO (getf FO n fs st1) fs st1 y p = Ok v).
  destruct (HC _ _ HV) as (Hlen & Hown & Hsh).
  assert (Hag : forall y q v, In (y, q) V -> exact y = true ->
                 getf FO n fs st y q = Ok v -> getf FO n fs st1 y q = Ok v)
    by (intros; eapply IH; eauto; lia).
  eapply get_pub_agree; [| | |exact H].
  - eapply refs_in_agree; eauto.
  - eapply refs_in_agree_rl; eauto.
  - intros Hnm Hcond Hval w Hw.
    assert (Hmono : forall f k v, getf FO n fs st f k = Ok v -> g f k = Ok v)
      by (intros; eapply getf_mono; [|eassumption]; lia).
    eapply slot_convert; eauto.
    + eapply check_condition_agree; [|exact Hcond]. intros ? ? ? ? _ _. apply Hmono.
    + assert (exists w', get_base FO (getf FO n fs st) fs st y p = Ok w') as (w' & Hw').
      { unfold get_pub in H. apply bind_ok_elim in H as (w' & Hw' & _). eauto. }
      exists w'. eapply get_base_agree; [| | |exact Hw'].
      * intros ? ? ? ? _ _. apply Hmono.
      * intros ? ? ? ? _ _. apply Hmono.
      * auto.
Qed.

Lemma G_agree V st1 : Inv V st1 -> forall y p v,
  In (y, p) V -> exact y = true -> g y p = Ok v -> G FO fs st1 y p = Ok v.
Proof. intros HI y p v. apply getf_agree with (V := V); auto. Qed.

(** ** One field *)

Lemma field_ok_elim env d f : field_ok fs env d f = true ->
  depth f = d /\ forallb (ref_ok fs env d) (own_refs f) = true
  /\ forallb (ref_ok fs env (d - 1)) (shape_refs f) = true /\ fd_ok f
  /\ (fd_name (f_d f) = None -> fd_ty (f_d f) = TStr /\ fd_frmt (f_d f) = FrNone).
Proof.
  unfold field_ok, fd_ok, optchar_ok. intro H.
  apply andb_true_iff in H as [H H6]. apply andb_true_iff in H as [H H5].
  apply andb_true_iff in H as [H H4]. apply andb_true_iff in H as [H H3].
  apply andb_true_iff in H as [H1 H2]. apply Nat.eqb_eq in H1.
  split; [auto|]. split; [auto|]. split; [auto|]. split; [split|].
  - apply orb_true_iff in H4 as [E|E]; apply N.eqb_eq in E; auto.
  - intro E. rewrite E in H5. apply negb_true_iff in H5. now rewrite andb_true_r in H5.
  - intro Nm. rewrite Nm in H6. destruct (fd_ty (f_d f)), (fd_frmt (f_d f)); auto; discriminate.
Qed.

Lemma refs_own env d k V f :
  incl env (fs_fields fs) -> env_in env k V -> List.length k = d ->
  field_ok fs env d f = true -> pos_closed fs V f k.
Proof.
  intros Hi HV HL H. apply field_ok_elim in H as (D & H1 & H2 & _). repeat split.
  - congruence.
  - rewrite HL. eapply refs_ok_in; eauto.
  - rewrite HL. eapply refs_ok_in; eauto.
Qed.

Lemma own_split (P : string * nat -> Prop) f : Forall P (own_refs f) ->
  Forall P (opt_refs (fd_cond (f_d f))) /\ Forall P (size_refs (fd_size (f_d f)))
  /\ Forall P (opt_refs (fd_value (f_d f))).
Proof.
  unfold own_refs. rewrite !Forall_app. tauto.
Qed.

Lemma Inv_set V st1 f k b sv :
  Inv V st1 -> In f (fs_fields fs) -> fd_ok f -> pos_closed fs V f k ->
  check_condition FO g fs f k = Ok true ->
  field_bytes FO g fs st f k = Ok b -> parse_field FO (f_d f) lit b = Ok sv ->
  Inv ((f, k) :: V) (set_val FO (set_raw FO st1 (f_id f) k (Some b)) (f_id f) k sv).
Proof.
  intros (HC & HS) Hin Hok HP Hc HB Hpf. split; [now apply closed_cons|].
  assert (Hself : slot_ok (set_val FO (set_raw FO st1 (f_id f) k (Some b)) (f_id f) k sv) f k).
  { repeat split; auto; try apply Hok. exists true. split; auto. intros _ _. exists b, sv.
    cbn. rewrite !upd_eq. auto. }
  intros y p [E|HV].
  - injection E as <- <-. exact Hself.
  - destruct (HS _ _ HV) as (Hy & Hyok & c & Hcy & Hs).
    destruct (Nat.eq_dec (f_id f) (f_id y)) as [E|E].
    + apply Hinj in E; auto. subst y.
      destruct (list_eq_dec Z.eq_dec k p) as [<-|Ek]; auto.
      repeat split; auto; try apply Hok. exists c. split; auto. intros H1 H2.
      destruct (Hs H1 H2) as (b' & sv' & A1 & A2 & A3 & A4). exists b', sv'.
      cbn. rewrite !upd_neq by (right; auto). auto.
    + repeat split; auto; try apply Hyok. exists c. split; auto. intros H1 H2.
      destruct (Hs H1 H2) as (b' & sv' & A1 & A2 & A3 & A4). exists b', sv'.
      cbn. rewrite !upd_neq by (left; auto). auto.
Qed.

Lemma Inv_skip V st1 f k c :
  Inv V st1 -> In f (fs_fields fs) -> fd_ok f -> pos_closed fs V f k ->
  check_condition FO g fs f k = Ok c -> (c = true -> fd_name (f_d f) = None) ->
  Inv ((f, k) :: V) st1.
Proof.
  intros (HC & HS) Hin Hok HP Hc Hn. split; [now apply closed_cons|].
  intros y p [E|HV]; auto. injection E as <- <-.
  repeat split; auto; try apply Hok. exists c. split; auto. intros H1 H2. now specialize (Hn H1).
Qed.

Lemma read_field_rt env d f k V st1 cs rest :
  incl env (fs_fields fs) -> env_in env k V -> List.length k = d ->
  field_ok fs env d f = true -> In f (fs_fields fs) -> Inv V st1 ->
  write_field FO fs st f k = Ok cs ->
  exists st1', read_field FO fs lit f k (st1, chunks_bytes cs ++ rest) = Ok (st1', rest)
               /\ Inv ((f, k) :: V) st1'.
Proof.
  intros Hi HV HL Hfo Hin HI HW.
  assert (HP := refs_own env d k V f Hi HV HL Hfo).
  apply field_ok_elim in Hfo as (_ & _ & _ & Hok & Hres).
  destruct HP as (Hlen & Hown & Hsh).
  destruct (own_split _ _ Hown) as (Rc & Rs & Rv).
  assert (Hag := G_agree V st1 HI).
  unfold write_field in HW. apply bind_ok_elim in HW as (c & Hc & HW).
  unfold read_field.
  rewrite (check_condition_agree FO g (G FO fs st1) fs f k c); auto; cycle 1.
  { eapply refs_in_agree; eauto. }
  cbn [bind]. destruct c; cbn [negb] in *.
  - apply bind_ok_elim in HW as (b & HB & HW). injection HW as <-.
    unfold chunks_bytes. cbn [flat_map ch_bytes]. rewrite app_nil_r.
    destruct (field_bytes_fsize _ _ _ _ _ _ _ HB) as (sz & Hsz).
    rewrite (fsize_agree FO g (G FO fs st1) fs f k sz); auto; cycle 1.
    { eapply refs_in_agree; eauto. }
    cbn [bind]. assert (Hlb := field_bytes_len _ _ _ _ _ _ _ _ Hsz HB).
    destruct ((sz <? 0)%Z || (Z.of_nat (List.length (b ++ rest)) <? sz)%Z) eqn:E.
    { rewrite app_length in E. lia. }
    replace (Z.to_nat sz) with (List.length b) by lia.
    rewrite firstn_app, skipn_app, firstn_all, skipn_all, Nat.sub_diag. cbn [firstn skipn app].
    rewrite app_nil_r.
    destruct (fd_name (f_d f)) as [nm|] eqn:Nm.
    + assert (Hn : fd_name (f_d f) <> None) by congruence.
      destruct Hok as (Ho & Hob).
      destruct (field_bytes_parse FO laws fs st f k b lit Hlits Hin Ho Hob Hn Hc HB) as (sv & Hp & _).
      rewrite Hp. cbn [bind]. eexists. split; [reflexivity|].
      apply Inv_set; auto; repeat split; auto.
    + eexists. split; [reflexivity|]. eapply Inv_skip; eauto; repeat split; auto; apply Hok.
  - injection HW as <-. cbn. eexists. split; [reflexivity|].
    eapply Inv_skip; eauto; repeat split; auto; try apply Hok. discriminate.
Qed.

(** ** The whole tree *)

(** All indices of the fields of an item under [lead] have been visited, and every structure
    agreeing with [st] on the visited positions has the same indices and the same counts. *)
Definition covered (path : list expr) (lead : list Z) (fl : list field) (V : list pos) : Prop :=
  forall f, In f fl ->
    exists ks, keys_from FO fs st lead (skipn (List.length path) (f_loops f)) = Ok ks
    /\ (forall k, In k ks -> In (f, k) V)
    /\ (forall V2 st2, incl V V2 -> Inv V2 st2 ->
          keys_from FO fs st2 lead (skipn (List.length path) (f_loops f)) = Ok ks
          /\ same_counts FO fs st st2 lead (skipn (List.length path) (f_loops f))).

Lemma covered_incl path lead fl V V' : incl V V' -> covered path lead fl V -> covered path lead fl V'.
Proof.
  intros H HC f H1. destruct (HC f H1) as (ks & A & B & C). exists ks. split; [exact A|]. split; [auto|].
  intros V2 st2 H2. apply C. eapply incl_tran; eauto.
Qed.

(** A structure writes the same bytes as [st] at the visited positions. *)
Definition bytes_same (V : list pos) (st2 : state FO) : Prop :=
  forall y p b, In (y, p) V -> check_condition FO g fs y p = Ok true ->
    field_bytes FO g fs st y p = Ok b -> field_bytes FO (G FO fs st2) fs st2 y p = Ok b.

(** Whatever agrees with [st] on the visited positions writes [cs]. *)
Definition writes_same (V : list pos) (w : state FO -> res (list chunk)) (cs : list chunk) : Prop :=
  forall V2 st2, incl V V2 -> Inv V2 st2 -> bytes_same V2 st2 -> w st2 = Ok cs.

Lemma writes_same_incl V V' w cs : incl V V' -> writes_same V w cs -> writes_same V' w cs.
Proof. intros H HW V2 st2 H2. apply HW. eapply incl_tran; eauto. Qed.

Lemma write_field_same V f k cs : In (f, k) V -> write_field FO fs st f k = Ok cs ->
  writes_same V (fun st2 => write_field FO fs st2 f k) cs.
Proof.
  intros HV HW V2 st2 H2 HI HB. unfold write_field in *.
  apply bind_ok_elim in HW as (c & Hc & HW).
  destruct (proj1 HI f k (H2 _ HV)) as (Hlen & Hown & _). destruct (own_split _ _ Hown) as (Rc & _).
  rewrite (check_condition_agree FO g (G FO fs st2) fs f k c); auto; cycle 1.
  { eapply refs_in_agree; [|exact Rc]. apply G_agree. exact HI. }
  cbn [bind]. destruct c; cbn [negb] in *; auto.
  apply bind_ok_elim in HW as (b & Hb & HW). rewrite (HB f k b); auto.
Qed.

Definition item_rt (it : item) : Prop :=
  forall env path k V st1 cs rest,
  incl env (fs_fields fs) -> env_in env k V -> List.length k = List.length path ->
  Forall (fun y => (depth y <= List.length k)%nat) env ->
  item_ok fs env (List.length path) it = true -> placed path it ->
  incl (item_fields it) (fs_fields fs) -> Inv V st1 ->
  write_item FO fs st k it = Ok cs ->
  exists st1' V', read_item FO fs lit k it (st1, chunks_bytes cs ++ rest) = Ok (st1', rest)
    /\ Inv V' st1' /\ incl V V' /\ covered path k (item_fields it) V'
    /\ (forall f, it = IField f -> In (f, k) V')
    /\ writes_same V' (fun st2 => write_item FO fs st2 k it) cs.

Lemma chunks_bytes_app a b : chunks_bytes (a ++ b) = chunks_bytes a ++ chunks_bytes b.
Proof. apply flat_map_app. Qed.

Lemma items_rt its : Forall item_rt its ->
  forall env path k V st1 cs rest,
  incl env (fs_fields fs) -> env_in env k V -> List.length k = List.length path ->
  Forall (fun y => (depth y <= List.length k)%nat) env ->
  items_ok fs env (List.length path) its = true -> Forall (placed path) its ->
  incl (flat_map item_fields its) (fs_fields fs) -> Inv V st1 ->
  write_items FO fs st k its = Ok cs ->
  exists st1' V', read_items FO fs lit k its (st1, chunks_bytes cs ++ rest) = Ok (st1', rest)
    /\ Inv V' st1' /\ incl V V' /\ covered path k (flat_map item_fields its) V'
    /\ writes_same V' (fun st2 => write_items FO fs st2 k its) cs.
Proof.
  induction 1 as [|it its Hit _ IH]; intros env path k V st1 cs rest Hi HV HL Hd Hok Hpl Hf HI HW.
  - unfold write_items in HW. injection HW as <-. exists st1, V. cbn.
    split; [reflexivity|]. split; [exact HI|]. split; [apply incl_refl|].
    split; [intros f []|]. intros V2 st2 _ _ _. reflexivity.
  - unfold write_items in HW. apply concat_map_res_ok_cons in HW as (x & y & Hx & Hy & ->).
    cbn [items_ok] in Hok. apply andb_true_iff in Hok as [Hok1 Hok2].
    inversion Hpl as [|? ? Hp1 Hp2]; subst. cbn [flat_map] in Hf.
    apply incl_app_inv in Hf as [Hf1 Hf2].
    rewrite chunks_bytes_app, <- app_assoc.
    destruct (Hit env path k V st1 x (chunks_bytes y ++ rest)) as (st2 & V2 & R2 & I2 & C2 & K2 & F2 & W2); auto.
    assert (HV2 : env_in (env_after env it) k V2).
    { intros z Hz. destruct it as [f|]; cbn in Hz; [|now apply C2, HV].
      apply in_app_or in Hz as [Hz|[<-|[]]]; [now apply C2, HV|].
      cbn [placed] in Hp1. unfold depth. rewrite Hp1, <- HL, firstn_all. now apply F2. }
    destruct (IH (env_after env it) path k V2 st2 y rest) as (st3 & V3 & R3 & I3 & C3 & K3 & W3); auto.
    { destruct it as [f|]; cbn; auto. apply incl_app; auto. }
    { destruct it as [f|]; cbn; auto. apply Forall_app. split; auto. constructor; auto.
      cbn [placed] in Hp1. unfold depth. rewrite Hp1. lia. }
    exists st3, V3. split; [|split; [exact I3|split; [|split]]].
    + unfold read_items in *. cbn [fold_res]. rewrite R2. cbn [bind]. exact R3.
    + eapply incl_tran; eauto.
    + intros f Hin. cbn [flat_map] in Hin. apply in_app_or in Hin as [Hin|Hin].
      * now apply (covered_incl _ _ _ _ _ C3 K2).
      * now apply K3.
    + intros V4 st4 HV4 HI4 HB4. unfold write_items in *. cbn [concat_map_res].
      rewrite (writes_same_incl _ _ _ _ C3 W2 V4 st4), (W3 V4 st4); auto.
Qed.

Lemma placed_loops path it f : placed path it -> In f (item_fields it) ->
  exists rest, f_loops f = path ++ rest.
Proof.
  revert path. induction it as [f0|sh its IH] using item_ind'; intros path Hp Hf.
  - cbn in *. destruct Hf as [<-|[]]. exists []. now rewrite app_nil_r.
  - apply placed_loop in Hp. cbn [item_fields] in Hf. apply in_flat_map in Hf as (it & Hit & Hf).
    rewrite Forall_forall in *. destruct (IH it Hit (path ++ [sh]) (Hp it Hit) Hf) as (r & E).
    exists (sh :: r). rewrite E, <- app_assoc. reflexivity.
Qed.

Lemma loop_rt its : 
  (forall env path k V st1 cs rest,
  incl env (fs_fields fs) -> env_in env k V -> List.length k = List.length path ->
  Forall (fun y => (depth y <= List.length k)%nat) env ->
  items_ok fs env (List.length path) its = true -> Forall (placed path) its ->
  incl (flat_map item_fields its) (fs_fields fs) -> Inv V st1 ->
  write_items FO fs st k its = Ok cs ->
  exists st1' V', read_items FO fs lit k its (st1, chunks_bytes cs ++ rest) = Ok (st1', rest)
    /\ Inv V' st1' /\ incl V V' /\ covered path k (flat_map item_fields its) V'
    /\ writes_same V' (fun st2 => write_items FO fs st2 k its) cs) ->
  forall idx env path k V st1 cs rest,
  incl env (fs_fields fs) -> env_in env k V -> S (List.length k) = List.length path ->
  Forall (fun y => (depth y <= List.length k)%nat) env ->
  items_ok fs env (List.length path) its = true -> Forall (placed path) its ->
  incl (flat_map item_fields its) (fs_fields fs) -> Inv V st1 ->
  concat_map_res (fun i => write_items FO fs st (k ++ [i]) its) idx = Ok cs ->
  exists st1' V', fold_res (fun i p => read_items FO fs lit (k ++ [i]) its p) idx
                    (st1, chunks_bytes cs ++ rest) = Ok (st1', rest)
    /\ Inv V' st1' /\ incl V V'
    /\ (forall i, In i idx -> covered path (k ++ [i]) (flat_map item_fields its) V')
    /\ writes_same V' (fun st2 => concat_map_res (fun i => write_items FO fs st2 (k ++ [i]) its) idx) cs.
Proof.
  intros Hits idx. induction idx as [|i idx IH]; intros env path k V st1 cs rest Hi HV HL Hd Hok Hpl Hf HI HW.
  - injection HW as <-. exists st1, V.
    split; [reflexivity|]. split; [exact HI|]. split; [apply incl_refl|].
    split; [intros i []|]. intros V2 st2 _ _ _. reflexivity.
  - apply concat_map_res_ok_cons in HW as (x & y & Hx & Hy & ->).
    rewrite chunks_bytes_app, <- app_assoc.
    destruct (Hits env path (k ++ [i]) V st1 x (chunks_bytes y ++ rest))
      as (st2 & V2 & R2 & I2 & C2 & K2 & W2); auto.
    { now apply env_in_ext. }
    { rewrite app_length. cbn [List.length]. lia. }
    { eapply Forall_impl; [|exact Hd]. intros z Hz. cbn beta in Hz |- *. rewrite app_length. cbn [List.length]. lia. }
    destruct (IH env path k V2 st2 y rest) as (st3 & V3 & R3 & I3 & C3 & K3 & W3); auto.
    { eapply env_in_incl; eauto. }
    exists st3, V3. split; [|split; [exact I3|split; [|split]]].
    + cbn [fold_res]. rewrite R2. cbn [bind]. exact R3.
    + eapply incl_tran; eauto.
    + intros j [<-|Hj]; [|now apply K3]. eapply covered_incl; eauto.
    + intros V4 st4 HV4 HI4 HB4. cbn [concat_map_res].
      rewrite (writes_same_incl _ _ _ _ C3 W2 V4 st4), (W3 V4 st4); auto.
Qed.

Lemma concat_map_res_in {A B} (h : A -> res (list B)) l r x :
  concat_map_res h l = Ok r -> In x r -> exists a ra, In a l /\ h a = Ok ra /\ In x ra.
Proof.
  revert r. induction l as [|a l IH]; intros r H Hx.
  - injection H as <-. destruct Hx.
  - apply concat_map_res_ok_cons in H as (ra & y & H1 & H2 & ->).
    apply in_app_or in Hx as [Hx|Hx].
    + exists a, ra. cbn. auto.
    + destruct (IH _ H2 Hx) as (a' & ra' & ? & ? & ?). exists a', ra'. cbn. auto.
Qed.

Lemma concat_map_res_all {A B} (h : A -> res (list B)) l :
  (forall a, In a l -> exists r, h a = Ok r) -> exists r, concat_map_res h l = Ok r.
Proof.
  induction l as [|a l IH]; intro H.
  - exists []. reflexivity.
  - destruct (H a) as (x & Hx); [now left|]. destruct IH as (y & Hy); [intros; apply H; now right|].
    exists (x ++ y). cbn [concat_map_res]. rewrite Hx, Hy. reflexivity.
Qed.

Lemma concat_map_res_ext {A B} (h1 h2 : A -> res (list B)) l :
  (forall a, In a l -> h1 a = h2 a) -> concat_map_res h1 l = concat_map_res h2 l.
Proof.
  induction l as [|a l IH]; intro H; cbn [concat_map_res]; auto.
  rewrite (H a) by now left. rewrite IH; auto. intros; apply H; now right.
Qed.

Lemma all_item_rt it : item_rt it.
Proof.
  induction it as [f|sh its IH] using item_ind'.
  - intros env path k V st1 cs rest Hi HV HL Hd Hok Hpl Hf HI HW.
    destruct (read_field_rt env (List.length path) f k V st1 cs rest) as (st1' & R & I'); auto.
    { apply Hf. now left. }
    exists st1', ((f, k) :: V). split; [exact R|split; [exact I'|split; [|split; [|split]]]].
    + now apply incl_tl, incl_refl.
    + intros f' [<-|[]]. cbn [placed] in Hpl. rewrite Hpl, skipn_all. exists [k].
      repeat split. intros q [<-|[]]. now left.
    + intros f' E. injection E as <-. now left.
    + apply write_field_same; auto. now left.
  - intros env path k V st1 cs rest Hi HV HL Hd Hok Hpl Hf HI HW.
    rewrite item_ok_loop in Hok. apply andb_true_iff in Hok as [Hr Hok].
    rewrite write_item_loop in HW. apply bind_ok_elim in HW as (n & Hn & HW).
    assert (Hsh : forall V2 st2, incl V V2 -> Inv V2 st2 ->
                    eval_shape FO (G FO fs st2) fs k sh = Ok n).
    { intros V2 st2 HV2 HI2. eapply eval_shape_agree; [|exact Hn].
      eapply (refs_in_agree _ _ V2).
      - intros y q v. apply (G_agree V2 st2 HI2).
      - eapply Forall_impl; [intros r; apply (ref_in_incl fs V V2 k _ r HV2)|].
        exact (refs_ok_in fs env k (List.length path) V (expr_refs sh) Hinj Hi HV Hr). }
    apply placed_loop in Hpl.
    destruct (loop_rt its (items_rt its IH) (zrange n) env (path ++ [sh]) k V st1 cs rest)
      as (st2 & V2 & R2 & I2 & C2 & K2 & W2); auto.
    { rewrite app_length. cbn [List.length]. lia. }
    { rewrite app_length. cbn [List.length].
      now replace (List.length path + 1)%nat with (S (List.length path)) by lia. }
    exists st2, V2. split; [|split; [exact I2|split; [exact C2|split; [|split]]]].
    + rewrite read_item_loop. cbn [fst]. rewrite (Hsh V st1 (incl_refl V) HI). cbn [bind]. exact R2.
    + intros f Hin.
      assert (exists r, f_loops f = (path ++ [sh]) ++ r) as (r & E).
      { cbn [item_fields] in Hin. apply in_flat_map in Hin as (it & Hit & Hin).
        rewrite Forall_forall in Hpl. eapply placed_loops; eauto. }
      assert (E1 : skipn (List.length path) (f_loops f) = sh :: r).
      { rewrite E, <- app_assoc, skipn_app, skipn_all, Nat.sub_diag. reflexivity. }
      assert (E2 : skipn (List.length (path ++ [sh])) (f_loops f) = r).
      { rewrite E, skipn_app, skipn_all, Nat.sub_diag. reflexivity. }
      rewrite E1. cbn [keys_from].
      assert (K : forall i, In i (zrange n) -> exists ks, keys_from FO fs st (k ++ [i]) r = Ok ks
        /\ (forall q, In q ks -> In (f, q) V2)
        /\ (forall V3 st3, incl V2 V3 -> Inv V3 st3 -> keys_from FO fs st3 (k ++ [i]) r = Ok ks
              /\ same_counts FO fs st st3 (k ++ [i]) r)).
      { intros i Hi'. destruct (K2 i Hi' f Hin) as (ks & A & B & C). rewrite E2 in *. eauto. }
      destruct (concat_map_res_all (fun i => keys_from FO fs st (k ++ [i]) r) (zrange n))
        as (ks & Hks).
      { intros i Hi'. destruct (K i Hi') as (x & Hx & _). eauto. }
      exists ks. rewrite Hn. cbn [bind]. split; [exact Hks|]. split.
      * intros q Hq. destruct (concat_map_res_in _ _ _ _ Hks Hq) as (i & ra & Hi1 & Hi2 & Hi3).
        destruct (K i Hi1) as (x & Hx & Hx2 & _). rewrite Hi2 in Hx. injection Hx as <-. auto.
      * intros V0 st0 H H0. split.
        { rewrite (Hsh V0 st0); auto; [|eapply incl_tran; eauto]. cbn [bind].
        rewrite <- Hks. apply concat_map_res_ext. intros i Hi'.
        destruct (K i Hi') as (x & Hx & _ & Hx3). now rewrite Hx, (proj1 (Hx3 V0 st0 H H0)). }
        cbn [same_counts]. exists n. split; [exact Hn|]. split; [apply (Hsh V0 st0); auto; eapply incl_tran; eauto|].
        intros i Hi'. destruct (K i Hi') as (x & _ & _ & Hx3). exact (proj2 (Hx3 V0 st0 H H0)).
    + intros f E. discriminate.
    + intros V4 st4 HV4 HI4 HB4. rewrite write_item_loop, (Hsh V4 st4); auto;
        [|eapply incl_tran; eauto]. cbn [bind]. apply (W2 V4 st4); auto.
Qed.

(** Main lemma. *)
Theorem read_write_rt s0 cs rest :
  wf_rows rows = true -> write_chunks FO fs st = Ok cs ->
  exists st1 V, read FO fs lit s0 (chunks_bytes cs ++ rest) = Ok (st1, rest)
    /\ Inv V st1 /\ covered [] [] (fs_fields fs) V
    /\ writes_same V (fun st2 => write_chunks FO fs st2) cs.
Proof.
  intros Hwf HW.
  destruct (items_rt (fs_items fs)) with (env := @nil field) (path := @nil expr) (k := @nil Z)
    (V := @nil pos) (st1 := s0) (cs := cs) (rest := rest) as (st1 & V & R & I1 & _ & K & W); auto.
  - apply Forall_forall. intros it _. apply all_item_rt.
  - intros y [].
  - intros y [].
  - apply mk_fs_placed.
  - apply incl_refl.
  - split; [intros y p []|]. intros y p [].
  - exists st1, V. auto.
Qed.

(** What happens to the value [v] of a field of size [sz] when it is written and read:
    nothing, or a float is replaced by what its printed text denotes, or text consisting of
    fill characters in an optional field becomes None. *)
Definition survives (d : fdesc) (sz : Z) (v v' : pyval FO) : Prop :=
  v' = v
  \/ (exists x t y, fd_ty d = TFloat /\ v = VFloat x /\ fl_fmt FO (float_spec d sz) x = Some t
       /\ fl_parse FO t = Some y /\ v' = VFloat y)
  \/ (exists t, fd_ty d = TStr /\ fd_optional d = true /\ v = VStr t /\ fill_only d t = true
       /\ v' = VNone).

Lemma reads_back_survives d sz sv v v' : reads_back_stored FO d sz sv v v' -> survives d sz v v'.
Proof.
  unfold reads_back_stored, reads_back, survives. destruct sv; auto.
  destruct (fd_ty d) eqn:T, v; auto.
  - intros ->. destruct (fd_optional d && fill_only d s) eqn:E; auto.
    apply andb_true_iff in E as [? ?]. right; right. eauto 10.
  - intros (t & y & H1 & H2 & ->). right; left. eauto 10.
Qed.

Lemma get_pub_rt V st1 f k v : Inv V st1 -> In (f, k) V -> fd_name (f_d f) <> None ->
  get_pub FO g fs st f k = Ok v ->
  exists v', get_pub FO (G FO fs st1) fs st1 f k = Ok v'
     /\ (v' = v \/ exists sz, fsize_of FO g fs f k = Ok sz /\ survives (f_d f) sz v v').
Proof.
  intros HI HV Hn H.
  assert (Hag := G_agree V st1 HI). destruct HI as (HC & HS).
  destruct (HC _ _ HV) as (Hlen & Hown & Hsh). destruct (HS _ _ HV) as (Hin & Hok & c & Hc & Hs).
  destruct (own_split _ _ Hown) as (Rc & Rs & Rv).
  assert (Aown : forall rs, Forall (ref_in fs V k (List.length k)) rs ->
            refs_agree FO g (G FO fs st1) fs k rs) by (intros; eapply refs_in_agree; eauto).
  unfold get_pub in H. apply bind_ok_elim in H as (w & Hw & H).
  assert (Hgb : exists w', get_base FO (G FO fs st1) fs st1 f k = Ok w'
     /\ (w' = w \/ (is_bytes_ty (fd_ty (f_d f)) = false /\
          exists sz, fsize_of FO g fs f k = Ok sz /\ survives (f_d f) sz w w'))).
  { assert (Hw0 := Hw). unfold get_base in Hw |- *.
    destruct (fd_name (f_d f)) as [nm|] eqn:Nm; [|contradiction].
    apply bind_ok_elim in Hw as (u & Hu & Hw).
    rewrite (check_index_agree FO g (G FO fs st1) fs f k u); [|eapply refs_in_agree_rl; eauto|exact Hu].
    cbn [bind]. rewrite Hc in Hw. cbn [bind] in Hw.
    rewrite (check_condition_agree FO g (G FO fs st1) fs f k c); auto. cbn [bind].
    destruct c; cbn [negb] in *; [|eauto].
    destruct (fd_value (f_d f)) as [e|] eqn:FV.
    - destruct (eval FO g fs k e) as [a|] eqn:EV; cbn [bind] in Hw; [|discriminate].
      rewrite (eval_agree FO g (G FO fs st1) fs k e a); auto. cbn [bind]. eauto.
    - destruct (Hs eq_refl) as (b & sv & HB & HP & Hval & _); [congruence|].
      destruct Hok as (Ho & Hob).
      destruct (field_bytes_parse FO laws fs st f k b lit Hlits Hin Ho Hob) as (sv' & HP' & Hg);
        auto; [congruence|].
      rewrite HP in HP'. injection HP' as <-.
      destruct (Hg w) as (v' & sz & Hsz & HCv & HR); auto.
      exists v'. unfold stored at 1. rewrite Hval, HCv. split; auto.
      destruct (is_bytes_ty (fd_ty (f_d f))) eqn:BT.
      + left. unfold reads_back_stored, reads_back in HR. destruct (stored FO st f k); auto.
        destruct (fd_ty (f_d f)); try discriminate; auto.
      + right. split; auto. exists sz. split; auto. eapply reads_back_survives; eauto. }
  destruct Hgb as (w' & Hw' & Hrel). unfold get_pub. rewrite Hw'. cbn [bind].
  destruct Hrel as [-> | (BT & sz & Hsz & Hsv)].
  - exists v. split; auto. destruct (fd_ty (f_d f)); auto. destruct w; auto.
    eapply unpack_agree; [|exact H]. auto.
  - exists w'. assert (v = w) as -> by (destruct (fd_ty (f_d f)); try discriminate; congruence).
    split; [destruct (fd_ty (f_d f)); try discriminate; auto|]. right. eauto.
Qed.

Theorem round_trip s0 b rest :
  wf_rows rows = true -> write FO fs st = Ok b ->
  exists st1, read FO fs lit s0 (b ++ rest) = Ok (st1, rest)
    /\ (forall f, In f (fs_fields fs) -> exists ks, field_keys FO fs st f = Ok ks
          /\ field_keys FO fs st1 f = Ok ks)
    /\ (forall nm f ks k v, lookup fs nm = Some f -> field_keys FO fs st f = Ok ks -> In k ks ->
          get FO fs st nm k = Ok v ->
          exists v', get FO fs st1 nm k = Ok v'
            /\ (v' = v \/ exists sz, fsize_of FO g fs f k = Ok sz /\ survives (f_d f) sz v v')).
Proof.
  intros Hwf HW. unfold write in HW. apply bind_ok_elim in HW as (cs & HW & E). injection E as <-.
  destruct (read_write_rt s0 cs rest Hwf HW) as (st1 & V & R & I1 & K & _).
  exists st1. split; auto. split.
  - intros f Hf. destruct (K f Hf) as (ks & A & B & C). exists ks. unfold field_keys. split; auto.
    apply (proj1 (C V st1 (incl_refl V) I1)).
  - intros nm f ks k v HL Hk Hin Hg. unfold get in *. rewrite HL in *.
    destruct (key_shape_ok f k); [|discriminate].
    assert (Hf : In f (fs_fields fs)) by (eapply lookup_in; eauto).
    destruct (K f Hf) as (ks' & A & B & C). unfold field_keys in Hk. cbn [List.length skipn] in A.
    rewrite A in Hk. injection Hk as ->.
    eapply get_pub_rt; eauto. apply lookup_name in HL. congruence.
Qed.

Theorem round_trip_counts s0 b rest :
  wf_rows rows = true -> write FO fs st = Ok b ->
  exists st1, read FO fs lit s0 (b ++ rest) = Ok (st1, rest)
    /\ forall f, In f (fs_fields fs) -> same_counts FO fs st st1 [] (f_loops f).
Proof.
  intros Hwf HW. unfold write in HW. apply bind_ok_elim in HW as (cs & HW & E). injection E as <-.
  destruct (read_write_rt s0 cs rest Hwf HW) as (st1 & V & R & I1 & K & _).
  exists st1. split; auto. intros f Hf. destruct (K f Hf) as (ks & _ & _ & C).
  exact (proj2 (C V st1 (incl_refl V) I1)).
Qed.

End RT.
