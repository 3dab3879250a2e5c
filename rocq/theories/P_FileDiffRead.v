(** Comparing files that were read: a file is the same as itself (C47). *)
From Verif Require Import Base BaseLemmas Engine Wf EngineLemmas RoundTrip Literal Positions Keys Deps Spec Decimal Utf8 Tre Handles TrePlace Security Image
  DescsHdr File P_Skip Diff P_Diff FileDiff P_FileDiff.
From Coq Require Import ZifyBool ZifyNat ZifyN.
Open Scope list_scope.
Ltac Zify.zify_post_hook ::= idtac.

(** Fields that can be read back whatever the bytes were: none is computed, and binary numbers
    have a size that can be unpacked. *)
Definition legible_field (f : field) : bool :=
  match fd_value (f_d f) with
  | Some _ => false
  | None => match fd_ty (f_d f), fd_size (f_d f) with
            | TData (KInt _), SzInt n => ((n =? 1)%Z || (n =? 2)%Z || (n =? 3)%Z || (n =? 4)%Z || (n =? 8)%Z) && (fd_size_offset (f_d f) =? 0)%Z
            | TData (KInt _), _ => false
            | TData KFloat, SzInt n => (n =? 4)%Z && (fd_size_offset (f_d f) =? 0)%Z
            | TData KFloat, _ => false
            | _, _ => true
            end
  end.
Definition legible (rows : list row) : bool := forallb legible_field (fs_fields (mk_fs rows)).

Section P.
Variable FO : FloatOps.
Notation state := (state FO).

(** ** What was read can be read *)
Section Keys.
Variables (fs : fstruct) (s : state).
Definition has_keys (lead : list Z) (path : list expr) (f : field) : Prop :=
  exists r ks, f_loops f = path ++ r /\ keys_from FO fs s lead r = Ok ks.
Definition item_keys (it : Engine.item) : Prop := forall lead path ps, placed path it -> positions_item FO fs s lead it = Ok ps ->
  Forall (has_keys lead path) (item_fields it).
Lemma items_keys its : Forall item_keys its -> forall lead path ps, Forall (placed path) its -> positions_items FO fs s lead its = Ok ps ->
  Forall (has_keys lead path) (flat_map item_fields its).
Proof.
  induction 1 as [|it its H _ IH]; intros lead path ps Hp E; [constructor|]. inversion_clear Hp as [|? ? P1 P2].
  unfold positions_items in E. cbn [concat_map_res] in E. apply bind_ok_elim in E as (x & E1 & E). apply bind_ok_elim in E as (y & E2 & E).
  cbn [flat_map]. apply Forall_app. split; [exact (H lead path x P1 E1)|exact (IH lead path y P2 E2)].
Qed.
Lemma concat_map_nonempty {A B} (f : A -> res (list B)) l r a : concat_map_res f l = Ok r -> In a l -> exists y, f a = Ok y.
Proof. intros E I. apply (proj1 (concat_res_ok f l)); eauto. Qed.
Lemma all_item_keys it : item_keys it.
Proof.
  induction it as [f|sh its IH] using item_ind'; intros lead path ps Hp E.
  - cbn [item_fields]. constructor; [|constructor]. exists [], [lead]. cbn [placed] in Hp. rewrite Hp, app_nil_r. split; reflexivity.
  - rewrite positions_item_loop in E. apply bind_ok_elim in E as (n & En & E). apply placed_loop in Hp. cbn [item_fields].
    apply Forall_forall. intros f Hf.
    assert (PL : exists r, f_loops f = (path ++ [sh]) ++ r).
    { apply in_flat_map in Hf as (it & Hit & Hf). rewrite Forall_forall in Hp. exact (placed_loops _ _ _ (Hp it Hit) Hf). }
    destruct PL as (r & PL). exists (sh :: r).
    assert (K : exists ks, concat_map_res (fun i => keys_from FO fs s (lead ++ [i]) r) (zrange n) = Ok ks).
    { apply (concat_res_ok (fun i => keys_from FO fs s (lead ++ [i]) r)). intros i Hi. destruct (concat_map_nonempty _ _ _ i E Hi) as (y & Ey).
      assert (X := items_keys its IH (lead ++ [i]) (path ++ [sh]) y Hp Ey). rewrite Forall_forall in X.
      destruct (X f Hf) as (r' & ks & R & K). rewrite PL in R. apply app_inv_head in R. subst r'. eauto. }
    destruct K as (ks & K). exists ks. rewrite PL, <- app_assoc. split; [reflexivity|]. cbn [keys_from]. rewrite En. exact K.
Qed.
End Keys.
Lemma positions_keys rows (s : state) ps f : positions FO (mk_fs rows) s = Ok ps -> In f (fs_fields (mk_fs rows)) ->
  exists ks, field_keys FO (mk_fs rows) s f = Ok ks.
Proof.
  intros E Hf. assert (X := items_keys (mk_fs rows) s (fs_items (mk_fs rows))). 
  assert (Y := X ltac:(apply Forall_forall; intros; apply all_item_keys) [] [] ps (mk_fs_placed rows) E).
  rewrite Forall_forall in Y. rewrite mk_fs_fields in Hf. destruct (Y f Hf) as (r & ks & R & K). cbn in R. exists ks. unfold field_keys. now rewrite R.
Qed.

Lemma unpack_legible (g : field -> list Z -> res (pyval FO)) fs f k b :
  match fd_ty (f_d f), fd_size (f_d f) with
  | TData (KInt _), SzInt n => (n = 1 \/ n = 2 \/ n = 3 \/ n = 4 \/ n = 8)%Z /\ fd_size_offset (f_d f) = 0%Z /\ Z.of_nat (List.length b) = n
  | TData (KInt _), _ => False
  | TData KFloat, _ => List.length b = 4%nat
  | _, _ => True
  end -> exists v, unpack FO g fs f k b = Ok v.
Proof.
  unfold unpack. intro H. destruct (fd_ty (f_d f)) as [ | | | |kd]; eauto. destruct kd as [ | | |sg| ]; eauto.
  - destruct (fd_size (f_d f)); rewrite H; cbn [Nat.eqb]; eauto.
  - destruct (fd_size (f_d f)) as [n|e] eqn:ES; [|contradiction]. destruct H as (N & O & L). unfold fsize_of. rewrite ES, O. cbn [bind].
    destruct N as [N|[N|[N|[N|N]]]]; rewrite N in *; unfold unpack_int; rewrite L; cbn [Z.eqb Pos.eqb orb Z.sub Z.opp Z.add bind]; eauto.
Qed.
Lemma read_legible_any rows (s s' : state) inp rest : wf_rows rows = true -> legible rows = true ->
  read FO (mk_fs rows) false s inp = Ok (s', rest) ->
  forall nm f, In f (fs_fields (mk_fs rows)) -> fd_name (f_d f) = Some nm -> readable FO (mk_fs rows) s' f.
Proof.
  intros Hwf Hl HR nm f Hf L.
  destruct (read_blocks FO rows false s inp s' rest Hwf HR) as (ps & bs & HP & _).
  destruct (positions_keys rows s' ps f HP Hf) as (ks & K). exists ks. split; [exact K|]. intros k Hk.
  assert (HV : valid_index FO (mk_fs rows) s' f k) by now apply (valid_key FO (mk_fs rows) s' f ks k K).
  destruct (read_block_at FO rows false s inp s' rest Hwf HR) as (used & _ & H). destruct (H f k Hf HV) as (b & _ & HB & HC).
  cbn [fst snd] in HB, HC. unfold legible in Hl. rewrite forallb_forall in Hl. specialize (Hl f Hf). unfold legible_field in Hl.
  destruct (fd_value (f_d f)) eqn:EV; [discriminate|].
  unfold fget, get_pub, get_base. rewrite L, (valid_check _ _ _ _ _ HV), EV. cbn [bind].
  destruct HB as [(Cf & _)|(Ct & Sz)].
  - apply cond_is_check in Cf. cbn [fst snd] in Cf. rewrite Cf. cbn [negb bind]. destruct (fd_ty (f_d f)); eauto.
  - destruct (HC Ct) as (P & _); [rewrite L; discriminate|].
    apply cond_is_check in Ct. cbn [fst snd] in Ct, Sz. rewrite Ct. cbn [negb bind]. unfold parse_field in P.
    destruct (fd_optional (f_d f)) eqn:EO; cbn [andb] in P; [destruct (is_blank (f_d f) b)|].
    1: { injection P as <-. cbn [convert]. rewrite EO. cbn [bind]. destruct (fd_ty (f_d f)); eauto. }
    all: destruct (fd_ty (f_d f)) as [ | | | |kd] eqn:T.
    all: try (destruct (rstrip_by ws_byte b) as [|x l]; [discriminate P|]).
    all: try (destruct (conv_int FO (VBytes (x :: l))) as [z|]; [|discriminate P]; injection P as <-; cbn [convert]; rewrite T; cbn; eauto).
    all: try (destruct (conv_float FO (VBytes (x :: l))) as [z|]; [|discriminate P]; injection P as <-; cbn [convert]; rewrite T; cbn; eauto).
    all: try (injection P as <-; cbn [convert]; rewrite T; cbn [conv_bytes conv_str bind]; eauto).
    all: destruct Sz as (raw & SR & SN); apply unpack_legible.
    all: rewrite T; destruct kd; try exact I; destruct (fd_size (f_d f)) as [m|e]; try discriminate Hl.
    all: subst raw; lia.
Qed.
Lemma read_legible rows (s s' : state) inp rest : wf_rows rows = true -> legible rows = true ->
  read FO (mk_fs rows) false s inp = Ok (s', rest) ->
  forall nm f, lookup (mk_fs rows) nm = Some f -> readable FO (mk_fs rows) s' f.
Proof. intros Hwf Hl HR nm f L. apply (read_legible_any rows s s' inp rest Hwf Hl HR nm f (lookup_in _ _ _ L) (lookup_name _ _ _ L)). Qed.

(** ** Comparing a file that was read with itself *)
Variable CO : CmpOps FO.
Variable fp : dtype -> dtype -> item -> item -> bool.
Notation hdr := (hdr FO).
Notation tre := (tre FO).
Notation seg := (seg FO).
Notation sdata := (sdata FO).

(** Every value is the same as itself: no function of the configuration says otherwise, no
    tolerance is negative, and numbers are equal to themselves (no NaN). *)
Definition reflexive_config (c : config FO) : Prop :=
  forall nm, (forall g v, c_eq FO c nm = Some g -> g v v = Ok true)
    /\ forall x, fl_eq CO x x = true /\ fl_close CO (c_rel FO c nm) (c_abs FO c nm) x x = Ok true.
Definition reflexive (C : fcfg FO) : Prop :=
  reflexive_config (fc_hdr FO C) /\ (forall k, reflexive_config (fc_sub FO C k))
  /\ (forall nm c, fc_ush FO C nm = Some c -> reflexive_config c)
  /\ (forall t, reflexive_config (fc_tre FO C t)) /\ (forall t, reflexive_config (fc_des FO C t))
  /\ forall d x, fp d d x x = true.

(** The classes the file is read with: their tables are sound and can be read back, there is a
    handler for each user subheader, none of the classes nobody compares is used, and images that
    can be read as arrays are if the comparison expects it. *)
Definition good_table (rows : list row) : Prop := wf_rows rows = true /\ legible rows = true.
Definition compared_class (hd : handler) : Prop :=
  match hd with HFields c => good_table (dc_rows c) | HDesCopy | HGraphicRaw | HResRaw => False | _ => True end.
Definition compared_classes (C : fcfg FO) (E : env) : Prop :=
  (forall c, In c (e_reg E) -> good_table (tc_rows c))
  /\ (forall t u, In (t, u) (e_des E) \/ In (t, u) (e_res E) -> good_table (uc_rows u) /\ fc_ush FO C (uc_name u) <> None)
  /\ (forall lv hd, In lv (e_levels E) -> In hd lv -> compared_class hd)
  /\ (fc_numpy FO C = true -> forall l1 lv l2, e_levels E = l1 ++ lv :: l2 -> In HImageHole lv -> In HNumpy (List.concat l1 ++ lv)).

Lemma self_equal c rows (s : state) : reflexive_config c ->
  (forall nm f, lookup (mk_fs rows) nm = Some f -> readable FO (mk_fs rows) s f) -> fields_equal FO CO c rows s s.
Proof.
  intros Hc HR. split; [intros nm f L; split; exact (HR nm f L)|]. split; [intros nm f L _; apply same_obs_shown; [exact (HR nm f L)|split; reflexivity]|].
  intros nm f k v L E. destruct (Hc nm) as (A & B). split; [intros g; apply A|]. intros x _. apply B.
Qed.
Lemma self_read c rows (s : state) inp rest : reflexive_config c -> good_table rows -> read FO (mk_fs rows) false (init_state FO) inp = Ok (s, rest) ->
  fields_equal FO CO c rows s s.
Proof. intros Hc (W & L) R. apply (self_equal c rows s Hc). exact (read_legible rows _ s inp rest W L R). Qed.
Lemma self_read_at c rows (s : state) file p q : reflexive_config c -> good_table rows -> read_at FO rows file p = Ok (s, q) ->
  fields_equal FO CO c rows s s.
Proof. intros Hc G R. unfold read_at in R. apply bind_ok_elim in R as ((s' & rest) & R & X). injection X as -> _. exact (self_read c rows s _ rest Hc G R). Qed.

Lemma good_headers : good_table desc_NitfFileHeader /\ forall k, good_table (sub_rows k).
Proof. split; [split; vm_compute; reflexivity|]. intros []; split; vm_compute; reflexivity. Qed.

(** The handlers before the one that took the data declined. *)
Section Levels.
Variables (H R : Type) (hh : H -> nat -> res (option R * nat)).
Hypothesis declines_stay : forall hd p p', hh hd p = Ok (None, p') -> p' = p.
Definition declined (hd : H) : Prop := exists q, hh hd q = Ok (None, q).
Lemma level_declines l : forall found p r p', try_level H nat R hh l found p = Ok (r, p') ->
  (r = found /\ p' = p /\ Forall declined l)
  \/ exists hd d, In hd l /\ found = None /\ r = Some d /\ hh hd p = Ok (Some d, p') /\ forall h', In h' l -> h' = hd \/ declined h'.
Proof.
  induction l as [|hd l IH]; intros found p r p' HT; cbn [try_level] in HT.
  - left. injection HT as <- <-. auto.
  - apply bind_ok_elim in HT as ([c q] & HC & HT). destruct c as [d|].
    + destruct found; [discriminate|]. right. destruct (IH _ _ _ _ HT) as [(-> & -> & F)|(? & ? & _ & HX & _)]; [|discriminate].
      exists hd, d. repeat split; auto; [now left|]. intros h' [<-|I]; [now left|]. right. rewrite Forall_forall in F. auto.
    + pose proof (declines_stay _ _ _ HC) as ->. assert (D : declined hd) by (exists p; exact HC).
      destruct (IH _ _ _ _ HT) as [(-> & -> & F)|(hd' & d & HI & -> & -> & HD & F)]; [left; auto|].
      right. exists hd', d. repeat split; auto; [now right|]. intros h' [<-|I]; [now right|auto].
Qed.
Lemma levels_declined ls : forall p d p', handle_levels H nat R hh ls p = Ok (d, p') ->
  exists l1 lv l2 hd, ls = l1 ++ lv :: l2 /\ In hd lv /\ hh hd p = Ok (Some d, p')
    /\ forall h', In h' (List.concat l1 ++ lv) -> h' = hd \/ declined h'.
Proof.
  induction ls as [|l ls IH]; intros p d p' HL; cbn [handle_levels] in HL; [discriminate|].
  apply bind_ok_elim in HL as ([r q] & HT & HL).
  destruct (level_declines _ _ _ _ _ HT) as [(-> & -> & F)|(hd & d' & HI & _ & -> & HD & F)].
  - destruct (IH _ _ _ HL) as (l1 & lv & l2 & hd & -> & HI & HD & D). exists (l :: l1), lv, l2, hd. split; [reflexivity|].
    split; [exact HI|]. split; [exact HD|]. intros h' I. cbn [List.concat] in I. rewrite <- app_assoc in I. apply in_app_or in I as [I|I]; [|auto].
    rewrite Forall_forall in F. auto.
  - injection HL as <- <-. exists [], l, ls, hd. split; [reflexivity|]. split; [exact HI|]. split; [exact HD|]. exact F.
Qed.
End Levels.

Section Self.
Variable C : fcfg FO.
Variable E : env.
Hypothesis HC : reflexive C.
Hypothesis HE : compared_classes C E.

Lemma rec_self reg inp t rest : (forall c, In c reg -> good_table (tc_rows c)) -> rec_read FO reg inp = Ok (t, rest) -> tre_equal FO CO C t t.
Proof.
  intros Hr R. assert (U : forall t rest, unk_read FO inp = Ok (t, rest) -> tre_equal FO CO C t t).
  { intros t0 r0 U. unfold unk_read in U. apply bind_ok_elim in U as ((tag & i1) & _ & U). apply bind_ok_elim in U as ((cel & i2) & _ & U).
    destruct (fread cel i2). injection U as <- <-. split; reflexivity. }
  unfold rec_read in R.
  destruct (reg_find reg (firstn 6 inp)) as [c|] eqn:F.
  2: { destruct (unk_read FO inp) as [x|] eqn:EU; [injection R as ->; exact (U _ _ eq_refl)|].
       destruct (utf8_dec (firstn 6 inp)); discriminate R. }
  destruct (obj_read FO c inp) as [x|] eqn:EO; [|destruct (utf8_dec (firstn 6 inp)); [exact (U _ _ R)|discriminate R]].
  injection R as ->. unfold obj_read in EO. apply bind_ok_elim in EO as ((tag & i1) & _ & EO). destruct (negb _); [discriminate|].
  apply bind_ok_elim in EO as ((cel & i2) & _ & EO). apply bind_ok_elim in EO as ((s & i3) & RS & EO). destruct (_ =? _)%Z; [|discriminate].
  injection EO as <- <-. split; [reflexivity|]. apply (self_read _ _ _ _ _ (proj1 (proj2 (proj2 (proj2 HC))) _)) with (2 := RS).
  apply Hr. unfold reg_find in F. apply find_some in F as (I & _). now apply in_rev.
Qed.
Lemma stream_self reg : (forall c, In c reg -> good_table (tc_rows c)) -> forall n inp ts, stream_read FO n reg inp = Ok ts ->
  Forall (fun t => tre_equal FO CO C t t) ts.
Proof.
  intros Hr. induction n as [|n IH]; intros inp ts R; cbn [stream_read] in R; [discriminate|].
  destruct inp as [|x inp]; [injection R as <-; constructor|]. destruct (_ <? 6)%nat; [discriminate|].
  apply bind_ok_elim in R as ((t & rest) & R1 & R). apply bind_ok_elim in R as (ts' & R2 & R). injection R as <-.
  constructor; [exact (rec_self _ _ _ _ Hr R1)|exact (IH _ _ R2)].
Qed.
Lemma areas_self rows h des : forall areas ts, read_areas FO rows (e_reg E) h des areas = Ok ts -> Forall (fun t => tre_equal FO CO C t t) ts.
Proof.
  assert (S : forall b ts, read_tre_data FO (e_reg E) b = Ok ts -> Forall (fun t => tre_equal FO CO C t t) ts).
  { intros b ts R. exact (stream_self _ (proj1 HE) _ _ _ R). }
  induction areas as [|a areas IH]; intros ts R; cbn [read_areas] in R; [injection R as <-; constructor|].
  apply bind_ok_elim in R as (n & _ & R). apply bind_ok_elim in R as (t0 & R0 & R). apply bind_ok_elim in R as (t' & R' & R). injection R as <-.
  apply Forall_app. split; [|exact (IH _ R')]. destruct (n >? 0)%Z; [|injection R0 as <-; constructor].
  apply bind_ok_elim in R0 as (i & _ & R0). apply bind_ok_elim in R0 as (t1 & R1 & R0). apply bind_ok_elim in R0 as (v & _ & R0).
  apply bind_ok_elim in R0 as (t2 & R2 & R0). injection R0 as <-. apply Forall_app. split.
  - destruct (i >? 0)%Z; [|injection R1 as <-; constructor]. apply bind_ok_elim in R1 as (d & _ & R1). exact (S _ _ R1).
  - destruct v; try discriminate R2. exact (S _ _ R2).
Qed.
Lemma left_self ts : Forall (fun t => tre_equal FO CO C t t) ts -> Forall2 (tre_equal FO CO C) (left_tres FO C ts) (left_tres FO C ts).
Proof.
  intro F. unfold left_tres. induction F as [|t ts H _ IH]; [constructor|]. cbn [filter]. destruct (negb _); [constructor; assumption|exact IH].
Qed.

(** Text that is text; a placeholder is never looked into. *)
Definition text_or_hole (d : sdata) : Prop := (exists n, d = DHole FO n) \/ exists t, text_of FO d t.
Definition ready (k : kind) (s : seg) : Prop :=
  fields_equal FO CO (fc_sub FO C k) (sub_rows k) (h_st (s_hdr FO s)) (h_st (s_hdr FO s))
  /\ ush_equal FO CO C (s_ush FO s) (s_ush FO s)
  /\ (overflow_pair FO k (s_hdr FO s) (s_hdr FO s) \/ k = KText \/ data_equal FO CO fp C k (s_hdr FO s) (s_hdr FO s) (s_data FO s) (s_data FO s)).

Lemma handled_self k (h : hdr) sz file p d q :
  handle_levels handler nat sdata (handle_h FO k h sz file) (e_levels E) p = Ok (d, q) ->
  overflow_pair FO k h h \/ k = KText \/ data_equal FO CO fp C k h h d d.
Proof.
  intro L. destruct (levels_declined _ _ _ (declined_pos FO k h sz file) _ _ _ _ L) as (l1 & lv & l2 & hd & EL & Hhd & HD & D).
  assert (CC := proj1 (proj2 (proj2 HE)) lv hd). rewrite EL in CC. specialize (CC ltac:(apply in_or_app; right; now left) Hhd).
  unfold handle_h in HD. destruct (negb (for_kind hd k)) eqn:FK; [discriminate|].
  destruct hd; cbn [compared_class] in CC; try contradiction; cbn [for_kind] in FK.
  - destruct k; try discriminate FK. apply bind_ok_elim in HD as (v & V & HD). apply bind_ok_elim in HD as (e & Ee & HD).
    destruct e; [|discriminate]. apply py_eqb_str in Ee. subst v. left. split; [reflexivity|]. split; exact V.
  - destruct k; try discriminate FK. apply bind_ok_elim in HD as (v & V & HD). apply bind_ok_elim in HD as (e & Ee & HD).
    destruct e; [|discriminate]. cbn [negb] in HD. apply bind_ok_elim in HD as ((s & r) & RS & HD).
    assert (Q : fields_equal FO CO (fc_des FO C (dc_tag c)) (dc_rows c) s s).
    { exact (self_read_at _ _ _ _ _ _ (proj1 (proj2 (proj2 (proj2 (proj2 HC)))) _) CC RS). }
    right. right. assert (X : exists x, d = DFields FO c s x).
    { cbv zeta in HD. destruct ((sz - (Z.of_nat r - Z.of_nat p)) =? 0)%Z; [injection HD as <- _; eauto|]. destruct (negb (dc_after c)); [discriminate|].
      destruct (dc_copy c); [destruct (take_at (sz - (Z.of_nat r - Z.of_nat p)) file r); injection HD as <- _; eauto|].
      apply bind_ok_elim in HD as (z & _ & HD). injection HD as <- _. eauto. }
    destruct X as (x & ->). split; [reflexivity|exact Q].
  - destruct k; try discriminate FK. right. now left.
  - destruct k; try discriminate FK. apply bind_ok_elim in HD as (r & R & HD). destruct r as [(m & p')|]; [|discriminate].
    injection HD as <- _. right. right. split; [reflexivity|]. intros _. split; [reflexivity|]. split; [reflexivity|].
    unfold np_read in R |- *. apply bind_ok_elim in R as (pl & PL & R). rewrite PL. cbn [bind]. destruct pl as [(il & dt)|]; [|discriminate].
    apply bind_ok_elim in R as (m' & M & R). injection R as -> _.
    unfold np_map in M |- *. destruct (dims FO h) as [((nb & nr) & nc)|]; [|discriminate]. cbn [bind] in M |- *.
    destruct ((nb <? 0)%Z || (nr <? 0)%Z || (nc <? 0)%Z) eqn:NN; [discriminate|].
    unfold mp_size in *. cbn [mp_dims mp_dt] in *.
    destruct (Z.of_nat (List.length file) <? _)%Z eqn:FL in M; [destruct il; discriminate|]. injection M as <-. cbn [mp_dims mp_dt].
    assert (NS : (0 <= itemsize dt)%Z) by (destruct dt; cbn; lia).
    match goal with |- context [Z.to_nat ?x] => set (n := x) in *; assert (0 <= n)%Z by (unfold n; nia); clearbody n end.
    replace (_ <? _)%Z with false; [|rewrite firstn_length, skipn_length; lia].
    cbn [bind]. eexists. split; [reflexivity|]. intros m q' _ _ x. apply HC.
  - destruct k; try discriminate FK. apply bind_ok_elim in HD as (r & R & HD). injection HD as <- _. right. right. split; [reflexivity|].
    intros N. split; [reflexivity|]. split; [reflexivity|]. exists None. split; [|intros m p0 X; discriminate X].
    destruct (D HNumpy (proj2 (proj2 (proj2 HE)) N l1 lv l2 EL Hhd)) as [X|(q0 & X)]; [discriminate X|].
    unfold handle_h in X. cbn [for_kind negb] in X. apply bind_ok_elim in X as (r0 & R0 & X). destruct r0 as [(m & p0)|]; [discriminate|].
    unfold np_read in R0 |- *. destruct (np_plan FO h) as [[(il & dt)|]|]; cbn [bind] in R0 |- *; [|reflexivity|discriminate].
    apply bind_ok_elim in R0 as (m & _ & R0). discriminate R0.
  - apply bind_ok_elim in HD as (r & R & HD). injection HD as <- _. right. right. destruct k; exact I.
Qed.

Lemma seg_ready k sz file p s q : seg_read FO E k sz file p = Ok (s, q) -> ready k s /\ s_tres FO s = [].
Proof.
  unfold seg_read. intro R. apply bind_ok_elim in R as ((st & p1) & RS & R). apply bind_ok_elim in R as (c & Ec & R).
  apply bind_ok_elim in R as (u & U & R). apply bind_ok_elim in R as ((d & p2) & L & R). injection R as <- _.
  unfold ready. cbn [s_hdr s_ush s_data s_tres h_st]. split; [|reflexivity]. split.
  { exact (self_read_at _ _ _ _ _ _ (proj1 (proj2 HC) k) (proj2 good_headers k) RS). }
  split; [|exact (handled_self _ _ _ _ _ _ _ L)].
  destruct c as [c|]; [|injection U as <-; exact I]. apply bind_ok_elim in U as (v & V & U). apply bind_ok_elim in U as (b & B & U).
  apply bind_ok_elim in U as ((s & rest) & RU & U). injection U as <-. cbn [ush_equal us_cls us_st]. split; [reflexivity|].
  assert (IC : exists t, In (t, c) (e_des E) \/ In (t, c) (e_res E)).
  { assert (RG : forall l v, reg_get FO l v = Some c -> exists t, In (t, c) l).
    { intros l v0 X. destruct v0; try discriminate X. cbn [reg_get] in X. destruct (find _ l) as [(t & c')|] eqn:F; [|discriminate].
      injection X as ->. apply find_some in F as (F & _). eauto. }
    unfold ush_cls in Ec. destruct k; try discriminate Ec; apply bind_ok_elim in Ec as (w & _ & Ec); injection Ec as Ec;
      destruct (RG _ _ Ec) as (t & I); exists t; auto. }
  destruct IC as (t & IC). destruct (proj1 (proj2 HE) t c IC) as (G & N). destruct (fc_ush FO C (uc_name c)) as [cf|] eqn:Ef; [|congruence].
  exists cf. split; [reflexivity|]. exact (self_read _ _ _ _ _ (proj1 (proj2 (proj2 HC)) _ _ Ef) G RU).
Qed.
Lemma segs_ready k file : forall szs p l q, segs_read FO E k szs file p = Ok (l, q) -> Forall (fun s => ready k s /\ s_tres FO s = []) l.
Proof.
  induction szs as [|sz szs IH]; intros p l q R; cbn [segs_read] in R; [injection R as <- _; constructor|].
  apply bind_ok_elim in R as ((s & p1) & R1 & R). apply bind_ok_elim in R as ((r & p2) & R2 & R). injection R as <- _.
  constructor; [exact (seg_ready _ _ _ _ _ _ R1)|exact (IH _ _ _ R2)].
Qed.
Definition full (k : kind) (s : seg) : Prop := ready k s /\ Forall (fun t => tre_equal FO CO C t t) (s_tres FO s).
Lemma segs_full k l : Forall (fun s => ready k s /\ s_tres FO s = []) l -> Forall (full k) l.
Proof. apply Forall_impl. intros s (H & X). split; [exact H|]. rewrite X. constructor. Qed.
Lemma with_full k dd : forall l l', map_res (with_tres FO E k dd) l = Ok l' -> Forall (fun s => ready k s /\ s_tres FO s = []) l -> Forall (full k) l'.
Proof.
  induction l as [|s l IH]; intros l' M F; cbn [map_res] in M; [injection M as <-; constructor|].
  apply bind_ok_elim in M as (s' & S & M). apply bind_ok_elim in M as (r & R & M). injection M as <-. inversion_clear F as [|? ? (H & X) F'].
  constructor; [|exact (IH _ R F')]. unfold with_tres in S. destruct (has_tres k); [|injection S as <-; split; [exact H|rewrite X; constructor]].
  apply bind_ok_elim in S as (ts & T & S). injection S as <-. split; [exact H|]. cbn [s_tres]. exact (areas_self _ _ _ _ _ T).
Qed.

(** A file that was read is the same as itself, if every text segment that is compared is
    UTF-8. *)
Theorem C47_itself bytes g : file_read FO E bytes = Ok g ->
  (forall s, In s (nf_segs FO g KText) -> fc_skip_seg FO C KText s = false -> text_or_hole (s_data FO s)) ->
  file_same FO CO fp C g g = Ok true.
Proof.
  intros R T. apply C47_no_false_alarm.
  unfold file_read in R. apply bind_ok_elim in R as ((st & p0) & RH & R).
  apply bind_ok_elim in R as (fl & _ & R). apply bind_ok_elim in R as (str & _ & R). destruct str; [discriminate R|].
  apply bind_ok_elim in R as (zi & _ & R). apply bind_ok_elim in R as (zg & _ & R). apply bind_ok_elim in R as (zt & _ & R).
  apply bind_ok_elim in R as (zd & _ & R). apply bind_ok_elim in R as (zr & _ & R).
  apply bind_ok_elim in R as ((im & p1) & R1 & R). apply bind_ok_elim in R as ((gr & p2) & R2 & R).
  apply bind_ok_elim in R as ((tx & p3) & R3 & R). apply bind_ok_elim in R as ((de & p4) & R4 & R).
  apply bind_ok_elim in R as ((rs & p5) & R5 & R). apply bind_ok_elim in R as (ts & TS & R).
  apply bind_ok_elim in R as (im' & M1 & R). apply bind_ok_elim in R as (gr' & M2 & R). apply bind_ok_elim in R as (tx' & M3 & R).
  injection R as <-. unfold file_equal. cbn [nf_hdr nf_tres nf_segs h_st] in T |- *.
  split; [exact (self_read_at _ _ _ _ _ _ (proj1 HC) (proj1 good_headers) RH)|].
  split; [exact (left_self _ (areas_self _ _ _ _ _ TS))|].
  assert (F : forall k, Forall (full k) (match k with KImage => im' | KGraphic => gr' | KText => tx' | KDes => de | KRes => rs end)).
  { intros [].
    - exact (with_full _ _ _ _ M1 (segs_ready _ _ _ _ _ _ R1)).
    - exact (with_full _ _ _ _ M2 (segs_ready _ _ _ _ _ _ R2)).
    - exact (with_full _ _ _ _ M3 (segs_ready _ _ _ _ _ _ R3)).
    - exact (segs_full _ _ (segs_ready _ _ _ _ _ _ R4)).
    - exact (segs_full _ _ (segs_ready _ _ _ _ _ _ R5)). }
  intro k. specialize (F k).
  assert (T' : k = KText -> forall s, In s (match k with KImage => im' | KGraphic => gr' | KText => tx' | KDes => de | KRes => rs end) ->
                fc_skip_seg FO C KText s = false -> text_or_hole (s_data FO s)) by (intros ->; exact T).
  clear T. revert F T'. generalize (match k with KImage => im' | KGraphic => gr' | KText => tx' | KDes => de | KRes => rs end).
  intros l F T. unfold left_segs. induction F as [|s l ((H1 & H2 & H3) & H4) F IH]; [constructor|]. cbn [filter].
  assert (IH' := IH (fun K s0 I => T K s0 (or_intror I))).
  destruct (fc_skip_seg FO C k s) eqn:SK; cbn [negb]; [exact IH'|]. constructor; [|exact IH'].
  destruct H3 as [H3|[->|H3]]; [now left| |right; split; [exact H1|]; split; [exact H2|]; split; [exact (left_self _ H4)|exact H3]].
  right. split; [exact H1|]. split; [exact H2|]. split; [exact (left_self _ H4)|].
  destruct (T eq_refl s (or_introl eq_refl) SK) as [(n & ->)|(t & X)]; [exact I|].
  destruct X as [->|(b & -> & U)]; cbn [data_equal]; exists t; split; ((now left) || (right; eauto)).
Qed.
End Self.
End P.
