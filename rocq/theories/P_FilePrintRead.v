(** Printing and summarising files that were read (C63). *)
From Verif Require Import Base BaseLemmas Engine Wf EngineLemmas Codec RoundTrip Rewrite Reach Literal Positions Keys Deps Spec Scalar Decimal Utf8 Tre Handles TrePlace Security Image
  DescsHdr File P_Skip Diff P_Diff Hooks Listing P_Listing P_ListingRead DesPrint P_DesPrint FileDiff P_FileDiff P_FileDiffRead FileLog FilePrint P_FilePrint.
From Coq Require Import ZifyBool ZifyNat ZifyN.
Open Scope list_scope.
Ltac Zify.zify_post_hook ::= idtac.

(** ** Scalars that were read *)
Definition plain_field (f : field) : bool :=
  match f_loops f, fd_cond (f_d f), fd_value (f_d f) with [], None, None => negb (fd_optional (f_d f)) | _, _, _ => false end.

Lemma all_bytes_rstrip ws b : all_bytes b = true -> all_bytes (rstrip_by ws b) = true.
Proof.
  unfold all_bytes. induction b as [|c b IH]; intro H; [reflexivity|]. cbn [forallb] in H. apply andb_true_iff in H as (Hc & H).
  cbn [rstrip_by]. specialize (IH H). destruct (rstrip_by ws b); [destruct (ws c); [reflexivity|cbn; now rewrite Hc]|]. cbn [forallb] in IH |- *. now rewrite Hc, IH.
Qed.
Lemma utf8_enc_bytes t : all_bytes t = true -> exists b, utf8_enc t = Some b.
Proof.
  unfold all_bytes. induction t as [|c t IH]; intro H; [exists []; reflexivity|]. cbn [forallb] in H. apply andb_true_iff in H as (Hc & H).
  destruct (IH H) as (r & Er). cbn [utf8_enc]. rewrite Er. unfold utf8_char.
  destruct (c <? 128)%N; [eauto|]. destruct (c <? 2048)%N eqn:E; [eauto|]. lia.
Qed.

Lemma map_res_file {A B} (f : A -> res B) l : Listing.map_res f l = File.map_res f l.
Proof. induction l as [|a l IH]; [reflexivity|]. cbn. now rewrite IH. Qed.

Section P.
Variable FO : FloatOps.
Notation state := (state FO).
Notation hdr := (hdr FO).
Notation tre := (tre FO).
Notation seg := (seg FO).
Notation sdata := (sdata FO).
Notation nfile := (nfile FO).

Lemma plain_read rows (s s' : state) inp rest nm f : wf_rows rows = true -> read FO (mk_fs rows) false s inp = Ok (s', rest) ->
  lookup (mk_fs rows) nm = Some f -> plain_field f = true ->
  match fd_ty (f_d f) with
  | TStr => exists t, get FO (mk_fs rows) s' nm [] = Ok (VStr t) /\ (all_bytes inp = true -> all_bytes t = true)
  | TInt => exists z, get FO (mk_fs rows) s' nm [] = Ok (VInt z)
  | _ => True
  end.
Proof.
  intros Hwf HR L P. unfold plain_field in P. destruct (f_loops f) eqn:Sh; [|discriminate P]. destruct (fd_cond (f_d f)) eqn:C; [discriminate P|].
  destruct (fd_value (f_d f)) eqn:V; [discriminate P|]. apply negb_true_iff in P.
  assert (HV : valid_index FO (mk_fs rows) s' f []) by (split; [now rewrite Sh|]; rewrite Sh; cbn; intros j J; lia).
  assert (Hf := lookup_in _ _ _ L). assert (Hn := lookup_name _ _ _ L).
  destruct (read_block_at FO rows false s inp s' rest Hwf HR) as (used & -> & H). destruct (H f [] Hf HV) as (b & BA & _ & HC). cbn [fst snd] in HC.
  assert (Ct : check_condition FO (G FO (mk_fs rows) s') (mk_fs rows) f [] = Ok true) by (unfold check_condition; now rewrite C).
  destruct HC as (HP & _); [now apply cond_is_check|congruence|].
  assert (AB : all_bytes (used ++ rest) = true -> all_bytes b = true).
  { destruct BA as (p1 & p2 & b1 & b2 & _ & _ & _ & ->). rewrite !all_bytes_app. intro A. apply andb_true_iff in A as (A & _).
    apply andb_true_iff in A as (_ & A). now apply andb_true_iff in A as (A & _). }
  unfold get. rewrite L. unfold key_shape_ok, depth. rewrite Sh. cbn [List.length]. unfold fget, get_pub, get_base.
  rewrite Hn, (valid_check _ _ _ _ _ HV), Ct, V. cbn [bind negb]. unfold parse_field in HP. rewrite P in HP. cbn [andb] in HP.
  destruct (fd_ty (f_d f)) eqn:T; try exact I.
  - injection HP as <-. cbn [convert]. rewrite T. cbn [conv_str bind]. eexists. split; [reflexivity|]. intro A. now apply all_bytes_rstrip, all_bytes_rstrip, AB.
  - destruct (rstrip_by ws_byte b) as [|x l]; [discriminate HP|]. destruct (conv_int FO (VBytes (x :: l))) as [z|]; [|discriminate HP]. injection HP as <-.
    cbn [convert]. rewrite T. cbn. eauto.
Qed.

Section Print.
Variable ext : field -> list N -> res (list N).
Variable source : expr -> list N.
Variable H : Type.
Variable rm : H -> bool.
Variable h_str : H -> kind -> seg -> res (list N).
Variable h_tre : H -> kind -> seg -> tre -> res (bool * list N).
Variable o : popts H.
Variable E : env.
Notation seg_print := (seg_print FO ext source H rm h_str h_tre o).
Notation file_print := (file_print FO ext source H rm h_str h_tre o).
Notation tre_text := (tre_text FO ext source).
Notation ush_part := (ush_part FO ext source).
Notation data_text := (data_text FO ext source H o).

(** The classes the file is read with: tables whose fields can all be read back, and an image that
    can be mapped is mapped if NitfImageReadNumpy is registered. *)
Definition printed_table (rows : list row) : Prop :=
  wf_rows rows = true /\ legible rows = true /\ forallb no_empty_loop (fs_items (mk_fs rows)) = true.
Definition printed_classes : Prop :=
  (forall c, In c (e_reg E) -> printed_table (tc_rows c))
  /\ (forall t u, In (t, u) (e_des E) \/ In (t, u) (e_res E) -> printed_table (uc_rows u))
  /\ (forall lv c, In lv (e_levels E) -> In (HFields c) lv -> printed_table (dc_rows c))
  /\ (po_numpy o = true -> forall l1 lv l2, e_levels E = l1 ++ lv :: l2 -> In HImageHole lv -> In HNumpy (List.concat l1 ++ lv)).
(** Hooks that do not raise. *)
Definition quiet_hooks : Prop :=
  (forall h k s, In h (po_hooks o) -> exists t, h_str h k s = Ok t) /\ (forall h k s t, In h (po_hooks o) -> exists r, h_tre h k s t = Ok r).

Hypothesis HE : printed_classes.
Hypothesis HH : quiet_hooks.
Hypothesis HF : formats FO ext.
Hypothesis laws : FloatLaws FO.

(** What stands in the way of printing a segment that was read. *)
Definition presentable (k : kind) (s : seg) : Prop :=
  match k, s_data FO s with
  | KText, DBytes _ (Some b) => exists t, utf8_dec b = Some t
  | KDes, DFields _ c st _ => is_overflow FO (s_hdr FO s) = Ok true \/ exists b, write FO (mk_fs (dc_rows c)) st = Ok b
  | _, _ => True
  end.

Lemma print_read rows (s s' : state) inp rest : printed_table rows -> read FO (mk_fs rows) false s inp = Ok (s', rest) ->
  exists t, print FO ext source (mk_fs rows) s' = Ok t.
Proof. intros (A & B & C) R. exact (proj2 (proj2 (C48_read_partial FO ext source rows s s' inp rest A B C HF R))). Qed.
Lemma printed_headers : printed_table desc_NitfFileHeader /\ forall k, printed_table (sub_rows k).
Proof.
  split; [split; [exact (proj1 (proj1 good_headers))|split; [exact (proj2 (proj1 good_headers))|vm_compute; reflexivity]]|].
  intro k. split; [exact (proj1 (proj2 good_headers k))|split; [exact (proj2 (proj2 good_headers k))|destruct k; vm_compute; reflexivity]].
Qed.
Lemma print_read_at rows (s : state) file p q : printed_table rows -> read_at FO rows file p = Ok (s, q) -> exists t, print FO ext source (mk_fs rows) s = Ok t.
Proof. intros G R. unfold read_at in R. apply bind_ok_elim in R as ((s' & rest) & R & X). injection X as -> _. exact (print_read rows _ s _ rest G R). Qed.

Definition tre_prints (t : tre) : Prop := exists x, tre_text t = Ok x.
Lemma rec_prints inp t rest : rec_read FO (e_reg E) inp = Ok (t, rest) -> tre_prints t.
Proof.
  intros R. assert (U : forall t rest, unk_read FO inp = Ok (t, rest) -> tre_prints t).
  { intros t0 r0 U. unfold unk_read in U. apply bind_ok_elim in U as ((tag & i1) & _ & U). apply bind_ok_elim in U as ((cel & i2) & _ & U).
    destruct (fread cel i2). injection U as <- <-. eexists. reflexivity. }
  unfold rec_read in R.
  destruct (reg_find (e_reg E) (firstn 6 inp)) as [c|] eqn:F.
  2: { destruct (unk_read FO inp) as [x|] eqn:EU; [injection R as ->; exact (U _ _ eq_refl)|].
       destruct (utf8_dec (firstn 6 inp)); discriminate R. }
  destruct (obj_read FO c inp) as [x|] eqn:EO; [|destruct (utf8_dec (firstn 6 inp)); [exact (U _ _ R)|discriminate R]].
  injection R as ->. unfold obj_read in EO. apply bind_ok_elim in EO as ((tag & i1) & _ & EO). destruct (negb _); [discriminate EO|].
  apply bind_ok_elim in EO as ((cel & i2) & _ & EO). apply bind_ok_elim in EO as ((s & i3) & RS & EO). destruct (_ =? _)%Z; [|discriminate EO].
  injection EO as <- <-. unfold tre_prints. cbn [FilePrint.tre_text]. assert (G : printed_table (tc_rows c)) by (apply (proj1 HE); unfold reg_find in F; apply find_some in F as (I & _); now apply in_rev).
  destruct (print_read (tc_rows c) _ s _ _ G RS) as (b & B).
  rewrite B. cbn [bind]. eauto.
Qed.
Lemma stream_prints : forall n inp ts, stream_read FO n (e_reg E) inp = Ok ts -> Forall tre_prints ts.
Proof.
  induction n as [|n IH]; intros inp ts R; cbn [stream_read] in R; [discriminate R|].
  destruct inp as [|x inp]; [injection R as <-; constructor|]. destruct (_ <? 6)%nat; [discriminate R|].
  apply bind_ok_elim in R as ((t & rest) & R1 & R). apply bind_ok_elim in R as (ts' & R2 & R). injection R as <-.
  constructor; [exact (rec_prints _ _ _ R1)|exact (IH _ _ R2)].
Qed.
Lemma areas_prints rows h des : forall areas ts, read_areas FO rows (e_reg E) h des areas = Ok ts -> Forall tre_prints ts.
Proof.
  induction areas as [|a areas IH]; intros ts R; cbn [read_areas] in R; [injection R as <-; constructor|].
  apply bind_ok_elim in R as (n & _ & R). apply bind_ok_elim in R as (t0 & R0 & R). apply bind_ok_elim in R as (t' & R' & R). injection R as <-.
  apply Forall_app. split; [|exact (IH _ R')]. destruct (n >? 0)%Z; [|injection R0 as <-; constructor].
  apply bind_ok_elim in R0 as (i & _ & R0). apply bind_ok_elim in R0 as (t1 & R1 & R0). apply bind_ok_elim in R0 as (v & _ & R0).
  apply bind_ok_elim in R0 as (t2 & R2 & R0). injection R0 as <-. apply Forall_app. split.
  - destruct (i >? 0)%Z; [|injection R1 as <-; constructor]. apply bind_ok_elim in R1 as (d & _ & R1). exact (stream_prints _ _ _ R1).
  - destruct v; try discriminate R2. exact (stream_prints _ _ _ R2).
Qed.

(** The data of a segment that was read. *)
Lemma image_maps (h : hdr) file p m q : np_read FO h file (Z.of_nat p) = Ok (Some (m, q)) ->
  exists r, np_read FO h (firstn (Z.to_nat (mp_size m)) (skipn p file)) 0 = Ok (Some r).
Proof.
  intro R. unfold np_read in R |- *. apply bind_ok_elim in R as (pl & PL & R). rewrite PL. cbn [bind]. destruct pl as [(il & dt)|]; [|discriminate R].
  apply bind_ok_elim in R as (m' & M & R). injection R as -> _.
  unfold np_map in M |- *. destruct (dims FO h) as [((nb & nr) & nc)|]; [|discriminate M]. cbn [bind] in M |- *.
  destruct ((nb <? 0)%Z || (nr <? 0)%Z || (nc <? 0)%Z) eqn:NN; [discriminate M|].
  unfold mp_size in *. cbn [mp_dims mp_dt] in *.
  destruct (Z.of_nat (List.length file) <? _)%Z eqn:FL in M; [destruct il; discriminate M|]. injection M as <-. cbn [mp_dims mp_dt].
  assert (NS : (0 <= itemsize dt)%Z) by (destruct dt; cbn; lia).
  match goal with |- context [Z.to_nat ?x] => set (n := x) in *; assert (0 <= n)%Z by (unfold n; nia); clearbody n end.
  replace (_ <? _)%Z with false; [|rewrite firstn_length, skipn_length; lia]. cbn [bind]. eauto.
Qed.

Lemma handled_prints k (s0 : seg) sz file p d q : (k = KDes -> (0 <= sz)%Z) ->
  (forall nm f, lookup (mk_fs (sub_rows k)) nm = Some f -> readable FO (mk_fs (sub_rows k)) (h_st (s_hdr FO s0)) f) ->
  (exists u, ush_part (s_ush FO s0) = Ok u) ->
  handle_levels handler nat sdata (handle_h FO k (s_hdr FO s0) sz file) (e_levels E) p = Ok (d, q) -> s_data FO s0 = d ->
  (k = KDes /\ is_overflow FO (s_hdr FO s0) = Ok true) \/ ((exists r, data_text k s0 (Some sz) = Ok r) <-> presentable k s0).
Proof.
  intros Hsz HR HU L SD. destruct (levels_declined _ _ _ (declined_pos FO k (s_hdr FO s0) sz file) _ _ _ _ L) as (l1 & lv & l2 & hd & EL & Hhd & HD & D).
  assert (CC := proj1 (proj2 (proj2 HE)) lv). rewrite EL in CC. specialize (fun c => CC c ltac:(apply in_or_app; right; now left)) as CC'. clear CC.
  assert (HD0 := HD). unfold handle_h in HD. destruct (negb (for_kind hd k)) eqn:FK; [discriminate HD|].
  unfold FilePrint.data_text, presentable. rewrite SD.
  destruct hd; cbn [for_kind] in FK.
  - destruct k; try discriminate FK. apply bind_ok_elim in HD as (v & V & HD). apply bind_ok_elim in HD as (e & Ee & HD).
    destruct e; [|discriminate HD]. apply py_eqb_str in Ee. subst v. left. split; [reflexivity|]. unfold is_overflow. rewrite V. reflexivity.
  - destruct k; try discriminate FK. apply bind_ok_elim in HD as (v & V & HD). apply bind_ok_elim in HD as (e & Ee & HD).
    destruct e; [|discriminate HD]. apply py_eqb_str in Ee. subst v. clear HD.
    destruct (is_overflow FO (s_hdr FO s0)) as [[|]|] eqn:OV; [left; auto| |]; right.
    all: rewrite (C53_file FO c KDes _ sz file p eq_refl V) in HD0; apply bind_ok_elim in HD0 as (((g & d1) & p1) & RD & HD0); injection HD0 as HD0 _.
    all: rewrite <- HD0.
    all: assert (PT := CC' _ Hhd).
    all: assert (F : g = true /\ fd_cls d1 = c /\ fd_id d1 = dc_tag c /\ fd_seg d1 = Some sz)
      by (unfold fd_read in RD; cbn [fd_id fd_cls fd_new fd_st fd_seg fd_copy] in RD; rewrite (proj2 (list_eqb_spec (dc_tag c) (dc_tag c)) eq_refl) in RD; cbn [negb] in RD;
          apply bind_ok_elim in RD as ((s & rest) & _ & RD); cbv zeta in RD;
          match type of RD with (if ?c then _ else _) = _ => destruct c end; [injection RD as <- <- _; auto|];
          destruct (negb (dc_after c)); [discriminate RD|]; destruct (dc_copy c); [destruct (take_at _ _ _) in RD; injection RD as <- <- _; auto|];
          apply bind_ok_elim in RD as (z & _ & RD); injection RD as <- <- _; auto).
    all: destruct F as (-> & F1 & F2 & F3); rewrite V; cbn [bind].
    all: set (d2 := {| fd_cls := c; fd_id := dc_tag c; fd_seg := Some sz; fd_st := fd_st d1; fd_left := None; fd_copy := fd_copy d1 |}).
    all: assert (EU : fd_update FO d2 = fd_update FO d1)
      by (unfold fd_update, fd_write, fd_read, fd_put, d2; cbn [fd_cls fd_id fd_seg fd_st fd_copy]; rewrite F1, F2, F3, (proj2 (list_eqb_spec (dc_tag c) (dc_tag c)) eq_refl); reflexivity).
    all: split.
    all: try (intros ((d3 & t3) & X); right; apply bind_ok_elim in X as ((d4 & t4) & X & _); unfold fd_print in X; apply bind_ok_elim in X as (d5 & X & _);
              unfold fd_update, fd_write in X; apply bind_ok_elim in X as (b & X & _); apply bind_ok_elim in X as (b0 & X & _); cbn [fd_cls fd_st] in X; exists b0; exact X).
    all: intros [X|(b & W)]; [discriminate X|].
    all: destruct (C53_after_read FO (fd_new FO c (dc_tag c) (Some sz)) d1 file p p1 sz (b ++ match fd_copy d1 with Some x => x | None => [] end) laws (proj1 PT)
          (no_literals_init FO _) eq_refl (Hsz eq_refl) eq_refl RD ltac:(unfold fd_write; rewrite F1, W; reflexivity)) as ((d3 & U3 & _) & _).
    all: unfold fd_print; rewrite EU, U3; cbn [bind].
    all: assert (UU : exists u, match match s_ush FO s0 with Some u => Some (uc_rows (us_cls FO u), us_st FO u) | None => None end with
           | Some (rows, s) => do t <- print FO ext source (mk_fs rows) s; Ok (str "User-Defined Subheader: " ++ [10%N] ++ t ++ [10%N])
           | None => Ok [] end = Ok u)
      by (destruct HU as (u & U); destruct (s_ush FO s0) as [us|]; [|eauto]; cbn [FilePrint.ush_part] in U; apply bind_ok_elim in U as (t & U & _); rewrite U; cbn [bind]; eauto).
    all: destruct UU as (u & ->); cbn [bind].
    all: assert (PP : exists t, print FO ext source (mk_fs (dc_rows (fd_cls d3))) (fd_st d3) = Ok t).
    1, 3: (rewrite (fd_update_cls FO _ _ U3), F1; unfold fd_update in U3; apply bind_ok_elim in U3 as (w & _ & U3); apply bind_ok_elim in U3 as (((g3 & d4) & p3) & R3 & U3); injection U3 as ->;
      unfold fd_read in R3; rewrite F1, F2, F3, (proj2 (list_eqb_spec (dc_tag c) (dc_tag c)) eq_refl) in R3; cbn [negb] in R3;
      apply bind_ok_elim in R3 as ((s & rest) & RR & R3); cbv zeta in R3;
      assert (Q : fd_st d3 = s)
        by (match type of R3 with (if ?c then _ else _) = _ => destruct c end; [injection R3 as _ <- _; auto|];
            destruct (negb (dc_after c)); [discriminate R3|]; destruct (dc_copy c); [destruct (take_at _ _ _) in R3; injection R3 as _ <- _; auto|];
            apply bind_ok_elim in R3 as (z & _ & R3); injection R3 as _ <- _; auto);
      rewrite Q; exact (print_read (dc_rows c) _ s _ rest PT RR)).
    all: destruct PP as (t & ->); cbn [bind]; eauto.
  - destruct k; try discriminate FK. destruct (take_at sz file p). injection HD as <- _. right. cbn [bind]. split; [intros _; exact I|eauto].
  - destruct k; try discriminate FK. destruct (take_at sz file p) as (b & p'). injection HD as <- _. right.
    destruct (utf8_dec b) as [t|]; cbn [bind]; (split; [intros (r & X)|intros (t' & X)]); try discriminate X; eauto.
  - destruct k; try discriminate FK. destruct (take_at sz file p). injection HD as <- _. right. cbn [bind]. split; [intros _; exact I|eauto].
  - destruct k; try discriminate FK. destruct (take_at sz file p). injection HD as <- _. right. cbn [bind]. split; [intros _; exact I|eauto].
  - destruct k; try discriminate FK. apply bind_ok_elim in HD as (r & R & HD). destruct r as [(m & p')|]; [|discriminate HD].
    injection HD as <- _. right. split; [intros _; exact I|]. intros _. unfold image_text. destruct (po_numpy o).
    + apply image_maps in R as ((m' & q') & ->). cbn [bind]. destruct (mp_dims m') as ((nb & nr) & nc). cbn [bind]. eauto.
    + cbn [bind]. eauto.
  - destruct k; try discriminate FK. apply bind_ok_elim in HD as (r & R & HD). injection HD as <- _. right. split; [intros _; exact I|]. intros _.
    unfold image_text. destruct (po_numpy o) eqn:N; [|cbn [bind]; eauto].
    destruct (D HNumpy (proj2 (proj2 (proj2 HE)) N l1 lv l2 EL Hhd)) as [X|(q0 & X)]; [discriminate X|].
    unfold handle_h in X. cbn [for_kind negb] in X. apply bind_ok_elim in X as (r0 & R0 & X). destruct r0 as [(m & p0)|]; [discriminate X|].
    unfold np_read in R0 |- *. destruct (np_plan FO (s_hdr FO s0)) as [[(il & dt)|]|]; cbn [bind] in R0 |- *; [|eauto|discriminate R0].
    apply bind_ok_elim in R0 as (m & _ & R0). discriminate R0.
  - apply bind_ok_elim in HD as (r & R & HD). injection HD as <- _. right. rewrite map_res_file. destruct (short_ok FO k (s_hdr FO s0) (short_fields k) (short_scalar k) HR) as (vs & ->).
    cbn [bind]. split; [intros _; destruct k; exact I|eauto].
Qed.

(** A segment that was read. *)
Definition settled (k : kind) (size : option Z) (s : seg) : Prop :=
  s_linked FO s = true
  /\ (k = KDes -> exists b, is_overflow FO (s_hdr FO s) = Ok b)
  /\ (exists b, print FO ext source (mk_fs (sub_rows k)) (h_st (s_hdr FO s)) = Ok b)
  /\ (exists u, ush_part (s_ush FO s) = Ok u)
  /\ ((k = KDes /\ is_overflow FO (s_hdr FO s) = Ok true) \/ ((exists r, data_text k s size = Ok r) <-> presentable k s)).

Lemma hooks_text k s : s_linked FO s = true -> exists t, hook_text FO H rm h_str o k s = Ok t.
Proof.
  intro L. unfold hook_text, on_str. rewrite L. assert (Q := proj1 HH). revert Q. generalize (@nil N). induction (po_hooks o) as [|h hs IH]; intros w Q; [cbn; eauto|].
  cbn [fold_res]. destruct (Q h k s (or_introl eq_refl)) as (t & ->). destruct (negb _); cbn [bind]; apply IH; intros h' k' s' I; exact (Q h' k' s' (or_intror I)).
Qed.
Lemma tre_part_prints k s t : s_linked FO s = true -> tre_prints t -> exists x, tre_part FO ext source H rm h_tre o k s t = Ok x.
Proof.
  intros L (x & X). unfold tre_part. rewrite L.
  assert (Q : exists r, on_str_tre H (list N) (po_raw o) rm (fun h w => do (b, x) <- h_tre h k s t; Ok (b, w ++ x)) (po_hooks o) [] = Ok r).
  { unfold on_str_tre. assert (Q := proj2 HH). revert Q. generalize (false, @nil N). induction (po_hooks o) as [|h hs IH]; intros w Q; [cbn; eauto|].
    assert (Q' : forall h' k' s' t', In h' hs -> exists r, h_tre h' k' s' t' = Ok r) by (intros h' k' s' t' I; exact (Q h' k' s' t' (or_intror I))).
    cbn [fold_res]. destruct (negb _); [destruct (fst w)|]; cbn [bind]; try apply (IH _ Q').
    destruct (Q h k s t (or_introl eq_refl)) as ((b & y) & ->). cbn [bind]. apply (IH _ Q'). }
  destruct Q as ((b & w) & ->). cbn [bind]. destruct b; [eauto|]. rewrite X. cbn [bind]. eauto.
Qed.
Lemma tres_part_prints k s : s_linked FO s = true -> Forall tre_prints (s_tres FO s) -> exists x, tres_part FO ext source H rm h_tre o k s = Ok x.
Proof.
  intros L F. unfold tres_part. destruct (negb (has_tres k)); [eauto|]. destruct (s_tres FO s) as [|t ts] eqn:ET; [cbn [bind]; eauto|].
  assert (Q : exists r, map_res (tre_part FO ext source H rm h_tre o k s) (t :: ts) = Ok r).
  { clear ET. induction F as [|a l A _ (r & IH)]; [exists []; reflexivity|]. cbn [map_res]. destruct (tre_part_prints k s a L A) as (x & ->). cbn [bind]. rewrite IH. cbn [bind]. eauto. }
  destruct Q as (r & ->). cbn [bind]. eauto.
Qed.
Lemma settled_prints k size s : settled k size s -> Forall tre_prints (s_tres FO s) -> ((exists r, seg_print k size s = Ok r) <-> presentable k s).
Proof.
  intros (L & O & (b & B) & (u & U) & D) F. unfold FilePrint.seg_print.
  assert (S : exists skip, (match k with KDes => is_overflow FO (s_hdr FO s) | _ => Ok false end) = Ok skip) by (destruct k; eauto).
  destruct (hooks_text k s L) as (a & ->). destruct (tres_part_prints k s L F) as (t & ->). rewrite B, U.
  destruct S as (skip & S). rewrite S. cbn [bind]. destruct skip.
  - destruct k; try discriminate S. split; [|eauto]. intros _. unfold presentable. destruct (s_data FO s); auto.
  - destruct D as [(-> & D)|D]; [rewrite D in S; discriminate S|]. rewrite <- D. split.
    + intros (r & X). apply bind_ok_elim in X as (x & X & _). eauto.
    + intros ((d & x) & ->). cbn [bind]. eauto.
Qed.

Lemma desid_tests (h : hdr) file p q : all_bytes file = true -> read_at FO (sub_rows KDes) file p = Ok (h_st h, q) -> exists b, is_overflow FO h = Ok b.
Proof.
  intros A R. unfold read_at in R. apply bind_ok_elim in R as ((s & rest) & R & X). injection X as X _. subst s.
  destruct (lookup (mk_fs (sub_rows KDes)) "desid") as [f|] eqn:L; [|vm_compute in L; discriminate L].
  assert (PF : plain_field f = true /\ fd_ty (f_d f) = TStr) by (vm_compute in L; injection L as <-; split; reflexivity).
  assert (P := plain_read (sub_rows KDes) _ (h_st h) _ rest "desid" f (proj1 (proj2 good_headers KDes)) R L (proj1 PF)). rewrite (proj2 PF) in P.
  destruct P as (t & G & B). unfold is_overflow, hget. rewrite L, G. cbn [bind].
  destruct (utf8_enc_bytes t) as (b & ->); [|eauto]. apply B. clear - A. rewrite <- (firstn_skipn p file), all_bytes_app in A. now apply andb_true_iff in A.
Qed.
Lemma seg_settled k sz file p s q : all_bytes file = true -> (k = KDes -> (0 <= sz)%Z) -> seg_read FO E k sz file p = Ok (s, q) -> settled k (Some sz) s /\ s_tres FO s = [].
Proof.
  intros A Hsz. unfold seg_read. intro R. apply bind_ok_elim in R as ((st & p1) & RS & R). apply bind_ok_elim in R as (c & Ec & R).
  apply bind_ok_elim in R as (u & U & R). apply bind_ok_elim in R as ((d & p2) & L & R). injection R as R _.
  assert (RD : forall nm f, lookup (mk_fs (sub_rows k)) nm = Some f -> readable FO (mk_fs (sub_rows k)) st f).
  { unfold read_at in RS. apply bind_ok_elim in RS as ((s' & rest) & RS & X). injection X as X _. subst s'.
    exact (read_legible FO (sub_rows k) _ st _ rest (proj1 (proj2 good_headers k)) (proj2 (proj2 good_headers k)) RS). }
  assert (UP : exists t, ush_part u = Ok t).
  { destruct c as [c|]; [|injection U as <-; eexists; reflexivity]. apply bind_ok_elim in U as (v & V & U). apply bind_ok_elim in U as (b & B & U).
    apply bind_ok_elim in U as ((s1 & rest) & RU & U). injection U as <-. cbn [FilePrint.ush_part us_cls us_st].
    assert (IC : exists t, In (t, c) (e_des E) \/ In (t, c) (e_res E)).
    { assert (RG : forall l v, reg_get FO l v = Some c -> exists t, In (t, c) l).
      { intros l v0 X. destruct v0; try discriminate X. cbn [reg_get] in X. destruct (find _ l) as [(t & c')|] eqn:F; [|discriminate X].
        injection X as ->. apply find_some in F as (F & _). eauto. }
      unfold ush_cls in Ec. destruct k; try discriminate Ec; apply bind_ok_elim in Ec as (w & _ & Ec); injection Ec as Ec;
        destruct (RG _ _ Ec) as (t & I); exists t; auto. }
    destruct IC as (t & IC). destruct (print_read (uc_rows c) _ s1 _ rest (proj1 (proj2 HE) t c IC) RU) as (x & ->). cbn [bind]. eauto. }
  subst s. split; [|reflexivity]. split; [reflexivity|]. cbn [s_hdr s_ush]. split; [intros ->; exact (desid_tests {| h_st := st; h_attr := [] |} file p p1 A RS)|].
  split; [exact (print_read_at _ _ _ _ _ (proj2 printed_headers k) RS)|]. split; [exact UP|].
  exact (handled_prints k {| s_hdr := {| h_st := st; h_attr := [] |}; s_ush := u; s_tres := []; s_data := d; s_linked := true |} sz file p1 d p2 Hsz RD UP L eq_refl).
Qed.
Lemma segs_settled k file : all_bytes file = true -> forall szs p l q, (k = KDes -> Forall (fun z => (0 <= z)%Z) szs) -> segs_read FO E k szs file p = Ok (l, q) ->
  Forall2 (fun sz s => settled k (Some sz) s /\ s_tres FO s = []) szs l.
Proof.
  intro A. induction szs as [|sz szs IH]; intros p l q Z R; cbn [segs_read] in R; [injection R as <- _; constructor|].
  apply bind_ok_elim in R as ((s & p1) & R1 & R). apply bind_ok_elim in R as ((r & p2) & R2 & R). injection R as <- _.
  constructor.
  - apply (seg_settled _ _ _ _ _ _ A) with (2 := R1). intro K. assert (Y := Z K). now inversion Y.
  - apply (IH _ _ _) with (2 := R2). intro K. assert (Y := Z K). now inversion Y.
Qed.
Definition told (k : kind) (sz : Z) (s : seg) : Prop := settled k (Some sz) s /\ Forall tre_prints (s_tres FO s).
Lemma with_told k dd szs : forall l l', File.map_res (with_tres FO E k dd) l = Ok l' -> Forall2 (fun sz s => settled k (Some sz) s /\ s_tres FO s = []) szs l ->
  Forall2 (told k) szs l'.
Proof.
  intros l l' M F. revert l' M. induction F as [|sz s szs l (S & X) F IH]; intros l' M; cbn [File.map_res] in M; [injection M as <-; constructor|].
  apply bind_ok_elim in M as (s' & SS & M). apply bind_ok_elim in M as (r & R & M). injection M as <-.
  constructor; [|exact (IH _ R)]. unfold with_tres in SS. destruct (has_tres k); [|injection SS as <-; split; [exact S|rewrite X; constructor]].
  apply bind_ok_elim in SS as (ts & T & SS). injection SS as <-. split; [|exact (areas_prints _ _ _ _ _ T)]. exact S.
Qed.
Lemma plain_told k szs l : Forall2 (fun sz s => settled k (Some sz) s /\ s_tres FO s = []) szs l -> Forall2 (told k) szs l.
Proof. induction 1 as [|sz s szs l (S & X) F IH]; constructor; [|exact IH]. split; [exact S|]. rewrite X. constructor. Qed.

Lemma segs_print_iff k (size : nat -> option Z) n : forall szs l i, Forall2 (told k) szs l -> (forall j sz, nth_error szs j = Some sz -> size (i + j)%nat = Some sz) ->
  ((exists r, segs_print FO ext source H rm h_str h_tre o k size n i l = Ok r) <-> Forall (presentable k) l).
Proof.
  intros szs l i F. revert i. induction F as [|sz s szs l (S & T) F IH]; intros i Z; cbn [segs_print]; [split; [constructor|eauto]|].
  assert (Z0 := Z O sz eq_refl). rewrite Nat.add_0_r in Z0. rewrite Z0. assert (P := settled_prints _ _ _ S T).
  assert (IH' : (exists r, segs_print FO ext source H rm h_str h_tre o k size n (Datatypes.S i) l = Ok r) <-> Forall (presentable k) l).
  { apply IH. intros j z J. replace (Datatypes.S i + j)%nat with (i + Datatypes.S j)%nat by lia. now apply Z. }
  split.
  - intros (r & X). apply bind_ok_elim in X as ((s' & t) & X1 & X). apply bind_ok_elim in X as ((r' & x) & X2 & X). constructor; [apply P; eauto|apply IH'; eauto].
  - intro Q. inversion_clear Q as [|? ? Q1 Q2]. apply P in Q1 as ((s' & t) & ->). apply IH' in Q2 as ((r' & x) & Q2). cbn [bind]. rewrite Q2. cbn [bind]. eauto.
Qed.
Lemma sizes_nth hs k szs : sizes FO hs k = Ok szs -> forall j sz, nth_error szs j = Some sz -> size_at FO hs (snd (size_names k)) (Z.of_nat j) = Ok sz.
Proof.
  intros S j sz J. assert (X := sizes_at FO hs k szs S j sz J). unfold size_at. replace (snd (size_names k)) with (data_size_name k) by (destruct k; reflexivity). rewrite X. reflexivity.
Qed.

Lemma segs_count k file : forall szs p l q, segs_read FO E k szs file p = Ok (l, q) -> List.length szs = List.length l.
Proof.
  induction szs as [|sz szs IH]; intros p l q R; cbn [segs_read] in R; [injection R as <- _; reflexivity|].
  apply bind_ok_elim in R as ((s & p1) & R1 & R). apply bind_ok_elim in R as ((r & p2) & R2 & R). injection R as <- _. cbn [List.length]. f_equal. exact (IH _ _ _ R2).
Qed.

(** Printing a file that was read raises exactly when a text segment is not UTF-8 or a DES of
    fields cannot be written; nothing else stands in the way. *)
Theorem C63_prints bytes f : all_bytes bytes = true -> file_read FO E bytes = Ok f ->
  (forall i z, (i < List.length (nf_segs FO f KDes))%nat -> read_size FO f KDes i = Some z -> (0 <= z)%Z) ->
  ((exists f' t, file_print (read_size FO f) f = Ok (f', t)) <-> forall k, Forall (presentable k) (nf_segs FO f k)).
Proof.
  intros A R. unfold file_read in R. apply bind_ok_elim in R as ((st & p0) & RH & R).
  apply bind_ok_elim in R as (fl & _ & R). apply bind_ok_elim in R as (stm & _ & R). destruct stm; [discriminate R|].
  apply bind_ok_elim in R as (zi & Zi & R). apply bind_ok_elim in R as (zg & Zg & R). apply bind_ok_elim in R as (zt & Zt & R).
  apply bind_ok_elim in R as (zd & Zd & R). apply bind_ok_elim in R as (zr & Zr & R).
  apply bind_ok_elim in R as ((im & p1) & R1 & R). apply bind_ok_elim in R as ((gr & p2) & R2 & R).
  apply bind_ok_elim in R as ((tx & p3) & R3 & R). apply bind_ok_elim in R as ((de & p4) & R4 & R).
  apply bind_ok_elim in R as ((rs & p5) & R5 & R). apply bind_ok_elim in R as (ts & TS & R).
  apply bind_ok_elim in R as (im' & M1 & R). apply bind_ok_elim in R as (gr' & M2 & R). apply bind_ok_elim in R as (tx' & M3 & R).
  injection R as <-. unfold read_size. cbn [nf_hdr nf_segs h_st]. intro Zn.
  set (zs := fun k => match k with KImage => zi | KGraphic => zg | KText => zt | KDes => zd | KRes => zr end).
  set (ls := fun k => match k with KImage => im' | KGraphic => gr' | KText => tx' | KDes => de | KRes => rs end).
  assert (Sz : forall k, sizes FO st k = Ok (zs k)) by (intros []; assumption).
  assert (Nn : Forall (fun z => (0 <= z)%Z) zd).
  { apply Forall_forall. intros z I. apply In_nth_error in I as (j & J). apply (Zn j); [rewrite <- (segs_count KDes bytes _ _ _ _ R4); apply nth_error_Some; rewrite J; intro X; discriminate X|]. now rewrite (sizes_nth st KDes zd Zd j z J). }
  assert (F : forall k, Forall2 (told k) (zs k) (ls k)).
  { intros []; cbn [zs ls].
    - exact (with_told _ _ _ _ _ M1 (segs_settled KImage _ A _ _ _ _ ltac:(intro X; discriminate X) R1)).
    - exact (with_told _ _ _ _ _ M2 (segs_settled KGraphic _ A _ _ _ _ ltac:(intro X; discriminate X) R2)).
    - exact (with_told _ _ _ _ _ M3 (segs_settled KText _ A _ _ _ _ ltac:(intro X; discriminate X) R3)).
    - exact (plain_told _ _ _ (segs_settled KDes _ A _ _ _ _ (fun _ => Nn) R4)).
    - exact (plain_told _ _ _ (segs_settled KRes _ A _ _ _ _ ltac:(intro X; discriminate X) R5)). }
  set (size := fun k i => match size_at FO st (snd (size_names k)) (Z.of_nat i) with Ok z => Some z | Err _ => None end).
  set (f := {| nf_hdr := {| h_st := st; h_attr := [] |}; nf_tres := ts; nf_segs := ls; nf_refs := fun _ => false |}).
  assert (K : forall k, (exists r, kind_print FO ext source H rm h_str h_tre o size f k = Ok r) <-> Forall (presentable k) (ls k)).
  { intro k. unfold kind_print. cbn [nf_segs f]. rewrite <- (segs_print_iff k (size k) (List.length (ls k)) (zs k) (ls k) 0 (F k)).
    - split; [intros (r & X); apply bind_ok_elim in X as (x & X & _); eauto|]. intros ((l & t) & ->). cbn [bind]. eauto.
    - intros j z J. cbn [Nat.add]. unfold size. now rewrite (sizes_nth st k (zs k) (Sz k) j z J). }
  destruct (print_read_at _ _ _ _ _ (proj1 printed_headers) RH) as (h & Hh).
  assert (T : exists t, file_tres FO (fun t => do x <- tre_text t; Ok (line x)) ts = Ok t).
  { apply areas_prints in TS. unfold file_tres. destruct ts as [|t0 ts]; [eauto|].
    assert (Q : exists r, map_res (fun t => do x <- tre_text t; Ok (line x)) (t0 :: ts) = Ok r).
    { clear - TS. induction TS as [|a l (x & X) _ (r & IH)]; [exists []; reflexivity|]. cbn [map_res]. rewrite X. cbn [bind]. rewrite IH. cbn [bind]. eauto. }
    destruct Q as (r & ->). cbn [bind]. eauto. }
  destruct T as (t & T). change (fun k => match k with KImage => im' | KGraphic => gr' | KText => tx' | KDes => de | KRes => rs end) with ls. fold f.
  unfold FilePrint.file_print. cbn [nf_hdr nf_tres f h_st]. rewrite Hh, T. cbn [bind]. fold f.
  split.
  - intros (f' & x & X).
    apply bind_ok_elim in X as ((l1 & x1) & X1 & X). apply bind_ok_elim in X as ((l2 & x2) & X2 & X). apply bind_ok_elim in X as ((l3 & x3) & X3 & X).
    apply bind_ok_elim in X as ((l4 & x4) & X4 & X). apply bind_ok_elim in X as ((l5 & x5) & X5 & X).
    intros []; apply K; eauto.
  - intro Q. assert (Q' : forall k, exists r, kind_print FO ext source H rm h_str h_tre o size f k = Ok r) by (intro k; apply K, Q).
    fold size. destruct (Q' KImage) as ((l1 & x1) & ->), (Q' KGraphic) as ((l2 & x2) & ->), (Q' KText) as ((l3 & x3) & ->), (Q' KDes) as ((l4 & x4) & ->), (Q' KRes) as ((l5 & x5) & ->).
    cbn [bind]. eauto.
Qed.
End Print.
End P.
Print Assumptions C63_prints.
