(** Deltas: cases, and what they do not keep (C50). *)
From Verif Require Import Base BaseLemmas Engine Wf EngineLemmas Codec RoundTrip Rewrite Literal Decimal Utf8 Handles Tre TreLemmas TrePlace TrePlaceLemmas Security Image
  DescsHdr DescsTre File P_Image P_File P_Skip P_Descs Diff P_Diff P_DiffCases FileDiff P_FileDiff P_FileDiffRead P_FileDiffEx Delta P_Delta P_DeltaRead P_DeltaMerge.
From Coq Require Import ZifyBool ZifyNat ZifyN.
Open Scope list_scope.
Ltac Zify.zify_post_hook ::= idtac.

(** The default configuration leaves out the fields that hold TREs (but for graphics) and nothing else that matters. *)
Lemma default_plain FO CO fp : reflexive FO CO fp (default_fcfg FO) -> plain_cfg FO CO fp (default_fcfg FO).
Proof.
  intro R. split; [exact R|]. split; [reflexivity|]. split; [reflexivity|].
  assert (X : forall c l, forallb (fun nm => existsb (String.eqb nm) (c_exclude FO c)) l = true -> forall nm, In nm l -> ~ looked_at FO c nm).
  { intros c l H nm I (N & _). apply N. rewrite forallb_forall in H. specialize (H nm I). apply existsb_exists in H as (y & Y & E).
    apply String.eqb_eq in E. now subst. }
  split; [apply X; vm_compute; reflexivity|]. intros k nm N. apply X. destruct k; try contradiction; vm_compute; reflexivity.
Qed.
(** The shipped TREs and user subheaders whose values come back exactly. *)
Theorem C50_shipped_tables : Forall (fun nm => exists rows, In (nm, rows) shipped /\ exact_table rows)
  ["DesAssociatedUserSubheader"; "DesExtContentHeader"; "TreCAMSDA"; "TreCSDIDA"; "TreGEOPSB"; "TreMATESA"; "TreMICIDA"; "TreMTIMFA"; "TrePIXQLA"; "TreTMINTA"]%string.
Proof.
  assert (H : forall nm, existsb (fun p => String.eqb (fst p) nm && text_exact (snd p) && legible (snd p)) shipped = true -> exists rows, In (nm, rows) shipped /\ exact_table rows).
  { intros nm H. apply existsb_exists in H as ((n & rows) & I & H). cbn [fst snd] in H. rewrite !andb_true_iff in H. destruct H as ((E & A) & B).
    apply String.eqb_eq in E. subst n. exists rows. split; [exact I|]. split; [split; [exact (proj1 (shipped_wf nm rows I))|exact B]|exact A]. }
  repeat constructor; apply H; vm_compute; reflexivity.
Qed.

Section Ex.
Variable FO : FloatOps.
Hypothesis laws : FloatLaws FO.
Variable CO : CmpOps FO.
Variable fp : dtype -> dtype -> item -> item -> bool.
Notation same := (file_same FO CO fp (default_fcfg FO)).

Definition delta_env : File.env :=
  {| e_reg := [{| tc_tag := str "CSDIDA"; tc_rows := desc_TreCSDIDA |}]; e_des := [(str "ASSOC", user_cls)]; e_res := [];
     e_levels := [[HOverflow; HNumpy; HText; HFields note_des]; [HImageHole]; [HHole]] |}.
(** The delta of the first file, saved, loaded and merged with the second one. *)
Definition merged (g1 g2 : nfile FO) : res (nfile FO) := do d <- create_delta FO g1; do d' <- load_delta FO d; merge_delta FO d' g2.
Definition delta_verdict (f1 f2 : nfile FO) : res bool :=
  do g1 <- through FO delta_env f1; do g2 <- through FO delta_env f2; do g <- merged g1 g2; same g1 g.
Lemma delta_read f1 f2 r : delta_verdict f1 f2 = r -> is_okb (through FO delta_env f1) = true -> is_okb (through FO delta_env f2) = true ->
  exists b1 b2 g1 g2, file_read FO delta_env b1 = Ok g1 /\ file_read FO delta_env b2 = Ok g2 /\ (do g <- merged g1 g2; same g1 g) = r.
Proof.
  unfold delta_verdict. generalize delta_env, same. intros E C X O1 O2. destruct (through FO E f1) as [g1|] eqn:E1; [|discriminate O1].
  destruct (through FO E f2) as [g2|] eqn:E2; [|discriminate O2].
  apply through_read in E1 as (b1 & E1). apply through_read in E2 as (b2 & E2). cbn [bind] in X. exists b1, b2, g1, g2. split; [exact E1|]. split; [exact E2|exact X].
Qed.

Definition csdida (id : string) : tre FO := TUnk (str "CSDIDA") (str "01JAN2020PC0102003SIPI000020200101000000202001020000000001NN" ++ str id).
Definition titled (t : string) (f : nfile FO) : nfile FO :=
  {| nf_hdr := fst (TrePlace.hset FO desc_NitfFileHeader (nf_hdr FO f) "ftitle" (VStr (str t))); nf_tres := nf_tres FO f; nf_segs := nf_segs FO f; nf_refs := nf_refs FO f |}.
(** An image with a TRE, a text, a DES of fields, and a DES with a user subheader. *)
Definition with_all (title text tr note : string) : nfile FO :=
  append_seg FO (append_seg FO (append_seg FO (titled title (append_seg FO (new FO)
    KImage (ex_seg FO (ex_hdr FO GAll U4 1 1 1) (DFile FO [0; 1; 134; 160]%N) [csdida tr])))
    KText (ex_seg FO (new_hdr FO) (DStr FO (str text)) [csdida tr]))
    KDes (ex_seg FO (des_hdr FO "NOTE") (DBytes FO (Some (str note))) []))
    KDes (user_seg FO).

(** Another title, text, TRE and DES in the other file. *)
Example ex_c50_verdict : delta_verdict (with_all "one" "hello" "VERSION  1" "001") (with_all "two" "hallo!" "VERSION  2" "002") = Ok true
  /\ verdict FO CO fp (with_all "one" "hello" "VERSION  1" "001") (with_all "two" "hallo!" "VERSION  2" "002") = Ok false.
Proof. split; vm_compute; reflexivity. Qed.
(** The theorem applies to them. *)
Lemma delta_env_exact : compared_classes FO (default_fcfg FO) delta_env /\ exact_classes delta_env.
Proof.
  assert (G : exact_table desc_TreCSDIDA) by (split; [split|]; vm_compute; reflexivity).
  assert (U : exact_table desc_DesAssociatedUserSubheader) by (split; [split|]; vm_compute; reflexivity).
  assert (N : exact_table (dc_rows note_des)) by (split; [split|]; vm_compute; reflexivity).
  split; [split; [|split; [|split]]|split; [|split]].
  - intros c [<-|[]]. exact (proj1 G).
  - intros t u [[X|[]]|[]]. injection X as <- <-. split; [exact (proj1 U)|discriminate].
  - intros lv hd [<-|[<-|[<-|[]]]]; cbn; intros [<-|X]; try exact I; repeat (destruct X as [<-|X]; try exact I); try contradiction. exact (proj1 N).
  - intros _ l1 lv l2 X I. destruct l1 as [|a [|b' [|c [|d l1]]]]; cbn in X; try discriminate X.
    + injection X as <- _. apply in_or_app. right. right. now left.
    + injection X as <- <- _. right. now left.
    + injection X as <- <- <- _. right. now left.
  - intros c [<-|[]]. split; [exact G|]. split; [repeat constructor|split; [cbn; lia|]]. intros l c X.
    apply (f_equal (fun x => last x 0%N)) in X. rewrite last_last in X. vm_compute in X. subst c. reflexivity.
  - intros t u [[X|[]]|[]]. injection X as <- <-. exact U.
  - intros lv c [<-|[<-|[<-|[]]]]; cbn; intros X; repeat (destruct X as [X|X]; try discriminate X); try contradiction. injection X as <-. exact N.
Qed.
Definition desid (s : seg FO) : list N := match hget FO (sub_rows KDes) (s_hdr FO s) "desid" with Ok (VStr t) => t | _ => [] end.
Definition pair_ok (k : kind) (s s2 : seg FO) : bool :=
  match k, s_data FO s, s_data FO s2 with
  | KText, _, _ | KDes, DFields _ _ _ _, _ | KDes, DHole _ _, DHole _ _ => true
  | KImage, DFile _ b1, DFile _ b2 => list_eqb b1 b2
  | KDes, DHole _ _, DFields _ _ _ _ => negb (list_eqb (desid s) (desid s2))
  | _, _, _ => false
  end.
Definition pairs_ok (g1 g2 : nfile FO) : bool :=
  forallb (fun k => forallb (fun s => forallb (pair_ok k s) (nf_segs FO g2 k)) (nf_segs FO g1 k) && match nf_segs FO g1 k with [] => false | _ => true end) [KImage; KText; KDes].
Lemma pairs_fit g1 g2 : pairs_ok g1 g2 = true -> (nf_tres FO g2 = []) -> nf_segs FO g1 KGraphic = [] -> nf_segs FO g2 KGraphic = [] -> nf_segs FO g1 KRes = [] -> nf_segs FO g2 KRes = [] ->
  fits_data FO CO fp (default_fcfg FO) g1 g2.
Proof.
  intros P T G1 G2 R1 R2. split; [auto|]. split.
  - intros k N1 N2. unfold pairs_ok in P. rewrite forallb_forall in P. specialize (P k ltac:(destruct k; cbn; auto; contradiction)).
    rewrite andb_true_iff in P. destruct P as (P & NE). split; [intro X; rewrite X in NE; discriminate NE|].
    intros s s2 Hs Hs2 HI. rewrite forallb_forall in P. specialize (P s Hs). rewrite forallb_forall in P. specialize (P s2 Hs2).
    unfold pair_ok in P. unfold same_data. destruct k; try contradiction; auto.
    + destruct (s_data FO s); try discriminate P. destruct (s_data FO s2); try discriminate P. now apply list_eqb_spec.
    + destruct (s_data FO s); try discriminate P; auto. destruct (s_data FO s2); try discriminate P; auto.
      destruct HI as (HI & _). destruct (HI "desid"%string (or_introl eq_refl)) as (v & A & B). unfold desid in P. rewrite A, B in P.
      apply negb_true_iff in P. destruct v; rewrite (proj2 (list_eqb_spec _ _) eq_refl) in P; discriminate P.
  - intros k [-> | ->]; rewrite ?G1, ?G2, ?R1, ?R2; constructor.
Qed.
Example ex_c50_read : reflexive FO CO fp (default_fcfg FO) -> exists b1 b2 f1 f2 d d' g, file_read FO delta_env b1 = Ok f1 /\ file_read FO delta_env b2 = Ok f2
  /\ create_delta FO f1 = Ok d /\ load_delta FO d = Ok d' /\ merge_delta FO d' f2 = Ok g
  /\ map (fun k => List.length (nf_segs FO f1 k)) kinds = [1; 0; 1; 2; 0]%nat /\ same f1 g = Ok true.
Proof.
  intro HR. set (shape g := map (fun k => List.length (nf_segs FO g k)) kinds).
  assert (H : match through FO delta_env (with_all "one" "hello" "VERSION  1" "001"), through FO delta_env (with_all "two" "hallo!" "VERSION  2" "002") with
              | Ok g1, Ok g2 => pairs_ok g1 g2 = true /\ List.length (nf_tres FO g2) = 0%nat /\ shape g1 = [1; 0; 1; 2; 0]%nat /\ shape g2 = [1; 0; 1; 2; 0]%nat
                   /\ forallb (fun s => negb (list_eqb (desid s) (str "TRE_OVERFLOW"))) (nf_segs FO g1 KDes) = true /\ is_okb (merged g1 g2) = true
              | _, _ => False end) by (vm_compute; repeat split; reflexivity).
  destruct (through FO delta_env (with_all "one" "hello" "VERSION  1" "001")) as [g1|] eqn:E1; [|destruct H].
  destruct (through FO delta_env (with_all "two" "hallo!" "VERSION  2" "002")) as [g2|] eqn:E2; [|destruct H].
  destruct H as (P & T & S1 & S2 & D & M). apply through_read in E1 as (b1 & E1). apply through_read in E2 as (b2 & E2).
  unfold merged in M. destruct (create_delta FO g1) as [d|] eqn:Ed; [|discriminate M]. cbn [bind] in M.
  destruct (load_delta FO d) as [d'|] eqn:El; [|discriminate M]. cbn [bind] in M.
  destruct (merge_delta FO d' g2) as [g|] eqn:Em; [|discriminate M].
  exists b1, b2, g1, g2, d, d', g. do 6 (split; [assumption|]).
  assert (Z : forall A (l : list A), List.length l = 0%nat -> l = []) by (intros A l; destruct l; [reflexivity|discriminate]).
  destruct delta_env_exact as (X1 & X2). unfold shape, kinds in S1, S2. cbn [map] in S1, S2. injection S1 as _ G1 _ _ R1. injection S2 as _ G2 _ _ R2.
  apply (C50_read_partial FO laws CO fp (default_fcfg FO) delta_env (default_plain FO CO fp HR) X1 X2 b1 g1 g2 d d' g E1); auto.
  - intros s Hs DI. rewrite forallb_forall in D. specialize (D s Hs). unfold desid in D. unfold P_FileDiff.des_id in DI. 
    rewrite DI in D. vm_compute in D. discriminate D.
  - apply pairs_fit; auto.
Qed.

(** ** What a delta does not keep *)
Definition note (b : string) (f : nfile FO) : nfile FO := append_seg FO f KDes (ex_seg FO (des_hdr FO "NOTE") (DBytes FO (Some (str b))) []).

(** That a text was removed (nitf_file_merge.py:50-54). *)
Theorem C50_removed_refuted : exists b1 b2 g1 g2, file_read FO delta_env b1 = Ok g1 /\ file_read FO delta_env b2 = Ok g2 /\ (do g <- merged g1 g2; same g1 g) = Ok false.
Proof. apply (delta_read (new FO) (one_text FO (str "hello") [])); vm_compute; reflexivity. Qed.
(** What graphics show (nitf_file_json.py:143-159). *)
Definition graphic (nm : string) : nfile FO :=
  append_seg FO (new FO) KGraphic (ex_seg FO (fst (TrePlace.hset FO (sub_rows KGraphic) (new_hdr FO) "sname" (VStr (str nm)))) (DBytes FO (Some (str "cgm"))) []).
Theorem C50_graphic_refuted : exists b1 b2 g1 g2, file_read FO delta_env b1 = Ok g1 /\ file_read FO delta_env b2 = Ok g2 /\ (do g <- merged g1 g2; same g1 g) = Ok false.
Proof. apply (delta_read (graphic "one") (graphic "two")); vm_compute; reflexivity. Qed.
(** Segments with overflow: merging a file with its own delta drops them if there is another DES
    (nitf_file_json.py:150-158, nitf_file_merge.py:56-61). *)
Definition wide_cls : tcls :=
  {| tc_tag := str "WIDETR"; tc_rows := [RField (Build_fdesc (Some "text"%string) (SzInt 60000%Z) TStr FrNone DfNone None false 32%N false None 0%Z false)] |}.
Definition wide_env : File.env := {| e_reg := [wide_cls]; e_des := []; e_res := []; e_levels := [[HOverflow; HNumpy; HText; HFields note_des]; [HImageHole]; [HHole]] |}.
Definition wide (c : N) : tre FO := TUnk (str "WIDETR") (repeat c (Z.to_nat 60000)).
Definition wide_image : nfile FO :=
  append_seg FO (new FO) KImage (ex_seg FO (ex_hdr FO GAll U4 1 1 1) (DFile FO [0; 0; 0; 1]%N) [wide 97; wide 98; wide 99]).
Theorem C50_overflow_refuted : exists b g, file_read FO wide_env b = Ok g /\ (do m <- merged g g; same g m) = Ok false.
Proof.
  assert (H : match through FO wide_env (note "001" wide_image) with
              | Ok g => (do m <- merged g g; same g m) = Ok false | Err _ => False end) by (vm_compute; reflexivity).
  destruct (through FO wide_env (note "001" wide_image)) as [g|] eqn:E; [|destruct H]. apply through_read in E as (b & E). eauto.
Qed.
(** Two images with the same names: a file cannot be merged with its own delta (nitf_file_json.py:39-40). *)
Theorem C50_names_refuted : exists b g, file_read FO delta_env b = Ok g /\ merged g g = Err ERuntime.
Proof.
  set (im f := append_seg FO f KImage (ex_seg FO (ex_hdr FO GAll U4 1 1 1) (DFile FO [0; 0; 0; 1]%N) [])).
  assert (H : match through FO delta_env (im (im (new FO))) with
              | Ok g => merged g g = Err ERuntime | Err _ => False end) by (vm_compute; reflexivity).
  destruct (through FO delta_env (im (im (new FO)))) as [g|] eqn:E; [|destruct H]. apply through_read in E as (b & E). eauto.
Qed.
(** A TRE of no known class: the delta can be saved but not loaded (nitf_field.py:905-910, nitf_tre.py:113). *)
Theorem C50_unknown_refuted : exists b g d, file_read FO delta_env b = Ok g /\ create_delta FO g = Ok d /\ load_delta FO d = Err EType.
Proof.
  assert (H : match through FO delta_env (one_text FO (str "hello") [TUnk (str "SMALL") (str "x")]) with
              | Ok g => match create_delta FO g with Ok d => load_delta FO d = Err EType | Err _ => False end | Err _ => False end) by (vm_compute; reflexivity).
  destruct (through FO delta_env (one_text FO (str "hello") [TUnk (str "SMALL") (str "x")])) as [g|] eqn:E; [|destruct H]. apply through_read in E as (b & E).
  destruct (create_delta FO g) as [d|] eqn:D; [|destruct H]. exists b, g, d. auto.
Qed.
(** A text that is not UTF-8: no delta (nitf_text.py:21-27, 40-44). *)
Theorem C50_text_refuted : exists b g, file_read FO delta_env b = Ok g /\ create_delta FO g = Err EValue.
Proof.
  assert (H : match through FO delta_env (one_text FO [233%N] []) with
              | Ok g => create_delta FO g = Err EValue | Err _ => False end) by (vm_compute; reflexivity).
  destruct (through FO delta_env (one_text FO [233%N] [])) as [g|] eqn:E; [|destruct H]. apply through_read in E as (b & E). eauto.
Qed.
(** The data after the fields of a DES (nitf_des.py:32-66). *)
Theorem C50_extra_refuted : exists b g m, file_read FO delta_env b = Ok g /\ merged g g = Ok m /\ same g m = Ok true
  /\ map (s_data FO) (nf_segs FO g KDes) <> map (s_data FO) (nf_segs FO m KDes).
Proof.
  set (data g := map (fun s => match s_data FO s with DFields _ _ _ (Some x) => x | _ => [] end) (nf_segs FO g KDes)).
  assert (H : match through FO delta_env (note "001one" (new FO)) with
              | Ok g => match merged g g with Ok m => same g m = Ok true /\ data g = [str "one"] /\ data m = [[]] | Err _ => False end | _ => False end)
    by (vm_compute; repeat split; reflexivity).
  destruct (through FO delta_env (note "001one" (new FO))) as [g|] eqn:E; [|destruct H]. apply through_read in E as (b & E).
  destruct (merged g g) as [m|] eqn:M; [|destruct H]. destruct H as (H & D1 & D2). exists b, g, m. do 3 (split; [assumption|]). intro X.
  assert (Y : data g = data m).
  { unfold data. rewrite <- !(map_map (s_data FO) (fun d => match d with DFields _ _ _ (Some x) => x | _ => [] end)). now rewrite X. }
  rewrite D1, D2 in Y. vm_compute in Y. discriminate Y.
Qed.

(** A file with an image that no image class has read: its delta cannot be merged with anything
    (nitf_segment_data_handle.py:58-66, nitf_file_json.py:35-40). *)
Theorem C50_hole f d d' s n f2 g : create_delta FO f = Ok d -> load_delta FO d = Ok d' -> In s (nf_segs FO f KImage) -> s_data FO s = DHole FO n ->
  merge_delta FO d' f2 <> Ok g.
Proof.
  intros D L I Hs M. assert (X : exists x, In x (d_segs FO d' KImage) /\ g_data FO x = None /\ g_key FO x = None).
  { assert (P : exists x, In x (d_segs FO d KImage) /\ g_data FO x = None /\ g_key FO x = None).
    { unfold create_delta in D. apply bind_ok_elim in D as (ts & _ & D). apply bind_ok_elim in D as (h1 & _ & D).
      apply bind_ok_elim in D as (h2 & _ & D). apply bind_ok_elim in D as (im & E & D). apply bind_ok_elim in D as (tx & _ & D).
      apply bind_ok_elim in D as (de & _ & D). injection D as <-. cbn [d_segs]. clear - E I Hs. revert im E I.
      induction (nf_segs FO f KImage) as [|a l IH]; intros im E I; [destruct I|]; destruct I as [->|I]; cbn [map_res] in E; apply bind_ok_elim in E as (b & B & E);
        apply bind_ok_elim in E as (r & R & E); injection E as <-.
      - exists b. split; [now left|]. unfold seg_delta in B. do 4 (apply bind_ok_elim in B as (? & _ & B)). apply bind_ok_elim in B as (key & K & B).
        cbn [bind] in B. injection B as <-. cbn [g_data g_key]. split; [reflexivity|]. cbn [seg_key] in K. rewrite Hs in K. now injection K as <-.
      - destruct (IH r R I) as (x & Hx & Y). exists x. split; [now right|exact Y]. }
    destruct P as (x & Hx & Gd & Gk). unfold load_delta in L. apply bind_ok_elim in L as (h3 & _ & L). apply bind_ok_elim in L as (im & E & L).
    apply bind_ok_elim in L as (tx & _ & L). apply bind_ok_elim in L as (de & _ & L). apply bind_ok_elim in L as (ts & _ & L). injection L as <-. cbn [d_segs].
    clear - E Hx Gd Gk. revert im E Hx. induction (d_segs FO d KImage) as [|a l IH]; intros im E Hx; [destruct Hx|]; destruct Hx as [->|Hx]; cbn [map_res] in E;
      apply bind_ok_elim in E as (b & B & E); apply bind_ok_elim in E as (r & R & E); injection E as <-.
    - exists b. split; [now left|]. unfold load_seg in B. do 3 (apply bind_ok_elim in B as (? & _ & B)). rewrite Gd in B. cbn [bind] in B. injection B as <-. auto.
    - destruct (IH r R Hx) as (y & Hy & Y). exists y. split; [now right|exact Y]. }
  destruct X as (x & Hx & Gd & Gk). destruct (proj1 (C50_merges FO d' f2) (ex_intro _ g M) KImage x Hx) as (y & Y). unfold data_from in Y. rewrite Gd in Y.
  destruct Y as (key & _ & _ & _ & K & _). congruence.
Qed.
Definition hole_env : File.env := {| e_reg := []; e_des := []; e_res := []; e_levels := [[HText]; [HHole]] |}.
Example ex_c50_hole : match through FO hole_env (one_pixel FO 7) with Ok g => merged g g = Err ERuntime | Err _ => False end.
Proof. vm_compute. reflexivity. Qed.
(** Both areas for TREs of an image are empty in a delta. *)
Definition filled (h : hdr FO) : hdr FO :=
  fst (TrePlace.hset FO (sub_rows KImage) (fst (TrePlace.hset FO (sub_rows KImage) h "udid" (VBytes (str "first")))) "ixshd" (VBytes (str "second"))).
Definition areas (r : res (hdr FO)) : list (option (list N)) :=
  match r with
  | Err _ => []
  | Ok h => map (fun nm => match hget FO (sub_rows KImage) h nm with Ok (VBytes b) => Some b | _ => None end) ["udid"; "ixshd"]%string
  end.
Example ex_c50_areas : let s := ex_seg FO (filled (ex_hdr FO GAll U4 1 1 1)) (DFile FO [0; 1; 134; 160]%N) [] in
  areas (Ok (s_hdr FO s)) = [Some (str "first"); Some (str "second")]
  /\ areas (do g <- seg_delta FO KImage false s; Ok (g_hdr FO g)) = [Some []; Some []].
Proof. vm_compute. split; reflexivity. Qed.
End Ex.

Print Assumptions C50_attributes.
Print Assumptions C50_merge.
Print Assumptions C50_merges.
Print Assumptions C50_kept.
Print Assumptions C50_same_partial.
Print Assumptions C50_read_partial.
Print Assumptions C50_shipped_tables.
Print Assumptions C50_hole.
Print Assumptions C50_removed_refuted.
Print Assumptions C50_graphic_refuted.
Print Assumptions C50_overflow_refuted.
Print Assumptions C50_names_refuted.
Print Assumptions C50_unknown_refuted.
Print Assumptions C50_text_refuted.
Print Assumptions C50_extra_refuted.
