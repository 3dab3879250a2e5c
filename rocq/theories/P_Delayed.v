(** Property C14: delayed read (nitf_field.py:836-840, 916-926).

    [run s os] are the results of the operations [os] on a structure in state [s]; [drun tre d os]
    those on a structure read with [delayed_read=True], [tre] telling whether it is a TRE class
    (nitf_tre.py:27-105 defines [tre_implementation_field] as a class attribute). *)
From Verif Require Import Base BaseLemmas Engine Wf EngineLemmas Codec RoundTrip Rewrite Literal
  Positions Keys Deps Assign Update Spec Reach Delayed Decimal Ex.
Open Scope list_scope.

(** Structures that are not TREs: any sequence of reads and assignments. *)
Theorem C14_gets_sets_partial FO fs (lit : bool) (s s' : state FO) inp rest os :
  read FO fs lit s inp = Ok (s', rest) ->
  Forall (fun o => (exists nm k, o = OGet FO nm k) \/ (exists nm k v, o = OSet FO nm k v)) os ->
  drun FO fs false {| ds_st := s; ds_pending := Some (lit, inp) |} os = run FO fs s' os.
Proof.
  intros HR HO. apply delayed_gets_sets with (rest := rest); auto. apply forallb_forall.
  intros o Ho. rewrite Forall_forall in HO. destruct (HO o Ho) as [(nm & k & ->)|(nm & k & v & ->)]; reflexivity.
Qed.

(** All structures: once a field has been read, or an element of an array assigned, everything
    behaves as after an immediate read. *)
Theorem C14_after_get_partial FO fs (tre lit : bool) (s s' : state FO) inp rest o os :
  read FO fs lit s inp = Ok (s', rest) ->
  (exists nm k, o = OGet FO nm k)
  \/ (exists nm i k v, o = OSet FO nm (i :: k) v /\ lookup fs nm <> None) ->
  drun FO fs tre {| ds_st := s; ds_pending := Some (lit, inp) |} (o :: os) = run FO fs s' (o :: os).
Proof.
  intros HR HO. apply delayed_after_get with (rest := rest); auto.
  destruct HO as [(nm & k & ->)|(nm & i & k & v & -> & H)]; [reflexivity|]. cbn [forcing].
  destruct (lookup fs nm); congruence.
Qed.

(** ** Where it differs *)

Definition see_obs (o : obs DecF) : seen + (res unit + res (list N)) :=
  match o with
  | SeeVal _ r => inl (see r)
  | SeeSet _ r => inr (inl r)
  | SeeBytes _ r => inr (inr r)
  end.
Definition pend : dstate DecF := {| ds_st := init_state DecF; ds_pending := Some (false, ex_bytes) |}.

Lemma ex_read_ok : read DecF ex_fs false (init_state DecF) ex_bytes = Ok (ex_read, []).
Proof.
  unfold ex_read. destruct (read DecF ex_fs false (init_state DecF) ex_bytes) as [[s r]|e] eqn:E.
  - assert (H : match read DecF ex_fs false (init_state DecF) ex_bytes with Ok (_, r) => r = [] | _ => False end)
      by (vm_compute; reflexivity).
    rewrite E in H. now rewrite H.
  - assert (H : is_ok (read DecF ex_fs false (init_state DecF) ex_bytes) = true) by (vm_compute; reflexivity).
    rewrite E in H. discriminate.
Qed.

Lemma differ a b : map see_obs a <> map see_obs b -> a <> b.
Proof. congruence. Qed.

(** [get_raw_bytes] as the first operation gives the bytes of the default value. *)
Theorem C14_raw_refuted : exists fs (s s' : state DecF) inp nm,
  read DecF fs false s inp = Ok (s', []) /\
  drun DecF fs false {| ds_st := s; ds_pending := Some (false, inp) |} [ORaw DecF nm []]
  <> run DecF fs s' [ORaw DecF nm []].
Proof.
  exists ex_fs, (init_state DecF), ex_read, ex_bytes, "id"%string. split; [exact ex_read_ok|].
  apply differ. vm_compute. intro H. discriminate H.
Qed.

(** Writing as the first operation: fields before the first one with a condition, size or count
    to be looked up are written with their defaults. *)
Theorem C14_write_refuted : exists fs (s s' : state DecF) inp,
  read DecF fs false s inp = Ok (s', []) /\
  drun DecF fs false {| ds_st := s; ds_pending := Some (false, inp) |} [OWrite DecF]
  <> run DecF fs s' [OWrite DecF].
Proof.
  exists ex_fs, (init_state DecF), ex_read, ex_bytes. split; [exact ex_read_ok|].
  apply differ. vm_compute. intro H. discriminate H.
Qed.

(** Assigning a scalar of a TRE first: the assignment is lost at the next read of a field. *)
Theorem C14_tre_set_refuted : exists fs (s s' : state DecF) inp nm v,
  read DecF fs false s inp = Ok (s', []) /\
  drun DecF fs true {| ds_st := s; ds_pending := Some (false, inp) |} [OSet DecF nm [] v; OGet DecF nm []]
  <> run DecF fs s' [OSet DecF nm [] v; OGet DecF nm []].
Proof.
  exists ex_fs, (init_state DecF), ex_read, ex_bytes, "id"%string, (SVal (VStr (str "new"))). split; [exact ex_read_ok|].
  apply differ. vm_compute. intro H. discriminate H.
Qed.

(** An unreadable file: the immediate read raises; the delayed one raises at the first access
    only, the second access gives the default value as if it had been read. *)
Definition bad_fs : fstruct := mk_fs [RField (Build_fdesc (Some "n"%string) (SzInt 3) TInt FrNone DfNone None false 32 false None 0 false)].
Lemma bad_read FO : read FO bad_fs false (init_state FO) (str "abc") = Err ERuntime.
Proof. vm_compute. reflexivity. Qed.
Theorem C14_failure_refuted : exists (fs : fstruct) (inp : list N) (nm : string) (e : exn),
  read DecF fs false (init_state DecF) inp = Err e /\
  map see_obs (drun DecF fs false {| ds_st := init_state DecF; ds_pending := Some (false, inp) |}
                 [OGet DecF nm []; OGet DecF nm []]) = [inl (SeeErr e); inl (SeeInt 0)].
Proof.
  exists bad_fs, (str "abc"), "n"%string, ERuntime. split; [apply bad_read|]. vm_compute. reflexivity.
Qed.

(** When the read fails, every operation that needs it raises the error of the read. *)
Theorem C14_failure_partial FO fs (tre lit : bool) (s : state FO) inp nm k e os :
  read FO fs lit s inp = Err e ->
  drun FO fs tre {| ds_st := s; ds_pending := Some (lit, inp) |} (OGet FO nm k :: os)
  = SeeVal FO (Err e) :: tl (drun FO fs tre {| ds_st := s; ds_pending := Some (lit, inp) |} (OGet FO nm k :: os)).
Proof. intro H. cbn [drun dstep]. unfold force. cbn [ds_pending ds_st]. rewrite H. reflexivity. Qed.

(** ** Examples *)

Definition ex_seq : list (op DecF) :=
  [OSet DecF "id" [] (SVal (VStr (str "new"))); OGet DecF "id" []; OGet DecF "b" [1; 1]%Z;
   OSet DecF "a" [0%Z] (SVal (VInt 4)); OGet DecF "a" [0%Z]; OSet DecF "a" [9%Z] (SVal (VInt 4))].
Example C14_case :
  map see_obs (drun DecF ex_fs false pend ex_seq)
  = [inr (inl (Ok tt)); inl (SeeStr (str "new")); inl (SeeDec false 250000 (-5)); inr (inl (Ok tt)); inl (SeeInt 4);
     inr (inl (Err EIndex))].
Proof. vm_compute. reflexivity. Qed.
Example C14_case2 :
  map see_obs (drun DecF ex_fs true pend (OGet DecF "n" [] :: ORaw DecF "a" [1%Z] :: OWrite DecF :: ex_seq))
  = [inl (SeeInt 2); inr (inr (Ok (str "-01"))); inr (inr (Ok ex_bytes));
     inr (inl (Ok tt)); inl (SeeStr (str "new")); inl (SeeDec false 250000 (-5)); inr (inl (Ok tt)); inl (SeeInt 4);
     inr (inl (Err EIndex))].
Proof. vm_compute. reflexivity. Qed.

(** ** Writing and raw bytes before the first access, in full *)

(** No expression of the table names a field: the structure is written as if nothing had been
    read, and is still not read afterwards. *)
Theorem C14_write_unread_partial FO fs (tre lit : bool) (s : state FO) inp os :
  (forall it, In it (fs_items fs) -> item_refs it = []) ->
  let d := {| ds_st := s; ds_pending := Some (lit, inp) |} in
  drun FO fs tre d (OWrite FO :: os) = SeeBytes FO (write FO fs s) :: drun FO fs tre d os.
Proof.
  intros H d. cbn [drun dstep]. unfold dwrite.
  rewrite (dseq_quiet FO _ (write_item FO fs s []) d) by (intros it Hi; now apply dwrite_quiet, H). reflexivity.
Qed.

(** Otherwise the items before the first one that has to look at a field are written from the
    unread structure, that item and everything after it from the read one; if one of the items
    before it cannot be written the structure stays unread.  Everything later is as after an
    immediate read. *)
Theorem C14_write_partial FO fs (tre lit : bool) (s s' : state FO) inp rest pre it post os :
  read FO fs lit s inp = Ok (s', rest) -> fs_items fs = pre ++ it :: post ->
  (forall x, In x pre -> item_refs x = []) -> asks FO s it ->
  let d := {| ds_st := s; ds_pending := Some (lit, inp) |} in
  drun FO fs tre d (OWrite FO :: os) =
  match concat_map_res (write_item FO fs s []) pre with
  | Err e => SeeBytes FO (Err e) :: drun FO fs tre d os
  | Ok a => SeeBytes FO (do b <- concat_map_res (write_item FO fs s' []) (it :: post); Ok (chunks_bytes a ++ chunks_bytes b)) :: run FO fs s' os
  end.
Proof.
  intros HR HI HQ HA d. cbn [drun dstep]. unfold dwrite. rewrite HI, dseq_app.
  rewrite (dseq_quiet FO _ (write_item FO fs s []) d) by (intros x Hx; now apply dwrite_quiet, HQ).
  destruct (concat_map_res (write_item FO fs s []) pre) as [a|e]; [|reflexivity]. cbn [bind].
  assert (F : force FO fs d = (done FO s', Ok tt)) by (unfold force, d; cbn [ds_pending ds_st]; now rewrite HR).
  assert (E : dseq FO (dwrite_item FO fs []) (it :: post) d = dseq FO (dwrite_item FO fs []) (it :: post) (done FO s')).
  { cbn [dseq]. now rewrite (dwrite_asks FO fs d s' it F HA). }
  rewrite E, (dseq_done FO _ (write_item FO fs s' [])) by (intro; apply dwrite_item_done).
  destruct (concat_map_res (write_item FO fs s' []) (it :: post)) as [b|e]; cbn [bind]; now rewrite drun_done.
Qed.

(** In particular nothing differs when the first item of the table looks at a field. *)
Theorem C14_write_first_partial FO fs (tre lit : bool) (s s' : state FO) inp rest it post os :
  read FO fs lit s inp = Ok (s', rest) -> fs_items fs = it :: post -> asks FO s it ->
  drun FO fs tre {| ds_st := s; ds_pending := Some (lit, inp) |} (OWrite FO :: os) = run FO fs s' (OWrite FO :: os).
Proof.
  intros HR HI HA. rewrite (C14_write_partial FO fs tre lit s s' inp rest [] it post os HR HI (fun x H => match H with end) HA).
  cbn [concat_map_res run step]. unfold write, write_chunks. rewrite HI. reflexivity.
Qed.

(** Raw bytes: kept ones are given back without reading; else they are made from the values, those
    of the read structure exactly if size, loop count, condition or value has to look at a field. *)
Theorem C14_raw_partial FO fs (tre lit : bool) (s s' : state FO) inp rest nm f k os :
  read FO fs lit s inp = Ok (s', rest) -> lookup fs nm = Some f ->
  let d := {| ds_st := s; ds_pending := Some (lit, inp) |} in
  (forall b, st_raw FO s (f_id f) k = Some b ->
     drun FO fs tre d (ORaw FO nm k :: os) = SeeBytes FO (Ok b) :: drun FO fs tre d os)
  /\ (st_raw FO s (f_id f) k = None -> field_refs f = [] ->
     drun FO fs tre d (ORaw FO nm k :: os) = SeeBytes FO (field_bytes FO (G FO fs s) fs s f k) :: drun FO fs tre d os)
  /\ (st_raw FO s (f_id f) k = None ->
     (exists e, fd_size (f_d f) = SzExpr e /\ expr_refs e <> [])
     \/ (exists n v fnm, fd_size (f_d f) = SzInt n /\ stored FO s f k = SVal v /\ fd_name (f_d f) = Some fnm
          /\ (List.length k = depth f /\ (0 <= last k 0)%Z /\ shape_refs f <> []
              \/ f_loops f = [] /\ k = [] /\ (opt_refs (fd_cond (f_d f)) <> []
                                             \/ fd_cond (f_d f) = None /\ opt_refs (fd_value (f_d f)) <> []))) ->
     drun FO fs tre d (ORaw FO nm k :: os) = SeeBytes FO (field_bytes FO (G FO fs s') fs s' f k) :: run FO fs s' os).
Proof.
  intros HR HL d.
  assert (F : force FO fs d = (done FO s', Ok tt)) by (unfold force, d; cbn [ds_pending ds_st]; now rewrite HR).
  split; [|split].
  - intros b Hb. cbn [drun dstep]. unfold draw. rewrite HL. change (ds_st FO d) with s. now rewrite Hb.
  - intros Hb Hf. cbn [drun dstep]. unfold draw. rewrite HL. change (ds_st FO d) with s. rewrite Hb, dbytes_quiet by exact Hf. reflexivity.
  - intros Hb HA. cbn [drun dstep]. unfold draw. rewrite HL. change (ds_st FO d) with s. rewrite Hb.
    assert (E : dbytes FO fs f k d = dbytes FO fs f k (done FO s')).
    { destruct HA as [(e & Hz & He)|(n & v & fnm & Hz & Hs & Hn & HA)].
      - unfold dbytes. rewrite Hz. cbn [size_refs]. now rewrite (touch_force FO fs _ d He), F, (touch_done FO fs (expr_refs e)).
      - rewrite dbytes_done. unfold dbytes. rewrite Hz. cbn [size_refs touch]. change (ds_st FO d) with s. rewrite Hs, Hn. unfold fsize_of at 1. rewrite Hz. cbn [bind].
        assert (R : dbytes FO fs f k (done FO s') = (done FO s', field_bytes FO (G FO fs s') fs s' f k)) by apply dbytes_done.
        destruct HA as [(HA & H0 & Hsh)|(Hl & -> & HA)].
        + rewrite HA, Nat.eqb_refl, (proj2 (Z.leb_le _ _) H0). cbn [andb]. rewrite (touch_force FO fs _ d Hsh), F. change (ds_st FO (done FO s')) with s'.
          destruct (check_index _ _ _ _ _); [|reflexivity]. rewrite touch_done. change (ds_st FO (done FO s')) with s'.
          destruct (check_condition _ _ _ _ _) as [[|]|]; try reflexivity. now rewrite touch_done.
        + unfold depth, shape_refs, check_index. rewrite Hl. cbn [List.length Nat.eqb last Z.leb Z.compare andb touch]. destruct HA as [Hc|[Hc Hv]].
          * rewrite (touch_force FO fs _ d Hc), F. change (ds_st FO (done FO s')) with s'.
            destruct (check_condition _ _ _ _ _) as [[|]|]; try reflexivity. now rewrite touch_done.
          * unfold check_condition. rewrite Hc. cbn [opt_refs touch]. now rewrite (touch_force FO fs _ d Hv), F. }
    rewrite E, dbytes_done. now rewrite drun_done.
Qed.

(** So the same raw bytes asked for twice can differ: the first time those of the value, the
    second time those in the file. *)
Definition twice_fs : fstruct := mk_fs [RField (ex_field "n" 1 TInt); RLoop (EFld "n" 0) [RField (ex_field "a" 3 TInt)]].
Theorem C14_raw_twice_refuted : exists fs (s' : state DecF) inp nm k,
  read DecF fs false (init_state DecF) inp = Ok (s', []) /\
  map see_obs (drun DecF fs false {| ds_st := init_state DecF; ds_pending := Some (false, inp) |} [ORaw DecF nm k; ORaw DecF nm k])
  = [inr (inr (Ok (str "012"))); inr (inr (Ok (str "+12")))].
Proof.
  assert (A : match read DecF twice_fs false (init_state DecF) (str "1+12") with Ok (_, r) => r = [] | Err _ => False end) by (vm_compute; reflexivity).
  destruct (read DecF twice_fs false (init_state DecF) (str "1+12")) as [[s' r]|e] eqn:E; [|destruct A]. subst r.
  exists twice_fs, s', (str "1+12"), "a"%string, [0%Z]. split; [exact E|]. vm_compute. reflexivity.
Qed.

(** The made-up table of Ex.v: "id" and "n" are written as defaults, the loop and what follows as
    in the file; then the structure has been read.  A table that begins with a condition, and one
    without any expression. *)
Example C14_case_write :
  map see_obs (drun DecF ex_fs true pend [OWrite DecF; OGet DecF "n" []; OWrite DecF])
  = [inr (inr (Ok (str "      00" ++ skipn 8 ex_bytes))); inl (SeeInt 2); inr (inr (Ok ex_bytes))].
Proof. vm_compute. reflexivity. Qed.
Example C14_case_raw :
  map see_obs (drun DecF ex_fs true pend [ORaw DecF "id" []; ORaw DecF "a" [7]%Z; ORaw DecF "id" []; ORaw DecF "a" [1%Z]])
  = [inr (inr (Ok (str "      "))); inr (inr (Err EIndex)); inr (inr (Ok (str "abc   "))); inr (inr (Ok (str "-01")))].
Proof. vm_compute. reflexivity. Qed.
Definition first_fs : fstruct := mk_fs [RField (Build_fdesc (Some "c"%string) (SzInt 4) TStr FrNone DfNone
   (Some (ECmp CGt (EFld "has" 0) (EInt 0))) false 32%N false None 0 false); RField (ex_field "has" 1 TInt)].
Definition plain_fs : fstruct := mk_fs [RField (ex_field "id" 3 TStr); RField (ex_field "n" 2 TInt)].
Example C14_case_first :
  let d := {| ds_st := fst (set DecF first_fs (init_state DecF) "has" [] (SVal (VInt 1))); ds_pending := Some (false, str "yes 2") |} in
  let p := {| ds_st := init_state DecF; ds_pending := Some (false, str "abc07") |} in
  map see_obs (drun DecF first_fs true d [OWrite DecF]) = [inr (inr (Ok (str "yes 2")))]
  /\ map see_obs (drun DecF plain_fs true p [OWrite DecF; OGet DecF "n" []; OWrite DecF])
     = [inr (inr (Ok (str "   00"))); inl (SeeInt 7); inr (inr (Ok (str "abc07")))].
Proof. vm_compute. split; reflexivity. Qed.

Print Assumptions C14_write_unread_partial.
Print Assumptions C14_write_partial.
Print Assumptions C14_write_first_partial.
Print Assumptions C14_raw_partial.
Print Assumptions C14_raw_twice_refuted.
Print Assumptions C14_gets_sets_partial.
Print Assumptions C14_after_get_partial.
Print Assumptions C14_failure_partial.
Print Assumptions C14_failure_refuted.
Print Assumptions C14_raw_refuted.
Print Assumptions C14_write_refuted.
Print Assumptions C14_tre_set_refuted.
