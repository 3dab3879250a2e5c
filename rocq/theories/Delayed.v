(** Delayed reading (nitf_field.py:835-840, 916-933): the read is done the first time
    [__getattr__] runs. *)
From Verif Require Import Base BaseLemmas Engine Wf EngineLemmas Codec RoundTrip Rewrite Literal
  Positions Keys Deps Assign.
Open Scope list_scope.

Section Delayed.
Variable FO : FloatOps.
Variable fs : fstruct.
Notation state := (state FO).
Notation sval := (sval FO).
Notation pyval := (pyval FO).

(** [_delayed_read], [_nitf_literal] and what the file holds from [_start_pos] on.
    (nitf_field.py:802-804, 927-931.) *)
Record dstate := { ds_st : state; ds_pending : option (bool * list N) }.

(** Operations of a client and what each lets it see. (nitf_field.py:835-863, 912-914.) *)
Inductive op :=
| OGet (nm : string) (k : list Z)                (* x.nm, x.nm[k] *)
| OSet (nm : string) (k : list Z) (v : sval)     (* x.nm = v, x.nm[k] = v *)
| ORaw (nm : string) (k : list Z)                (* x.get_raw_bytes(nm, k) *)
| OWrite.                                        (* x.write_to_file(fh) *)
(** What nitf_field.py:835-863, 912-914 return. *)
Inductive obs := SeeVal (r : res pyval) | SeeSet (r : res unit) | SeeBytes (r : res (list N)).

(** The same operations on a structure that was read at once. (nitf_field.py:835-863, 912-914.) *)
Definition step (s : state) (o : op) : state * obs :=
  match o with
  | OGet nm k => (s, SeeVal (get FO fs s nm k))
  | OSet nm k v => let '(s', r) := set FO fs s nm k v in (s', SeeSet r)
  | ORaw nm k => (s, SeeBytes (raw_bytes FO fs s nm k))
  | OWrite => (s, SeeBytes (write FO fs s))
  end.

(** nitf_field.py:836-840; an error in the read is raised and the read is not tried again
    (the fields read so far stay, which is not kept here). *)
Definition force (d : dstate) : dstate * res unit :=
  match ds_pending d with
  | None => (d, Ok tt)
  | Some (lit, inp) =>
      match read FO fs lit (ds_st d) inp with
      | Ok (s', _) => ({| ds_st := s'; ds_pending := None |}, Ok tt)
      | Err e => ({| ds_st := ds_st d; ds_pending := None |}, Err e)
      end
  end.

(** Evaluating an expression that names a field runs [__getattr__] before anything of the
    structure is looked at. (nitf_field.py:47-65, 835-840.) *)
Definition touch (refs : list (string * nat)) (d : dstate) : dstate * res unit :=
  match refs with [] => (d, Ok tt) | _ :: _ => force d end.

(** Checks made by [FieldData.__setitem__] and [NitfField.__setitem__] before the class of
    the structure is asked for [tre_implementation_field] (nitf_field.py:282-295, 424-428),
    for a scalar. *)
Definition early (s : state) (f : field) (v : sval) : res unit :=
  do _ <- (match fd_ty (f_d f), v with
           | TData _, SLit _ => Err EAttr
           | TData _, SVal v' => do _ <- pack FO (G FO fs s) fs f [] v'; Ok tt
           | _, _ => Ok tt
           end);
  match fd_name (f_d f) with
  | None => Err ERuntime
  | Some _ =>
      do c <- check_condition FO (G FO fs s) fs f [];
      if negb c then Err ERuntime
      else if fd_hard (f_d f) || match fd_value (f_d f) with Some _ => true | None => false end
      then Err ERuntime else Ok tt
  end.

(** [x.nm = v] on a scalar (nitf_field.py:856-861, 282-308).  [hasattr(fs,
    "tre_implementation_field")] runs [__getattr__] unless the class has that attribute,
    which exactly the TRE classes do (nitf_tre.py:30).  For a TRE class the assignment is
    made on the unread structure. *)
Definition early_refs (f : field) : list (string * nat) :=
  match fd_ty (f_d f) with TData (KInt _) => size_refs (fd_size (f_d f)) | _ => [] end
  ++ opt_refs (fd_cond (f_d f)).

(** nitf_field.py:835-847. *)
Definition on_forced (r : dstate * res unit) (k : state -> state * obs) (bad : exn -> obs) : dstate * obs :=
  match r with
  | (d, Err e) => (d, bad e)
  | (d, Ok _) => let '(s', o) := k (ds_st d) in ({| ds_st := s'; ds_pending := ds_pending d |}, o)
  end.

(** nitf_field.py:856-863, 282-308. *)
Definition dset (tre : bool) (d : dstate) (nm : string) (k : list Z) (v : sval) : dstate * obs :=
  let go := on_forced (force d) (fun s => step s (OSet nm k v)) (fun e => SeeSet (Err e)) in
  match lookup fs nm with
  | None => (d, SeeSet (Err EAttr))
  | Some f =>
      match depth f, k with
      | O, [] =>
          match ds_pending d, early_refs f with
          | Some _, [] =>
              match early (ds_st d) f v with
              | Err e => (d, SeeSet (Err e))
              | Ok _ => if tre then let '(s', o) := step (ds_st d) (OSet nm k v) in
                                    ({| ds_st := s'; ds_pending := ds_pending d |}, o)
                        else go
              end
          | _, _ => go
          end
      | _, _ => go                               (* [x.nm] is evaluated first *)
      end
  end.

(** [NitfField.bytes] (nitf_field.py:310-337, 249-262, 590-600) on a structure that may not have
    been read: the size is evaluated first; unless the field is reserved or holds a literal then
    follow the index, the condition and the value.  The first of them that names a field causes the
    read; an error of the read inside [value_func] becomes a RuntimeError (nitf_field.py:276-280). *)
Definition dbytes (f : field) (k : list Z) (d : dstate) : dstate * res (list N) :=
  let out d := (d, field_bytes FO (G FO fs (ds_st d)) fs (ds_st d) f k) in
  match touch (size_refs (fd_size (f_d f))) d with
  | (d1, Err e) => (d1, Err e)
  | (d1, Ok _) =>
      match fsize_of FO (G FO fs (ds_st d1)) fs f k, stored FO (ds_st d1) f k, fd_name (f_d f) with
      | Ok _, SVal _, Some _ =>
          match (if Nat.eqb (List.length k) (depth f) && (0 <=? last k 0)%Z then touch (shape_refs f) d1 else (d1, Ok tt)) with
          | (d2, Err e) => (d2, Err e)
          | (d2, Ok _) =>
              match check_index FO (G FO fs (ds_st d2)) fs f k with
              | Err _ => out d2
              | Ok _ =>
                  match touch (opt_refs (fd_cond (f_d f))) d2 with
                  | (d3, Err e) => (d3, Err e)
                  | (d3, Ok _) =>
                      match check_condition FO (G FO fs (ds_st d3)) fs f k with
                      | Ok true =>
                          match touch (opt_refs (fd_value (f_d f))) d3 with
                          | (d4, Err _) => (d4, Err ERuntime)
                          | (d4, Ok _) => out d4
                          end
                      | _ => out d3
                      end
                  end
              end
          end
      | _, _, _ => out d1
      end
  end.

(** nitf_field.py:849-854, 241-247: the raw dictionary is looked at first. *)
Definition draw (d : dstate) (nm : string) (k : list Z) : dstate * obs :=
  match lookup fs nm with
  | None => (d, SeeBytes (Err EAttr))
  | Some f =>
      match st_raw FO (ds_st d) (f_id f) k with
      | Some b => (d, SeeBytes (Ok b))
      | None => let '(d', r) := dbytes f k d in (d', SeeBytes r)
      end
  end.

(** nitf_field.py:339-347: fields are written from the unread structure until an expression is
    evaluated. *)
Definition dwrite_field (f : field) (k : list Z) (d : dstate) : dstate * res (list N) :=
  match touch (opt_refs (fd_cond (f_d f))) d with
  | (d1, Err e) => (d1, Err e)
  | (d1, Ok _) =>
      match check_condition FO (G FO fs (ds_st d1)) fs f k with
      | Err e => (d1, Err e)
      | Ok false => (d1, Ok [])
      | Ok true => dbytes f k d1
      end
  end.

(** nitf_field.py:339-347, 625-629, 912-914. *)
Fixpoint dseq {A} (w : A -> dstate -> dstate * res (list N)) (l : list A) (d : dstate) : dstate * res (list N) :=
  match l with
  | [] => (d, Ok [])
  | a :: l' =>
      match w a d with
      | (d1, Err e) => (d1, Err e)
      | (d1, Ok b) => match dseq w l' d1 with
                      | (d2, Err e) => (d2, Err e)
                      | (d2, Ok b') => (d2, Ok (b ++ b'))
                      end
      end
  end.

(** nitf_field.py:339-347, 625-629, 912-914. *)
Fixpoint dwrite_item (lead : list Z) (it : item) (d : dstate) : dstate * res (list N) :=
  match it with
  | IField f => dwrite_field f lead d
  | ILoop sh its =>
      match touch (expr_refs sh) d with
      | (d1, Err e) => (d1, Err e)
      | (d1, Ok _) =>
          match eval_shape FO (G FO fs (ds_st d1)) fs lead sh with
          | Err e => (d1, Err e)
          | Ok n => dseq (fun i d =>
              (fix go its d := match its with
                 | [] => (d, Ok [])
                 | it :: its' => match dwrite_item (lead ++ [i]) it d with
                                 | (d1, Err e) => (d1, Err e)
                                 | (d1, Ok b) => match go its' d1 with
                                                 | (d2, Err e) => (d2, Err e)
                                                 | (d2, Ok b') => (d2, Ok (b ++ b'))
                                                 end
                                 end
                 end) its d) (zrange n) d1
          end
      end
  end.

(** nitf_field.py:339-347, 625-629, 912-914. *)
Definition dwrite (d : dstate) : dstate * res (list N) := dseq (dwrite_item []) (fs_items fs) d.

(** One operation on a structure read with [delayed_read=True]. (nitf_field.py:835-863, 912-914.) *)
Definition dstep (tre : bool) (d : dstate) (o : op) : dstate * obs :=
  match o with
  | OGet nm k => on_forced (force d) (fun s => step s o) (fun e => SeeVal (Err e))
  | OSet nm k v => dset tre d nm k v
  | ORaw nm k => draw d nm k
  | OWrite => let '(d', r) := dwrite d in (d', SeeBytes r)
  end.

(** A client of nitf_field.py:835-863, 912-933. *)
Fixpoint run (s : state) (os : list op) : list obs :=
  match os with [] => [] | o :: os' => let '(s', x) := step s o in x :: run s' os' end.
(** A client of nitf_field.py:835-863, 912-933. *)
Fixpoint drun (tre : bool) (d : dstate) (os : list op) : list obs :=
  match os with [] => [] | o :: os' => let '(d', x) := dstep tre d o in x :: drun tre d' os' end.

(** ** Once the read is done *)

(** nitf_field.py:837. *)
Definition done (s : state) : dstate := {| ds_st := s; ds_pending := None |}.

Lemma touch_done refs s : touch refs (done s) = (done s, Ok tt).
Proof. destruct refs; reflexivity. Qed.

Lemma dbytes_done f k s : dbytes f k (done s) = (done s, field_bytes FO (G FO fs s) fs s f k).
Proof.
  unfold dbytes. rewrite touch_done. change (ds_st (done s)) with s.
  destruct (fsize_of FO (G FO fs s) fs f k); [|reflexivity]. destruct (stored FO s f k); [|reflexivity].
  destruct (fd_name (f_d f)); [|reflexivity].
  replace (if _ && _ then touch (shape_refs f) (done s) else (done s, Ok tt)) with (done s, @Ok unit tt)
    by (rewrite touch_done; now destruct (_ && _)).
  change (ds_st (done s)) with s. destruct (check_index _ _ _ _ _); [|reflexivity]. rewrite touch_done. change (ds_st (done s)) with s.
  destruct (check_condition _ _ _ _ _) as [[|]|]; try reflexivity. now rewrite touch_done.
Qed.

Lemma dseq_done {A} (w : A -> dstate -> dstate * res (list N)) (w' : A -> res (list chunk)) s l :
  (forall a, w a (done s) = (done s, do cs <- w' a; Ok (chunks_bytes cs))) ->
  dseq w l (done s) = (done s, do cs <- concat_map_res w' l; Ok (chunks_bytes cs)).
Proof.
  intro H. induction l as [|a l IH]; auto. cbn [dseq concat_map_res]. rewrite H.
  destruct (w' a) as [cs|e]; auto. cbn [bind]. rewrite IH. destruct (concat_map_res w' l) as [cs'|e]; auto.
  cbn [bind]. unfold chunks_bytes. now rewrite flat_map_app.
Qed.

Lemma dwrite_item_done s : forall it lead,
  dwrite_item lead it (done s) = (done s, do cs <- write_item FO fs s lead it; Ok (chunks_bytes cs)).
Proof.
  fix IH 1. intros [f|sh its] lead.
  - cbn [dwrite_item write_item]. unfold dwrite_field, write_field. rewrite touch_done.
    change (ds_st (done s)) with s. destruct (check_condition FO (G FO fs s) fs f lead) as [[|]|e]; auto.
    rewrite dbytes_done. cbn [bind negb].
    destruct (field_bytes FO (G FO fs s) fs s f lead) as [b|e]; auto. cbn [bind].
    unfold chunks_bytes. cbn [flat_map ch_bytes]. now rewrite app_nil_r.
  - cbn [dwrite_item write_item]. rewrite touch_done. change (ds_st (done s)) with s.
    destruct (eval_shape FO (G FO fs s) fs lead sh) as [n|e]; auto. cbn [bind].
    apply dseq_done. intro i. induction its as [|it its IHi]; auto.
    rewrite IH. destruct (write_item FO fs s (lead ++ [i]) it) as [cs|e]; auto. cbn [bind].
    rewrite IHi. match goal with |- context [bind ?x _] => destruct x as [cs'|e] end; auto.
    cbn [bind]. unfold chunks_bytes. now rewrite flat_map_app.
Qed.

Lemma dstep_done tre s o : dstep tre (done s) o = (done (fst (step s o)), snd (step s o)).
Proof.
  destruct o as [nm k|nm k v|nm k|]; cbn [dstep].
  - reflexivity.
  - unfold dset. change (force (done s)) with (done s, @Ok unit tt). cbn [on_forced].
    change (ds_st (done s)) with s. change (ds_pending (done s)) with (@None (bool * list N)).
    destruct (lookup fs nm) as [f|] eqn:L.
    + destruct (step s (OSet nm k v)) as [s' o'] eqn:E. destruct (depth f), k; reflexivity.
    + cbn [step]. unfold set. rewrite L. reflexivity.
  - unfold draw. cbn [step]. unfold raw_bytes. destruct (lookup fs nm) as [f|]; auto.
    change (ds_st (done s)) with s. destruct (st_raw FO s (f_id f) k); auto.
    now rewrite dbytes_done.
  - unfold dwrite. cbn [step]. rewrite (dseq_done _ (write_item FO fs s [])) by (intro; apply dwrite_item_done).
    reflexivity.
Qed.

Lemma drun_done tre s os : drun tre (done s) os = run s os.
Proof.
  revert s. induction os as [|o os IH]; intro s; auto. cbn [drun run]. rewrite dstep_done.
  destruct (step s o) as [s' x]. cbn [fst snd]. now rewrite IH.
Qed.

(** ** Before that *)

Lemma refs_eq_nil g1 g2 : refs_eq FO g1 g2 fs [].
Proof. intros r f []. Qed.

Lemma early_indep s s' f v : early_refs f = [] -> early s f v = early s' f v.
Proof.
  unfold early_refs, early. intro H. apply app_eq_nil in H as [H1 H2].
  rewrite (check_condition_ext FO (G FO fs s) (G FO fs s') fs f []) by (rewrite H2; apply refs_eq_nil).
  destruct (fd_ty (f_d f)) as [| | | |dk] eqn:T; auto. destruct v as [v|b]; auto.
  replace (pack FO (G FO fs s) fs f [] v) with (pack FO (G FO fs s') fs f [] v); auto.
  unfold pack. rewrite T. destruct dk; auto.
  rewrite (fsize_ext FO (G FO fs s') (G FO fs s)) by (rewrite H1; apply refs_eq_nil). reflexivity.
Qed.

Lemma early_fails s nm f v e : lookup fs nm = Some f -> depth f = O -> early s f v = Err e ->
  set FO fs s nm [] v = (s, Err e).
Proof.
  intros L Hd H. unfold set. rewrite L. unfold key_shape_ok. rewrite Hd. unfold fset, fuel. cbn [setf].
  assert (B : forall sub w, (do _ <- Ok tt;
     match fd_name (f_d f) with
     | None => Err ERuntime
     | Some _ =>
         do c <- check_condition FO (G FO fs s) fs f [];
         if negb c then Err ERuntime
         else if fd_hard (f_d f) || match fd_value (f_d f) with Some _ => true | None => false end
         then Err ERuntime else Ok tt
     end) = Err e -> set_base FO sub fs s f [] w = (s, Err e)).
  { intros sub w. cbn [bind]. unfold set_base. destruct (fd_name (f_d f)); [|congruence].
    assert (CI : check_index FO (G FO fs s) fs f [] = Ok tt).
    { unfold check_index. unfold depth in Hd. destruct (f_loops f); [reflexivity|discriminate]. }
    rewrite CI. destruct (check_condition FO (G FO fs s) fs f []) as [[|]|e']; cbn [bind negb]; try congruence.
    destruct (fd_hard (f_d f) || _); congruence. }
  unfold early in H. destruct (fd_ty (f_d f)) as [| | | |dk] eqn:T; try (apply B; exact H).
  destruct v as [v|b]; [|cbn [bind] in H; congruence].
  destruct (pack FO (G FO fs s) fs f [] v) as [b|e'] eqn:EP; cbn [bind] in H; [|congruence].
  apply B. exact H.
Qed.

(** A sequence of reads and assignments; nothing is said about the other operations. *)
Definition plain_op (o : op) : bool := match o with OGet _ _ | OSet _ _ _ => true | _ => false end.

(** For a structure that is not a TRE. *)
Theorem delayed_gets_sets (lit : bool) (s s' : state) inp rest os :
  read FO fs lit s inp = Ok (s', rest) -> forallb plain_op os = true ->
  drun false {| ds_st := s; ds_pending := Some (lit, inp) |} os = run s' os.
Proof.
  intros HR. set (d := {| ds_st := s; ds_pending := Some (lit, inp) |}).
  assert (F : force d = (done s', Ok tt)) by (unfold force, d; cbn [ds_pending ds_st]; now rewrite HR).
  induction os as [|o os IH]; intro HP; auto. cbn [forallb] in HP. apply andb_true_iff in HP as [Ho HP].
  cbn [drun run]. destruct o as [nm k|nm k v|nm k|]; try discriminate Ho; cbn [dstep].
  - rewrite F. cbn [on_forced]. change (ds_st (done s')) with s'. cbn [step ds_pending done].
    f_equal. apply drun_done.
  - assert (GO : forall X, on_forced (force d) (fun s => step s (OSet nm k v)) (fun e => SeeSet (Err e))
        = X -> (let '(d', x) := X in x :: drun false d' os)
             = (let '(s'', x) := step s' (OSet nm k v) in x :: run s'' os)).
    { intros X <-. rewrite F. cbn [on_forced]. change (ds_st (done s')) with s'.
      destruct (step s' (OSet nm k v)) as [s'' x]. cbn [ds_pending done]. f_equal. apply drun_done. }
    unfold dset. destruct (lookup fs nm) as [f|] eqn:L.
    2:{ cbn [step]. unfold set. rewrite L. now rewrite IH. }
    destruct (depth f) eqn:Hd; [|apply (GO _ eq_refl)]. destruct k as [|]; [|apply (GO _ eq_refl)].
    change (ds_pending d) with (Some (lit, inp)). change (ds_st d) with s. cbv iota.
    destruct (early_refs f) eqn:ER; [|apply (GO _ eq_refl)].
    destruct (early s f v) eqn:E; [apply (GO _ eq_refl)|].
    rewrite (early_indep s s' f v ER) in E. pose proof (early_fails s' nm f v e L Hd E) as B.
    cbn [step]. rewrite B. now rewrite IH.
Qed.

(** For any structure, once the first operation is a read of a field or an indexed assignment. *)
Definition forcing (o : op) : bool :=
  match o with
  | OGet _ _ => true
  | OSet nm k _ => match k with [] => false | _ :: _ => match lookup fs nm with Some _ => true | None => false end end
  | _ => false
  end.

Theorem delayed_after_get (tre lit : bool) (s s' : state) inp rest o os :
  read FO fs lit s inp = Ok (s', rest) -> forcing o = true ->
  drun tre {| ds_st := s; ds_pending := Some (lit, inp) |} (o :: os) = run s' (o :: os).
Proof.
  intros HR Ho. set (d := {| ds_st := s; ds_pending := Some (lit, inp) |}).
  assert (F : force d = (done s', Ok tt)) by (unfold force, d; cbn [ds_pending ds_st]; now rewrite HR).
  cbn [drun run]. destruct o as [nm k|nm k v|nm k|]; try discriminate Ho; cbn [dstep].
  - rewrite F. cbn [on_forced]. change (ds_st (done s')) with s'. cbn [step ds_pending done].
    f_equal. apply drun_done.
  - cbn [forcing] in Ho. destruct k as [|i k]; [discriminate|]. unfold dset.
    destruct (lookup fs nm) as [f|] eqn:L; [|discriminate].
    assert (E : forall X : dstate * obs, match depth f with O => X | S _ => X end = X) by (intro; destruct (depth f); auto).
    rewrite E, F. cbn [on_forced]. change (ds_st (done s')) with s'.
    destruct (step s' (OSet nm (i :: k) v)) as [s'' x]. cbn [ds_pending done]. f_equal. apply drun_done.
Qed.

(** ** Writing and raw bytes before that *)

Lemma dbytes_quiet f k d : field_refs f = [] -> dbytes f k d = (d, field_bytes FO (G FO fs (ds_st d)) fs (ds_st d) f k).
Proof.
  unfold field_refs, own_refs, dbytes. intro H. apply app_eq_nil in H as [H Hs]. apply app_eq_nil in H as [Hc H].
  apply app_eq_nil in H as [Hz Hv]. rewrite Hs, Hc, Hz, Hv. cbn [touch].
  destruct (fsize_of _ _ _ _ _); [|reflexivity]. destruct (stored _ _ _ _); [|reflexivity]. destruct (fd_name _); [|reflexivity].
  replace (if _ && _ then (d, @Ok unit tt) else (d, Ok tt)) with (d, @Ok unit tt) by (now destruct (_ && _)).
  destruct (check_index _ _ _ _ _); [|reflexivity]. now destruct (check_condition _ _ _ _ _) as [[|]|].
Qed.

Lemma dseq_quiet {A} (w : A -> dstate -> dstate * res (list N)) (w' : A -> res (list chunk)) d l :
  (forall a, In a l -> w a d = (d, do cs <- w' a; Ok (chunks_bytes cs))) ->
  dseq w l d = (d, do cs <- concat_map_res w' l; Ok (chunks_bytes cs)).
Proof.
  induction l as [|a l IH]; intro H; auto. cbn [dseq concat_map_res]. rewrite H by now left.
  destruct (w' a) as [cs|e]; auto. cbn [bind]. rewrite IH by (intros x Hx; apply H; now right).
  destruct (concat_map_res w' l) as [cs'|e]; auto. cbn [bind]. unfold chunks_bytes. now rewrite flat_map_app.
Qed.

Lemma dwrite_quiet d : forall it lead, item_refs it = [] ->
  dwrite_item lead it d = (d, do cs <- write_item FO fs (ds_st d) lead it; Ok (chunks_bytes cs)).
Proof.
  fix IH 1. intros [f|sh its] lead Hr; cbn [item_refs] in Hr.
  - cbn [dwrite_item write_item]. unfold dwrite_field, write_field.
    assert (Hc : opt_refs (fd_cond (f_d f)) = []).
    { unfold field_refs, own_refs in Hr. apply app_eq_nil in Hr as [Hr _]. now apply app_eq_nil in Hr as [Hr _]. }
    rewrite Hc. cbn [touch]. destruct (check_condition _ _ _ _ _) as [[|]|e]; auto. rewrite dbytes_quiet by exact Hr. cbn [bind negb].
    destruct (field_bytes _ _ _ _ _ _) as [b|e]; auto. cbn [bind]. unfold chunks_bytes. cbn [flat_map ch_bytes]. now rewrite app_nil_r.
  - cbn [dwrite_item write_item]. apply app_eq_nil in Hr as [Hs Hr]. rewrite Hs. cbn [touch].
    destruct (eval_shape _ _ _ _ _) as [n|e]; auto. cbn [bind].
    apply dseq_quiet. intros i _. revert Hr. induction its as [|it its IHi]; intro Hr; auto.
    cbn [flat_map] in Hr. apply app_eq_nil in Hr as [Hr1 Hr2]. rewrite IH by exact Hr1.
    destruct (write_item FO fs (ds_st d) (lead ++ [i]) it) as [cs|e]; auto. cbn [bind].
    rewrite IHi by exact Hr2. match goal with |- context [bind ?x _] => destruct x as [cs'|e] end; auto.
    cbn [bind]. unfold chunks_bytes. now rewrite flat_map_app.
Qed.

Lemma dseq_app {A} (w : A -> dstate -> dstate * res (list N)) l l' d :
  dseq w (l ++ l') d = match dseq w l d with
                       | (d1, Err e) => (d1, Err e)
                       | (d1, Ok b) => match dseq w l' d1 with (d2, Err e) => (d2, Err e) | (d2, Ok b') => (d2, Ok (b ++ b')) end
                       end.
Proof.
  revert d. induction l as [|a l IH]; intro d; cbn [app dseq].
  - now destruct (dseq w l' d) as [d1 [b|e]].
  - destruct (w a d) as [d1 [b|e]]; auto. rewrite IH. destruct (dseq w l d1) as [d2 [b'|e]]; auto.
    destruct (dseq w l' d2) as [d3 [b''|e]]; auto. now rewrite app_assoc.
Qed.

(** An item of the table whose writing evaluates an expression that names a field before any byte
    of it is written. *)
Inductive asks (s : state) : item -> Prop :=
| ask_cond f e : fd_cond (f_d f) = Some e -> expr_refs e <> [] -> asks s (IField f)
| ask_size f e : fd_cond (f_d f) = None -> fd_size (f_d f) = SzExpr e -> expr_refs e <> [] -> asks s (IField f)
| ask_value f n v nm e : fd_cond (f_d f) = None -> fd_size (f_d f) = SzInt n -> f_loops f = [] -> stored FO s f [] = SVal v ->
    fd_name (f_d f) = Some nm -> fd_value (f_d f) = Some e -> expr_refs e <> [] -> asks s (IField f)
| ask_loop sh its : expr_refs sh <> [] -> asks s (ILoop sh its).

Lemma touch_force refs d : refs <> [] -> touch refs d = force d.
Proof. destruct refs; [congruence|reflexivity]. Qed.

Lemma dwrite_asks (d : dstate) s' it : force d = (done s', Ok tt) -> asks (ds_st d) it ->
  dwrite_item [] it d = dwrite_item [] it (done s').
Proof.
  intros F [f e Hc He|f e Hc Hz He|f n v nm e Hc Hz Hl Hs Hn Hv He|sh its He]; cbn [dwrite_item].
  - unfold dwrite_field. rewrite Hc. cbn [opt_refs]. now rewrite (touch_force _ d He), F, touch_done.
  - unfold dwrite_field, check_condition. rewrite Hc. cbn [opt_refs touch]. unfold dbytes. rewrite Hz. cbn [size_refs].
    now rewrite (touch_force _ d He), F, (touch_done (expr_refs e)).
  - unfold dwrite_field, check_condition. rewrite Hc. cbn [opt_refs touch]. rewrite dbytes_done. unfold dbytes.
    rewrite Hz. cbn [size_refs touch]. rewrite Hs, Hn, Hv. unfold fsize_of. rewrite Hz. cbn [bind].
    unfold depth, shape_refs, check_index, check_condition. rewrite Hl, Hc. cbn [List.length Nat.eqb last Z.leb Z.compare andb touch opt_refs].
    now rewrite (touch_force _ d He), F.
  - now rewrite (touch_force _ d He), F, touch_done.
Qed.

End Delayed.
