(** Tagged record extensions: records and streams of records (nitf_tre.py). *)
From Verif Require Import Base BaseLemmas Engine Wf EngineLemmas Codec RoundTrip Rewrite Utf8.
From Coq Require Import ZifyBool ZifyNat ZifyN.
Open Scope list_scope.

(** A TRE class: [tre_tag] and [desc] of a subclass of Tre whose bytes come from its fields
    (nitf_tre.py:28-80, [tre_implementation_field] None). *)
Record tcls := { tc_tag : list N; tc_rows : list row }.

(** A class of another kind, such as one with [tre_implementation_field] or its own
    [read_from_file], is not modelled. *)

Section Tre.
Variable FO : FloatOps.

(** A TRE object: of a class with its fields, or a TreUnknown with tag and body
    (nitf_tre.py:110-116). *)
Inductive tre := TObj (c : tcls) (s : state FO) | TUnk (tag body : list N).

(** [cetag_value] (nitf_tre.py:32-33, 117-118). *)
Definition tre_tag (t : tre) : list N :=
  match t with TObj c _ => tc_tag c | TUnk tag _ => tag end.

(** [tre_bytes] (nitf_tre.py:36-46, 116). *)
Definition tre_body (t : tre) : res (list N) :=
  match t with TObj c s => write FO (mk_fs (tc_rows c)) s | TUnk _ b => Ok b end.

(** ["{:0>5d}".format(v)] for a length (nitf_tre.py:79,130). *)
Definition len5 (n : nat) : list N := fmt_d (dfmt_zero 5) (Z.of_nat n).

(** [write_to_file] (nitf_tre.py:73-80, 125-131) into an empty file (nitf_tre.py:197-199). *)
Definition tre_write (t : tre) : res (list N) :=
  match utf8_enc (ljust 6 (tre_tag t)) with
  | None => Err EValue
  | Some tag =>
      do b <- tre_body t;
      if (99999 <? Z.of_nat (List.length b))%Z then Err ERuntime
      else Ok (tag ++ len5 (List.length b) ++ b)
  end.

(** [fh.read(n)]: what is read and what remains; a negative [n] reads everything.
    (nitf_tre.py:59, 62, 64, 122-124.) *)
Definition fread (n : Z) (inp : list N) : list N * list N :=
  if (n <? 0)%Z then (inp, []) else (firstn (Z.to_nat n) inp, skipn (Z.to_nat n) inp).

(** The tag and length fields (nitf_tre.py:59-62, 122-123). *)
Definition read_tag (inp : list N) : res (list N * list N) :=
  match utf8_dec (rstrip_by ws_byte (firstn 6 inp)) with
  | None => Err EValue
  | Some tag => Ok (tag, skipn 6 inp)
  end.
(** nitf_tre.py:62, 123. *)
Definition read_cel (inp : list N) : res (Z * list N) :=
  match parse_int ws_byte (firstn 5 inp) with
  | None => Err EValue
  | Some n => Ok (n, skipn 5 inp)
  end.

(** [Tre.read_from_file] into a new object (nitf_tre.py:58-72).  The fields are read from the
    file, not from [cel] bytes of it; the size is compared afterwards. *)
Definition obj_read (c : tcls) (inp : list N) : res (tre * list N) :=
  do (tag, i1) <- read_tag inp;
  if negb (list_eqb tag (tc_tag c)) then Err ERuntime
  else
    do (cel, i2) <- read_cel i1;
    do (s, i3) <- read FO (mk_fs (tc_rows c)) false (init_state FO) i2;
    if (Z.of_nat (List.length i2) - Z.of_nat (List.length i3) =? cel)%Z then Ok (TObj c s, i3)
    else Err ERuntime.

(** [TreUnknown.read_from_file] (nitf_tre.py:121-124). *)
Definition unk_read (inp : list N) : res (tre * list N) :=
  do (tag, i1) <- read_tag inp;
  do (cel, i2) <- read_cel i1;
  let '(b, i3) := fread cel i2 in Ok (TUnk tag b, i3).

(** Registered classes in the order of [add_cls] (nitf_tre.py:155-159): a later class with the
    same tag replaces an earlier one.  A tag that cannot be encoded makes [add_cls] fail; such
    a class is never found. *)
Definition registry := list tcls.
(** nitf_tre.py:148-159. *)
Definition reg_find (reg : registry) (name : list N) : option tcls :=
  find (fun c => match utf8_enc (tc_tag c) with Some k => list_eqb k name | None => false end) (rev reg).

(** One record of a stream (nitf_tre.py:244-257): the class registered for the six bytes, and
    if anything goes wrong a TreUnknown.  The warning decodes the name first. *)
Definition rec_read (reg : registry) (inp : list N) : res (tre * list N) :=
  let r := match reg_find reg (firstn 6 inp) with Some c => obj_read c inp | None => unk_read inp end in
  match r with
  | Ok x => Ok x
  | Err _ => match utf8_dec (firstn 6 inp) with
             | None => Err EValue
             | Some _ => unk_read inp
             end
  end.

(** [read_tre_data] (nitf_tre.py:233-258); every record takes at least one byte, so the number
    of rounds is bounded by the length. *)
Fixpoint stream_read (n : nat) (reg : registry) (inp : list N) : res (list tre) :=
  match n with
  | O => Err ERecursion
  | S n' =>
      match inp with
      | [] => Ok []
      | _ => if (List.length inp <? 6)%nat then Err ERuntime
             else do (t, rest) <- rec_read reg inp;
                  do ts <- stream_read n' reg rest;
                  Ok (t :: ts)
      end
  end.
(** nitf_tre.py:233-258. *)
Definition read_tre_data (reg : registry) (inp : list N) : res (list tre) :=
  stream_read (S (List.length inp)) reg inp.

(** Writing a list of TREs one after the other (nitf_tre.py:196-203). *)
Fixpoint write_all (ts : list tre) : res (list N) :=
  match ts with
  | [] => Ok []
  | t :: ts' => do b <- tre_write t; do r <- write_all ts'; Ok (b ++ r)
  end.

(** [_find_tre], [_find_one_tre], [_find_exactly_one_tre] (nitf_tre.py:260-278). *)
Definition find_tre (tag : list N) (ts : list tre) : list tre :=
  filter (fun t => list_eqb (tre_tag t) tag) ts.
(** nitf_tre.py:263-271. *)
Definition find_one_tre (tag : list N) (ts : list tre) : res (option tre) :=
  match find_tre tag ts with
  | [] => Ok None
  | [t] => Ok (Some t)
  | _ => Err ERuntime
  end.
(** nitf_tre.py:273-278. *)
Definition find_exactly_one_tre (tag : list N) (ts : list tre) : res tre :=
  do o <- find_one_tre tag ts;
  match o with None => Err ERuntime | Some t => Ok t end.

(** ** Facts about the model *)

Lemma read_item_local fs lit it : forall k s inp s' rest,
  read_item FO fs lit k it (s, inp) = Ok (s', rest) ->
  exists pre, inp = pre ++ rest /\ forall y, read_item FO fs lit k it (s, pre ++ y) = Ok (s', y).
Proof.
  induction it as [f|sh its IH] using item_ind'; intros k s inp s' rest H.
  - cbn [read_item] in *. unfold read_field in *. apply bind_ok_elim in H as (c & Hc & H).
    destruct c; cbn [negb] in H.
    2: { exists []. split; [cbn; congruence|]. intro y. cbn [app]. rewrite Hc. cbn [bind negb]. congruence. }
    apply bind_ok_elim in H as (sz & Hsz & H).
    destruct ((sz <? 0)%Z || (Z.of_nat (List.length inp) <? sz)%Z) eqn:E; [discriminate|].
    exists (firstn (Z.to_nat sz) inp).
    assert (Hr : rest = skipn (Z.to_nat sz) inp).
    { destruct (fd_name (f_d f)); [|congruence]. apply bind_ok_elim in H as (v & _ & H). congruence. }
    split; [rewrite Hr; symmetry; apply firstn_skipn|]. intro y.
    assert (HL : List.length (firstn (Z.to_nat sz) inp) = Z.to_nat sz) by (apply firstn_length_le; lia).
    rewrite Hc. cbn [bind negb]. rewrite Hsz. cbn [bind].
    replace ((sz <? 0)%Z || (Z.of_nat (List.length (firstn (Z.to_nat sz) inp ++ y)) <? sz)%Z) with false
      by (rewrite app_length, HL; lia).
    rewrite firstn_app, skipn_app, HL, Nat.sub_diag. cbn [firstn skipn]. rewrite app_nil_r.
    rewrite firstn_firstn, Nat.min_id, (skipn_all2 (firstn (Z.to_nat sz) inp)) by lia. cbn [app].
    destruct (fd_name (f_d f)); [|congruence]. apply bind_ok_elim in H as (v & -> & H). cbn [bind]. congruence.
  - rewrite read_item_loop in H. cbn [fst] in H. apply bind_ok_elim in H as (n & Hn & H).
    assert (Hits : forall its', Forall (fun it => In it its) its' -> forall k s inp s' rest,
       read_items FO fs lit k its' (s, inp) = Ok (s', rest) ->
       exists pre, inp = pre ++ rest /\ forall y, read_items FO fs lit k its' (s, pre ++ y) = Ok (s', y)).
    { intros its' Hin. induction Hin as [|it its' Hi _ IHl]; intros k1 s1 i1 s2 r2 H1.
      - exists []. cbn in *. split; [congruence|]. intro y. congruence.
      - unfold read_items in *. cbn [fold_res] in *. apply bind_ok_elim in H1 as ([s3 r3] & H2 & H3).
        rewrite Forall_forall in IH. destruct (IH it Hi _ _ _ _ _ H2) as (p1 & -> & P1).
        destruct (IHl _ _ _ _ _ H3) as (p2 & -> & P2). exists (p1 ++ p2). split; [now rewrite app_assoc|].
        intro y. rewrite <- app_assoc, P1. cbn [bind]. apply P2. }
    assert (Hx : forall idx s inp s' rest,
       fold_res (fun i p => read_items FO fs lit (k ++ [i]) its p) idx (s, inp) = Ok (s', rest) ->
       exists pre, inp = pre ++ rest /\
         forall y, fold_res (fun i p => read_items FO fs lit (k ++ [i]) its p) idx (s, pre ++ y) = Ok (s', y)).
    { intro idx. induction idx as [|i idx IHx]; intros s1 i1 s2 r2 H1.
      - exists []. cbn in *. split; [congruence|]. intro y. congruence.
      - cbn [fold_res] in *. apply bind_ok_elim in H1 as ([s3 r3] & H2 & H3).
        destruct (Hits its) with (1 := proj2 (Forall_forall _ its) (fun x h => h)) (2 := H2) as (p1 & -> & P1).
        destruct (IHx _ _ _ _ H3) as (p2 & -> & P2). exists (p1 ++ p2). split; [now rewrite app_assoc|].
        intro y. rewrite <- app_assoc, P1. cbn [bind]. apply P2. }
    destruct (Hx _ _ _ _ _ H) as (pre & -> & P). exists pre. split; [reflexivity|].
    intro y. rewrite read_item_loop. cbn [fst]. rewrite Hn. cbn [bind]. apply P.
Qed.

(** A structure read depends only on the bytes consumed. *)
Lemma read_local fs lit s inp s' rest :
  read FO fs lit s inp = Ok (s', rest) ->
  exists pre, inp = pre ++ rest /\ forall y, read FO fs lit s (pre ++ y) = Ok (s', y).
Proof.
  unfold read, read_items. revert s inp. induction (fs_items fs) as [|it its IH]; intros s inp H.
  - exists []. cbn in *. split; [congruence|]. intro y. congruence.
  - cbn [fold_res] in *. apply bind_ok_elim in H as ([s3 r3] & H2 & H3).
    destruct (read_item_local _ _ _ _ _ _ _ _ H2) as (p1 & -> & P1).
    destruct (IH _ _ H3) as (p2 & -> & P2). exists (p1 ++ p2). split; [now rewrite app_assoc|].
    intro y. rewrite <- app_assoc, P1. cbn [bind]. apply P2.
Qed.

End Tre.
Arguments TObj {FO}. Arguments TUnk {FO}.
