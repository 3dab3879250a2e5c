(** C48: whatever was read can be listed and printed; cases; and where listing and printing go wrong. *)
From Verif Require Import Base BaseLemmas Engine Wf EngineLemmas Codec RoundTrip Rewrite Literal
  Positions Keys Deps Assign Delayed Decimal Spec P_Descs P_Diff P_FileDiffRead Listing P_Listing.
From Coq Require Import ZifyBool ZifyNat ZifyN Sorted.
Open Scope list_scope.
Ltac Zify.zify_post_hook ::= idtac.

(** Whatever bytes were read with a sound table of ordinary fields, listing and printing do not fail. *)
Theorem C48_read_partial FO ext source rows (s s' : state FO) inp rest :
  wf_rows rows = true -> legible rows = true -> forallb no_empty_loop (fs_items (mk_fs rows)) = true -> formats FO ext ->
  read FO (mk_fs rows) false s inp = Ok (s', rest) ->
  (forall nm f, lookup (mk_fs rows) nm = Some f ->
     (exists n, to_list FO (mk_fs rows) s' f = Ok n) /\ (exists l, items FO (mk_fs rows) s' f = Ok l))
  /\ (exists l, struct_items FO (mk_fs rows) s' = Ok l)
  /\ exists txt, print FO ext source (mk_fs rows) s' = Ok txt.
Proof.
  intros Hwf Hl HE HF HR. assert (L := read_legible_any FO rows s s' inp rest Hwf Hl HR).
  assert (L' : forall nm f, lookup (mk_fs rows) nm = Some f -> listable FO (mk_fs rows) s' f).
  { intros nm f E. exact (L nm f (lookup_in _ _ _ E) (lookup_name _ _ _ E)). }
  split; [|split].
  - intros nm f E. split; [exact (listable_list FO _ _ _ (L' nm f E))|exact (listable_items FO _ _ _ (L' nm f E))].
  - unfold struct_items. apply map_res_total. intros nm I. destruct (field_names_lookup rows nm I) as (f & E). rewrite E.
    destruct (listable_list FO _ _ _ (L' nm f E)) as (n & Hn). rewrite Hn. cbn [bind]. eauto.
  - apply print_total; auto.
    + intros f Hf. destruct (read_blocks FO rows false s inp s' rest Hwf HR) as (ps & bs & HP & _). exact (positions_keys FO rows s' ps f HP Hf).
    + intros f nm Hf N. exact (L nm f Hf N).
Qed.

(** The tables of all shipped classes but three are of that kind. *)
Theorem C48_shipped cls rows : In (cls, rows) shipped -> cls <> "TreCSEXRB"%string -> cls <> "TreENGRDA"%string -> cls <> "TreMTIMSA"%string ->
  wf_rows rows = true /\ legible rows = true /\ forallb no_empty_loop (fs_items (mk_fs rows)) = true.
Proof.
  intros I N1 N2 N3. split; [exact (proj1 (shipped_wf cls rows I))|].
  assert (H : forallb (fun p => legible (snd p) && forallb no_empty_loop (fs_items (mk_fs (snd p)))
      || String.eqb (fst p) "TreCSEXRB" || String.eqb (fst p) "TreENGRDA" || String.eqb (fst p) "TreMTIMSA") shipped = true)
    by (vm_compute; reflexivity).
  rewrite forallb_forall in H. specialize (H _ I). cbn [fst snd] in H. apply String.eqb_neq in N1, N2, N3.
  rewrite N1, N2, N3, !orb_false_r in H. now apply andb_true_iff in H.
Qed.

(** ** A case *)
Definition fld nm sz ty : row := RField (fdesc0 (Some nm) sz ty).
Definition case_rows : list row :=
  [fld "title"%string (SzInt 5) TStr; fld "n"%string (SzInt 1) TInt;
   RLoop (EFld "n" 0) [fld "m"%string (SzInt 1) TInt; RField (fdesc0 None (SzInt 1) TStr);
     RLoop (EFld "m" 1) [fld "x"%string (SzInt 2) TInt]];
   RField (Build_fdesc (Some "data"%string) (SzExpr (EFld "n" 0)) (TData KBytes) FrNone DfNone None false 32 false None 0 false);
   RField (Build_fdesc (Some "odd"%string) (SzInt 1) TInt FrNone DfNone (Some (ECmp CEq (EFld "n" 0) (EInt 3))) false 32 false None 0 false)].
Definition case_bytes : list N := str "Hello22-01021-99AB".
Definition case_source (e : expr) : list N := match e with EFld "n" _ => str "f.n" | _ => str "f.m[i1]" end.
Definition no_ext (f : field) (b : list N) : res (list N) := Ok b.

(** The hypotheses of the theorems above hold of it. *)
Example ex_c48_hyps : wf_rows case_rows = true /\ legible case_rows = true /\ forallb no_empty_loop (fs_items (mk_fs case_rows)) = true
  /\ formats DecF no_ext /\ is_ok (read DecF (mk_fs case_rows) false (init_state DecF) case_bytes) = true.
Proof.
  split; [vm_compute; reflexivity|]. split; [vm_compute; reflexivity|]. split; [vm_compute; reflexivity|].
  split; [split; [intros x H; discriminate H|intros f b; exists b; reflexivity]|]. vm_compute. reflexivity.
Qed.
(** The text of it, and its lists. *)
Example ex_c48_text :
  match read DecF (mk_fs case_rows) false (init_state DecF) case_bytes with
  | Ok (s, _) => print DecF no_ext case_source (mk_fs case_rows) s = Ok (str "title: Hello" ++ [10%N] ++ str "n    : 2" ++ [10%N]
      ++ str "Loop - f.n" ++ [10%N] ++ str "  m[0]: 2" ++ [10%N] ++ str "  m[1]: 1" ++ [10%N]
      ++ str "  Loop - f.m[i1]" ++ [10%N] ++ str "    x[0, 0]: 1" ++ [10%N] ++ str "    x[0, 1]: 2" ++ [10%N] ++ str "    x[1, 0]: 99" ++ [10%N]
      ++ str "data : Data length 2" ++ [10%N] ++ str "odd  : Not used" ++ [10%N])
  | Err _ => False
  end.
Proof. vm_compute. reflexivity. Qed.
(** The same put off: the rows before the loop show their defaults, the loop has its count looked up and so makes the
    read happen. *)
Example ex_c48_pending :
  match read DecF (mk_fs case_rows) false (init_state DecF) case_bytes with
  | Ok (s, _) =>
      let '(d, t) := dprint DecF no_ext case_source (mk_fs case_rows) {| ds_st := init_state DecF; ds_pending := Some (false, case_bytes) |} in
      t = Ok (str "title: " ++ [10%N] ++ str "n    : 0" ++ [10%N]
      ++ str "Loop - f.n" ++ [10%N] ++ str "  m[0]: 2" ++ [10%N] ++ str "  m[1]: 1" ++ [10%N]
      ++ str "  Loop - f.m[i1]" ++ [10%N] ++ str "    x[0, 0]: 1" ++ [10%N] ++ str "    x[0, 1]: 2" ++ [10%N] ++ str "    x[1, 0]: 99" ++ [10%N]
      ++ str "data : Data length 2" ++ [10%N] ++ str "odd  : Not used" ++ [10%N])
      /\ match ds_pending DecF d with None => True | Some _ => False end
      /\ snd (dprint DecF no_ext case_source (mk_fs case_rows) d) = print DecF no_ext case_source (mk_fs case_rows) s
  | Err _ => False
  end.
Proof. vm_compute. split; [reflexivity|]. split; [exact I|reflexivity]. Qed.
(** Its rows are as [C48_pending] asks. *)
Example ex_c48_split : exists its1 its2, fs_items (mk_fs case_rows) = its1 ++ its2 /\ List.length its1 = 2%nat
  /\ Forall quiet its1 /\ forall it its, its2 = it :: its -> loud it.
Proof.
  exists (firstn 2 (fs_items (mk_fs case_rows))), (skipn 2 (fs_items (mk_fs case_rows))). split; [now rewrite firstn_skipn|]. split; [reflexivity|]. split.
  - repeat constructor; right; reflexivity.
  - intros it its E. cbn in E. injection E as <- _. discriminate.
Qed.
Definition ints (n : nest DecF) : list (list Z) :=
  match n with
  | Node l => map (fun m => match m with Node l' => map (fun v => match v with Leaf (VInt z) => z | _ => -1 end)%Z l' | Leaf _ => [] end) l
  | Leaf _ => []
  end.
Example ex_c48_list :
  match read DecF (mk_fs case_rows) false (init_state DecF) case_bytes with
  | Ok (s, _) => match struct_items DecF (mk_fs case_rows) s with
                 | Ok l => map fst l = ["title"; "n"; "m"; "x"; "data"; "odd"]%string
                           /\ map ints (map snd (filter (fun p => String.eqb (fst p) "x") l)) = [[[1; 2]; [99]]]%Z
                 | Err _ => False
                 end
  | Err _ => False
  end.
Proof. vm_compute. split; reflexivity. Qed.

(** ** Where it goes wrong *)

(** The text of a structure whose reading was put off shows values that are not those of the file: the
    read only happens when an expression is evaluated.  (This is what [str] shows under "Raw fields:" for a
    TRE with an implementation object, nitf_tre.py:53, 88, 105-108.) *)
Definition late_rows : list row := [fld "a"%string (SzInt 3) TInt; fld "b"%string (SzInt 2) TStr].
Theorem C48_delayed_refuted : exists rows (s' : state DecF) inp t t',
  read DecF (mk_fs rows) false (init_state DecF) inp = Ok (s', [])
  /\ print DecF no_ext case_source (mk_fs rows) s' = Ok t
  /\ snd (dprint DecF no_ext case_source (mk_fs rows) {| ds_st := init_state DecF; ds_pending := Some (false, inp) |}) = Ok t'
  /\ t <> t'.
Proof.
  assert (H : match read DecF (mk_fs late_rows) false (init_state DecF) (str "042hi") with
              | Ok (s, r) => r = [] /\ print DecF no_ext case_source (mk_fs late_rows) s = Ok (str "a: 42" ++ [10%N] ++ str "b: hi" ++ [10%N])
              | Err _ => False end) by (vm_compute; split; reflexivity).
  destruct (read DecF (mk_fs late_rows) false (init_state DecF) (str "042hi")) as [[s r]|] eqn:E; [|destruct H]. destruct H as [-> H].
  exists late_rows, s, (str "042hi"), (str "a: 42" ++ [10%N] ++ str "b: hi" ++ [10%N]), (str "a: 0" ++ [10%N] ++ str "b: " ++ [10%N]).
  split; [exact E|]. split; [exact H|]. split; [vm_compute; reflexivity|]. vm_compute. discriminate.
Qed.

(** A name that stands twice in the table is listed once: what was read for the first of the two fields is
    printed, but not listed and cannot be read. *)
Definition twice_rows : list row := [fld "a"%string (SzInt 2) TInt; fld "a"%string (SzInt 2) TInt].
Definition leaf_int (n : nest DecF) : option Z := match n with Leaf (VInt z) => Some z | _ => None end.
Theorem C48_twice_refuted : exists rows (s : state DecF) l,
  read DecF (mk_fs rows) false (init_state DecF) (str "1122") = Ok (s, [])
  /\ print DecF no_ext case_source (mk_fs rows) s = Ok (str "a: 11" ++ [10%N] ++ str "a: 22" ++ [10%N])
  /\ struct_items DecF (mk_fs rows) s = Ok l /\ map (fun p => (fst p, leaf_int (snd p))) l = [("a"%string, Some 22%Z)].
Proof.
  assert (H : match read DecF (mk_fs twice_rows) false (init_state DecF) (str "1122") with
              | Ok (s, r) => r = [] /\ print DecF no_ext case_source (mk_fs twice_rows) s = Ok (str "a: 11" ++ [10%N] ++ str "a: 22" ++ [10%N])
                  /\ match struct_items DecF (mk_fs twice_rows) s with
                     | Ok l => map (fun p => (fst p, leaf_int (snd p))) l = [("a"%string, Some 22%Z)]
                     | Err _ => False end
              | Err _ => False end) by (vm_compute; repeat split; reflexivity).
  destruct (read DecF (mk_fs twice_rows) false (init_state DecF) (str "1122")) as [[s r]|] eqn:E; [|destruct H]. destruct H as (-> & H1 & H2).
  destruct (struct_items DecF (mk_fs twice_rows) s) as [l|] eqn:S; [|destruct H2]. exists twice_rows, s, l. auto.
Qed.

(** A binary number of five bytes can be read but neither listed nor printed. *)
Definition five_rows : list row :=
  [RField (Build_fdesc (Some "a"%string) (SzInt 5) (TData (KInt false)) FrNone DfNone None false 32 false None 0 false)].
Theorem C48_number_size_refuted : exists rows (s : state DecF),
  read DecF (mk_fs rows) false (init_state DecF) [1; 2; 3; 4; 5]%N = Ok (s, [])
  /\ is_ok (struct_items DecF (mk_fs rows) s) = false /\ is_ok (print DecF no_ext case_source (mk_fs rows) s) = false.
Proof.
  assert (H : match read DecF (mk_fs five_rows) false (init_state DecF) [1; 2; 3; 4; 5]%N with
              | Ok (s, r) => r = [] /\ is_ok (struct_items DecF (mk_fs five_rows) s) = false /\ is_ok (print DecF no_ext case_source (mk_fs five_rows) s) = false
              | Err _ => False end) by (vm_compute; repeat split; reflexivity).
  destruct (read DecF (mk_fs five_rows) false (init_state DecF) [1; 2; 3; 4; 5]%N) as [[s r]|] eqn:E; [|destruct H]. destruct H as (-> & H1 & H2).
  exists five_rows, s. auto.
Qed.

Print Assumptions C18_literal.
Print Assumptions C48_to_list.
Print Assumptions C48_values.
Print Assumptions C48_items.
Print Assumptions C48_struct_items.
Print Assumptions C48_print.
Print Assumptions C48_aligned.
Print Assumptions C48_read_partial.
Print Assumptions C48_shipped.
Print Assumptions C48_delayed_partial.
Print Assumptions C48_delayed_refuted.
Print Assumptions C48_twice_refuted.
Print Assumptions C48_number_size_refuted.
Print Assumptions C48_pending.
