(** Comparing two structures field by field (nitf_field.py:953-1066, 140-143, 647-660). *)
From Verif Require Import Base Engine.
Open Scope list_scope.

(** What the comparison asks of floating point numbers: [x == y], [x == n] for an int, and
    [math.isclose(x, y, rel_tol=.., abs_tol=..)] (nitf_field.py:1015-1019); [None] stands for
    the defaults 1e-9 and 0.0, an error for the ValueError of a negative tolerance. *)
Record CmpOps (FO : FloatOps) := {
  fl_eq : fl FO -> fl FO -> bool;
  fl_eq_Z : fl FO -> Z -> bool;
  fl_close : option (fl FO) -> option (fl FO) -> fl FO -> fl FO -> res bool;
}.
Arguments fl_eq {FO}. Arguments fl_eq_Z {FO}. Arguments fl_close {FO}.

Section Diff.
Variable FO : FloatOps.
Variable CO : CmpOps FO.
Notation pyval := (pyval FO).
Notation state := (state FO).

(** [operator.eq] on values of fields (nitf_field.py:1019). *)
Definition py_eq (a b : pyval) : bool :=
  let num v := match v with VInt z => Some z | VBool b => Some (if b then 1 else 0)%Z | _ => None end in
  match a, b with
  | VNone, VNone => true
  | VStr s, VStr t => list_eqb s t
  | VBytes s, VBytes t => list_eqb s t
  | VFloat x, VFloat y => fl_eq CO x y
  | VFloat x, v | v, VFloat x => match num v with Some z => fl_eq_Z CO x z | None => false end
  | _, _ => match num a, num b with Some x, Some y => (x =? y)%Z | _, _ => false end
  end.

(** The configuration (nitf_field.py:965-974, 1005-1007, 1042-1044), each entry possibly
    absent, which is the same as empty.  [eq_fun] holds python functions; they are taken to
    be functions of the two values. *)
Record config := {
  c_exclude : list string;
  c_warn : list string;
  c_include : list string;
  c_eq : string -> option (pyval -> pyval -> res bool);
  c_rel : string -> option (fl FO);
  c_abs : string -> option (fl FO);
}.
(** nitf_field.py:984-988: no configuration. *)
Definition no_config : config :=
  {| c_exclude := []; c_warn := []; c_include := []; c_eq := fun _ => None; c_rel := fun _ => None; c_abs := fun _ => None |}.

(** nitf_field.py:1010-1016.  [isclose] takes an int as a float and refuses the rest. *)
Definition close_fun (c : config) (nm : string) (a b : pyval) : res bool :=
  let flt v := match v with VFloat _ | VInt _ | VBool _ => conv_float FO v | _ => Err EType end in
  match a, b with
  | VNone, VNone => Ok true
  | VNone, _ | _, VNone => Ok false
  | _, _ => do x <- flt a; do y <- flt b; fl_close CO (c_rel c nm) (c_abs c nm) x y
  end.
(** nitf_field.py:1003-1020 ([_cmp_func]); [isf] is the test of 1008-1009. *)
Definition cmp_fun (c : config) (nm : string) (isf : bool) : pyval -> pyval -> res bool :=
  match c_eq c nm with
  | Some f => f
  | None => if isf then close_fun c nm else fun a b => Ok (py_eq a b)
  end.

(** The keys of [self.field], an OrderedDict (nitf_field.py:569-570): in the order of the
    first row with each name. *)
Definition dict_names (fs : fstruct) : list string :=
  fold_left (fun acc f => match fd_name (f_d f) with
                          | Some nm => if existsb (String.eqb nm) acc then acc else acc ++ [nm]
                          | None => acc end) (fs_fields fs) [].

(** [getattr(self, nm)] (nitf_field.py:835-847): a looped field is returned as such. *)
Inductive attr := AVal (v : pyval) | AFld (f : field).
(** nitf_field.py:835-847. *)
Definition getattr (fs : fstruct) (s : state) (nm : string) : res attr :=
  match lookup fs nm with
  | None => Err EAttr
  | Some f => match f_loops f with
              | [] => do v <- fget FO fs s f []; Ok (AVal v)
              | _ :: _ => Ok (AFld f)
              end
  end.

(** [except IndexError: return False] (nitf_field.py:659-660). *)
Definition no_index (r : res bool) : res bool := match r with Err EIndex => Ok false | _ => r end.
(** [for ..: if not ..: return False / return True] (nitf_field.py:655-658). *)
Fixpoint all_res {A} (p : A -> res bool) (l : list A) : res bool :=
  match l with
  | [] => Ok true
  | a :: l' => do b <- p a; if b then all_res p l' else Ok false
  end.

Section Two.
Variables (fs1 fs2 : fstruct) (s1 s2 : state).

(** nitf_field.py:647-660 for loops with the same number of dimensions (at least one),
    the first [length lead] of which are fixed; [NitfLoop.shape] (nitf_field.py:573-581)
    evaluates the count of the loop at that position. *)
Fixpoint shape_equal_from (lead : list Z) (shs1 shs2 : list expr) : res bool :=
  match shs1, shs2 with
  | [e1], [e2] => no_index (do n1 <- eval_shape FO (G FO fs1 s1) fs1 lead e1;
                            do n2 <- eval_shape FO (G FO fs2 s2) fs2 lead e2; Ok (n1 =? n2)%Z)
  | e1 :: shs1', _ :: shs2' =>
      no_index (do n1 <- eval_shape FO (G FO fs1 s1) fs1 lead e1;
                all_res (fun i => shape_equal_from (lead ++ [i]) shs1' shs2') (zrange n1))
  | _, _ => Ok false
  end.
(** nitf_field.py:139-143, 647-660. *)
Definition shape_equal (f1 f2 : field) : res bool :=
  if Nat.eqb (depth f1) (depth f2) then shape_equal_from [] (f_loops f1) (f_loops f2) else Ok false.

(** The loop of nitf_field.py:1027-1035: the number of differences.  Where the first runs out
    of values before the second the fill value [None] cannot be unpacked (TypeError). *)
Fixpoint count_diff (f1 f2 : field) (cmp : pyval -> pyval -> res bool) (ks1 ks2 : list (list Z)) : res nat :=
  match ks1, ks2 with
  | [], [] => Ok O
  | [], _ :: _ => Err EType
  | k1 :: ks1', _ =>
      do a <- fget FO fs1 s1 f1 k1;
      do b <- match ks2 with [] => Ok VNone | k2 :: _ => fget FO fs2 s2 f2 k2 end;
      do r <- cmp a b;
      do n <- count_diff f1 f2 cmp ks1' (tl ks2);
      Ok (if r then n else S n)
  end.

(** nitf_field.py:1022-1038: whether a difference is to be reported.  The indices are made
    before the loop instead of one by one; that can only change which exception is raised. *)
Definition cmp_field (f1 f2 : field) (cmp : pyval -> pyval -> res bool) : res bool :=
  do sh <- shape_equal f1 f2;
  if sh then
    do ks1 <- field_keys FO fs1 s1 f1;
    do ks2 <- field_keys FO fs2 s2 f2;
    do n <- count_diff f1 f2 cmp ks1 ks2;
    Ok (match n with O => false | S _ => true end)
  else Ok true.

(** nitf_field.py:1061-1065: whether a difference is to be reported.  A looped field against
    a value has no [.loop] (AttributeError); a value against a looped field is different, or
    refused by [isclose] and (taken) by the configured functions. *)
Definition differs (c : config) (nm : string) (a b : attr) : res bool :=
  match a, b with
  | AVal v, AVal w => do r <- cmp_fun c nm (match v with VFloat _ => true | _ => false end) v w; Ok (negb r)
  | AFld f, AFld g => cmp_field f g (cmp_fun c nm (match fd_ty (f_d f) with TFloat => true | _ => false end))
  | AFld _, AVal _ => Err EAttr
  | AVal v, AFld _ => match c_eq c nm, v with None, VFloat _ => Err EType | Some _, _ => Err EType | None, _ => Ok true end
  end.

(** What is logged: a difference, an ignored difference, or the end of the comparison where
    the names differ (nitf_field.py:989-993, 1051). *)
Inductive report := RDiff (nm : string) | RIgnored (nm : string) | RStop (nm1 nm2 : string).

(** One end of [zip_longest(.., fillvalue=("No_field", None))] (nitf_field.py:1046-1049). *)
Definition next_item (fs : fstruct) (s : state) (l : list string) : res (string * attr) :=
  match l with
  | [] => Ok ("No_field"%string, AVal VNone)
  | nm :: _ => do a <- getattr fs s nm; Ok (nm, a)
  end.

(** nitf_field.py:1053-1056. *)
Definition skipped (c : config) (nm : string) : bool :=
  existsb (String.eqb nm) (c_exclude c)
  || match c_include c with [] => false | _ => negb (existsb (String.eqb nm) (c_include c)) end.

(** nitf_field.py:1046-1066, [n] steps; the result is [self.is_same] and the log. *)
Fixpoint compare_from (n : nat) (c : config) (ns1 ns2 : list string) : res (bool * list report) :=
  match n with
  | O => Ok (true, [])
  | S n' =>
      do p <- next_item fs1 s1 ns1;
      do q <- next_item fs2 s2 ns2;
      if negb (String.eqb (fst p) (fst q)) then Ok (false, [RStop (fst p) (fst q)])
      else
        let rest := compare_from n' c (tl ns1) (tl ns2) in
        if skipped c (fst p) then rest
        else
          do d <- differs c (fst p) (snd p) (snd q);
          do r <- rest;
          if d then if existsb (String.eqb (fst p)) (c_warn c) then Ok (fst r, RIgnored (fst p) :: snd r)
                    else Ok (false, RDiff (fst p) :: snd r)
          else Ok r
  end.
(** nitf_field.py:1040-1066 ([compare_obj]). *)
Definition compare (c : config) : res (bool * list report) :=
  compare_from (Nat.max (List.length (dict_names fs1)) (List.length (dict_names fs2))) c (dict_names fs1) (dict_names fs2).
End Two.
End Diff.
