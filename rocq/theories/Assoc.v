(** The user subheader shared by associated DESs, nitf_des_associated_user_subheader.py. *)
From Verif Require Import Base BaseLemmas Engine DescsHdr.
From Coq Require Import ZifyBool ZifyNat ZifyN.
Open Scope list_scope.

Section Assoc.
Variable FO : FloatOps.
Notation st := (state FO).
Notation fs := (mk_fs desc_DesAssociatedUserSubheader).

(** [int(self.user_subheader.numais)] (nitf_des_associated_user_subheader.py:54). *)
Definition numais (s : st) : res Z := do v <- get FO fs s "numais" []; conv_int FO v.
(** [self.user_subheader.num_assoc_elem] (nitf_des_associated_user_subheader.py:64). *)
Definition nassoc (s : st) : res Z :=
  do v <- get FO fs s "num_assoc_elem" []; match v with VInt z => Ok z | _ => Err EType end.

(** [for i in range(n): if(self.user_subheader.nm[i] == v): return]
    (nitf_des_associated_user_subheader.py:54-56, 64-66): whether [v] is there. *)
Fixpoint present (s : st) (nm : string) (v : pyval FO) (is : list Z) : res bool :=
  match is with
  | [] => Ok false
  | i :: is' => do x <- get FO fs s nm [i]; do b <- py_eqb FO x v; if b then Ok true else present s nm v is'
  end.

(** nitf_des_associated_user_subheader.py:50-58 ([_add_display_level]). *)
Definition add_display_level (lvl : Z) (s : st) : st * res unit :=
  match (do n <- numais s; do p <- present s "aisdlvl" (VInt lvl) (zrange n); Ok (n, p)) with
  | Err e => (s, Err e)
  | Ok (_, true) => (s, Ok tt)
  | Ok (n, false) =>
      match set FO fs s "numais" [] (SVal (VStr (fmt_d (dfmt_zero 3) (n + 1)))) with
      | (s1, Err e) => (s1, Err e)
      | (s1, Ok _) =>
          match numais s1 with
          | Err e => (s1, Err e)
          | Ok m => set FO fs s1 "aisdlvl" [m - 1]%Z (SVal (VInt lvl))
          end
      end
  end.

(** nitf_des_associated_user_subheader.py:60-68 ([_add_assoc_elem_id]). *)
Definition add_assoc_elem_id (id : list N) (s : st) : st * res unit :=
  match (do n <- nassoc s; do p <- present s "assoc_elem_id" (VStr id) (zrange n); Ok (n, p)) with
  | Err e => (s, Err e)
  | Ok (_, true) => (s, Ok tt)
  | Ok (n, false) =>
      match set FO fs s "num_assoc_elem" [] (SVal (VInt (n + 1))) with
      | (s1, Err e) => (s1, Err e)
      | (s1, Ok _) =>
          match nassoc s1 with
          | Err e => (s1, Err e)
          | Ok m => set FO fs s1 "assoc_elem_id" [m - 1]%Z (SVal (VStr id))
          end
      end
  end.

(** [list(self.user_subheader.nm)]: the field is indexed with 0, 1, ... until IndexError.
    (nitf_des_associated_user_subheader.py:35-39.) *)
Fixpoint walk (fuel : nat) (s : st) (nm : string) (i : Z) : res (list (pyval FO)) :=
  match fuel with
  | O => Err ERuntime
  | S fuel' => match get FO fs s nm [i] with
               | Ok v => do l <- walk fuel' s nm (i + 1); Ok (v :: l)
               | Err EIndex => Ok []
               | Err e => Err e
               end
  end.
(** The same, with as many steps as the loop has (NitfLoop.check_index,
    nitf_field.py:590-600, raises IndexError after that). *)
Definition seq_list (s : st) (nm : string) : res (list (pyval FO)) :=
  match lookup fs nm with
  | None => Err EAttr
  | Some f => match f_loops f with
              | [sh] => do n <- eval_shape FO (G FO fs s) fs [] sh; walk (S (Z.to_nat n)) s nm 0
              | _ => Err EType
              end
  end.
(** Values of an integer / a text field. (nitf_des_associated_user_subheader.py:35-39.) *)
Fixpoint ints (l : list (pyval FO)) : res (list Z) :=
  match l with [] => Ok [] | VInt z :: l' => do r <- ints l'; Ok (z :: r) | _ => Err EType end.
(** nitf_des_associated_user_subheader.py:35-39. *)
Fixpoint texts (l : list (pyval FO)) : res (list (list N)) :=
  match l with [] => Ok [] | VStr t :: l' => do r <- texts l'; Ok (t :: r) | _ => Err EType end.
(** nitf_des_associated_user_subheader.py:35-39 ([_aisdlvl], [_assoc_elem_id]). *)
Definition aisdlvl (s : st) : res (list Z) := do l <- seq_list s "aisdlvl"; ints l.
(** nitf_des_associated_user_subheader.py:38-39. *)
Definition assoc_elem_id (s : st) : res (list (list N)) := do l <- seq_list s "assoc_elem_id"; texts l.

(** An object handed to [_add_assoc_elem]: without [id], or with its [id] and, if it has
    [generate_uuid_if_needed], the UUID that would be generated.
    (nitf_des_associated_user_subheader.py:41-48, 70-76.) *)
Inductive element := NoId | WithId (id : list N) (gen : option (list N)).
(** The [id] after [generate_uuid_if_needed] (nitf_des_associated_user_subheader.py:41-48). *)
Definition element_id (e : element) : option (list N) :=
  match e with
  | NoId => None
  | WithId [] (Some u) => Some u
  | WithId id _ => Some id
  end.
(** nitf_des_associated_user_subheader.py:70-76 ([_add_assoc_elem]). *)
Definition add_assoc_elem (e : element) (s : st) : st * res unit :=
  match element_id e with Some id => add_assoc_elem_id id s | None => (s, Err ERuntime) end.

(** A sequence of additions, stopping at the first exception.
    (a client of nitf_des_associated_user_subheader.py:50-76.) *)
Inductive addition := AddLevel (lvl : Z) | AddId (id : list N) | AddElem (e : element).
(** A client of nitf_des_associated_user_subheader.py:50-76. *)
Definition add_one (a : addition) (s : st) : st * res unit :=
  match a with AddLevel z => add_display_level z s | AddId t => add_assoc_elem_id t s | AddElem e => add_assoc_elem e s end.
(** A client of nitf_des_associated_user_subheader.py:50-76. *)
Fixpoint add_all (h : list addition) (s : st) : st * res unit :=
  match h with
  | [] => (s, Ok tt)
  | a :: h' => match add_one a s with (s', Ok _) => add_all h' s' | (s', Err e) => (s', Err e) end
  end.
End Assoc.

(** A python dict from texts, last assignment first.
    (nitf_des_associated_user_subheader.py:78-97.) *)
Definition dget {E} (k : list N) (d : list (list N * E)) : option E :=
  match find (fun p => list_eqb (fst p) k) d with Some p => Some (snd p) | None => None end.
(** nitf_des_associated_user_subheader.py:78-97 ([_assoc_elem]): [des] are the DESs of the
    file with their [id] if they have one, [tres] the CSEXRB TREs of its images with their
    [image_uuid]. *)
Definition assoc_elem {E} (asid : list (list N)) (des : list (option (list N) * E)) (tres : list (list N * E)) : list (option E) :=
  let isin k := existsb (list_eqb k) asid in
  let res1 := fold_left (fun r (d : option (list N) * E) =>
                match fst d with Some k => if isin k then (k, snd d) :: r else r | None => r end) des [] in
  let res2 := fold_left (fun r (t : list N * E) => if isin (fst t) then (fst t, snd t) :: r else r) tres res1 in
  map (fun k => dget k res2) asid.
