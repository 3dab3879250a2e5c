(** The associations of the CSEXRB TRE, nitf_tre_csexrb.py:133-192. *)
From Verif Require Import Base BaseLemmas Engine DescsTre Assoc.
From Coq Require Import ZifyBool ZifyNat ZifyN.
Open Scope list_scope.

Section Csexrb.
Variable FO : FloatOps.
Notation st := (state FO).
Notation fs := (mk_fs desc_TreCSEXRB).

(** [list(self.assoc_des_id)]: the field is indexed with 0, 1, ... until IndexError
    (nitf_tre_csexrb.py:155, 176). *)
Fixpoint ex_walk (fuel : nat) (s : st) (i : Z) : res (list (pyval FO)) :=
  match fuel with
  | O => Err ERuntime
  | S fuel' => match get FO fs s "assoc_des_id" [i] with
               | Ok v => do l <- ex_walk fuel' s (i + 1); Ok (v :: l)
               | Err EIndex => Ok []
               | Err e => Err e
               end
  end.
(** The same, with as many steps as the loop has (NitfLoop.check_index, nitf_field.py:590-600,
    raises IndexError after that). *)
Definition ex_list (s : st) : res (list (pyval FO)) :=
  do v <- get FO fs s "num_assoc_des" [];
  match v with VInt n => ex_walk (S (Z.to_nat n)) s 0 | _ => Err EType end.

(** [v in l] (nitf_tre_csexrb.py:176). *)
Fixpoint py_in (v : pyval FO) (l : list (pyval FO)) : res bool :=
  match l with
  | [] => Ok false
  | x :: l' => do b <- py_eqb FO x v; if b then Ok true else py_in v l'
  end.

(** [self.num_assoc_des] (nitf_tre_csexrb.py:178-179). *)
Definition ex_count (s : st) : res Z :=
  do v <- get FO fs s "num_assoc_des" []; match v with VInt n => Ok n | _ => Err EType end.

(** nitf_tre_csexrb.py:172-179 ([add_assoc_elem_id]). *)
Definition ex_add_id (id : list N) (s : st) : st * res unit :=
  match (do l <- ex_list s; py_in (VStr id) l) with
  | Err e => (s, Err e)
  | Ok true => (s, Ok tt)
  | Ok false =>
      match ex_count s with
      | Err e => (s, Err e)
      | Ok n =>
          match set FO fs s "num_assoc_des" [] (SVal (VInt (n + 1))) with
          | (s1, Err e) => (s1, Err e)
          | (s1, Ok _) =>
              match ex_count s1 with
              | Err e => (s1, Err e)
              | Ok m => set FO fs s1 "assoc_des_id" [m - 1]%Z (SVal (VStr id))
              end
          end
      end
  end.

(** nitf_tre_csexrb.py:181-187 ([add_assoc_elem]); the object handed over is that of Assoc.v. *)
Definition ex_add_elem (e : element) (s : st) : st * res unit :=
  match element_id e with Some id => ex_add_id id s | None => (s, Err ERuntime) end.

(** A sequence of additions, stopping at the first exception (a client of
    nitf_tre_csexrb.py:172-187). *)
Inductive ex_addition := ExId (id : list N) | ExElem (e : element).
(** A client of nitf_tre_csexrb.py:172-187. *)
Definition ex_add_one (a : ex_addition) (s : st) : st * res unit :=
  match a with ExId t => ex_add_id t s | ExElem e => ex_add_elem e s end.
(** A client of nitf_tre_csexrb.py:172-187. *)
Fixpoint ex_add_all (h : list ex_addition) (s : st) : st * res unit :=
  match h with
  | [] => (s, Ok tt)
  | a :: h' => match ex_add_one a s with (s', Ok _) => ex_add_all h' s' | (s', Err e) => (s', Err e) end
  end.

(** nitf_tre_csexrb.py:189-191 ([id]). *)
Definition ex_id (s : st) : res (pyval FO) := get FO fs s "image_uuid" [].
(** nitf_tre_csexrb.py:163-170 ([generate_uuid_if_needed]); [u] is [str(uuid.uuid1())]. *)
Definition ex_generate (u : list N) (s : st) : st * res unit :=
  match (do v <- ex_id s; py_eqb FO v (VStr [])) with
  | Err e => (s, Err e)
  | Ok true => set FO fs s "image_uuid" [] (SVal (VStr u))
  | Ok false => (s, Ok tt)
  end.

(** nitf_tre_csexrb.py:146-161 ([assoc_elem]): [des] are the DESs of the file with their [id] if
    they have one.  The result is a list of DESs or [None]. *)
Definition ex_assoc {E} (s : st) (des : list (option (list N) * E)) : res (list (option E)) :=
  do asid <- (do l <- ex_list s; texts FO l);
  let res1 := fold_left (fun r (d : option (list N) * E) =>
                match fst d with Some k => if existsb (list_eqb k) asid then (k, snd d) :: r else r | None => r end) des [] in
  Ok (map (fun k => dget k res1) asid).
End Csexrb.
