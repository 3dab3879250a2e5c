(** Engineering data, nitf_tre_engrda.py.  Keys are taken as [str] (a [bytes] key is decoded
    first). *)
From Verif Require Import Base BaseLemmas Engine DescsTre Utf8.
From Coq Require Import ZifyBool ZifyNat ZifyN.
Open Scope list_scope.
Ltac Zify.zify_post_hook ::= idtac.

(** numpy element types named at nitf_tre_engrda.py:19-55, and any other. *)
Inductive ety := U1 | I1 | U2 | I2 | U4 | I4 | F4 | F8 | C8 | EOther.

(** A numpy array in memory: element type, whether its byte order is big-endian, shape and
    the bytes of each element in memory order. (nitf_tre_engrda.py:11-56.) *)
Record narr := { na_ty : ety; na_big : bool; na_shape : list Z; na_mem : list (list N) }.

(** What can be assigned: [str], [bytes] or an array (nitf_tre_engrda.py:11-56). *)
Inductive edata := EdStr (s : list N) | EdBytes (b : list N) | EdArr (a : narr).

(** What a lookup gives (nitf_tre_engrda.py:58-78): text, bytes, or a big-endian array of
    the kind I, S, R or C and element size, with rows, columns and elements. *)
Inductive eout := EoStr (s : list N) | EoBytes (b : list N)
  | EoArr (kind : N) (size : Z) (rows cols : Z) (elems : list (list N)).

(** Type letter and size of the element types, nitf_tre_engrda.py:19-55. *)
Definition ety_code (t : ety) : option (N * Z) :=
  match t with
  | U1 => Some (73%N, 1%Z) | I1 => Some (83%N, 1%Z)
  | U2 => Some (73%N, 2%Z) | I2 => Some (83%N, 2%Z)
  | U4 => Some (73%N, 4%Z) | I4 => Some (83%N, 4%Z)
  | F4 => Some (82%N, 4%Z) | F8 => Some (82%N, 8%Z)
  | C8 => Some (67%N, 8%Z) | EOther => None
  end.

(** [ndarray.byteswap] on one element: the bytes of a number are reversed; real and
    imaginary part of a complex number separately. (nitf_tre_engrda.py:11-56.) *)
Definition swap (t : ety) (e : list N) : list N :=
  match t with C8 => rev (firstn 4 e) ++ rev (skipn 4 e) | _ => rev e end.

(** The bytes stored, nitf_tre_engrda.py:19-55: single bytes as they are, larger elements
    through [data.byteswap(">")], which swaps whatever the byte order of the array is.
    (The argument is python's [inplace], so that the array passed in is also changed; this
    is not modelled.) *)
Definition arr_bytes (a : narr) : list N :=
  match na_ty a with
  | U1 | I1 => List.concat (na_mem a)
  | t => List.concat (map (swap t) (na_mem a))
  end.

(** [np.frombuffer(bdata, dtype)] cut into elements of [n] bytes (nitf_tre_engrda.py:76). *)
Fixpoint cut (fuel n : nat) (b : list N) : list (list N) :=
  match fuel with
  | O => []
  | S fuel' => match b with [] => [] | _ => firstn n b :: cut fuel' n (skipn n b) end
  end.

Section Engrda.
Variable FO : FloatOps.
Notation st := (state FO).
Notation fs := (mk_fs desc_TreENGRDA).

(** Statements one after the other, stopping at the first exception.
    (nitf_tre_engrda.py:134-166.) *)
Definition andthen (r : st * res unit) (k : st -> st * res unit) : st * res unit :=
  match r with (s, Ok _) => k s | (s, Err e) => (s, Err e) end.
Notation "r >> k" := (andthen r k) (at level 60, right associativity).

(** [self.nm[i] = v]. (nitf_tre_engrda.py:134-166.) *)
Definition eset (nm : string) (i : Z) (v : pyval FO) (s : st) : st * res unit := set FO fs s nm [i] (SVal v).
(** [self.nm[i]] as integer / text. (nitf_tre_engrda.py:58-78, 174-181.) *)
Definition eint (s : st) (nm : string) (i : Z) : res Z :=
  do v <- get FO fs s nm [i]; match v with VInt z => Ok z | _ => Err EType end.
(** nitf_tre_engrda.py:58-78, 174-181. *)
Definition estr (s : st) (nm : string) (i : Z) : res (list N) :=
  do v <- get FO fs s nm [i]; match v with VStr t => Ok t | _ => Err EType end.
(** [self.recnt]. (nitf_tre_engrda.py:145, 171-172.) *)
Definition recnt (s : st) : res Z :=
  do v <- get FO fs s "recnt" []; match v with VInt z => Ok z | _ => Err EType end.

(** nitf_tre_engrda.py:8-56 ([ENGRDAFieldData.pack]): [engtyp] and [engdts] are set on the
    way.  bytearray is not modelled. *)
Definition epack (i : Z) (d : edata) (s : st) : st * res (list N) :=
  let put c n b := match eset "engtyp" i (VStr [c]) s >> eset "engdts" i (VInt n) with
                   | (s', Ok _) => (s', Ok b)
                   | (s', Err e) => (s', Err e)
                   end in
  match d with
  | EdStr t => match utf8_enc t with
               | Some b => put 65%N 1%Z b
               | None => match eset "engtyp" i (VStr [65%N]) s >> eset "engdts" i (VInt 1%Z) with
                         | (s', Ok _) => (s', Err EValue) | (s', Err e) => (s', Err e) end
               end
  | EdBytes b => put 66%N 1%Z b
  | EdArr a => match ety_code (na_ty a) with
               | Some (c, n) => put c n (arr_bytes a)
               | None => (s, Err ERuntime)
               end
  end.

(** [self.engdata[i] = data]: [FieldData.__setitem__] (nitf_field.py:424-428) with this
    pack. *)
Definition set_data (i : Z) (d : edata) (s : st) : st * res unit :=
  match lookup fs "engdata" with
  | None => (s, Err EAttr)
  | Some f =>
      match epack i d s with
      | (s1, Err e) => (s1, Err e)
      | (s1, Ok b) => set_base FO (setf FO (List.length (fs_fields fs)) fs) fs s1 f [i] (SVal (VBytes b))
      end
  end.

(** Element sizes numpy has for a kind letter (nitf_tre_engrda.py:66-75). *)
Definition np_size_ok (kind : N) (n : Z) : bool :=
  if (kind =? 73)%N || (kind =? 83)%N then ((n =? 1) || (n =? 2) || (n =? 4) || (n =? 8))%Z
  else if (kind =? 82)%N then ((n =? 2) || (n =? 4) || (n =? 8))%Z
  else (n =? 8)%Z.

(** nitf_tre_engrda.py:58-78 ([unpack]).  [reshape] with a negative count is taken as an
    error. *)
Definition eunpack (s : st) (i : Z) (b : list N) : res eout :=
  do typ <- estr s "engtyp" i;
  do dts <- eint s "engdts" i;
  if list_eqb typ [65%N] && (dts =? 1)%Z then
    match utf8_dec b with Some t => Ok (EoStr t) | None => Err EValue end
  else if list_eqb typ [66%N] && (dts =? 1)%Z then Ok (EoBytes b)
  else match typ with
       | [c] =>
           if (c =? 73)%N || (c =? 83)%N || (c =? 82)%N || (c =? 67)%N then
             if negb (np_size_ok c dts) then Err EType
             else
               let n := Z.of_nat (List.length b) in
               if negb (n mod dts =? 0)%Z then Err EValue
               else
                 do r <- eint s "engmtxr" i; do cc <- eint s "engmtxc" i;
                 if (r <? 0)%Z || (cc <? 0)%Z || negb (r * cc =? n / dts)%Z then Err EValue
                 else Ok (EoArr c dts r cc (cut (List.length b) (Z.to_nat dts) b))
           else Err ERuntime
       | _ => Err ERuntime
       end.

(** [self.engdata[i]] (nitf_field.py:418-422). *)
Definition get_data (s : st) (i : Z) : res eout :=
  do v <- get FO fs s "engdata" [i];
  match v with VBytes b => eunpack s i b | _ => Err EType end.

(** nitf_tre_engrda.py:145-148: the last record with this label, [-1] if there is none. *)
Fixpoint find_last (s : st) (key : list N) (is : list Z) (acc : Z) : res Z :=
  match is with
  | [] => Ok acc
  | i :: is' => do l <- estr s "englbl" i; find_last s key is' (if list_eqb l key then i else acc)
  end.

(** [len(data)], number of columns and rows, nitf_tre_engrda.py:154-165. *)
Definition shape_of (d : edata) : res (Z * Z) :=
  match d with
  | EdStr t => Ok (Z.of_nat (List.length t), 1%Z)
  | EdBytes b => Ok (Z.of_nat (List.length b), 1%Z)
  | EdArr a => match na_shape a with
               | [n] => Ok (n, 1%Z)
               | [r; c] => Ok (c, r)
               | _ => Err ERuntime
               end
  end.

(** nitf_tre_engrda.py:134-166 ([add_or_update]). *)
Definition add_or_update (key : list N) (d : edata) (units : list N) (s : st) : st * res unit :=
  match (do n <- recnt s; do i <- find_last s key (zrange n) (-1); Ok (n, i)) with
  | Err e => (s, Err e)
  | Ok (n, i0) =>
      (if (i0 =? -1)%Z then set FO fs s "recnt" [] (SVal (VInt (n + 1))) else (s, Ok tt)) >> fun s1 =>
      let i := if (i0 =? -1)%Z then n else i0 in
      eset "englbl" i (VStr key) s1 >> fun s2 =>
      eset "engdatu" i (VStr units) s2 >> fun s3 =>
      match shape_of d with
      | Err e => (s3, Err e)
      | Ok (c, r) =>
          eset "engmtxc" i (VInt c) s3 >> fun s4 =>
          eset "engmtxr" i (VInt r) s4 >> fun s5 =>
          set_data i d s5
      end
  end.

(** nitf_tre_engrda.py:174-181 ([__getitem__]): the first record with this label. *)
Fixpoint find_first (s : st) (key : list N) (is : list Z) : res (eout * list N) :=
  match is with
  | [] => Err EKey
  | i :: is' =>
      do l <- estr s "englbl" i;
      if list_eqb l key then do d <- get_data s i; do u <- estr s "engdatu" i; Ok (d, u)
      else find_first s key is'
  end.
(** nitf_tre_engrda.py:174-181. *)
Definition getitem (s : st) (key : list N) : res (eout * list N) :=
  do n <- recnt s; find_first s key (zrange n).

(** nitf_tre_engrda.py:171-172 ([__len__]). *)
Definition elen (s : st) : res Z := recnt s.

(** The labels of the records in order (what [__iter__], nitf_tre_engrda.py:191-192, is
    meant to go through; it raises NameError in the code). *)
Fixpoint elabels (s : st) (is : list Z) : res (list (list N)) :=
  match is with
  | [] => Ok []
  | i :: is' => do l <- estr s "englbl" i; do ls <- elabels s is'; Ok (l :: ls)
  end.
(** nitf_tre_engrda.py:191-192. *)
Definition labels (s : st) : res (list (list N)) := do n <- recnt s; elabels s (zrange n).

(** A sequence of assignments [self[key] = (data, units)] (nitf_tre_engrda.py:183-186). *)
Fixpoint assign_all (h : list (list N * edata * list N)) (s : st) : st * res unit :=
  match h with
  | [] => (s, Ok tt)
  | (k, d, u) :: h' => add_or_update k d u s >> assign_all h'
  end.
End Engrda.
