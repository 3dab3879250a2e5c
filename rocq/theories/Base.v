(** Python values, byte strings and decimal text used by every model file.
    [str] and [bytes] are both lists of code points; the latin-1 codec
    (pynitf/nitf_field.py:18) maps code points 0..255 to bytes unchanged. *)
From Coq Require Export List NArith ZArith Bool Ascii String Lia.
Export ListNotations.
Open Scope list_scope.

(** Exceptions, by the python class that is raised (as far as the code distinguishes them).
    (exceptions raised or passed on in nitf_field.py:182-396, 590-600, 835-863.) *)
Inductive exn :=
| ERuntime      (* RuntimeError / bare Exception raised by the library *)
| EIndex        (* IndexError *)
| EKey          (* KeyError *)
| EType         (* TypeError *)
| EValue        (* ValueError, UnicodeEncodeError *)
| EAttr         (* AttributeError *)
| ESyntax       (* SyntaxError from exec *)
| EStruct       (* struct.error, OverflowError from to_bytes *)
| ENotImpl      (* NotImplementedError *)
| ERecursion.   (* RecursionError *)

(** Return or raise, statement by statement, as in nitf_field.py:249-396. *)
Inductive res (A : Type) :=
| Ok (a : A)
| Err (e : exn).
Arguments Ok {A} a.
Arguments Err {A} e.

(** Return or raise, statement by statement, as in nitf_field.py:249-396. *)
Definition bind {A B} (r : res A) (f : A -> res B) : res B :=
  match r with Ok a => f a | Err e => Err e end.
Notation "'do' x <- r ; k" := (bind r (fun x => k))
  (at level 200, x pattern, r at level 100, k at level 200).

(** Whether a call returned, nitf_field.py:257-280. *)
Definition is_ok {A} (r : res A) : bool := match r with Ok _ => true | Err _ => false end.

(** Literals of nitf_field.py:187-201, 327. *)
Definition byte_str := list N.

(** A Coq string literal as code points (used to write constants readably).
    (literals of nitf_field.py:187-201, 327.) *)
Fixpoint str (s : string) : list N :=
  match s with
  | EmptyString => []
  | String c s' => N_of_ascii c :: str s'
  end.

(** Every element is a byte. (python [bytes], nitf_field.py:335, 371.) *)
Definition all_bytes (l : list N) : bool := forallb (fun c => (c <? 256)%N) l.

(** [str.encode("latin-1")]: code points above 255 raise UnicodeEncodeError.
    (nitf_field.py:268, 337.) *)
Definition encode_latin1 (s : list N) : res byte_str :=
  if all_bytes s then Ok s else Err EValue.

(** White space removed by [bytes.rstrip()] (no argument).
    ([bytes.rstrip()], nitf_field.py:385, 391.) *)
Definition ws_byte (c : N) : bool := ((9 <=? c) && (c <=? 13) || (c =? 32))%N.

(** White space removed by [str.rstrip()] (no argument): [str.isspace].
    ([str.rstrip()], nitf_field.py:272-273.) *)
Definition ws_str (c : N) : bool :=
  ((9 <=? c) && (c <=? 13) || (28 <=? c) && (c <=? 32) || (c =? 133) || (c =? 160)
   || (c =? 5760) || (8192 <=? c) && (c <=? 8202) || (c =? 8232) || (c =? 8233)
   || (c =? 8239) || (c =? 8287) || (c =? 12288))%N.

(** Remove the longest prefix / suffix of elements satisfying [p].
    (int() and float() of nitf_field.py:275, 394 skip leading blanks.) *)
Fixpoint lstrip_by (p : N -> bool) (l : list N) : list N :=
  match l with
  | [] => []
  | c :: l' => if p c then lstrip_by p l' else l
  end.
(** [rstrip], nitf_field.py:268, 272-273, 382, 385, 391. *)
Fixpoint rstrip_by (p : N -> bool) (l : list N) : list N :=
  match l with
  | [] => []
  | c :: l' => match rstrip_by p l' with
               | [] => if p c then [] else [c]
               | r => c :: r
               end
  end.

(** nitf_field.py:187, 193, 319, 327. *)
Definition spaces (n : nat) : list N := repeat 32%N n.

(** [s.ljust(n)] / ["{:ns}".format(s)]: pad on the right with spaces, never truncate.
    (nitf_field.py:187, 193, 319, 327.) *)
Definition ljust (n : nat) (s : list N) : list N := s ++ spaces (n - List.length s).

(** ** Decimal text *)

(** "%d" and int(), nitf_field.py:191, 198, 275, 394. *)
Fixpoint dig_aux (fuel : nat) (n : N) (acc : list N) : list N :=
  match fuel with
  | O => acc
  | S f => let acc' := (48 + n mod 10)%N :: acc in
           if (n / 10 =? 0)%N then acc' else dig_aux f (n / 10)%N acc'
  end.
(** Decimal digits of a natural number, no leading zero ("0" for zero).
    ("%d" and int(), nitf_field.py:191, 198, 275, 394.) *)
Definition digits (n : N) : list N := dig_aux (S (N.size_nat n)) n [].

(** "%d" and int(), nitf_field.py:191, 198, 275, 394. *)
Definition is_digit (c : N) : bool := ((48 <=? c) && (c <=? 57))%N.

(** "%d" and int(), nitf_field.py:191, 198, 275, 394. *)
Definition digits_val (l : list N) : N := fold_left (fun a c => (a * 10 + (c - 48))%N) l 0%N.

(** [str(z)] / ["%d" % z]. ("%d" and int(), nitf_field.py:191, 198, 275, 394.) *)
Definition str_of_Z (z : Z) : list N :=
  (if (z <? 0)%Z then [45%N] else []) ++ digits (Z.abs_N z).

(** The printf flags used in the tables' integer formats.
    (the formats of nitf_field.py:191, 195-198.) *)
Record dfmt := { df_plus : bool; df_zero : bool; df_left : bool; df_width : nat }.

(** ["%<flags><width>d" % z]. (the formats of nitf_field.py:191, 195-198.) *)
Definition fmt_d (f : dfmt) (z : Z) : list N :=
  let sign := if (z <? 0)%Z then [45%N] else if df_plus f then [43%N] else [] in
  let ds := digits (Z.abs_N z) in
  let pad := (df_width f - (List.length sign + List.length ds))%nat in
  if df_left f then sign ++ ds ++ spaces pad
  else if df_zero f then sign ++ repeat 48%N pad ++ ds
  else spaces pad ++ sign ++ ds.

(** The default integer format ["%0<sz>d"] (nitf_field.py:189-191). *)
Definition dfmt_zero (w : nat) : dfmt :=
  {| df_plus := false; df_zero := true; df_left := false; df_width := w |}.

(** Digits with single underscores allowed between digits, as accepted by [int()].
    ([self.ty(v)] for int, nitf_field.py:275, 394.) *)
Fixpoint parse_digits_us (l : list N) (acc : N) (prev_digit : bool) : option N :=
  match l with
  | [] => if prev_digit then Some acc else None
  | c :: l' =>
      if is_digit c then parse_digits_us l' (acc * 10 + (c - 48))%N true
      else if (c =? 95)%N && prev_digit then
             match l' with
             | c' :: _ => if is_digit c' then parse_digits_us l' acc false else None
             | [] => None
             end
           else None
  end.

(** [int(s)] for [bytes] (with [ws_byte]) or [str] (with [ws_str]): strip white space,
    optional sign, digits.  Non-ASCII digits, which [int(str)] also accepts, are not
    modelled (treated as an error). ([self.ty(v)] for int, nitf_field.py:275, 394.) *)
Definition parse_int (ws : N -> bool) (l : list N) : option Z :=
  match rstrip_by ws (lstrip_by ws l) with
  | 43%N :: l' => option_map Z.of_N (parse_digits_us l' 0 false)
  | 45%N :: l' => option_map (fun n => - Z.of_N n)%Z (parse_digits_us l' 0 false)
  | l' => option_map Z.of_N (parse_digits_us l' 0 false)
  end.

(** ** Big-endian integers *)

(** Big-endian value of a byte string. (struct and int.from_bytes, nitf_field.py:484-528.) *)
Definition be_val (l : list N) : N := fold_left (fun a c => (a * 256 + c)%N) l 0%N.
(** [n] as [k] big-endian bytes (low-order bytes if it does not fit).
    (struct and int.from_bytes, nitf_field.py:484-528.) *)
Fixpoint be_bytes (k : nat) (n : N) : list N :=
  match k with
  | O => []
  | S k' => be_bytes k' (n / 256)%N ++ [(n mod 256)%N]
  end.

(** List equality and membership on code points. ([==] of bytes, nitf_field.py:268, 382.) *)
Fixpoint list_eqb (a b : list N) : bool :=
  match a, b with
  | [], [] => true
  | x :: a', y :: b' => (x =? y)%N && list_eqb a' b'
  | _, _ => false
  end.

(** Tuples as dictionary keys, nitf_field.py:101-104, 234-239. *)
Fixpoint keyeqb (a b : list Z) : bool :=
  match a, b with
  | [], [] => true
  | x :: a', y :: b' => (x =? y)%Z && keyeqb a' b'
  | _, _ => false
  end.

(** [range(n)] as Z. ([range(self.shape(lead))], nitf_field.py:607.) *)
Definition zrange (n : Z) : list Z := map Z.of_nat (seq 0 (Z.to_nat n)).
