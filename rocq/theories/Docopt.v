(** Command line options as attributes, docopt_simple.py.  The package docopt, which makes the
    dictionary of options, is not modelled: the dictionary is arbitrary. *)
From Verif Require Import Base Engine Decimal.
From Coq Require Import ZifyBool ZifyNat ZifyN.
Open Scope list_scope.

(** ** The patterns of docopt_simple.py:56-61 *)

(** Regular expressions built from sets of characters; [re.match] with [$] at the end of the pattern
    (docopt_simple.py:56-61). *)
Inductive regex :=
| XNone | XEps | XSet (p : N -> bool) | XCat (r s : regex) | XAlt (r s : regex) | XStar (r : regex).
(** [r?] and [r+] (docopt_simple.py:56-61). *)
Definition x_opt (r : regex) : regex := XAlt r XEps.
(** docopt_simple.py:56-61. *)
Definition x_plus (r : regex) : regex := XCat r (XStar r).

(** The standard library's matcher decides membership; here by derivatives instead of backtracking
    (docopt_simple.py:56-61). *)
Fixpoint nullable (r : regex) : bool :=
  match r with
  | XNone | XSet _ => false
  | XEps | XStar _ => true
  | XCat r s => nullable r && nullable s
  | XAlt r s => nullable r || nullable s
  end.
(** docopt_simple.py:56-61. *)
Fixpoint deriv (c : N) (r : regex) : regex :=
  match r with
  | XNone | XEps => XNone
  | XSet p => if p c then XEps else XNone
  | XCat r s => let d := XCat (deriv c r) s in if nullable r then XAlt d (deriv c s) else d
  | XAlt r s => XAlt (deriv c r) (deriv c s)
  | XStar r' => XCat (deriv c r') (XStar r')
  end.
(** docopt_simple.py:56-61. *)
Fixpoint accepts (r : regex) (l : list N) : bool :=
  match l with [] => nullable r | c :: l' => accepts (deriv c r) l' end.
(** [re.match(r'...$', v)]: [$] is the end, or just before a newline at the end
    (docopt_simple.py:56, 58, 60). *)
Definition re_match (r : regex) (v : list N) : bool :=
  accepts r v || match rev v with 10%N :: w => accepts r (rev w) | _ => false end.

(** [[+-]] (docopt_simple.py:56-61). *)
Definition x_sign : regex := XSet (fun c => (c =? 43) || (c =? 45))%N.
(** [[0-9]], and [\d] of which only these are modelled (docopt_simple.py:56-61). *)
Definition x_digit : regex := XSet is_digit.
(** [\.] (docopt_simple.py:58, 60). *)
Definition x_point : regex := XSet (N.eqb 46).
(** [([eE][-+]?[0-9]+)?] (docopt_simple.py:58, 60). *)
Definition x_expo : regex := x_opt (XCat (XSet (fun c => (c =? 101) || (c =? 69))%N) (XCat (x_opt x_sign) (x_plus x_digit))).
(** [[+-]?\d+] (docopt_simple.py:56). *)
Definition pat_int : regex := XCat (x_opt x_sign) (x_plus x_digit).
(** [[-+]?[0-9]*\.?[0-9]+([eE][-+]?[0-9]+)?] (docopt_simple.py:58). *)
Definition pat_float1 : regex :=
  XCat (x_opt x_sign) (XCat (XStar x_digit) (XCat (x_opt x_point) (XCat (x_plus x_digit) x_expo))).
(** [[-+]?[0-9]+\.([eE][-+]?[0-9]+)?] (docopt_simple.py:60). *)
Definition pat_float2 : regex := XCat (x_opt x_sign) (XCat (x_plus x_digit) (XCat x_point x_expo)).

(** ** Options *)

(** What docopt puts in the dictionary: None, a truth value, a count, a text, a list of texts
    (docopt_simple.py:21-22). *)
Inductive dval := DNone | DBool (b : bool) | DNum (z : Z) | DStr (t : list N) | DList (l : list (list N)).
(** What an attribute is: a number made of a text, or the value as it is (docopt_simple.py:52-62). *)
Inductive dgot := GInt (z : Z) | GFloat (x : dec) | GAs (v : dval).

(** The dictionary, docopt_simple.py:21-22. *)
Definition dargs := list (list N * dval).
(** [self.args[key]], [key in self.args] (docopt_simple.py:35, 49, 54). *)
Fixpoint dfind (k : list N) (a : dargs) : option dval :=
  match a with [] => None | (k', v) :: a' => if list_eqb k k' then Some v else dfind k a' end.

(** [__find_type], docopt_simple.py:52-62.  [int] and [float] of a text that matched are those of
    Base.v and Decimal.v (ValueError if they refuse it). *)
Definition find_type (v : dval) : res dgot :=
  match v with
  | DStr t =>
      if re_match pat_int t then match parse_int ws_str t with Some z => Ok (GInt z) | None => Err EValue end
      else if re_match pat_float1 t then match parse_float t with Some x => Ok (GFloat x) | None => Err EValue end
      else if re_match pat_float2 t then match parse_float t with Some x => Ok (GFloat x) | None => Err EValue end
      else Ok (GAs v)
  | _ => Ok (GAs v)
  end.

(** [name.replace("_", "-")] (docopt_simple.py:34, 48). *)
Definition dashes (t : list N) : list N := map (fun c => if (c =? 95)%N then 45%N else c) t.
(** The keys tried (docopt_simple.py:31-34, 45-48). *)
Definition keys_of (name : list N) : list (list N) :=
  [name; str "<" ++ name ++ str ">"; str "--" ++ name; str "--" ++ dashes name].

(** [__contains__], docopt_simple.py:30-37. *)
Definition d_contains (a : dargs) (name : list N) : bool :=
  existsb (fun k => match dfind k a with Some _ => true | None => false end) (keys_of name).

(** [__getattr__], docopt_simple.py:39-51, for a name the object has no attribute of its own of
    ([args] and the methods are found before). *)
Fixpoint first_key (ks : list (list N)) (a : dargs) : res dgot :=
  match ks with
  | [] => Err EAttr
  | k :: ks' => match dfind k a with Some v => find_type v | None => first_key ks' a end
  end.
(** docopt_simple.py:39-51. *)
Definition d_getattr (a : dargs) (name : list N) : res dgot := first_key (keys_of name) a.
