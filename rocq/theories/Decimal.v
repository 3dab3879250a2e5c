(** Decimal printing and parsing of finite floating point numbers.  A finite double is a
    signed decimal [man * 10^ex] exactly (a power of two is a decimal fraction), so the
    functions below are python's formatting on exact values; [float()] of a text is taken
    to be the number it denotes (python rounds it to the nearest double). *)
From Verif Require Import Base BaseLemmas Engine.
From Coq Require Import ZifyBool ZifyNat ZifyN.
Open Scope list_scope.

(** What float() and "%" of nitf_field.py:29, 198, 275, 394 take and give, as decimals. *)
Record dec := { d_neg : bool; d_man : N; d_ex : Z }.

(** [n / d] rounded to the nearest integer, ties to even (CPython's correctly rounded
    decimal conversion). (["{:.{}f}"], nitf_field.py:23-29.) *)
Definition div_he (n d : N) : N :=
  let q := (n / d)%N in let r := (n mod d)%N in
  if (2 * r <? d)%N then q
  else if (d <? 2 * r)%N then (q + 1)%N
  else if N.even q then q else (q + 1)%N.

(** [man * 10^s] rounded to an integer. (["{:.{}f}"], nitf_field.py:23-29.) *)
Definition rnd10 (man : N) (s : Z) : N :=
  if (0 <=? s)%Z then (man * 10 ^ Z.to_N s)%N else div_he man (10 ^ Z.to_N (- s))%N.

(** ["{:.{}f}"], nitf_field.py:23-29. *)
Definition pad0 (w : nat) (l : list N) : list N := repeat 48%N (w - List.length l) ++ l.

(** The digits of [m / 10^p] with [p] decimals; no point when [p] is 0.
    (["{:.{}f}"], nitf_field.py:23-29.) *)
Definition point_text (p : nat) (m : N) : list N :=
  let b := (10 ^ N.of_nat p)%N in
  digits (m / b) ++ match p with O => [] | S _ => 46%N :: pad0 p (digits (m mod b)) end.

(** ["{:.{}f}"], nitf_field.py:23-29. *)
Definition sign_text (plus neg : bool) : list N :=
  if neg then [45%N] else if plus then [43%N] else [].

(** ["%.<p>f"] without sign. (["{:.{}f}"], nitf_field.py:23-29.) *)
Definition fixed_text (p : nat) (x : dec) : list N :=
  point_text p (rnd10 (d_man x) (d_ex x + Z.of_nat p)).

(** [{:.<p>f}] (nitf_field.py:23,29). *)
Definition fmt_fixed (p : nat) (x : dec) : list N := sign_text false (d_neg x) ++ fixed_text p x.

(** nitf_field.py:20-34 ([float_to_fixed_width] with maximum_precision False): the first
    number of decimals from [w - 2] down to 0 for which the text fits. *)
Fixpoint first_fit (w : nat) (p : nat) (x : dec) : option (list N) :=
  let s := fmt_fixed p x in
  if (List.length s <=? w)%nat then Some s
  else match p with O => None | S p' => first_fit w p' x end.
(** nitf_field.py:20-34. *)
Definition fit_width (w : Z) (x : dec) : option (list N) :=
  if (w <? 2)%Z then None        (* the loop body never runs: UnboundLocalError *)
  else first_fit (Z.to_nat w) (Z.to_nat w - 2) x.

(** Number of digits. (["{:.{}e}"], nitf_field.py:27-29.) *)
Definition ndig (n : N) : Z := Z.of_nat (List.length (digits n)).

(** ["%.<p>e"]: mantissa digits (one before the point) and exponent.
    (["{:.{}e}"], nitf_field.py:27-29.) *)
Definition exp_parts (p : nat) (x : dec) : N * Z :=
  if (d_man x =? 0)%N then (0%N, 0%Z)
  else
    let e := (ndig (d_man x) - 1 + d_ex x)%Z in
    let m := rnd10 (d_man x) (d_ex x + Z.of_nat p - e) in
    if (10 ^ N.of_nat (S p) <=? m)%N then ((m / 10)%N, (e + 1)%Z) else (m, e).

(** ["{:.{}e}"], nitf_field.py:27-29. *)
Definition exp_text (p : nat) (upper : bool) (x : dec) : list N :=
  let '(m, e) := exp_parts p x in
  point_text p m ++ [if upper then 69%N else 101%N]
    ++ [if (e <? 0)%Z then 45%N else 43%N] ++ pad0 2 (digits (Z.abs_N e)).

(** printf width handling (flags as in the tables). ([frmt % v], nitf_field.py:195-198.) *)
Definition pad_num (zero lft : bool) (w : nat) (sign body : list N) : list N :=
  let n := (w - (List.length sign + List.length body))%nat in
  if lft then sign ++ body ++ spaces n
  else if zero then sign ++ repeat 48%N n ++ body
  else spaces n ++ sign ++ body.

(** [frmt % v], nitf_field.py:195-198. *)
Definition fmt_pct (plus zero lft : bool) (w p : nat) (expo upper : bool) (x : dec) : list N :=
  pad_num zero lft w (sign_text plus (d_neg x))
    (if expo then exp_text p upper x else fixed_text p x).

(** Remove a 0 after the exponent sign: [re.sub(r'E([+-])0', r'E\1', t)]. (nitf_tre_rpc.py:5-17.) *)
Fixpoint drop_exp0 (t : list N) : list N :=
  match t with
  | [] => []
  | c :: t1 =>
      match t1 with
      | s :: z :: t3 => if (c =? 69)%N && ((s =? 43) || (s =? 45))%N && (z =? 48)%N
                        then c :: s :: drop_exp0 t3 else c :: drop_exp0 t1
      | _ => c :: drop_exp0 t1
      end
  end.

(** [|x| < 10^k]. (nitf_tre_rpc.py:5-17.) *)
Definition abs_lt10 (x : dec) (k : Z) : bool :=
  if (d_man x =? 0)%N then true else (ndig (d_man x) + d_ex x <=? k)%Z.

(** nitf_tre_rpc.py:5-17 ([_tre_rpc_coeff_format]); the constants 1e-9 and 1e10 are taken
    as the decimal numbers. *)
Definition rpc_text (x : dec) : option (list N) :=
  if abs_lt10 x (-9) then Some (str "+0.000000E+0")
  else if negb (abs_lt10 x 10) then None
  else Some (drop_exp0 (fmt_pct true true false 10 6 true true x)).

(** Parsing: [float(text)], ASCII digits, no underscores, no inf/nan.
    ([float(v)], nitf_field.py:275, 394.) *)
Fixpoint span (p : N -> bool) (l : list N) : list N * list N :=
  match l with
  | [] => ([], [])
  | c :: l' => if p c then let '(a, b) := span p l' in (c :: a, b) else ([], l)
  end.

(** [float(v)], nitf_field.py:275, 394. *)
Definition parse_exp (l : list N) : option Z :=
  let num l := match span is_digit l with
               | (c :: ds, []) => Some (Z.of_N (digval (c :: ds) 0))
               | _ => None end in
  match l with
  | [] => None
  | c :: l' => if (c =? 43)%N then num l' else if (c =? 45)%N then option_map Z.opp (num l') else num l
  end.

(** [float(v)], nitf_field.py:275, 394. *)
Definition parse_body (neg : bool) (l : list N) : option dec :=
  let '(a, l1) := span is_digit l in
  let '(b, l2) := match l1 with
                  | c :: l1' => if (c =? 46)%N then span is_digit l1' else ([], l1)
                  | [] => ([], [])
                  end in
  match a ++ b with
  | [] => None
  | ab =>
      let r := fun e => Some {| d_neg := neg; d_man := digval ab 0; d_ex := e - Z.of_nat (List.length b) |} in
      match l2 with
      | [] => r 0%Z
      | c :: l3 => if (c =? 69)%N || (c =? 101)%N then
                     match parse_exp l3 with Some e => r e | None => None end
                   else None
      end
  end.

(** [float(v)], nitf_field.py:275, 394. *)
Definition parse_float (t : list N) : option dec :=
  match rstrip_by ws_byte (lstrip_by ws_byte t) with
  | [] => None
  | c :: l => if (c =? 43)%N then parse_body false l else if (c =? 45)%N then parse_body true l
              else parse_body false (c :: l)
  end.

(** The codec as a parameter of the engine.  Binary floats are left out.
    ([int(v)] of a float, nitf_field.py:275.) *)
Definition dec_trunc (x : dec) : Z :=
  let v := if (0 <=? d_ex x)%Z then (Z.of_N (d_man x) * 10 ^ d_ex x)%Z
           else (Z.of_N (d_man x) / 10 ^ (- d_ex x))%Z in
  if d_neg x then (- v)%Z else v.
(** The float calls of nitf_field.py:20-34, 192-201, 275, 394. *)
Definition DecF : FloatOps := {|
  fl := dec;
  fl_parse := parse_float;
  fl_fmt := fun sp x => match sp with
    | FsFit w => fit_width w x
    | FsPct plus zero lft w p expo upper => Some (fmt_pct plus zero lft w p expo upper x)
    | FsExt nm => if String.eqb nm "_tre_rpc_coeff_format" then rpc_text x else None
    end;
  fl_of_Z := fun z => Some {| d_neg := (z <? 0)%Z; d_man := Z.abs_N z; d_ex := 0 |};
  fl_to_Z := fun x => Some (dec_trunc x);
  fl_str := fun x => fmt_fixed (Z.to_nat (- d_ex x)) x;
  fl_nonzero := fun x => negb (d_man x =? 0)%N;
  fl_pack32 := fun _ => None;
  fl_unpack32 := fun _ => {| d_neg := false; d_man := 0; d_ex := 0 |};
|}.

(** Sanity: printed forms python gives. (a literal such as those in nitf_tre_rpc.py:20-60.) *)
Definition D (neg : bool) (m : N) (e : Z) : dec := {| d_neg := neg; d_man := m; d_ex := e |}.
Example ex_fit : fit_width 7 (D true 314159 (-5)) = Some (str "-3.1416"). Proof. vm_compute. reflexivity. Qed.
Example ex_fit2 : fit_width 4 (D false 9996 (-3)) = Some (str "10.0"). Proof. vm_compute. reflexivity. Qed.
Example ex_fit3 : fit_width 2 (D false 1234 (-1)) = None. Proof. vm_compute. reflexivity. Qed.
Example ex_pct : fmt_pct true true false 10 5 false false (D false 125 (-1)) = str "+012.50000".
Proof. vm_compute. reflexivity. Qed.
Example ex_exp : fmt_pct true false false 21 14 true true (D false 99999 3) = str "+9.99990000000000E+07".
Proof. vm_compute. reflexivity. Qed.
Example ex_exp2 : fmt_pct false false false 8 2 true false (D false 99999 (-20)) = str "1.00e-15".
Proof. vm_compute. reflexivity. Qed.
Example ex_rpc : rpc_text (D true 123456789 (-12)) = Some (str "-1.234568E-4"). Proof. vm_compute. reflexivity. Qed.
Example ex_parse : parse_float (str " -1.25e+3 ") = Some (D true 125 1). Proof. vm_compute. reflexivity. Qed.
