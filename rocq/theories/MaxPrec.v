(** [float_to_fixed_width] with maximum_precision=True (nitf_field.py:20-34), on the decimals of
    Decimal.v.  The bounds [pow(10, n)] are taken as exact powers of ten (python has them as doubles
    when the exponent is negative). *)
From Verif Require Import Base Engine Decimal.
Open Scope list_scope.

(** [{:.<p>e}] (nitf_field.py:27-29). *)
Definition fmt_exp (p : nat) (x : dec) : list N := sign_text false (d_neg x) ++ exp_text p false x.

(** [n < pow(10, k)] (nitf_field.py:25). *)
Definition below (x : dec) (k : Z) : bool :=
  d_neg x || (d_man x * 10 ^ Z.to_N (d_ex x - k) <? 10 ^ Z.to_N (k - d_ex x))%N.
(** [n > pow(10, k)] (nitf_field.py:26). *)
Definition above (x : dec) (k : Z) : bool :=
  negb (d_neg x) && (10 ^ Z.to_N (k - d_ex x) <? d_man x * 10 ^ Z.to_N (d_ex x - k))%N.

(** The loop of nitf_field.py:28-33 with the exponent format. *)
Fixpoint first_exp (w : nat) (p : nat) (x : dec) : option (list N) :=
  let s := fmt_exp p x in
  if (List.length s <=? w)%nat then Some s
  else match p with O => None | S p' => first_exp w p' x end.
(** nitf_field.py:20-34 with maximum_precision True. *)
Definition fit_max (w : Z) (x : dec) : option (list N) :=
  if below x (- w + 5) || above x (w - 5) then
    if (w <? 2)%Z then None        (* the loop body never runs: UnboundLocalError *)
    else first_exp (Z.to_nat w) (Z.to_nat w - 2) x
  else fit_width w x.
