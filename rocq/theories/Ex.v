(** Structures used by the examples beside the property theorems.  The table [ex_rows] is made
    up; it uses every feature of the tables: nested loops, a condition, an optional field, a
    reserved field, float, sized data with an offset, a binary integer. *)
From Verif Require Import Base Engine Wf Assign Decimal.
Open Scope list_scope.

Definition ex_field (nm : string) (n : Z) (t : fty) : fdesc := fdesc0 (Some nm) (SzInt n) t.
Definition ex_rows : list row := [
  RField (ex_field "id" 6 TStr);
  RField (ex_field "n" 2 TInt);
  RLoop (EFld "n" 0) [
    RField (ex_field "a" 3 TInt);
    RField (ex_field "m" 1 TInt);
    RLoop (EFld "m" 1) [
      RField (ex_field "b" 7 TFloat);
      RField (Build_fdesc (Some "flag"%string) (SzInt 2) TStr FrNone DfNone None true 45%N false None 0 false)]];
  RField (ex_field "has" 1 TInt);
  RField (Build_fdesc (Some "c"%string) (SzInt 4) TStr FrNone DfNone
            (Some (ECmp CGt (EFld "has" 0) (EInt 0))) false 32%N false None 0 false);
  RField (Build_fdesc (Some "opt"%string) (SzInt 3) TInt FrNone DfNone None true 45%N false None 0 false);
  RField (fdesc0 None (SzInt 3) TStr);
  RField (ex_field "dlen" 5 TInt);
  RField (Build_fdesc (Some "data"%string) (SzExpr (EFld "dlen" 0)) (TData KBytes) FrNone DfNone None
            false 32%N false None 3 false);
  RField (Build_fdesc (Some "k"%string) (SzInt 4) (TData (KInt true)) FrNone (DfBytes [0; 0; 0; 0]%N) None
            false 32%N false None 0 true)].
Definition ex_fs := mk_fs ex_rows.
Definition ex_f (nm : string) : field :=
  match lookup ex_fs nm with Some f => f | None => {| f_id := 0; f_d := fdesc0 None (SzInt 0) TStr; f_loops := [] |} end.

Local Notation sv := (@SVal DecF).
Local Open Scope string_scope.
Definition ex_ops : list (string * list Z * sval DecF) := [
  ("id", [], sv (VStr (str "abc")));
  ("n", [], sv (VInt 2));
  ("a", [0%Z], sv (VInt 12)); ("m", [0%Z], sv (VInt 1)); ("b", [0%Z; 0%Z], sv (@VFloat DecF (D true 314159 (-5))));
  ("a", [1%Z], sv (VInt (-1))); ("m", [1%Z], sv (VInt 2));
  ("b", [1%Z; 1%Z], sv (@VFloat DecF (D false 25 (-1)))); ("flag", [1%Z; 1%Z], sv (VStr (str "xy")));
  ("has", [], sv (VInt 1)); ("c", [], sv (VStr (str "yes")));
  ("data", [], sv (VBytes [1; 2; 255]%N));
  ("k", [], sv (VInt (-2)))].
Definition ex_st : state DecF := assign_all DecF ex_rows (init_state DecF) ex_ops.
Local Close Scope string_scope.

Definition ex_bytes : list N :=
  str "abc   02012" ++ str "1-3.1416--" ++ str "-0120.00000--2.50000xy" ++ str "1yes ---   00006"
  ++ [1; 2; 255; 255; 255; 255; 254]%N.

Example ex_wf : wf_rows ex_rows = true. Proof. vm_compute. reflexivity. Qed.
Example ex_write : write DecF ex_fs ex_st = Ok ex_bytes. Proof. vm_compute. reflexivity. Qed.
Definition ex_read : state DecF :=
  match read DecF ex_fs false (init_state DecF) ex_bytes with Ok (s, _) => s | Err _ => init_state DecF end.
Definition ex_read_lit : state DecF :=
  match read DecF ex_fs true (init_state DecF) ex_bytes with Ok (s, _) => s | Err _ => init_state DecF end.

(** Values as seen in the examples. *)
Inductive seen := SeeNone | SeeBool (b : bool) | SeeInt (z : Z) | SeeStr (s : list N) | SeeByt (b : list N)
  | SeeDec (neg : bool) (m : N) (e : Z) | SeeErr (e : exn).
Definition see_val (v : pyval DecF) : seen :=
  match v with
  | VNone => SeeNone | VBool b => SeeBool b | VInt z => SeeInt z | VStr s => SeeStr s | VBytes b => SeeByt b
  | VFloat x => let d : dec := x in SeeDec (d_neg d) (d_man d) (d_ex d)
  end.
Definition see (r : res (pyval DecF)) : seen := match r with Ok v => see_val v | Err e => SeeErr e end.
Definition ex_get (s : state DecF) (nm : string) (k : list Z) : seen := see (get DecF ex_fs s nm k).
