(** Model of pynitf/nitf_field.py: field descriptions, their store, and the
    get / set / write / read / update operations.  No proofs in this file. *)
From Verif Require Import Base.

(** ** Floating point codec (external: python [float], [%]-formatting, [struct]) *)

(** A floating format: the default fitting function of nitf_field.py:192-194, a printf
    format string, or a named python function given as ["frmt"]. *)
Inductive fspec :=
| FsFit (width : Z)
| FsPct (plus zero left : bool) (width prec : nat) (expo : bool) (upper : bool)
| FsExt (name : string).

(** Everything the code asks of floating point numbers.  The theorems quantify over it.
    (float calls of nitf_field.py:20-34, 192-201, 275, 394, 468-471.) *)
Record FloatOps := {
  fl : Type;
  fl_parse : list N -> option fl;             (* float(bytes) or float(str) *)
  fl_fmt : fspec -> fl -> option (list N);    (* formatting; None = exception *)
  fl_of_Z : Z -> option fl;                   (* float(int); None = OverflowError *)
  fl_to_Z : fl -> option Z;                   (* int(float); None = exception *)
  fl_str : fl -> list N;                      (* str(float) *)
  fl_nonzero : fl -> bool;                    (* bool(float) *)
  fl_pack32 : fl -> option (list N);          (* struct.pack(">f", v) *)
  fl_unpack32 : list N -> fl;                 (* struct.unpack(">f", b), 4 bytes *)
}.

(** ** Descriptions *)

(** Operators in the expressions evaluated by nitf_field.py:62-63. *)
Inductive cmpop := CEq | CNe | CLt | CLe | CGt | CGe.

(** The python expressions that occur in the shipped tables ("condition", sizes and loop
    counts; evaluated by nitf_field.py:47-65).  [EFld nm m] is [f.nm] for m = 0 and
    [f.nm[i1,..,im]] otherwise. *)
Inductive expr :=
| EInt (z : Z)
| EStr (s : list N)
| EFld (nm : string) (m : nat)
| EAdd (a b : expr)
| ESub (a b : expr)
| EMul (a b : expr)
| EFloorDiv (a b : expr)
| EHalfMul (a b : expr)        (* int((a / 2) * b), nitf_des_cscsdb.py; exact below 2^53 *)
| EBitAnd (a b : expr)
| ECmp (op : cmpop) (a b : expr)
| EIn (neg : bool) (a : expr) (l : list expr)   (* a in (..), a not in (..) *)
| EAnd (a b : expr)
| EIf (c a b : expr)           (* a if c else b *)
| EIntOf (a : expr)            (* int(a) *)
| ERstrip (a : expr).          (* a.rstrip() *)

(** nitf_field.py:163-173. *)
Inductive fsize := SzInt (n : Z) | SzExpr (e : expr).

(** Field value classes deriving from FieldData (nitf_field.py:398-528); [KExt] stands for
    classes defined with a table (RSMGGA coordinates, ENGRDA data) whose [unpack] is not
    modelled: the value is taken to be the bytes themselves. *)
Inductive dkind := KString | KBytes | KFloat | KInt (signed : bool) | KExt.

(** nitf_field.py:90, 398-528. *)
Inductive fty := TStr | TInt | TFloat | TBytes | TData (k : dkind).

(** nitf_field.py:94, 182-201. *)
Inductive frmt := FrNone | FrD (d : dfmt) | FrF (s : fspec).

(** nitf_field.py:95, 107-114. *)
Inductive dflt := DfNone | DfInt (z : Z) | DfStr (s : list N) | DfBytes (b : list N).

(** One row of a table (nitf_field.py:71-124, 563-566). [fd_name = None] is a reserved field. *)
Record fdesc := {
  fd_name : option string;
  fd_size : fsize;
  fd_ty : fty;
  fd_frmt : frmt;
  fd_default : dflt;
  fd_cond : option expr;
  fd_optional : bool;
  fd_optchar : N;
  fd_hard : bool;
  fd_value : option expr;
  fd_size_offset : Z;
  fd_size_not_updated : bool;
}.

(** nitf_field.py:559-571. *)
Inductive row :=
| RField (d : fdesc)
| RLoop (shape : expr) (rows : list row).

(** A constructed field object: identity, description, and the shapes of the enclosing
    loops, outermost first (nitf_field.py:540-571, 583-588). *)
Record field := { f_id : nat; f_d : fdesc; f_loops : list expr }.

(** nitf_field.py:559-571. *)
Inductive item :=
| IField (f : field)
| ILoop (shape : expr) (items : list item).

(** nitf_field.py:559-571 ([NitfLoop.__init__]): objects are created in table order. *)
Fixpoint build_row (path : list expr) (n : nat) (r : row) : nat * item :=
  match r with
  | RField d => (S n, IField {| f_id := n; f_d := d; f_loops := path |})
  | RLoop sh rows =>
      let '(n', its) :=
        (fix go n rows :=
           match rows with
           | [] => (n, [])
           | r :: rows' =>
               let '(n1, it) := build_row (path ++ [sh]) n r in
               let '(n2, its) := go n1 rows' in (n2, it :: its)
           end) n rows in
      (n', ILoop sh its)
  end.

(** nitf_field.py:559-571. *)
Fixpoint build_rows (path : list expr) (n : nat) (rows : list row) : nat * list item :=
  match rows with
  | [] => (n, [])
  | r :: rows' =>
      let '(n1, it) := build_row path n r in
      let '(n2, its) := build_rows path n1 rows' in (n2, it :: its)
  end.

(** All field objects of a tree in table order. (nitf_field.py:569-570.) *)
Fixpoint item_fields (it : item) : list field :=
  match it with
  | IField f => [f]
  | ILoop _ its => flat_map item_fields its
  end.
(** nitf_field.py:569-570. *)
Definition items_fields (its : list item) : list field := flat_map item_fields its.

(** A constructed FieldStruct: its layout and the number of field objects.
    (nitf_field.py:787-817.) *)
Record fstruct := { fs_items : list item; fs_fields : list field }.

(** nitf_field.py:787-817 ([FieldStruct.__init__]). *)
Definition mk_fs (rows : list row) : fstruct :=
  let its := snd (build_rows [] 0 rows) in
  {| fs_items := its; fs_fields := items_fields its |}.

(** [field[field_name] = fv] for each row in order, so the last row with a name wins
    (nitf_field.py:569-570). *)
Definition has_name (nm : string) (f : field) : bool :=
  match fd_name (f_d f) with Some nm' => String.eqb nm nm' | None => false end.
(** [field[nm]], nitf_field.py:569-570, 843-846. *)
Definition lookup (fs : fstruct) (nm : string) : option field :=
  find (has_name nm) (rev (fs_fields fs)).

(** nitf_field.py:583-588. *)
Definition depth (f : field) : nat := List.length (f_loops f).

(** Constructors for table rows (used by the generated tables): all options at their
    defaults, nitf_field.py:88-100. *)
Definition fdesc0 (nm : option string) (sz : fsize) (ty : fty) : fdesc :=
  {| fd_name := nm; fd_size := sz; fd_ty := ty; fd_frmt := FrNone; fd_default := DfNone;
     fd_cond := None; fd_optional := false; fd_optchar := 32%N; fd_hard := false;
     fd_value := None; fd_size_offset := 0; fd_size_not_updated := false |}.

Section Engine.
Variable FO : FloatOps.

(** ** Values *)

(** Values of nitf_field.py:249-275. *)
Inductive pyval :=
| VNone
| VBool (b : bool)
| VInt (z : Z)
| VStr (s : list N)
| VBytes (b : list N)
| VFloat (x : fl FO).

(** What [value_dict] holds: an ordinary value or a [NitfLiteral] (nitf_field.py:36-45). *)
Inductive sval := SVal (v : pyval) | SLit (b : list N).

(** Store of a FieldStruct: [value_dict], [raw_value_dict] and [fh_loc] of every field
    object (nitf_field.py:101-120); [st_impl] says that a [tre_implementation_field] is set
    (nitf_field.py:294-296). *)
Record state := {
  st_val : nat -> list Z -> option sval;
  st_raw : nat -> list Z -> option (list N);
  st_loc : nat -> list Z -> option Z;
  st_impl : bool;
}.

(** Dictionary assignment, nitf_field.py:299, 346, 378. *)
Definition upd {A} (m : nat -> list Z -> option A) (i : nat) (k : list Z) (v : option A) :=
  fun i' k' => if Nat.eqb i i' && keyeqb k k' then v else m i' k'.

(** nitf_field.py:105-124: a fresh object. *)
Definition init_state : state :=
  {| st_val := fun _ _ => None; st_raw := fun _ _ => None; st_loc := fun _ _ => None;
     st_impl := false |}.

(** nitf_field.py:299, 380-394. *)
Definition set_val (s : state) i k v : state :=
  {| st_val := upd (st_val s) i k (Some v); st_raw := st_raw s; st_loc := st_loc s;
     st_impl := st_impl s |}.
(** nitf_field.py:300-301, 378. *)
Definition set_raw (s : state) i k v : state :=
  {| st_val := st_val s; st_raw := upd (st_raw s) i k v; st_loc := st_loc s;
     st_impl := st_impl s |}.
(** nitf_field.py:346. *)
Definition set_loc (s : state) i k v : state :=
  {| st_val := st_val s; st_raw := st_raw s; st_loc := upd (st_loc s) i k (Some v);
     st_impl := st_impl s |}.

(** The default used by the defaultdict (nitf_field.py:107-114). *)
Definition default_val (d : fdesc) : pyval :=
  match fd_default d with
  | DfInt z => VInt z
  | DfStr s => VStr s
  | DfBytes b => VBytes b
  | DfNone => if fd_optional d then VNone
              else match fd_ty d with TStr => VStr [] | _ => VInt 0 end
  end.

(** [self.value_dict[k]]. (nitf_field.py:107-114, 262.) *)
Definition stored (s : state) (f : field) (k : list Z) : sval :=
  match st_val s (f_id f) k with
  | Some v => v
  | None => SVal (default_val (f_d f))
  end.

(** ** Expressions *)

(** int and bool in the expressions of nitf_field.py:63. *)
Definition as_Z (v : pyval) : res Z :=
  match v with
  | VInt z => Ok z
  | VBool b => Ok (if b then 1 else 0)%Z
  | _ => Err EType
  end.

(** python truth value. (nitf_field.py:255, 288, 341, 366.) *)
Definition truthy (v : pyval) : bool :=
  match v with
  | VNone => false
  | VBool b => b
  | VInt z => negb (z =? 0)%Z
  | VStr s => match s with [] => false | _ => true end
  | VBytes s => match s with [] => false | _ => true end
  | VFloat x => fl_nonzero FO x
  end.

(** [==] on values other than floats (wf tables never compare floats; a comparison
    with a float is reported as an error by [eval]).
    ([==] in the expressions of nitf_field.py:63.) *)
Definition py_eqb (a b : pyval) : res bool :=
  match a, b with
  | VFloat _, _ | _, VFloat _ => Err EType
  | VNone, VNone => Ok true
  | VStr s, VStr t => Ok (list_eqb s t)
  | VBytes s, VBytes t => Ok (list_eqb s t)
  | (VInt _ | VBool _), (VInt _ | VBool _) =>
      do x <- as_Z a; do y <- as_Z b; Ok (x =? y)%Z
  | _, _ => Ok false
  end.

(** [int(v)]. (nitf_field.py:275.) *)
Definition conv_int (v : pyval) : res Z :=
  match v with
  | VInt z => Ok z
  | VBool b => Ok (if b then 1 else 0)%Z
  | VStr s => match parse_int ws_str s with Some z => Ok z | None => Err EValue end
  | VBytes s => match parse_int ws_byte s with Some z => Ok z | None => Err EValue end
  | VFloat x => match fl_to_Z FO x with Some z => Ok z | None => Err EValue end
  | VNone => Err EType
  end.

(** [float(v)]. (nitf_field.py:275.) *)
Definition conv_float (v : pyval) : res (fl FO) :=
  let ofZ z := match fl_of_Z FO z with Some x => Ok x | None => Err EValue end in
  match v with
  | VFloat x => Ok x
  | VInt z => ofZ z
  | VBool b => ofZ (if b then 1 else 0)%Z
  | VStr s | VBytes s => match fl_parse FO s with Some x => Ok x | None => Err EValue end
  | VNone => Err EType
  end.

(** [str(v)] for a value that is not bytes. (nitf_field.py:270-273.) *)
Definition conv_str (v : pyval) : list N :=
  match v with
  | VNone => str "None"
  | VBool b => if b then str "True" else str "False"
  | VInt z => str_of_Z z
  | VStr s => s
  | VBytes s => s                 (* not reached: nitf_field.py:271-272 decodes bytes *)
  | VFloat x => fl_str FO x
  end.

(** [bytes(v)]. (nitf_field.py:275.) *)
Definition conv_bytes (v : pyval) : res (list N) :=
  match v with
  | VBytes b => Ok b
  | VInt z => if (z <? 0)%Z then Err EValue else Ok (repeat 0%N (Z.to_nat z))
  | VBool b => Ok (if b then [0%N] else [])
  | _ => Err EType
  end.

(** nitf_field.py:47-65. *)
Definition cmp_Z (op : cmpop) (a b : Z) : bool :=
  match op with
  | CEq => (a =? b)%Z | CNe => negb (a =? b)%Z
  | CLt => (a <? b)%Z | CLe => (a <=? b)%Z
  | CGt => (b <? a)%Z | CGe => (b <=? a)%Z
  end.

(** nitf_field.py:47-65. *)
Definition eval_cmp (op : cmpop) (a b : pyval) : res pyval :=
  match op with
  | CEq => do r <- py_eqb a b; Ok (VBool r)
  | CNe => do r <- py_eqb a b; Ok (VBool (negb r))
  | _ => do x <- as_Z a; do y <- as_Z b; Ok (VBool (cmp_Z op x y))
  end.

Section Eval.
(** How a field object is read: [fld[key]]. *)
Variable getter : field -> list Z -> res pyval.
Variable fs : fstruct.

(** nitf_field.py:47-65 with nitf_field.py:835-847 for [f.nm]: a scalar field gives its
    value, a looped one must be indexed. *)
Definition eval_ref (key : list Z) (nm : string) (m : nat) : res pyval :=
  match lookup fs nm with
  | None => Err EAttr
  | Some f =>
      match m, depth f with
      | O, O => getter f []
      | S _, S _ => if (List.length key <? m)%nat then Err EAttr (* NameError: i_m unbound *)
                    else getter f (firstn m key)
      | _, _ => Err EType
      end
  end.

(** nitf_field.py:47-65. *)
Definition binop_Z (op : Z -> Z -> res pyval) (a b : res pyval) : res pyval :=
  do x <- a; do y <- b; do x' <- as_Z x; do y' <- as_Z y; op x' y'.

(** nitf_field.py:47-65. *)
Fixpoint eval (key : list Z) (e : expr) : res pyval :=
  match e with
  | EInt z => Ok (VInt z)
  | EStr s => Ok (VStr s)
  | EFld nm m => eval_ref key nm m
  | EAdd a b => binop_Z (fun x y => Ok (VInt (x + y))) (eval key a) (eval key b)
  | ESub a b => binop_Z (fun x y => Ok (VInt (x - y))) (eval key a) (eval key b)
  | EMul a b => binop_Z (fun x y => Ok (VInt (x * y))) (eval key a) (eval key b)
  | EFloorDiv a b => binop_Z (fun x y => if (y =? 0)%Z then Err EValue else Ok (VInt (x / y)))
                             (eval key a) (eval key b)
  | EHalfMul a b => binop_Z (fun x y => Ok (VInt (Z.quot (x * y) 2))) (eval key a) (eval key b)
  | EBitAnd a b => binop_Z (fun x y => Ok (VInt (Z.land x y))) (eval key a) (eval key b)
  | ECmp op a b => do x <- eval key a; do y <- eval key b; eval_cmp op x y
  | EIn neg a l =>
      do x <- eval key a;
      (fix go l := match l with
                   | [] => Ok (VBool neg)
                   | b :: l' => do y <- eval key b; do r <- py_eqb x y;
                                if r then Ok (VBool (negb neg)) else go l'
                   end) l
  | EAnd a b => do x <- eval key a; if truthy x then eval key b else Ok x
  | EIf c a b => do x <- eval key c; if truthy x then eval key a else eval key b
  | EIntOf a => do x <- eval key a; do z <- conv_int x; Ok (VInt z)
  | ERstrip a => do x <- eval key a;
                 match x with
                 | VStr s => Ok (VStr (rstrip_by ws_str s))
                 | VBytes s => Ok (VBytes (rstrip_by ws_byte s))
                 | _ => Err EAttr
                 end
  end.

(** nitf_field.py:573-579: a loop count, [None] counts as 0. *)
Definition eval_shape (key : list Z) (e : expr) : res Z :=
  do t <- eval key e;
  match t with VNone => Ok 0%Z | _ => as_Z t end.

(** nitf_field.py:163-173. *)
Definition fsize_of (f : field) (k : list Z) : res Z :=
  do sz <- (match fd_size (f_d f) with SzInt n => Ok n | SzExpr e => do v <- eval k e; as_Z v end);
  Ok (if (sz =? 0)%Z then sz else sz - fd_size_offset (f_d f))%Z.

(** nitf_field.py:590-600.  Only the last component is compared with its loop count. *)
Definition check_index (f : field) (k : list Z) : res unit :=
  match f_loops f with
  | [] => Ok tt
  | sh0 :: shs =>
      if negb (Nat.eqb (List.length k) (depth f)) then Err EIndex
      else let i := last k 0%Z in
           if (i <? 0)%Z then Err EIndex
           else do n <- eval_shape (removelast k) (last shs sh0);
                if (n <=? i)%Z then Err EIndex else Ok tt
  end.

(** nitf_field.py:223-232. *)
Definition check_condition (f : field) (k : list Z) : res bool :=
  match fd_cond (f_d f) with
  | None => Ok true
  | Some e => do v <- eval k e; Ok (truthy v)
  end.

(** nitf_field.py:267-268, 381-382. *)
Definition is_blank (d : fdesc) (b : list N) : bool :=
  match rstrip_by (fun c => (c =? fd_optchar d) || (c =? 32))%N b with [] => true | _ => false end.

(** Conversion to the field type, nitf_field.py:265-275. *)
Definition convert (d : fdesc) (v : sval) : res pyval :=
  match v with
  | SVal VNone => if fd_optional d then Ok VNone
                  else match fd_ty d with
                       | TStr => Ok (VStr (rstrip_by ws_str (str "None")))
                       | _ => Err EType
                       end
  | SLit b =>
      if fd_optional d && is_blank d b then Ok VNone
      else match fd_ty d with
           | TStr => Ok (VStr (rstrip_by ws_str b))
           | TInt => do z <- conv_int (VBytes b); Ok (VInt z)
           | TFloat => do x <- conv_float (VBytes b); Ok (VFloat x)
           | TBytes | TData _ => Ok (VBytes b)
           end
  | SVal v =>
      match fd_ty d with
      | TStr => Ok (VStr (rstrip_by ws_str (conv_str v)))
      | TInt => do z <- conv_int v; Ok (VInt z)
      | TFloat => do x <- conv_float v; Ok (VFloat x)
      | TBytes | TData _ => do b <- conv_bytes v; Ok (VBytes b)
      end
  end.

(** nitf_field.py:249-280 ([NitfField.__getitem__]); errors after the condition check are
    turned into RuntimeError. *)
Definition get_base (s : state) (f : field) (k : list Z) : res pyval :=
  match fd_name (f_d f) with
  | None => Ok (VStr [])
  | Some _ =>
      do _ <- check_index f k;
      do c <- check_condition f k;
      if negb c then Ok VNone
      else
        let r := match fd_value (f_d f) with
                 | Some e => do v <- eval k e; convert (f_d f) (SVal v)
                 | None => convert (f_d f) (stored s f k)
                 end in
        match r with Ok v => Ok v | Err _ => Err ERuntime end
  end.

(** Two's complement reading of a big-endian byte string. (nitf_field.py:484-505.) *)
Definition be_val_s (signed : bool) (b : list N) : Z :=
  let u := Z.of_N (be_val b) in
  let m := (256 ^ Z.of_nat (List.length b))%Z in
  if signed && (m <=? 2 * u)%Z then (u - m)%Z else u.

(** nitf_field.py:484-505 ([IntFieldData.unpack]), given the declared size. *)
Definition unpack_int (signed : bool) (sz : Z) (b : list N) : res pyval :=
  if (sz =? 3)%Z then Ok (VInt (be_val_s signed b))
  else if (sz =? 1)%Z || (sz =? 2)%Z || (sz =? 4)%Z || (sz =? 8)%Z then
         if (Z.of_nat (List.length b) =? sz)%Z then Ok (VInt (be_val_s signed b))
         else Err EStruct
       else Err ERuntime.

(** nitf_field.py:507-528. *)
Definition in_range (signed : bool) (sz : Z) (z : Z) : bool :=
  if signed then (- (256 ^ sz / 2) <=? z)%Z && (z <? 256 ^ sz / 2)%Z
  else (0 <=? z)%Z && (z <? 256 ^ sz)%Z.

(** nitf_field.py:507-528 ([IntFieldData.pack]), given the declared size.  For size 3 the
    value goes through [int()], the others through [struct.pack]. *)
Definition pack_int (signed : bool) (sz : Z) (v : pyval) : res (list N) :=
  if (sz =? 3)%Z || (sz =? 1)%Z || (sz =? 2)%Z || (sz =? 4)%Z || (sz =? 8)%Z then
    do z <- (if (sz =? 3)%Z then conv_int v
             else match as_Z v with Ok z => Ok z | Err _ => Err EStruct end);
    if in_range signed sz z then Ok (be_bytes (Z.to_nat sz) (Z.to_N (z mod 256 ^ sz)))
    else Err EStruct
  else Err ERuntime.

(** [FieldData.unpack] of each class (nitf_field.py:437, 452, 467, 484). *)
Definition unpack (f : field) (k : list Z) (b : list N) : res pyval :=
  match fd_ty (f_d f) with
  | TData KString => Ok (VStr b)
  | TData KBytes | TData KExt => Ok (VBytes b)
  | TData KFloat => if Nat.eqb (List.length b) 4 then Ok (VFloat (fl_unpack32 FO b)) else Err EStruct
  | TData (KInt sg) => do sz <- fsize_of f k; unpack_int sg sz b
  | _ => Ok (VBytes b)
  end.

(** [FieldData.pack] of each class (nitf_field.py:440, 455, 470, 507). *)
Definition pack (f : field) (k : list Z) (v : pyval) : res (list N) :=
  match fd_ty (f_d f) with
  | TData KString | TData KBytes =>
      match v with
      | VBytes b => Ok b
      | VStr s => encode_latin1 s
      | _ => Err EAttr
      end
  | TData KExt => Err ENotImpl
  | TData KFloat =>
      match v with
      | VFloat x => match fl_pack32 FO x with Some b => Ok b | None => Err EStruct end
      | VInt z => match fl_of_Z FO z with
                  | Some x => match fl_pack32 FO x with Some b => Ok b | None => Err EStruct end
                  | None => Err EStruct
                  end
      | _ => Err EStruct
      end
  | TData (KInt sg) => do sz <- fsize_of f k; pack_int sg sz v
  | _ => Err EType
  end.

(** Public read of a field object: [NitfField.__getitem__] or [FieldData.__getitem__]
    (nitf_field.py:418-422). *)
Definition get_pub (s : state) (f : field) (k : list Z) : res pyval :=
  do v <- get_base s f k;
  match fd_ty (f_d f), v with
  | TData _, VBytes b => unpack f k b
  | _, _ => Ok v
  end.

(** nitf_field.py:182-201. *)
Definition format_val (d : fdesc) (v : pyval) (sz : Z) : res (list N) :=
  match fd_ty d with
  | TStr => match fd_frmt d with
            | FrNone => Ok (ljust (Z.to_nat sz) (conv_str v))
            | _ => Err EType
            end
  | TInt => match v with
            | VInt z => match fd_frmt d with
                        | FrNone => Ok (fmt_d (dfmt_zero (Z.to_nat sz)) z)
                        | FrD df => Ok (fmt_d df z)
                        | FrF _ => Err EType
                        end
            | _ => Err EType
            end
  | TFloat => match v with
              | VFloat x =>
                  match fd_frmt d with
                  | FrNone => match fl_fmt FO (FsFit sz) x with
                              | Some t => Ok (ljust (Z.to_nat sz) t) | None => Err ERuntime end
                  | FrF fsp => match fl_fmt FO fsp x with
                               | Some t => Ok (ljust (Z.to_nat sz) t) | None => Err ERuntime end
                  | FrD _ => Err EType
                  end
              | _ => Err EType
              end
  | TBytes | TData _ => Err EType
  end.

(** [len(t)], nitf_field.py:332. *)
Definition has_len (t : list N) (sz : Z) : bool := (Z.of_nat (List.length t) =? sz)%Z.

(** nitf_field.py:310-337 ([NitfField.bytes]). *)
Definition field_bytes (s : state) (f : field) (k : list Z) : res (list N) :=
  do sz <- fsize_of f k;
  match stored s f k with
  | SLit b =>
      let t := ljust (Z.to_nat sz) b in
      if has_len t sz then Ok t else Err ERuntime
  | SVal _ =>
      do v <- get_base s f k;
      match v, fd_optional (f_d f), fd_ty (f_d f) with
      | VNone, true, (TBytes | TData _) => Err EType   (* str where bytes are needed *)
      | VNone, true, _ =>
          let t := repeat (fd_optchar (f_d f)) (Z.to_nat sz) in
          if has_len t sz then encode_latin1 t else Err ERuntime
      | VBytes t, _, (TBytes | TData _) => if has_len t sz then Ok t else Err ERuntime
      | _, _, (TBytes | TData _) => Err EType
      | _, _, _ =>
          do t <- format_val (f_d f) v sz;
          if has_len t sz then encode_latin1 t else Err ERuntime
      end
  end.

End Eval.

(** ** Reading values through the FieldStruct *)

(** [fld[key]] with recursion depth [n]: the expressions evaluated on the way may read
    other fields.  Depth 0 is python's RecursionError. (nitf_field.py:249-280.) *)
Fixpoint getf (n : nat) (fs : fstruct) (s : state) (f : field) (k : list Z) : res pyval :=
  match n with
  | O => Err ERecursion
  | S n' => get_pub (getf n' fs s) fs s f k
  end.

(** nitf_field.py:249-280, 418-422. *)
Definition fuel (fs : fstruct) : nat := S (List.length (fs_fields fs)).

(** The getter used by the expressions of [fs]. (nitf_field.py:249-280, 418-422.) *)
Definition G (fs : fstruct) (s : state) : field -> list Z -> res pyval := getf (fuel fs) fs s.

(** [fld[k]] for a field object. (nitf_field.py:249-280, 418-422.) *)
Definition fget (fs : fstruct) (s : state) (f : field) (k : list Z) : res pyval :=
  get_pub (G fs s) fs s f k.
(** A scalar has no index; a looped field is always indexed (nitf_field.py:835-847): for a
    scalar [fs.nm] is the value, which cannot be indexed further. *)
Definition key_shape_ok (f : field) (k : list Z) : bool :=
  match depth f, k with O, _ :: _ => false | _, _ => true end.
(** [fs.nm[k]] (or [fs.nm] with k = () for a scalar), nitf_field.py:835-847. *)
Definition get (fs : fstruct) (s : state) (nm : string) (k : list Z) : res pyval :=
  match lookup fs nm with
  | None => Err EAttr
  | Some f => if key_shape_ok f k then fget fs s f k else Err EType
  end.

(** nitf_field.py:241-247, 849-854. *)
Definition raw_bytes (fs : fstruct) (s : state) (nm : string) (k : list Z) : res (list N) :=
  match lookup fs nm with
  | None => Err EAttr
  | Some f => match st_raw s (f_id f) k with
              | Some b => Ok b
              | None => field_bytes (G fs s) fs s f k
              end
  end.

(** ** Assignment.  A failing assignment may already have changed the store, so the new
    store is returned in every case. *)

(** nitf_field.py:282-308 ([NitfField.__setitem__]); [setsub] assigns another field
    (used by [exec] in [_set_size], nitf_field.py:175-180). *)
Definition set_base (setsub : state -> field -> list Z -> sval -> state * res unit)
    (fs : fstruct) (s : state) (f : field) (k : list Z) (v : sval) : state * res unit :=
  let g := G fs s in
  match fd_name (f_d f) with
  | None => (s, Err ERuntime)
  | Some _ =>
    match check_index g fs f k with
    | Err e => (s, Err e)
    | Ok _ =>
      match check_condition g fs f k with
      | Err e => (s, Err e)
      | Ok false => (s, Err ERuntime)
      | Ok true =>
        if fd_hard (f_d f) || match fd_value (f_d f) with Some _ => true | None => false end
        then (s, Err ERuntime)
        else if st_impl s then (s, Err ERuntime)
        else if match v with SVal VNone => negb (fd_optional (f_d f)) | _ => false end
        then (s, Err ERuntime)
        else
          let s1 := set_raw (set_val s (f_id f) k v) (f_id f) k None in
          match fd_ty (f_d f), v with
          | TData _, SVal (VBytes b) =>
              let n := Z.of_nat (List.length b) in
              if fd_size_not_updated (f_d f) then
                match fsize_of (G fs s1) fs f k with
                | Err e => (s1, Err e)
                | Ok sz => if (n =? sz)%Z then (s1, Ok tt) else (s1, Err ERuntime)
                end
              else
                let n' := if (n =? 0)%Z then 0%Z else (n + fd_size_offset (f_d f))%Z in
                match fd_size (f_d f) with
                | SzExpr (EFld nm m) =>
                    match lookup fs nm with
                    | None => (s1, Ok tt)   (* plain python attribute *)
                    | Some g' =>
                        match m, depth g' with
                        | O, O => setsub s1 g' [] (SVal (VInt n'))
                        | S _, S _ => if (List.length k <? m)%nat then (s1, Err EAttr)
                                      else setsub s1 g' (firstn m k) (SVal (VInt n'))
                        | _, _ => (s1, Err ERuntime)
                        end
                    end
                | _ => (s1, Err ESyntax)
                end
          | _, _ => (s1, Ok tt)
          end
      end
    end
  end.

(** [fld[key] = v]: [NitfField.__setitem__] or [FieldData.__setitem__] (nitf_field.py:424-428). *)
Fixpoint setf (n : nat) (fs : fstruct) (s : state) (f : field) (k : list Z) (v : sval)
  : state * res unit :=
  match n with
  | O => (s, Err ERecursion)
  | S n' =>
      match fd_ty (f_d f) with
      | TData _ =>
          match v with
          | SLit _ => (s, Err EAttr)
          | SVal v' =>
              match pack (G fs s) fs f k v' with
              | Err e => (s, Err e)
              | Ok b => set_base (setf n' fs) fs s f k (SVal (VBytes b))
              end
          end
      | _ => set_base (setf n' fs) fs s f k v
      end
  end.

(** nitf_field.py:282-308, 424-428. *)
Definition fset (fs : fstruct) (s : state) (f : field) (k : list Z) (v : sval) :=
  setf (fuel fs) fs s f k v.

(** [fs.nm[k] = v], or [fs.nm = v] for a scalar (nitf_field.py:856-861). *)
Definition set (fs : fstruct) (s : state) (nm : string) (k : list Z) (v : sval)
  : state * res unit :=
  match lookup fs nm with
  | None => (s, Err EAttr)
  | Some f => if key_shape_ok f k then fset fs s f k v else (s, Err EType)
  end.

(** ** Writing *)

(** One [fh.write] of a field: which field object, at which index, which bytes.
    (nitf_field.py:339-347.) *)
Record chunk := { ch_field : field; ch_key : list Z; ch_bytes : list N }.

(** nitf_field.py:339-347 ([NitfField.write_to_file]). *)
Definition write_field (fs : fstruct) (s : state) (f : field) (k : list Z) : res (list chunk) :=
  do c <- check_condition (G fs s) fs f k;
  if negb c then Ok []
  else do b <- field_bytes (G fs s) fs s f k;
       Ok [{| ch_field := f; ch_key := k; ch_bytes := b |}].

(** [for x in l: ...] concatenating what each step writes.
    ([fh.write] one after the other, nitf_field.py:627-629.) *)
Fixpoint concat_map_res {A B} (f : A -> res (list B)) (l : list A) : res (list B) :=
  match l with
  | [] => Ok []
  | a :: l' => do x <- f a; do y <- concat_map_res f l'; Ok (x ++ y)
  end.

(** nitf_field.py:602-608, 625-629 ([NitfLoop.write_to_file]). *)
Fixpoint write_item (fs : fstruct) (s : state) (lead : list Z) (it : item) : res (list chunk) :=
  match it with
  | IField f => write_field fs s f lead
  | ILoop sh its =>
      do n <- eval_shape (G fs s) fs lead sh;
      concat_map_res (fun i =>
        (fix go its := match its with
                       | [] => Ok []
                       | it :: its' => do x <- write_item fs s (lead ++ [i]) it;
                                       do y <- go its'; Ok (x ++ y)
                       end) its) (zrange n)
  end.

(** nitf_field.py:625-629. *)
Definition write_items (fs : fstruct) (s : state) (lead : list Z) (its : list item)
  : res (list chunk) := concat_map_res (write_item fs s lead) its.

(** nitf_field.py:912-914. *)
Definition chunks_bytes (cs : list chunk) : list N := flat_map ch_bytes cs.

(** The sequence of writes made by [FieldStruct.write_to_file] (nitf_field.py:912-914). *)
Definition write_chunks (fs : fstruct) (s : state) : res (list chunk) :=
  write_items fs s [] (fs_items fs).

(** The bytes appended to the file. (nitf_field.py:912-914.) *)
Definition write (fs : fstruct) (s : state) : res (list N) :=
  do cs <- write_chunks fs s; Ok (chunks_bytes cs).

(** [self.fh_loc[k] = fh.tell()] for every named field written, file position [pos] first.
    (nitf_field.py:343-346.) *)
Fixpoint record_locs (s : state) (pos : Z) (cs : list chunk) : state :=
  match cs with
  | [] => s
  | c :: cs' =>
      let s' := match fd_name (f_d (ch_field c)) with
                | None => s
                | Some _ => set_loc s (f_id (ch_field c)) (ch_key c) pos
                end in
      record_locs s' (pos + Z.of_nat (List.length (ch_bytes c)))%Z cs'
  end.

(** Writing at the end of a file: new state (with locations) and new file contents.
    (nitf_field.py:339-347, 912-914.) *)
Definition write_file (fs : fstruct) (s : state) (file : list N) : res (state * list N) :=
  do cs <- write_chunks fs s;
  Ok (record_locs s (Z.of_nat (List.length file)) cs, file ++ chunks_bytes cs).

(** Overwrite part of a file: [fh.seek(p); fh.write(b)] (extending it if needed).
    (nitf_field.py:359-362.) *)
Definition overwrite (file : list N) (p : nat) (b : list N) : list N :=
  firstn p file ++ b ++ skipn (p + List.length b) file.

(** nitf_field.py:935-939 with 349-362 ([FieldStruct.update_field]). *)
Definition update_field (fs : fstruct) (s : state) (file : list N) (nm : string)
    (k : list Z) (v : sval) : state * res (list N) :=
  match lookup fs nm with
  | None => (s, Err EKey)
  | Some f =>
      match fset fs s f k v with
      | (s1, Err e) => (s1, Err e)
      | (s1, Ok _) =>
          match check_condition (G fs s1) fs f k with
          | Err e => (s1, Err e)
          | Ok false => (s1, Err ERuntime)
          | Ok true =>
              match st_loc s1 (f_id f) k with
              | None => (s1, Err EKey)
              | Some p =>
                  match field_bytes (G fs s1) fs s1 f k with
                  | Err e => (s1, Err e)
                  | Ok b => (s1, Ok (overwrite file (Z.to_nat p) b))
                  end
              end
          end
      end
  end.

(** ** Reading *)

(** Value stored by [NitfField.read_from_file] for the bytes [t] (nitf_field.py:376-396). *)
Definition parse_field (d : fdesc) (lit : bool) (t : list N) : res sval :=
  if lit then Ok (SLit t)
  else if fd_optional d && is_blank d t then Ok (SVal VNone)
  else match fd_ty d with
       | TStr => Ok (SVal (VStr (rstrip_by ws_byte t)))
       | TBytes | TData _ => Ok (SVal (VBytes t))
       | TInt =>
           match rstrip_by ws_byte t with
           | [] => Err ERuntime
           | v => match conv_int (VBytes v) with Ok z => Ok (SVal (VInt z)) | Err _ => Err ERuntime end
           end
       | TFloat =>
           match rstrip_by ws_byte t with
           | [] => Err ERuntime
           | v => match conv_float (VBytes v) with Ok x => Ok (SVal (VFloat x)) | Err _ => Err ERuntime end
           end
       end.

(** nitf_field.py:364-396. *)
Definition read_field (fs : fstruct) (lit : bool) (f : field) (k : list Z)
    (p : state * list N) : res (state * list N) :=
  let '(s, inp) := p in
  do c <- check_condition (G fs s) fs f k;
  if negb c then Ok (s, inp)
  else
    do sz <- fsize_of (G fs s) fs f k;
    if (sz <? 0)%Z || (Z.of_nat (List.length inp) <? sz)%Z then Err ERuntime
    else
      let t := firstn (Z.to_nat sz) inp in
      let inp' := skipn (Z.to_nat sz) inp in
      match fd_name (f_d f) with
      | None => Ok (s, inp')
      | Some _ =>
          do v <- parse_field (f_d f) lit t;
          Ok (set_val (set_raw s (f_id f) k (Some t)) (f_id f) k v, inp')
      end.

(** nitf_field.py:633-635. *)
Fixpoint fold_res {A S} (f : A -> S -> res S) (l : list A) (s : S) : res S :=
  match l with
  | [] => Ok s
  | a :: l' => do s' <- f a s; fold_res f l' s'
  end.

(** nitf_field.py:631-635. *)
Fixpoint read_item (fs : fstruct) (lit : bool) (lead : list Z) (it : item)
    (p : state * list N) : res (state * list N) :=
  match it with
  | IField f => read_field fs lit f lead p
  | ILoop sh its =>
      do n <- eval_shape (G fs (fst p)) fs lead sh;
      fold_res (fun i p =>
        (fix go its p := match its with
                         | [] => Ok p
                         | it :: its' => do p' <- read_item fs lit (lead ++ [i]) it p; go its' p'
                         end) its p) (zrange n) p
  end.

(** nitf_field.py:631-635. *)
Definition read_items (fs : fstruct) (lit : bool) (lead : list Z) (its : list item)
    (p : state * list N) : res (state * list N) :=
  fold_res (read_item fs lit lead) its p.

(** nitf_field.py:916-933 ([FieldStruct.read_from_file], no delayed read): new state and
    the input not consumed. *)
Definition read (fs : fstruct) (lit : bool) (s : state) (inp : list N) : res (state * list N) :=
  read_items fs lit [] (fs_items fs) (s, inp).

(** ** Index enumeration *)

(** nitf_field.py:602-617 ([NitfLoop.keys]) for a field with loops [shs] (outermost first),
    the first [length lead] of which are already fixed. *)
Fixpoint keys_from (fs : fstruct) (s : state) (lead : list Z) (shs : list expr)
  : res (list (list Z)) :=
  match shs with
  | [] => Ok [lead]
  | sh :: shs' =>
      do n <- eval_shape (G fs s) fs lead sh;
      concat_map_res (fun i => keys_from fs s (lead ++ [i]) shs') (zrange n)
  end.

(** Keys of a field: [NitfField.items] / [values] iterate over these (nitf_field.py:150-161). *)
Definition field_keys (fs : fstruct) (s : state) (f : field) : res (list (list Z)) :=
  keys_from fs s [] (f_loops f).

(** nitf_field.py:819-832 ([__deepcopy__]) and 898-910 ([__getstate__]/[__setstate__]). *)
Definition deepcopy (fs : fstruct) (s : state) : res state :=
  do b <- write fs s;
  do p <- read fs false init_state b;
  Ok (fst p).

End Engine.

Arguments VNone {FO}.
Arguments VBool {FO} b.
Arguments VInt {FO} z.
Arguments VStr {FO} s.
Arguments VBytes {FO} b.
Arguments VFloat {FO} x.
Arguments SVal {FO} v.
Arguments SLit {FO} b.
