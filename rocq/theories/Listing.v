(** Listing and printing the content of a structure (nitf_field.py:136-161, 203-209,
    430-482, 590-640, 662-681, 865-896, 941-946).  No proofs in this file. *)
From Verif Require Import Base BaseLemmas Engine Wf EngineLemmas Codec RoundTrip Rewrite Literal
  Positions Keys Deps Assign Delayed.
Open Scope list_scope.

(** A list comprehension whose elements may fail (nitf_field.py:641-645). *)
Fixpoint map_res {A B} (f : A -> res B) (l : list A) : res (list B) :=
  match l with
  | [] => Ok []
  | a :: l' => do x <- f a; do y <- map_res f l'; Ok (x :: y)
  end.

(** ** [str(b)] and [eval] for bytes: python's own notation for bytes *)

(** A digit of [\xhh] (the text of nitf_field.py:905). *)
Definition hex_digit (n : N) : N := if (n <? 10)%N then (48 + n)%N else (87 + n)%N.

(** One byte of the text of nitf_field.py:905, inside the quote [q]. *)
Definition byte_repr (q c : N) : list N :=
  if (c =? q)%N || (c =? 92)%N then [92; c]%N
  else if (c =? 9)%N then [92; 116]%N
  else if (c =? 10)%N then [92; 110]%N
  else if (c =? 13)%N then [92; 114]%N
  else if (c <? 32)%N || (127 <=? c)%N then [92; 120; hex_digit (c / 16); hex_digit (c mod 16)]%N
  else [c].

(** [str(b)] for bytes (nitf_field.py:209, 905; nitf_tre.py:137): single quotes, unless a
    single quote and no double quote occurs. *)
Definition bytes_quote (b : list N) : N :=
  if existsb (N.eqb 39) b && negb (existsb (N.eqb 34) b) then 34%N else 39%N.
(** nitf_field.py:209, 905. *)
Definition bytes_repr (b : list N) : list N :=
  let q := bytes_quote b in 98%N :: q :: flat_map (byte_repr q) b ++ [q].

(** The value of a hexadecimal digit in the literal evaluated by nitf_field.py:908. *)
Definition hex_val (c : N) : option N :=
  if (48 <=? c)%N && (c <=? 57)%N then Some (c - 48)%N
  else if (97 <=? c)%N && (c <=? 102)%N then Some (c - 87)%N
  else if (65 <=? c)%N && (c <=? 70)%N then Some (c - 55)%N else None.

(** What [eval] makes of the rest of a bytes literal up to its closing quote
    (nitf_field.py:908); of the escapes only those [str] writes, the others are refused. *)
Fixpoint lit_body (q : N) (l : list N) : option (list N) :=
  match l with
  | [] => None
  | c :: l' =>
      if (c =? q)%N then match l' with [] => Some [] | _ :: _ => None end
      else if (c =? 92)%N then
        match l' with
        | [] => None
        | e :: l2 =>
            let one v r := match lit_body q r with Some t => Some (v :: t) | None => None end in
            if (e =? 116)%N then one 9%N l2
            else if (e =? 110)%N then one 10%N l2
            else if (e =? 114)%N then one 13%N l2
            else if (e =? 39)%N || (e =? 34)%N || (e =? 92)%N then one e l2
            else if (e =? 120)%N then
              match l2 with
              | h :: l3 => match l3 with
                           | k :: l4 => match hex_val h, hex_val k with
                                        | Some x, Some y => one (16 * x + y)%N l4
                                        | _, _ => None
                                        end
                           | [] => None
                           end
              | [] => None
              end
            else None
        end
      else if (c =? 10)%N || (c =? 13)%N || (c =? 0)%N || (128 <=? c)%N then None
      else match lit_body q l' with Some t => Some (c :: t) | None => None end
  end.
(** [eval(d["field_data"])], nitf_field.py:908. *)
Definition eval_bytes (l : list N) : option (list N) :=
  match l with
  | 98%N :: q :: l' => if (q =? 39)%N || (q =? 34)%N then lit_body q l' else None
  | _ => None
  end.

Section Listing.
Variable FO : FloatOps.
Notation state := (state FO).
Notation pyval := (pyval FO).

(** ** Lists *)

(** What [to_list] gives: a value, or lists of lists of values. (nitf_field.py:136-139.) *)
Inductive nest := Leaf (v : pyval) | Node (l : list nest).

(** nitf_field.py:636-645 ([NitfLoop.to_list]) for a field with loops [shs] still open. *)
Fixpoint to_list_from (fs : fstruct) (s : state) (f : field) (lead : list Z) (shs : list expr) : res nest :=
  match shs with
  | [] => do v <- fget FO fs s f lead; Ok (Leaf v)
  | sh :: shs' =>
      do n <- eval_shape FO (G FO fs s) fs lead sh;
      do l <- map_res (fun i => to_list_from fs s f (lead ++ [i]) shs') (zrange n);
      Ok (Node l)
  end.

(** nitf_field.py:136-139 ([NitfField.to_list]). *)
Definition to_list (fs : fstruct) (s : state) (f : field) : res nest := to_list_from fs s f [] (f_loops f).

(** nitf_field.py:141-146 ([NitfField.values]), the iterator run to its end; the keys are
    listed before the values (only which exception is raised can differ). *)
Definition values (fs : fstruct) (s : state) (f : field) : res (list pyval) :=
  do ks <- field_keys FO fs s f; map_res (fget FO fs s f) ks.

(** nitf_field.py:148-152 ([NitfField.items]). *)
Definition items (fs : fstruct) (s : state) (f : field) : res (list (list Z * pyval)) :=
  do ks <- field_keys FO fs s f; map_res (fun k => do v <- fget FO fs s f k; Ok (k, v)) ks.

(** The keys of the dictionary [field], in the order they were first put there
    (nitf_field.py:569-570, 865-869 [field_names]). *)
Fixpoint dict_names (seen : list string) (fl : list field) : list string :=
  match fl with
  | [] => []
  | f :: fl' =>
      match fd_name (f_d f) with
      | None => dict_names seen fl'
      | Some nm => if existsb (String.eqb nm) seen then dict_names seen fl' else nm :: dict_names (nm :: seen) fl'
      end
  end.
(** nitf_field.py:865-869. *)
Definition field_names (fs : fstruct) : list string := dict_names [] (fs_fields fs).

(** nitf_field.py:871-896 ([FieldStruct.items], [array_as_list=True]). *)
Definition struct_items (fs : fstruct) (s : state) : res (list (string * nest)) :=
  map_res (fun nm => match lookup fs nm with
                     | None => Err EKey
                     | Some f => do x <- to_list fs s f; Ok (nm, x)
                     end) (field_names fs).

(** ** Text *)

(** [", ".join(...)], nitf_field.py:623. *)
Fixpoint join (sep : list N) (l : list (list N)) : list N :=
  match l with
  | [] => []
  | [a] => a
  | a :: l' => a ++ sep ++ join sep l'
  end.

(** nitf_field.py:619-623 ([key_to_str]). *)
Definition key_to_str (k : list Z) : list N :=
  match k with [] => [] | _ :: _ => str "[" ++ join (str ", ") (map str_of_Z k) ++ str "]" end.

(** ["%f"] of nitf_field.py:466. *)
Definition pct_f : fspec := FsPct false false false 0 6 false false.

(** What [str] makes of a value of a class defined with a table, given its bytes; and the source
    text of a loop count.  (nitf_field.py:203-209, 669.) *)
Variable ext : field -> list N -> res (list N).
Variable source : expr -> list N.

(** [str(t)] (nitf_field.py:209). *)
Definition str_any (v : pyval) : list N :=
  match v with VBytes b => bytes_repr b | _ => conv_str FO v end.

(** [get_print] of each class (nitf_field.py:203-209, 431-435, 446-450, 462-466, 478-482). *)
Definition get_print (fs : fstruct) (s : state) (f : field) (k : list Z) : res (list N) :=
  do t <- fget FO fs s f k;
  match t with
  | VNone => Ok (str "Not used")
  | _ =>
      match fd_ty (f_d f) with
      | TData KString => match t with
                         | VStr [] => Ok (str "Not used")
                         | VStr u => Ok u
                         | _ => Err EType
                         end
      | TData KBytes => match t with
                        | VBytes [] => Ok (str "Not used")
                        | VBytes b => Ok (str "Data length " ++ str_of_Z (Z.of_nat (List.length b)))
                        | _ => Err EType
                        end
      | TData KFloat => match t with
                        | VFloat x => match fl_fmt FO pct_f x with Some u => Ok u | None => Err EType end
                        | _ => Err EType
                        end
      | TData (KInt _) => match t with VInt z => Ok (str_of_Z z) | _ => Err EType end
      | TData KExt => match t with VBytes b => ext f b | _ => Err EType end
      | _ => Ok (str_any t)
      end
  end.

(** The names of the fields directly in a loop (nitf_field.py:664-666). *)
Definition direct_names (its : list item) : list string :=
  flat_map (fun it => match it with
                      | IField f => match fd_name (f_d f) with Some nm => [nm] | None => [] end
                      | ILoop _ _ => []
                      end) its.
(** [max(..., default=d)]. (nitf_field.py:664-668.) *)
Definition max_of (d : nat) (l : list nat) : nat := match l with [] => d | a :: l' => fold_left Nat.max l' a end.
(** nitf_field.py:664-668. *)
Definition width (its : list item) (ks : list (list Z)) : nat :=
  max_of 10 (map (fun nm => List.length (str nm)) (direct_names its)) + max_of 0 (map (fun k => List.length (key_to_str k)) ks).

(** nitf_field.py:669-681; the fields of one loop are padded to the width [w]. *)
Definition value_line (w dim : nat) (nm : string) (k : list Z) (p : list N) : list N :=
  spaces (2 * dim) ++ ljust w (str nm ++ key_to_str k) ++ str ": " ++ p.

(** nitf_field.py:662-681 ([NitfLoop.print_to_fh]): the lines for one row of the table; [path]
    are the counts of the loops around it. *)
Fixpoint print_item (fs : fstruct) (s : state) (w : nat) (path : list expr) (it : item) : res (list (list N)) :=
  match it with
  | IField f =>
      match fd_name (f_d f) with
      | None => Ok []
      | Some nm =>
          do ks <- keys_from FO fs s [] path;
          map_res (fun k => do p <- get_print fs s f k; Ok (value_line w (List.length path) nm k p)) ks
      end
  | ILoop sh its =>
      do ks <- keys_from FO fs s [] (path ++ [sh]);
      let w' := width its ks in
      do ls <- (fix go its := match its with
                  | [] => Ok []
                  | it :: its' => do x <- print_item fs s w' (path ++ [sh]) it; do y <- go its'; Ok (x ++ y)
                  end) its;
      Ok ((spaces (2 * List.length path) ++ str "Loop - " ++ source sh) :: ls)
  end.

(** [print(..., file=fh)] ends each line. (nitf_field.py:669-681.) *)
Definition unlines (ls : list (list N)) : list N := flat_map (fun l => l ++ [10%N]) ls.

(** The lines of nitf_field.py:662-681 for the whole structure. *)
Definition print_lines (fs : fstruct) (s : state) : res (list (list N)) :=
  concat_map_res (print_item fs s (width (fs_items fs) [[]]) []) (fs_items fs).

(** nitf_field.py:941-946 ([FieldStruct.__str__]). *)
Definition print (fs : fstruct) (s : state) : res (list N) :=
  do ls <- print_lines fs s; Ok (unlines ls).

(** ** Printing while a read is pending (nitf_field.py:835-840, 662-681) *)

(** nitf_field.py:672-681 for one field: [self.keys()] and [get_print] evaluate expressions, the
    first of which that names a field makes the read happen. *)
Definition dprint_field (fs : fstruct) (w : nat) (path : list expr) (f : field) (d : dstate FO)
  : dstate FO * res (list (list N)) :=
  match fd_name (f_d f) with
  | None => (d, Ok [])
  | Some _ =>
      match touch FO fs (flat_map expr_refs path ++ own_refs f) d with
      | (d1, Err e) => (d1, Err e)
      | (d1, Ok _) => (d1, print_item fs (ds_st FO d1) w path (IField f))
      end
  end.

(** nitf_field.py:662-681. *)
Fixpoint dprint_item (fs : fstruct) (w : nat) (path : list expr) (it : item) (d : dstate FO)
  : dstate FO * res (list (list N)) :=
  match it with
  | IField f => dprint_field fs w path f d
  | ILoop sh its =>
      match touch FO fs (flat_map expr_refs (path ++ [sh])) d with
      | (d1, Err e) => (d1, Err e)
      | (d1, Ok _) =>
          match keys_from FO fs (ds_st FO d1) [] (path ++ [sh]) with
          | Err e => (d1, Err e)
          | Ok ks =>
              let w' := width its ks in
              match (fix go its d := match its with
                       | [] => (d, Ok [])
                       | it :: its' => match dprint_item fs w' (path ++ [sh]) it d with
                                       | (d2, Err e) => (d2, Err e)
                                       | (d2, Ok x) => match go its' d2 with
                                                       | (d3, Err e) => (d3, Err e)
                                                       | (d3, Ok y) => (d3, Ok (x ++ y))
                                                       end
                                       end
                       end) its d1 with
              | (d2, Err e) => (d2, Err e)
              | (d2, Ok ls) => (d2, Ok ((spaces (2 * List.length path) ++ str "Loop - " ++ source sh) :: ls))
              end
          end
      end
  end.

(** nitf_field.py:662-681, 941-946. *)
Fixpoint dprint_items (fs : fstruct) (w : nat) (its : list item) (d : dstate FO) : dstate FO * res (list (list N)) :=
  match its with
  | [] => (d, Ok [])
  | it :: its' => match dprint_item fs w [] it d with
                  | (d2, Err e) => (d2, Err e)
                  | (d2, Ok x) => match dprint_items fs w its' d2 with
                                  | (d3, Err e) => (d3, Err e)
                                  | (d3, Ok y) => (d3, Ok (x ++ y))
                                  end
                  end
  end.

(** [str(x)] of a structure read with [delayed_read=True] (nitf_field.py:941-946). *)
Definition dprint (fs : fstruct) (d : dstate FO) : dstate FO * res (list N) :=
  match dprint_items fs (width (fs_items fs) [[]]) (fs_items fs) d with
  | (d1, Err e) => (d1, Err e)
  | (d1, Ok ls) => (d1, Ok (unlines ls))
  end.

End Listing.
Arguments Leaf {FO} v.
Arguments Node {FO} l.
