(** The content header and data of an EXT_DEF_CONTENT DES, nitf_des_ext_def_content.py. *)
From Verif Require Import Base BaseLemmas Engine DescsDes.
From Coq Require Import ZifyBool ZifyNat ZifyN.
Open Scope list_scope.

(** nitf_des_ext_def_content.py:39-49 ([hlist]), the names in the header. *)
Definition hnames : list (list N) :=
  [str "Content-Type"; str "Content-Use"; str "Content-Encoding"; str "Content-Range"; str "Content-Length";
   str "Content-Description"; str "Content-Disposition"; str "Canonical-ID"; str "DES-ID1"; str "DES-ID2"].
(** nitf_des_ext_def_content.py:51-64 ([__init__]): the attributes, in the order of [hlist]. *)
Definition hdefaults : list (option (list N)) :=
  [Some []; Some []; None; None; Some (str "0"); Some []; Some []; Some []; Some []; Some []].

(** [b'\r\n']. (nitf_des_ext_def_content.py:77-84.) *)
Definition crlf : list N := [13; 10]%N.
(** [sep.join(l)] (nitf_des_ext_def_content.py:79). *)
Fixpoint join (sep : list N) (l : list (list N)) : list N :=
  match l with [] => [] | [x] => x | x :: l' => x ++ sep ++ join sep l' end.
(** [l.split(sep)] for the two-byte separator [a b] (nitf_des_ext_def_content.py:82-83);
    [cur] is the current piece, reversed. *)
Fixpoint split2 (a b : N) (cur l : list N) : list (list N) :=
  match l with
  | [] => [rev cur]
  | x :: l' =>
      match l' with
      | y :: l'' => if (x =? a)%N && (y =? b)%N then rev cur :: split2 a b [] l'' else split2 a b (x :: cur) l'
      | [] => [rev (x :: cur)]
      end
  end.

(** nitf_des_ext_def_content.py:66-70 ([_snippet]). *)
Definition snippet (p : list N * option (list N)) : option (list N) :=
  match snd p with Some v => Some (fst p ++ [58; 32]%N ++ v) | None => None end.
(** nitf_des_ext_def_content.py:77-79 ([bytes]). *)
Definition hbytes (vals : list (option (list N))) : list N :=
  join crlf (flat_map (fun p => match snippet p with Some t => [t] | None => [] end) (combine hnames vals)) ++ crlf.
(** nitf_des_ext_def_content.py:72-75 ([_set_snippet]). *)
Definition set_snippet (k v : list N) (vals : list (option (list N))) : list (option (list N)) :=
  map (fun p => if list_eqb k (fst p) then Some v else snd p) (combine hnames vals).
(** The loop of nitf_des_ext_def_content.py:81-84 ([parse]): [k, v = ln.split(b': ')] wants
    exactly two pieces. *)
Fixpoint parse_lines (ls : list (list N)) (vals : list (option (list N))) : res (list (option (list N))) :=
  match ls with
  | [] => Ok vals
  | ln :: ls' => match split2 58 32 [] ln with
                 | [k; v] => parse_lines ls' (set_snippet k v vals)
                 | _ => Err EValue
                 end
  end.
(** [rstrip(b'\r\n')]: these two bytes, in any order. (nitf_des_ext_def_content.py:82.) *)
Definition is_crlf (c : N) : bool := (c =? 13)%N || (c =? 10)%N.
(** nitf_des_ext_def_content.py:81-84 ([parse]) of the content headers [h]. *)
Definition hparse (h : list N) (vals : list (option (list N))) : res (list (option (list N))) :=
  parse_lines (split2 13 10 [] (rstrip_by is_crlf h)) vals.

Section Ext.
Variable FO : FloatOps.
Notation fs := (mk_fs desc_DesExtContentHeader).

(** A content header: its two fields, its attributes, and [_des.data_size] if it belongs to a
    DES that was made by the program ([None] for an unknown size).
    (nitf_des_ext_def_content.py:34-64.) *)
Record xhdr := { x_st : state FO; x_vals : list (option (list N)); x_des : option (option Z) }.
(** nitf_des_ext_def_content.py:51-64 *)
Definition new_xhdr : xhdr := {| x_st := init_state FO; x_vals := hdefaults; x_des := None |}.

(** [str(n)] of the size, [None] gives "None". (nitf_des_ext_def_content.py:92.) *)
Definition size_text (n : option Z) : list N := match n with Some z => str_of_Z z | None => str "None" end.
(** nitf_des_ext_def_content.py:91-92: [content_length] is set. *)
Definition set_length (h : xhdr) : list (option (list N)) :=
  match x_des h with
  | Some n => map (fun p => if list_eqb (str "Content-Length") (fst p) then Some (size_text n) else snd p) (combine hnames (x_vals h))
  | None => x_vals h
  end.

(** nitf_des_ext_def_content.py:90-94 ([write_to_file]): the header afterwards and the bytes. *)
Definition xwrite (h : xhdr) : xhdr * res (list N) :=
  let vals := set_length h in
  let '(s, r) := set FO fs (x_st h) "content_headers" [] (SVal (VBytes (hbytes vals))) in
  ({| x_st := s; x_vals := vals; x_des := x_des h |},
   match r with Err e => Err e | Ok _ => write FO fs s end).

(** nitf_des_ext_def_content.py:86-88 ([read_from_file]). *)
Definition xread (h : xhdr) (inp : list N) : res (xhdr * list N) :=
  do sr <- read FO fs false (x_st h) inp;
  let '(s, rest) := sr in
  do c <- get FO fs s "content_headers" [];
  match c with
  | VBytes b => do vals <- hparse b (x_vals h); Ok ({| x_st := s; x_vals := vals; x_des := x_des h |}, rest)
  | _ => Err EAttr
  end.
End Ext.

(** The data.  [size] is [data_size], [data] what was read, [file] an attached file.
    (nitf_des_ext_def_content.py:123-135.) *)
Record xdes := { xd_size : option Z; xd_data : option (list N); xd_file : option (list N) }.
(** nitf_des_ext_def_content.py:143-155 ([DesEXT_DEF_CONTENT.read_from_file]) for a segment of
    [size] bytes; a file that is too short makes [np.memmap] fail, and an empty segment is taken
    to fail too. *)
Definition xd_read (size : Z) (inp : list N) : res (xdes * list N) :=
  if (Z.of_nat (List.length inp) <? size)%Z || (size <=? 0)%Z then Err EValue
  else Ok ({| xd_size := Some size; xd_data := Some (firstn (Z.to_nat size) inp); xd_file := None |}, skipn (Z.to_nat size) inp).
(** nitf_des_ext_def_content.py:157-161 ([DesEXT_DEF_CONTENT.write_to_file]). *)
Definition xd_write (d : xdes) : list N :=
  match xd_size d with Some n => repeat 0%N (Z.to_nat n) | None => [] end.
(** nitf_des_ext_def_content.py:288-295 ([DesEXT_h5.write_to_file]). *)
Definition h5_write (d : xdes) : list N :=
  match xd_file d with
  | Some b => b
  | None => match xd_data d with Some b => b | None => [] end
  end.
(** nitf_des_ext_def_content.py:247-252 ([attach_file]), the part concerning the data. *)
Definition h5_attach (file : list N) : xdes :=
  {| xd_size := Some (Z.of_nat (List.length file)); xd_data := None; xd_file := Some file |}.
