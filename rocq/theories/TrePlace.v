(** Placing TREs in header areas and overflow segments (nitf_tre.py:163-231). *)
From Verif Require Import Base Engine Utf8 Tre.
From Coq Require Import ZifyBool ZifyNat ZifyN.
Open Scope list_scope.

(** One row of [field_list]: the names of the length, overflow and data fields
    (nitf_tre.py:163-183; nitf_file.py:184-186, nitf_segment.py:249-250, 287, 310). *)
Record tarea := { ta_len : string; ta_ofl : string; ta_data : string }.

(** The areas of the file header (nitf_file.py:184-186, 201-203) and of the image, graphic and
    text subheaders (nitf_segment.py:249-250, 287, 310). *)
Definition file_areas : list tarea :=
  [{| ta_len := "xhdl"; ta_ofl := "xhdlofl"; ta_data := "xhd" |};
   {| ta_len := "udhdl"; ta_ofl := "udhofl"; ta_data := "udhd" |}].
(** nitf_segment.py:249-250. *)
Definition image_areas : list tarea :=
  [{| ta_len := "ixshdl"; ta_ofl := "ixofl"; ta_data := "ixshd" |};
   {| ta_len := "udidl"; ta_ofl := "udofl"; ta_data := "udid" |}].
(** nitf_segment.py:287. *)
Definition graphic_areas : list tarea :=
  [{| ta_len := "sxshdl"; ta_ofl := "sxsofl"; ta_data := "sxshd" |}].
(** nitf_segment.py:310. *)
Definition text_areas : list tarea :=
  [{| ta_len := "txshdl"; ta_ofl := "txsofl"; ta_data := "txshd" |}].

(** [str.upper] on the field names (nitf_des.py:166); ASCII only. *)
Definition upper_char (c : N) : N := if (97 <=? c)%N && (c <=? 122)%N then (c - 32)%N else c.

(** A new TreOverflow: [desoflw], [desitem] and [data] (nitf_des.py:157-168,
    nitf_tre.py:226-229).  Its other subheader fields are not modelled here. *)
Record over := { ov_oflw : list N; ov_item : Z; ov_data : list N }.

(** [if len(fh.getvalue()) + len(t) < 99999-3: fh.write(t); break] over the areas
    (nitf_tre.py:201-205); [None] is [wrote = False]. *)
Fixpoint put (t : list N) (heads : list (list N)) : option (list (list N)) :=
  match heads with
  | [] => None
  | h :: hs =>
      if (Z.of_nat (List.length h) + Z.of_nat (List.length t) <? 99999 - 3)%Z then Some ((h ++ t) :: hs)
      else option_map (cons h) (put t hs)
  end.

Section Place.
Variable FO : FloatOps.
Notation pyval := (pyval FO).

(** A header object: its fields, and plain attributes that are not fields
    ([FieldStruct.__setattr__] falls back to [object], nitf_field.py:856-863). *)
Record hdr := { h_st : state FO; h_attr : list (string * pyval) }.

(** Instance attributes, nitf_field.py:862-863. *)
Definition assoc {A} (nm : string) (l : list (string * A)) : option A :=
  match find (fun p => String.eqb nm (fst p)) l with Some p => Some (snd p) | None => None end.

(** [getattr(header, nm)] and [setattr(header, nm, v)] (nitf_field.py:835-847, 856-863). *)
Definition hget (rows : list row) (h : hdr) (nm : string) : res pyval :=
  match lookup (mk_fs rows) nm with
  | Some _ => get FO (mk_fs rows) (h_st h) nm []
  | None => match assoc nm (h_attr h) with Some v => Ok v | None => Err EAttr end
  end.
(** nitf_field.py:856-863. *)
Definition hset (rows : list row) (h : hdr) (nm : string) (v : pyval) : hdr * res unit :=
  match lookup (mk_fs rows) nm with
  | Some _ => let '(s, r) := set FO (mk_fs rows) (h_st h) nm [] (SVal v) in
              ({| h_st := s; h_attr := h_attr h |}, r)
  | None => ({| h_st := h_st h; h_attr := (nm, v) :: h_attr h |}, Ok tt)
  end.

(** A value compared with [> 0] or used as an index: an integer, otherwise TypeError
    (nitf_tre.py:174-178, 210). *)
Definition hint (rows : list row) (h : hdr) (nm : string) : res Z :=
  do v <- hget rows h nm; match v with VInt z => Ok z | _ => Err EType end.

(** [read_tre] (nitf_tre.py:163-183).  [des] gives [desseg.des.data] of each DES. *)
Fixpoint read_areas (rows : list row) (reg : registry) (h : hdr) (des : list (res (list N)))
    (areas : list tarea) : res (list (tre FO)) :=
  match areas with
  | [] => Ok []
  | a :: areas' =>
      do n <- hint rows h (ta_len a);
      do ts <- (if (n >? 0)%Z then
                  do i <- hint rows h (ta_ofl a);
                  do t1 <- (if (i >? 0)%Z then
                              do d <- (match nth_error des (Z.to_nat (i - 1)) with Some d => d | None => Err EIndex end);
                              read_tre_data FO reg d
                            else Ok []);
                  do v <- hget rows h (ta_data a);
                  do t2 <- (match v with VBytes b => read_tre_data FO reg b | _ => Err EType end);
                  Ok (t1 ++ t2)
                else Ok []);
      do ts' <- read_areas rows reg h des areas';
      Ok (ts ++ ts')
  end.

(** The loop over the TREs (nitf_tre.py:196-207). *)
Fixpoint place (ts : list (tre FO)) (heads : list (list N)) (des : list N)
  : res (list (list N) * list N) :=
  match ts with
  | [] => Ok (heads, des)
  | t :: ts' =>
      do b <- tre_write FO t;
      match put b heads with
      | Some heads' => place ts' heads' des
      | None => place ts' heads (des ++ b)
      end
  end.

(** The loop over the areas (nitf_tre.py:208-216). *)
Fixpoint store_areas (rows : list row) (h : hdr) (areas : list tarea) (heads : list (list N))
  : hdr * res unit :=
  match areas, heads with
  | a :: areas', b :: heads' =>
      match hint rows h (ta_len a) with
      | Err e => (h, Err e)
      | Ok n =>
          let '(h1, r1) := if (n >? 0)%Z then hset rows h (ta_ofl a) (VInt 0) else (h, Ok tt) in
          match r1 with
          | Err e => (h1, Err e)
          | Ok _ =>
              let '(h2, r2) := match b with [] => (h1, Ok tt) | _ => hset rows h1 (ta_data a) (VBytes b) end in
              match r2 with
              | Err e => (h2, Err e)
              | Ok _ => store_areas rows h2 areas' heads'
              end
          end
      end
  | _, _ => (h, Ok tt)
  end.

(** [prepare_tre_write] (nitf_tre.py:185-231): the header, the segment appended to [des_list]
    (which had [ndes] entries) and the outcome.  With no area and something to place,
    [field_list[0]] fails. *)
Definition prepare (rows : list row) (areas : list tarea) (idx : Z) (h : hdr) (ts : list (tre FO)) (ndes : nat)
  : hdr * option over * res unit :=
  match place ts (map (fun _ => []) areas) [] with
  | Err e => (h, None, Err e)
  | Ok (heads, des) =>
      let '(h1, r1) := store_areas rows h areas heads in
      match r1 with
      | Err e => (h1, None, Err e)
      | Ok _ =>
          match des with
          | [] => (h1, None, Ok tt)
          | _ =>
              match areas with
              | [] => (h1, None, Err EIndex)
              | a :: _ =>
                  let o := {| ov_oflw := map upper_char (str (ta_data a)); ov_item := (idx + 1)%Z; ov_data := des |} in
                  let '(h2, r2) := hset rows h1 (ta_ofl a) (VInt (Z.of_nat (S ndes))) in
                  (h2, Some o, r2)
              end
          end
      end
  end.

End Place.
Arguments h_st {FO}.
Arguments h_attr {FO}.
