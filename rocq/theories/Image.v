(** Image subheader properties, and writing and reading image data
    (nitf_image_subheader.py:114-213, 237-239, 374-419; nitf_image.py). *)
From Verif Require Import Base Engine DescsHdr Tre TrePlace Security.
From Coq Require Import ZifyBool ZifyNat ZifyN.
Open Scope string_scope.
Open Scope list_scope.

(** The numpy types the library knows (nitf_image_subheader.py:133-155). *)
Inductive dtype := U1 | I1 | U2 | I2 | U4 | I4 | F4 | C8 | F8 | C16.
(** [np.dtype.itemsize]. (nitf_image.py:145-187, 376.) *)
Definition itemsize (d : dtype) : Z :=
  match d with U1 | I1 => 1 | U2 | I2 => 2 | U4 | I4 | F4 => 4 | C8 | F8 => 8 | C16 => 16 end.

(** A numpy type given by the user: one of the known ones in either byte order, or another
    (nitf_image_subheader.py:172-213). *)
Inductive nptype := Np (big_endian : bool) (d : dtype) | NpOther.

(** [nbpp, pvtype] and the type, in the order tested (nitf_image_subheader.py:133-155). *)
Definition dtype_table : list (Z * string * dtype) :=
  [(8, "INT", U1); (8, "SI", I1); (16, "INT", U2); (16, "SI", I2); (32, "INT", U4); (32, "SI", I4);
   (32, "R", F4); (64, "C", C8); (64, "R", F8); (128, "C", C16)]%Z.
(** What the setter stores (nitf_image_subheader.py:172-213): bits and [pvtype]. *)
Definition dtype_fields (d : dtype) : Z * string :=
  match d with
  | U1 => (8, "INT") | I1 => (8, "SI") | U2 => (16, "INT") | I2 => (16, "SI") | U4 => (32, "INT")
  | I4 => (32, "SI") | F4 => (32, "R") | C8 => (64, "C") | F8 => (64, "R") | C16 => (128, "C")
  end%Z.

(** How the data is supplied (nitf_image.py:250-255): all at once, by band, or by row with the
    bands of a pixel together.  The constructor refuses the other three (nitf_image.py:302-326). *)
Inductive gen_mode := GAll | GBand | GRowP.

(** [iid1], [iid2], [idatim], [irep], [icat] and [idlvl] of the constructors.
    (nitf_image.py:263-271.) *)
Record img_args := { ia_iid1 : list N; ia_iid2 : list N; ia_idatim : list N; ia_irep : list N;
                     ia_icat : list N; ia_idlvl : Z }.

Section Image.
Variable FO : FloatOps.
Notation pyval := (pyval FO).
Notation hdr := (hdr FO).

(** [ih.nm], [ih.nm = v] and [ih.nm[k] = v] (nitf_field.py:835-863, 282-308). *)
Definition iget (h : hdr) (nm : string) : res pyval := hget FO desc_NitfImageSubheader h nm.
(** nitf_field.py:282-308, 856-863. *)
Definition iset (nm : string) (v : pyval) (h : hdr) : hdr * res unit := hset FO desc_NitfImageSubheader h nm v.
(** nitf_field.py:282-308, 856-863. *)
Definition iset_at (nm : string) (k : list Z) (v : pyval) (h : hdr) : hdr * res unit :=
  let '(s, r) := set FO (mk_fs desc_NitfImageSubheader) (h_st h) nm k (SVal v) in
  ({| h_st := s; h_attr := h_attr h |}, r).
(** One statement after the other; an exception ends the sequence.
    (nitf_image_subheader.py:390-419.) *)
Fixpoint steps (l : list (hdr -> hdr * res unit)) (h : hdr) : hdr * res unit :=
  match l with
  | [] => (h, Ok tt)
  | f :: l' => match f h with (h1, Ok _) => steps l' h1 | r => r end
  end.

(** Comparing a value with a number (nitf_image_subheader.py:116), TypeError unless it is one. *)
Definition iint (h : hdr) (nm : string) : res Z := hint FO desc_NitfImageSubheader h nm.

(** [number_band] (nitf_image_subheader.py:114-126). *)
Definition number_band (h : hdr) : res pyval :=
  do n <- iint h "nbands"; if (n >? 0)%Z then iget h "nbands" else iget h "xbands".
(** nitf_image_subheader.py:118-126. *)
Definition set_number_band (n : Z) (h : hdr) : hdr * res unit :=
  if (n <? 10)%Z then iset "nbands" (VInt n) h
  else steps [iset "nbands" (VInt 0); iset "xbands" (VInt n)] h.

(** [ih.nm == v] (nitf_image_subheader.py:133-155, nitf_image.py:145-165). *)
Definition ieq (h : hdr) (nm : string) (v : pyval) : res bool := do x <- iget h nm; py_eqb FO x v.

(** [dtype] (nitf_image_subheader.py:128-155).  The message of the error is formatted with [%d]. *)
Fixpoint find_dtype (h : hdr) (l : list (Z * string * dtype)) : res dtype :=
  match l with
  | [] => do n <- iget h "nbpp"; do _ <- iget h "pvtype"; match n with VInt _ => Err ERuntime | _ => Err EType end
  | (n, p, d) :: l' =>
      do a <- ieq h "nbpp" (VInt n);
      do b <- (if a then ieq h "pvtype" (VStr (str p)) else Ok false);
      if b then Ok d else find_dtype h l'
  end.
(** nitf_image_subheader.py:128-155. *)
Definition get_dtype (h : hdr) : res dtype := find_dtype h dtype_table.
(** [dtype.setter] (nitf_image_subheader.py:157-213). *)
Definition set_dtype (t : nptype) (h : hdr) : hdr * res unit :=
  match t with
  | NpOther => (h, Err ERuntime)
  | Np _ d => let '(n, p) := dtype_fields d in
              steps [iset "abpp" (VInt n); iset "nbpp" (VInt n); iset "pvtype" (VStr (str p))] h
  end.

(** [shape] (nitf_image_subheader.py:237-239 as used by numpy: every entry an integer). *)
Definition dim (v : pyval) : res Z := match v with VInt z => Ok z | _ => Err EType end.
(** nitf_image_subheader.py:237-239. *)
Definition shape (h : hdr) : res (pyval * pyval * pyval) :=
  do b <- number_band h; do r <- iget h "nrows"; do c <- iget h "ncols"; Ok (b, r, c).
(** nitf_image_subheader.py:237-239. *)
Definition dims (h : hdr) : res (Z * Z * Z) :=
  do (b, r, c) <- shape h; do b' <- dim b; do r' <- dim r; do c' <- dim c; Ok (b', r', c').

(** [set_default_image_subheader] (nitf_image_subheader.py:374-419). *)
Definition band_steps (n : Z) : list (hdr -> hdr * res unit) :=
  flat_map (fun b => [iset_at "irepband" [Z.of_nat b] (VStr (str "M"));
                      iset_at "isubcat" [Z.of_nat b] (VInt (Z.of_nat b + 1));
                      iset_at "nluts" [Z.of_nat b] (VInt 0)]) (seq 0 (Z.to_nat n))
  ++ [iset_at "irepband" [(n - 1)%Z] (VStr (str "B")); iset_at "irepband" [Z.quot n 2] (VStr (str "G"));
      iset_at "irepband" [0%Z] (VStr (str "R"))].
(** nitf_image_subheader.py:374-419. *)
Definition set_default (nrow ncol : Z) (t : nptype) (n : Z) (a : img_args) : hdr -> hdr * res unit :=
  steps ([iset "iid1" (VStr (ia_iid1 a)); iset "iid2" (VStr (ia_iid2 a)); iset "idlvl" (VInt (ia_idlvl a));
          iset "isclas" (VStr (str "U")); iset "irep" (VStr (ia_irep a)); iset "icat" (VStr (ia_icat a));
          iset "encryp" (VInt 0); iset "idatim" (VStr (ia_idatim a)); iset "nrows" (VInt nrow);
          iset "ncols" (VInt ncol); iset "nbpr" (VInt 1); iset "nbpc" (VInt 1); iset "nppbh" (VInt ncol);
          iset "nppbv" (VInt nrow); set_dtype t; set_number_band n; iset "ic" (VStr (str "NC"));
          iset "nicom" (VInt 0)] ++ band_steps n).

(** The subheader made by [NitfImageWriteDataOnDemand] (nitf_image.py:263-326) and
    [NitfImageWriteNumpy] (424-426). *)
Definition new_image (m : gen_mode) (nrow ncol : Z) (t : nptype) (n : Z) (a : img_args) (sec : security FO)
  : hdr * res unit :=
  steps [set_default nrow ncol t n a; (fun h => set_security FO desc_NitfImageSubheader h "is" sec);
         match m with
         | GAll | GBand => steps []
         | GRowP => steps [iset "nbpr" (VInt 1); iset "nbpc" (VInt nrow); iset "nppbh" (VInt ncol);
                           iset "nppbv" (VInt 1); iset "imode" (VStr (str "P"))]
         end]
    {| h_st := init_state FO; h_attr := [] |}.

(** ** Writing (nitf_image.py:343-391).  A numpy array is its shape and its items in C order, an
    item the big endian bytes of a pixel; the conversion between byte orders is numpy's. *)
Definition item := list N.
(** nitf_image.py:351-374. *)
Record array := { a_shape : list Z; a_items : list item }.

(** [np.zeros(shape, dtype)]: a negative dimension is a ValueError.
    (nitf_image.py:352, 358, 371.) *)
Definition zeros (sh : list Z) (d : dtype) : res array :=
  if existsb (fun n => (n <? 0)%Z) sh then Err EValue
  else Ok {| a_shape := sh;
             a_items := repeat (repeat 0%N (Z.to_nat (itemsize d))) (Z.to_nat (fold_right Z.mul 1%Z sh)) |}.
(** nitf_image.py:354, 361, 374. *)
Definition tobytes (a : array) : list N := List.concat (a_items a).

(** [data_to_write(d, bstart, lstart, sstart)] changes [d] in place (nitf_image.py:35-42, 335-336). *)
Definition supplier := array -> Z -> Z -> Z -> res array.

(** The loop over bands or rows (nitf_image.py:359-361, 372-374): the same array each time. *)
Fixpoint supply (f : supplier) (starts : list (Z * Z * Z)) (d : array) : res (list N) :=
  match starts with
  | [] => Ok []
  | (b, l, s) :: rest =>
      do d' <- f d b l s; do out <- supply f rest d'; Ok (tobytes d' ++ out)
  end.
(** [range], nitf_image.py:359, 372. *)
Definition upto (n : Z) : list Z := map Z.of_nat (seq 0 (Z.to_nat n)).
(** nitf_image.py:343-391. *)
Definition write_image (m : gen_mode) (h : hdr) (f : supplier) : res (list N) :=
  do (nb, nr, nc) <- dims h;
  do dt <- get_dtype h;
  match m with
  | GAll => do d <- zeros [nb; nr; nc] dt; supply f [(0, 0, 0)%Z] d
  | GBand => do d <- zeros [nr; nc] dt; supply f (map (fun b => (b, 0, 0)%Z) (upto nb)) d
  | GRowP => do d <- zeros [nc; nb] dt; supply f (map (fun r => (0, r, 0)%Z) (upto nr)) d
  end.

(** [NitfImageWriteNumpy.data_to_write] (nitf_image.py:439-440): three indices, so IndexError
    unless [d] has three dimensions.  Only called with zero starts; the case where [_data] and
    [d] differ in shape (broadcasting) is simplified to an error. *)
Definition numpy_supplier (data : array) : supplier := fun d b l s =>
  match a_shape d with
  | [_; _; _] => if list_eq_dec Z.eq_dec (a_shape d) (a_shape data) then Ok data else Err EValue
  | _ => Err EIndex
  end.

(** ** Reading (nitf_image.py:130-187, with [mmap=True]).  [None]: the class does not handle the
    image.  Otherwise whether the pixels of a row are interleaved by pixel, and the type. *)
Definition np_plan (h : hdr) : res (option (bool * dtype)) :=
  do ic <- ieq h "ic" (VStr (str "NC"));
  if negb ic then Ok None else
  do p <- ieq h "imode" (VStr (str "P"));
  do s1 <- (if p then ieq h "nbpr" (VInt 1) else Ok false);
  do s2 <- (if s1 then do (b, r, c) <- shape h; ieq h "nbpc" r else Ok false);
  do s3 <- (if s2 then do (b, r, c) <- shape h; ieq h "nppbh" c else Ok false);
  do ok <- (if s3 then do _ <- get_dtype h; Ok true
            else do b1 <- ieq h "nbpr" (VInt 1);
                 do b2 <- (if b1 then ieq h "nbpc" (VInt 1) else Ok false);
                 if negb b2 then Ok false
                 else do m <- ieq h "imode" (VStr (str "B")); Ok (m || p));
  if negb ok then Ok None else
  do one <- ieq h "nbpp" (VInt 1);
  if one then Ok None else
  match get_dtype h with
  | Ok d => Ok (Some (s3, d))
  | Err ERuntime => Ok None
  | Err e => Err e
  end.

(** A memory mapped array: shape, strides in bytes, offset in the file, type.
    (nitf_image.py:130-187.) *)
Record mapped := { mp_dims : Z * Z * Z; mp_strides : Z * Z * Z; mp_off : Z; mp_dt : dtype }.
(** nitf_image.py:130-187. *)
Definition mp_size (m : mapped) : Z := let '(b, r, c) := mp_dims m in (b * r * c * itemsize (mp_dt m))%Z.

(** [np.ndarray(shape, dtype, buffer, strides, offset)]: refused if it does not fit in the file.
    (nitf_image.py:130-187.) *)
Definition np_map (h : hdr) (il : bool) (d : dtype) (flen off : Z) : res mapped :=
  do (b, r, c) <- dims h;
  if (b <? 0)%Z || (r <? 0)%Z || (c <? 0)%Z then Err EValue else
  let isz := itemsize d in
  let m := {| mp_dims := (b, r, c);
              mp_strides := if il then (isz, b * c * isz, b * isz)%Z else (r * c * isz, c * isz, isz)%Z;
              mp_off := off; mp_dt := d |} in
  if (flen <? off + mp_size m)%Z then (if il then Err EValue else Err EType) else Ok m.

(** [data[b, r, c]] for indices within the shape. (nitf_image.py:122-123.) *)
Definition mp_item (file : list N) (m : mapped) (b r c : Z) : item :=
  let '(sb, sr, sc) := mp_strides m in
  firstn (Z.to_nat (itemsize (mp_dt m))) (skipn (Z.to_nat (mp_off m + b * sb + r * sr + c * sc)) file).

(** [read_from_file]: [None] or the array and the position after it (nitf_image.py:130-187). *)
Definition np_read (h : hdr) (file : list N) (pos : Z) : res (option (mapped * Z)) :=
  do p <- np_plan h;
  match p with
  | None => Ok None
  | Some (il, d) => do m <- np_map h il d (Z.of_nat (List.length file)) pos; Ok (Some (m, (mp_size m + pos)%Z))
  end.

End Image.
