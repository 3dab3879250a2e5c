(** Images: writing again what was read, reading into memory, changing what was written, copying
    (nitf_image.py). *)
From Verif Require Import Base Engine DescsHdr Tre TrePlace Security Image.
From Coq Require Import ZifyBool ZifyNat ZifyN.
Open Scope list_scope.

(** [fh_in.read(n)] at a position, for [n] not negative. (nitf_image.py:83-85, 197-199.) *)
Definition fread (file : list N) (pos : nat) (n : Z) : list N := firstn (Z.to_nat n) (skipn pos file).
(** The loop of nitf_image.py:80-90 and 194-204; [buf] is [buffer_size].  The number of rounds is
    bounded by the number of bytes. *)
Fixpoint copy_loop (fuel : nat) (buf : Z) (file : list N) (pos : nat) (left : Z) : list N :=
  match fuel with
  | O => []
  | S fuel' =>
      if (left >? 0)%Z then
        let d := if (left <? buf)%Z then fread file pos left else fread file pos buf in
        d ++ copy_loop fuel' buf file (pos + List.length d) (left - buf)
      else []
  end.
(** [write_to_file] of an image that was read, [start] and [size] being [data_start] and
    [data_size] (nitf_image.py:75-90, 189-204). *)
Definition copy_bytes (file : list N) (start : nat) (size : Z) : list N :=
  copy_loop (Z.to_nat size) (1024 * 1024) file start size.

Section ImageCopy.
Variable FO : FloatOps.
Notation hdr := (hdr FO).

(** An array in memory: the bytes [np.fromfile] got, and how it is seen. (nitf_image.py:178-185.) *)
Record inmem := { im_dims : Z * Z * Z; im_strides : Z * Z * Z; im_dt : dtype; im_bytes : list N }.
(** [data[b, r, c]]; [None] if the strides lead outside of the memory. (nitf_image.py:122-123, 181-183.) *)
Definition im_item (m : inmem) (b r c : Z) : option item :=
  let '(sb, sr, sc) := im_strides m in
  let o := (b * sb + r * sr + c * sc)%Z in
  if (o + itemsize (im_dt m) <=? Z.of_nat (List.length (im_bytes m)))%Z
  then Some (firstn (Z.to_nat (itemsize (im_dt m))) (skipn (Z.to_nat o) (im_bytes m))) else None.
(** [read_from_file] with [mmap=False] (nitf_image.py:130-187): [np.fromfile] gives as many items
    as there are; [as_strided] checks nothing, [reshape] to another number of items is an error.
    A negative number of items is taken to be one too. *)
Definition np_read_mem (h : hdr) (file : list N) (pos : Z) : res (option (inmem * Z)) :=
  do p <- np_plan FO h;
  match p with
  | None => Ok None
  | Some (il, d) =>
      do (b, r, c) <- dims FO h;
      if (b <? 0)%Z || (r <? 0)%Z || (c <? 0)%Z then Err EValue else
      let isz := itemsize d in
      let got := Z.min (r * c * b) ((Z.of_nat (List.length file) - pos) / isz) in
      let bytes := fread file (Z.to_nat pos) (got * isz) in
      if il then Ok (Some ({| im_dims := (b, r, c); im_strides := (isz, b * c * isz, b * isz)%Z; im_dt := d; im_bytes := bytes |},
                           (pos + got * isz)%Z))
      else if (got =? b * r * c)%Z then
        Ok (Some ({| im_dims := (b, r, c); im_strides := (r * c * isz, c * isz, isz)%Z; im_dt := d; im_bytes := bytes |},
                  (pos + got * isz)%Z))
      else Err EValue
  end.

(** [data_written]: the part of the file just written as an array (nitf_image.py:343-413). *)
Definition mode_il (m : gen_mode) : bool := match m with GRowP => true | _ => false end.
(** nitf_image.py:393-413. *)
Definition data_written (m : gen_mode) (h : hdr) (file : list N) (off : Z) : res mapped :=
  do d <- get_dtype FO h; np_map FO h (mode_il m) d (Z.of_nat (List.length file)) off.
(** [data_written[b, r, c] = v], then [flush_update]: the file (nitf_image.py:409-418). *)
Definition mp_put (file : list N) (m : mapped) (b r c : Z) (v : item) : list N :=
  let '(sb, sr, sc) := mp_strides m in
  let o := Z.to_nat (mp_off m + b * sb + r * sr + c * sc) in
  firstn o file ++ v ++ skipn (o + Z.to_nat (itemsize (mp_dt m))) file.
(** A number of such assignments. (nitf_image.py:409-418.) *)
Fixpoint mp_puts (file : list N) (m : mapped) (us : list (Z * Z * Z * item)) : list N :=
  match us with [] => file | (b, r, c, v) :: us' => mp_puts (mp_put file m b r c v) m us' end.

(** [_deepcopy] (nitf_image.py:445-452): the subheader copied, the pixels in an array.  The copy is
    a [NitfImageWriteNumpy] of the mode for all at once. *)
Definition copy_image (h : hdr) (px : Z -> Z -> Z -> item) : res (hdr * array) :=
  do s <- deepcopy FO (mk_fs desc_NitfImageSubheader) (h_st h);
  do (b, r, c) <- dims FO h;
  do _ <- get_dtype FO h;
  if (b <? 0)%Z || (r <? 0)%Z || (c <? 0)%Z then Err EValue else
  Ok ({| h_st := s; h_attr := [] |},
      {| a_shape := [b; r; c];
         a_items := flat_map (fun x => flat_map (fun y => map (fun z => px x y z) (upto c)) (upto r)) (upto b) |}).
End ImageCopy.
