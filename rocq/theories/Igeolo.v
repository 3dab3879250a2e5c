(** The corner coordinates of an image, nitf_image_subheader.py:215-234 and 242-371.
    Coordinates handed in are finite floats, which are decimals exactly ([dec]); the
    arithmetic of the DMS encoding ([*60], [/60], [/3600]) is done on exact rationals, so
    the rounding of the binary floating point operations is left out. *)
From Verif Require Import Base BaseLemmas Engine Spec DescsHdr Utf8 Tre TrePlace Decimal DecimalLemmas DecimalFit.
From Coq Require Import QArith Qabs Qround ZifyBool ZifyNat ZifyN.
Open Scope list_scope.
Ltac Zify.zify_post_hook ::= idtac.

(** [l[a:b]] for constants [a <= b] (used at nitf_image_subheader.py:347-368). *)
Definition slice (a b : nat) (l : list N) : list N := firstn (b - a) (skipn a l).

(** [l[a:b] = t] on a bytearray (nitf_image_subheader.py:303-310 etc.): the part is
    replaced, so the array grows when [t] is longer than the part. *)
Definition slice_set (a b : nat) (t l : list N) : list N := firstn a l ++ t ++ skipn b l.

(** [int(math.floor(x))]. (nitf_image_subheader.py:329-336.) *)
Definition floorZ (x : dec) : Z := Qfloor (dec_Q x).

(** [math.fabs(x) > n] (nitf_image_subheader.py:297-300). *)
Definition beyond (x : dec) (n : Z) : bool := negb (Qle_bool (Qabs (dec_Q x)) (inject_Z n)).

(** nitf_image_subheader.py:247-250. *)
Definition check_utm_x (x : dec) : res unit :=
  let t := Qfloor (dec_Q x + (1 # 2)) in
  if (t <? -100000)%Z || (1000000 <=? t)%Z then Err ERuntime else Ok tt.

(** nitf_image_subheader.py:252-255. *)
Definition check_utm_y (y : dec) : res unit :=
  let t := Qfloor (dec_Q y + (1 # 2)) in
  if (t <? -1000000)%Z || (10000000 <=? t)%Z then Err ERuntime else Ok tt.

(** Degrees, minutes and seconds of a magnitude, nitf_image_subheader.py:262-275. *)
Definition dms (a : Q) : Z * Z * Z :=
  let nd := Qfloor a in
  let a1 := ((a - inject_Z nd) * 60)%Q in
  let nm := Qfloor a1 in
  let a2 := ((a1 - inject_Z nm) * 60)%Q in
  let ns := Qfloor (a2 + (1 # 2)) in
  if (ns =? 60)%Z
  then if (nm + 1 =? 60)%Z then ((nd + 1)%Z, 0%Z, 0%Z) else (nd, (nm + 1)%Z, 0%Z)
  else (nd, nm, ns).

(** nitf_image_subheader.py:257-281 ([nitf_encode_dms_loc]); [lat] is [pszAxis == "Lat"]. *)
Definition encode_dms (lat : bool) (x : dec) : list N :=
  let neg := negb (Qle_bool 0 (dec_Q x)) in
  let c := if lat then (if neg then 83%N else 78%N) else (if neg then 87%N else 69%N) in
  let '(nd, nm, ns) := dms (Qabs (dec_Q x)) in
  fmt_d (dfmt_zero (if lat then 2 else 3)) nd ++ fmt_d (dfmt_zero 2) nm ++ fmt_d (dfmt_zero 2) ns ++ [c].

(** ["%+#07.3f%+#08.3f" % (y, x)] (nitf_image_subheader.py:317-320); with decimals [#] has
    no effect. *)
Definition encode_deg (c : dec * dec) : list N :=
  fmt_pct true true false 7 3 false false (snd c) ++ fmt_pct true true false 8 3 false false (fst c).

(** ["%02d%06d%07d" % (nZone, int(math.floor(y)), int(math.floor(x)))]
    (nitf_image_subheader.py:330-337); TypeError for a zone of None. *)
Definition encode_utm (zone : option Z) (c : dec * dec) : res (list N) :=
  match zone with
  | None => Err EType
  | Some z => Ok (fmt_d (dfmt_zero 2) z ++ fmt_d (dfmt_zero 6) (floorZ (snd c))
                    ++ fmt_d (dfmt_zero 7) (floorZ (fst c)))
  end.

(** nitf_image_subheader.py:297-301 and 312-316. *)
Definition check_degrees (cs : list (dec * dec)) : res unit :=
  if existsb (fun c => beyond (fst c) 180) cs || existsb (fun c => beyond (snd c) 90) cs
  then Err ERuntime else Ok tt.

(** nitf_image_subheader.py:322-329, in this order. *)
Fixpoint check_utm (cs : list (dec * dec)) : res unit :=
  match cs with
  | [] => Ok tt
  | c :: cs' => do _ <- check_utm_x (fst c); do _ <- check_utm_y (snd c); check_utm cs'
  end.

(** ICORDS values (one character). (nitf_image_subheader.py:293, 342-370.) *)
Definition icG := str "G". Definition icD := str "D".
(** nitf_image_subheader.py:293, 342-370. *)
Definition icN := str "N". Definition icS := str "S".
(** [chICORDS in ('G', 'N', 'S', 'D')] (nitf_image_subheader.py:293, 342). *)
Definition known_icords (ic : list N) : bool :=
  list_eqb ic icG || list_eqb ic icN || list_eqb ic icS || list_eqb ic icD.

(** nitf_image_subheader.py:288-337 ([nitf_write_igeolo]); ValueError when there are not
    four corners. *)
Definition write_igeolo (ic : list N) (zone : option Z) (cs : list (dec * dec)) : res (list N) :=
  match cs with
  | [ul; ur; lr; ll] =>
      let s0 := spaces 60 in
      if negb (known_icords ic) then Err ERuntime
      else if list_eqb ic icG then
        do _ <- check_degrees cs;
        let s := slice_set 0 7 (encode_dms true (snd ul)) s0 in
        let s := slice_set 7 15 (encode_dms false (fst ul)) s in
        let s := slice_set 15 22 (encode_dms true (snd ur)) s in
        let s := slice_set 22 30 (encode_dms false (fst ur)) s in
        let s := slice_set 30 37 (encode_dms true (snd lr)) s in
        let s := slice_set 37 45 (encode_dms false (fst lr)) s in
        let s := slice_set 45 52 (encode_dms true (snd ll)) s in
        Ok (slice_set 52 60 (encode_dms false (fst ll)) s)
      else if list_eqb ic icD then
        do _ <- check_degrees cs;
        let s := slice_set 0 15 (encode_deg ul) s0 in
        let s := slice_set 15 30 (encode_deg ur) s in
        let s := slice_set 30 45 (encode_deg lr) s in
        Ok (slice_set 45 60 (encode_deg ll) s)
      else
        do _ <- check_utm cs;
        do t1 <- encode_utm zone ul; let s := slice_set 0 15 t1 s0 in
        do t2 <- encode_utm zone ur; let s := slice_set 15 30 t2 s in
        do t3 <- encode_utm zone lr; let s := slice_set 30 45 t3 s in
        do t4 <- encode_utm zone ll; Ok (slice_set 45 60 t4 s)
  | _ => Err EValue
  end.

(** [float(bytes)]. (nitf_image_subheader.py:350-369.) *)
Definition to_float (l : list N) : res Q :=
  match parse_float l with Some x => Ok (dec_Q x) | None => Err EValue end.
(** [int(bytes)]. (nitf_image_subheader.py:349.) *)
Definition to_int (l : list N) : res Z :=
  match parse_int ws_byte l with Some z => Ok z | None => Err EValue end.

(** One pair of the reader, nitf_image_subheader.py:348-370.  Indexing [bytes] gives an
    integer, so [pszCoordPair[6] in ('s', 'S')] compares an integer with strings: it never
    holds, and the sign is never applied. *)
Definition read_pair (ic p : list N) : res (option Z * (Q * Q)) :=
  if list_eqb ic icN || list_eqb ic icS then
    do z <- to_int (slice 0 2 p);
    do a <- to_float (slice 2 8 p);
    do b <- to_float (slice 8 15 p);
    Ok (Some z, (a, b))
  else if list_eqb ic icG then
    do y1 <- to_float (slice 0 2 p); do y2 <- to_float (slice 2 4 p); do y3 <- to_float (slice 4 6 p);
    let y := (y1 + y2 / 60 + y3 / 3600)%Q in
    do _ <- match nth_error p 6 with Some _ => Ok tt | None => Err EIndex end;
    do x1 <- to_float (slice 7 10 p); do x2 <- to_float (slice 10 12 p); do x3 <- to_float (slice 12 14 p);
    let x := (x1 + x2 / 60 + x3 / 3600)%Q in
    do _ <- match nth_error p 14 with Some _ => Ok tt | None => Err EIndex end;
    Ok (None, (x, y))
  else
    do y <- to_float (slice 0 7 p);
    do x <- to_float (slice 7 15 p);
    Ok (None, (x, y)).

(** nitf_image_subheader.py:347-371: the corners and the zone of the last pair. *)
Fixpoint read_pairs (ic : list N) (ps : list (list N)) (zone : option Z) : res (list (Q * Q) * option Z) :=
  match ps with
  | [] => Ok ([], zone)
  | p :: ps' => do (z, c) <- read_pair ic p;
                do (cs, z') <- read_pairs ic ps' (match z with Some _ => z | None => zone end);
                Ok (c :: cs, z')
  end.

(** nitf_image_subheader.py:339-371 ([nitf_read_igeolo]). *)
Definition read_igeolo (ic s : list N) : res (list (Q * Q) * option Z) :=
  if negb (known_icords ic) then Err ERuntime
  else read_pairs ic [slice 0 15 s; slice 15 30 s; slice 30 45 s; slice 45 60 s] None.

Section Hdr.
Variable FO : FloatOps.
Notation hdr := (hdr FO).

(** nitf_image_subheader.py:224-234 (setter of [geolo_corner]). *)
Definition set_corners (h : hdr) (ic : list N) (cs : list (dec * dec)) (zone : option Z) : hdr * res unit :=
  match hset FO desc_NitfImageSubheader h "icords" (VStr ic) with
  | (h1, Err e) => (h1, Err e)
  | (h1, Ok _) =>
      match write_igeolo ic zone cs with
      | Err e => (h1, Err e)
      | Ok b => match utf8_dec b with
                | None => (h1, Err EValue)
                | Some t => hset FO desc_NitfImageSubheader h1 "igeolo" (VStr t)
                end
      end
  end.

(** nitf_image_subheader.py:215-222 (getter of [geolo_corner]). *)
Definition get_corners (h : hdr) : res (list N * list (Q * Q) * option Z) :=
  do ic <- hget FO desc_NitfImageSubheader h "icords";
  do ig <- hget FO desc_NitfImageSubheader h "igeolo";
  match ic, ig with
  | VStr c, VStr t => match utf8_enc t with
                      | None => Err EValue
                      | Some b => do (cs, z) <- read_igeolo c b; Ok (c, cs, z)
                      end
  | _, _ => Err EAttr
  end.
End Hdr.
