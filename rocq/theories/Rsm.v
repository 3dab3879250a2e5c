(** RSMGGA and RSMPCA beyond their tables: the coordinates of the grid (nitf_tre_rsmgga.py:4-14)
    and the attributes that ask the implementation object (nitf_tre_rsmgga.py:73-91,
    nitf_tre_rsmpca.py:82-103). *)
From Verif Require Import Base BaseLemmas Engine Wf EngineLemmas Delayed Utf8 Tre TreImpl DescsTre2.
From Coq Require Import QArith Qpower.
Open Scope list_scope.

(** What a coordinate shows (nitf_tre_rsmgga.py:5-14, nitf_field.py:418-422): nothing, not a
    number, or a number.  Numbers are exact rationals instead of doubles. *)
Inductive coord := CNone | CNan | CAt (q : Q).

(** [bdata.isspace()] (nitf_tre_rsmgga.py:6, 12): false for no bytes at all. *)
Definition is_space (b : list N) : bool :=
  match b with [] => false | _ => forallb ws_byte b end.

Section Coord.
Variable FO : FloatOps.
Notation state := (state FO).
Notation get := (get FO).

(** The table of the class (nitf_tre_rsmgga.py:32-64). *)
Definition gga : fstruct := mk_fs desc_TreRSMGGA.

(** [RCoord.unpack] and [CCoord.unpack] (nitf_tre_rsmgga.py:5-8, 11-14); [dig] and [ref] are
    [fnumrd]/[refrow] or [fnumcd]/[refcol].  [pow(10.0, n)] overflows for assigned [n] above 308,
    which is not modelled; [n] that was read is one digit. *)
Definition coord_unpack (s : state) (dig ref : string) (b : list N) : res coord :=
  if is_space b then Ok CNan
  else match parse_int ws_byte b with
       | None => Err EValue
       | Some z =>
           do d <- get gga s dig [];
           do r <- get gga s ref [];
           match d, r with
           | VInt d, VInt r => Ok (CAt (inject_Z z / (10 # 1) ^ d + inject_Z r))
           | _, _ => Err EType
           end
       end.

(** [FieldData.__getitem__] (nitf_field.py:418-422) for the two classes; [Engine.get] gives the
    bytes, as it does for all classes of [KExt]. *)
Definition coord_get (nm dig ref : string) (s : state) (k : list Z) : res coord :=
  do v <- get gga s nm k;
  match v with
  | VNone => Ok CNone
  | VBytes b => coord_unpack s dig ref b
  | _ => Err EType
  end.

(** [t.rcoord[i, j]] (nitf_tre_rsmgga.py:4-8, 60). *)
Definition rcoord : state -> list Z -> res coord := coord_get "rcoord" "fnumrd" "refrow".
(** [t.ccoord[i, j]] (nitf_tre_rsmgga.py:10-14, 61). *)
Definition ccoord : state -> list Z -> res coord := coord_get "ccoord" "fnumcd" "refcol".

End Coord.

Section Ask.
Variable FO : FloatOps.
Variable O : Type.
Variable c : icls O.
(** Values of the attributes of the object, which belongs to another library; [None] where it
    has no such attribute. *)
Variable A : Type.
Variable has_edition has_row has_col : O -> option A.
(** What an attribute gives: something of the object, or what a field shows.
    (nitf_tre_rsmgga.py:73-91.) *)
Inductive attr := AOwn (a : A) | AField (v : pyval FO).

(** [__getattr__(nm)] (nitf_field.py:835-847), by way of which all fields are read. *)
Definition ask (x : istate FO O) (nm : string) : istate FO O * res attr :=
  match istep FO O c x (IGet FO O nm []) with
  | (x', ISee _ (SeeVal _ (Ok v))) => (x', Ok (AField v))
  | (x', ISee _ (SeeVal _ (Err e))) => (x', Err e)
  | (x', _) => (x', Err EAttr)
  end.

(** A property of a class with an implementation object (nitf_tre_rsmgga.py:75-77, 81-84, 87-89):
    [getattr(self, self.tre_implementation_field).nm].  If the object is not there or has no such
    attribute, AttributeError ends the property and python calls [__getattr__] with the name of
    the property, which is a field for [edition] and none for the sections.  (Without
    [tre_implementation_field] the same happens to [super().edition], and the sections are fields:
    nothing to model.) *)
Definition own_or (x : istate FO O) (has : O -> option A) (nm : string) : istate FO O * res attr :=
  match i_obj FO O x with
  | Some o => match has o with
              | Some a => (x, Ok (AOwn a))
              | None => ask x nm
              end
  | None => ask x nm
  end.

(** The three properties of a class with an object (nitf_tre_rsmpca.py:84-103,
    nitf_tre_rsmgga.py:73-91). *)
Definition i_edition (x : istate FO O) := own_or x has_edition "edition".
(** nitf_tre_rsmpca.py:91-96, nitf_tre_rsmgga.py:80-85. *)
Definition i_row (x : istate FO O) := own_or x has_row "row_section_number".
(** nitf_tre_rsmpca.py:98-103, nitf_tre_rsmgga.py:86-91. *)
Definition i_col (x : istate FO O) := own_or x has_col "col_section_number".

End Ask.
