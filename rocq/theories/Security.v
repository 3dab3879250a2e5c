(** Security markings of a header (nitf_security.py). *)
From Verif Require Import Base Engine Tre TrePlace.
From Coq Require Import ZifyBool ZifyNat ZifyN.
Open Scope string_scope.
Open Scope list_scope.

(** The attributes of NitfSecurity (nitf_security.py:8-27). *)
Inductive sattr :=
| Classification | ClassificationSystem | Codewords | ControlAndHandling | ReleaseInstructions
| DeclassificationType | DeclassificationDate | DeclassificationExemption | Downgrade | DowngradeDate
| ClassificationText | ClassificationAuthorityType | ClassificationAuthority | ClassificationReason
| SecuritySourceDate | SecurityControlNumber | CopyNumber | NumberOfCopies | Encryption.

(** [field_name, attribute_name] (nitf_security.py:37-55, 67-85). *)
Definition sec_table : list (string * sattr) :=
  [("clas", Classification); ("clsy", ClassificationSystem); ("code", Codewords);
   ("ctlh", ControlAndHandling); ("rel", ReleaseInstructions); ("dctp", DeclassificationType);
   ("dcdt", DeclassificationDate); ("dcxm", DeclassificationExemption); ("dg", Downgrade);
   ("dgdt", DowngradeDate); ("cltx", ClassificationText); ("catp", ClassificationAuthorityType);
   ("caut", ClassificationAuthority); ("crsn", ClassificationReason); ("srdt", SecuritySourceDate);
   ("ctln", SecurityControlNumber); ("cop", CopyNumber); ("cpys", NumberOfCopies)].

(** Names of the header fields for a prefix, [encryp] last (nitf_security.py:56-59, 86-90). *)
Definition sec_names (prefix : string) : list (string * sattr) :=
  map (fun p => (String.append prefix (fst p), snd p)) sec_table ++ [("encryp", Encryption)].

(** Attributes are told apart by name, nitf_security.py:37-59. *)
Definition sattr_eqb (a b : sattr) : bool :=
  match a, b with
  | Classification, Classification | ClassificationSystem, ClassificationSystem | Codewords, Codewords
  | ControlAndHandling, ControlAndHandling | ReleaseInstructions, ReleaseInstructions
  | DeclassificationType, DeclassificationType | DeclassificationDate, DeclassificationDate
  | DeclassificationExemption, DeclassificationExemption | Downgrade, Downgrade
  | DowngradeDate, DowngradeDate | ClassificationText, ClassificationText
  | ClassificationAuthorityType, ClassificationAuthorityType
  | ClassificationAuthority, ClassificationAuthority | ClassificationReason, ClassificationReason
  | SecuritySourceDate, SecuritySourceDate | SecurityControlNumber, SecurityControlNumber
  | CopyNumber, CopyNumber | NumberOfCopies, NumberOfCopies | Encryption, Encryption => true
  | _, _ => false
  end.

Section Security.
Variable FO : FloatOps.
Notation pyval := (pyval FO).

(** A NitfSecurity object. (nitf_security.py:8-27.) *)
Definition security := sattr -> pyval.

(** [NitfSecurity()] (nitf_security.py:8-27), also [security_unclassified] (nitf_security.py:140). *)
Definition sec_default : security := fun a =>
  match a with
  | Classification => VStr (str "U")
  | CopyNumber | NumberOfCopies | Encryption => VInt 0
  | _ => VStr []
  end.

(** [setattr(res, attribute_name, v)] (nitf_security.py:57). *)
Definition sec_put (s : security) (a : sattr) (v : pyval) : security :=
  fun b => if sattr_eqb a b then v else s b.

(** [if(hasattr(elem, nm)): ... getattr(elem, nm)] (nitf_security.py:56-60): [hasattr] is false
    exactly when [getattr] raises AttributeError. *)
Fixpoint sec_get (rows : list row) (h : hdr FO) (l : list (string * sattr)) (s : security) : res security :=
  match l with
  | [] => Ok s
  | (nm, a) :: l' =>
      match hget FO rows h nm with
      | Ok v => sec_get rows h l' (sec_put s a v)
      | Err EAttr => sec_get rows h l' s
      | Err e => Err e
      end
  end.
(** [get_security] (nitf_security.py:29-60). *)
Definition get_security (rows : list row) (h : hdr FO) (prefix : string) : res security :=
  sec_get rows h (sec_names prefix) sec_default.

(** [if(hasattr(elem, nm)): setattr(elem, nm, ...)] (nitf_security.py:86-90). *)
Fixpoint sec_set (rows : list row) (h : hdr FO) (l : list (string * sattr)) (s : security) : hdr FO * res unit :=
  match l with
  | [] => (h, Ok tt)
  | (nm, a) :: l' =>
      match hget FO rows h nm with
      | Ok _ => match hset FO rows h nm (s a) with
                | (h1, Ok _) => sec_set rows h1 l' s
                | (h1, Err e) => (h1, Err e)
                end
      | Err EAttr => sec_set rows h l' s
      | Err e => (h, Err e)
      end
  end.
(** [set_security] (nitf_security.py:62-90). *)
Definition set_security (rows : list row) (h : hdr FO) (prefix : string) (s : security) : hdr FO * res unit :=
  sec_set rows h (sec_names prefix) s.

(** The attributes compared, in the order written (nitf_security.py:114-136). *)
Definition sec_compared : list sattr :=
  [Classification; ClassificationSystem; ControlAndHandling; ReleaseInstructions; DeclassificationType;
   DeclassificationDate; DeclassificationExemption; Downgrade; DowngradeDate; ClassificationText;
   ClassificationAuthorityType; ClassificationAuthority; ClassificationReason; SecuritySourceDate;
   SecurityControlNumber; CopyNumber; NumberOfCopies].

(** [and] of [==], stopping at the first that is false (nitf_security.py:114-136). *)
Fixpoint all_eq (l : list sattr) (s t : security) : res bool :=
  match l with
  | [] => Ok true
  | a :: l' => do r <- py_eqb FO (s a) (t a); if r then all_eq l' s t else Ok false
  end.
(** nitf_security.py:114-136. *)
Definition sec_eq (s t : security) : res bool := all_eq sec_compared s t.

End Security.
