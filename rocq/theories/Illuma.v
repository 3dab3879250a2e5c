(** The TRE ILLUMA, whose body is an XML document (nitf_tre_illuma.py). *)
From Verif Require Import Base BaseLemmas Engine Utf8 Decimal Tre.
From Coq Require Import ZifyBool ZifyNat ZifyN.
Open Scope list_scope.

(** ** The XML the reader sees

    [xml.etree.ElementTree.fromstring] is a library function.  What follows is a parser for the
    documents that use elements, attributes, text and an XML declaration, in ASCII.  A document
    with anything else (entities, comments, processing instructions, CDATA, a prefixed element,
    a carriage return, a byte above 127) is not modelled: the parser answers [None] for it, as
    for a document that is not well formed.  What the declaration says, and that the prefix of an
    attribute is declared, are not looked at (the library does).  Used by nitf_tre_illuma.py:69. *)

(** An element: namespace (empty when there is none), local name, the text before the first
    child, the children (nitf_tre_illuma.py:69-75). *)
Inductive xml := El (ns tag text : list N) (children : list xml).

(** The parts of an element (nitf_tre_illuma.py:69-75). *)
Definition x_ns (e : xml) := match e with El n _ _ _ => n end.
(** See [x_ns] (nitf_tre_illuma.py:73). *)
Definition x_tag (e : xml) := match e with El _ t _ _ => t end.
(** See [x_ns] (nitf_tre_illuma.py:75, [n.text]; no text is [None] there, the empty list here). *)
Definition x_text (e : xml) := match e with El _ _ t _ => t end.
(** See [x_ns] (nitf_tre_illuma.py:73: the truth of an element is whether it has children). *)
Definition x_children (e : xml) := match e with El _ _ _ c => c end.

(** Blanks between the parts of a tag (library, nitf_tre_illuma.py:69). *)
Definition x_blank (c : N) : bool := ((c =? 32) || (c =? 9) || (c =? 10))%N.
(** Bytes of a name without prefix (library, nitf_tre_illuma.py:69). *)
Definition x_name (c : N) : bool :=
  (((65 <=? c) && (c <=? 90)) || ((97 <=? c) && (c <=? 122)) || ((48 <=? c) && (c <=? 57))
   || (c =? 95) || (c =? 45) || (c =? 46))%N.
(** Bytes of an attribute's name, which may have a prefix (library, nitf_tre_illuma.py:69). *)
Definition x_aname (c : N) : bool := x_name c || (c =? 58)%N.
(** Bytes of text: no markup, no entity (library, nitf_tre_illuma.py:69). *)
Definition x_char (c : N) : bool :=
  ((((32 <=? c) && (c <=? 126)) || (c =? 9) || (c =? 10)) && negb (c =? 60) && negb (c =? 38))%N.
(** A name starts with a letter or an underscore (library, nitf_tre_illuma.py:69). *)
Definition x_name_ok (l : list N) : bool :=
  match l with
  | c :: _ => ((65 <=? c) && (c <=? 90) || (97 <=? c) && (c <=? 122) || (c =? 95))%N
  | [] => false
  end.

(** The attributes of a start tag up to its [>] or [/>]: names and values, whether the element
    ends here, the rest (library, nitf_tre_illuma.py:69). *)
Fixpoint attrs (n : nat) (l : list N) : option (list (list N * list N) * bool * list N) :=
  match n with
  | O => None
  | S n' =>
      let '(bl, l1) := span x_blank l in
      match l1 with
      | 62%N :: r => Some ([], false, r)
      | 47%N :: 62%N :: r => Some ([], true, r)
      | _ =>
          let '(nm, r) := span x_aname l1 in
          if negb (x_name_ok nm) || (List.length bl =? 0)%nat then None
          else match r with
               | 61%N :: 34%N :: r2 =>
                   let '(v, r3) := span (fun c => x_char c && negb (c =? 34)%N) r2 in
                   match r3 with
                   | 34%N :: r4 =>
                       match attrs n' r4 with
                       | Some (ats, cl, r5) =>
                           if existsb (fun a => list_eqb (fst a) nm) ats then None
                           else Some ((nm, v) :: ats, cl, r5)
                       | None => None
                       end
                   | _ => None
                   end
               | _ => None
               end
      end
  end.

(** The namespace of an element without prefix: the nearest [xmlns] attribute (library,
    nitf_tre_illuma.py:69). *)
Definition own_ns (ats : list (list N * list N)) (ns : list N) : list N :=
  match find (fun a => list_eqb (fst a) (str "xmlns")) ats with
  | Some (_, v) => v
  | None => ns
  end.

(** The content of the element [tag] up to and with its end tag: its text, its children, the
    rest (library, nitf_tre_illuma.py:69). *)
Fixpoint content (n : nat) (ns tag l : list N) : option (list N * list xml * list N) :=
  match n with
  | O => None
  | S n' =>
      let '(t, r) := span x_char l in
      match r with
      | 60%N :: c :: r1 =>
          if (c =? 47)%N then
            let '(nm, r2) := span x_name r1 in
            if list_eqb nm tag then
              match snd (span x_blank r2) with
              | 62%N :: r3 => Some (t, [], r3)
              | _ => None
              end
            else None
          else
            let '(nm, r2) := span x_name (c :: r1) in
            if x_name_ok nm then
              match attrs (S (List.length r2)) r2 with
              | Some (ats, cl, r3) =>
                  match (if cl then Some ([], [], r3) else content n' (own_ns ats ns) nm r3) with
                  | Some (t1, ch1, r4) =>
                      match content n' ns tag r4 with
                      | Some (_, ch2, r5) => Some (t, El (own_ns ats ns) nm t1 ch1 :: ch2, r5)
                      | None => None
                      end
                  | None => None
                  end
              | None => None
              end
            else None
      | _ => None
      end
  end.

(** Without the XML declaration (library, nitf_tre_illuma.py:69). *)
Definition undeclared (l : list N) : list N :=
  if list_eqb (firstn 6 l) (str "<?xml ") then
    match snd (span (fun c => negb (c =? 63)%N) (skipn 6 l)) with
    | 63%N :: 62%N :: r => r
    | _ => []
    end
  else l.

(** The document (library, nitf_tre_illuma.py:69). *)
Definition fromstring (l : list N) : option xml :=
  match snd (span x_blank (undeclared l)) with
  | 60%N :: r1 =>
      let '(nm, r2) := span x_name r1 in
      if x_name_ok nm then
        match attrs (S (List.length r2)) r2 with
        | Some (ats, cl, r3) =>
            match (if cl then Some ([], [], r3)
                   else content (S (List.length r3)) (own_ns ats []) nm r3) with
            | Some (t, ch, r4) =>
                if forallb x_blank r4 then Some (El (own_ns ats []) nm t ch) else None
            | None => None
            end
        | None => None
        end
      else None
  | _ => None
  end.

(** [root.find("{ns}name")]: the first child of that name (nitf_tre_illuma.py:73). *)
Definition xfind (ns name : list N) (root : xml) : option xml :=
  find (fun e => list_eqb (x_ns e) ns && list_eqb (x_tag e) name) (x_children root).

(** ** The class *)
Section Illuma.
Variable FO : FloatOps.

(** [field_list]: XML name and attribute (nitf_tre_illuma.py:39-49). *)
Definition field_list : list (list N * list N) :=
  [(str "solAz", str "sol_az"); (str "solEl", str "sol_el"); (str "comSolIl", str "com_sol_il");
   (str "lunEl", str "lun_el"); (str "lunPhAng", str "lun_ph_ang"); (str "lunAz", str "lun_az");
   (str "comLunIl", str "com_lun_il"); (str "comTotNatIl", str "com_tot_nat_il");
   (str "solLunDisAd", str "sol_lun_dis_ad"); (str "artIlMin", str "art_il_min");
   (str "artIlMax", str "art_il_max")].

(** The attributes of an object: [None] or a float each (nitf_tre_illuma.py:51-53).  Python
    would hold any value; only these two kinds are modelled. *)
Definition illuma := list N -> option (fl FO).

(** [__init__] (nitf_tre_illuma.py:51-53). *)
Definition illuma_new : illuma := fun _ => None.

(** [setattr] (nitf_tre_illuma.py:53, 75). *)
Definition iset (a : list N) (v : fl FO) (o : illuma) : illuma :=
  fun b => if list_eqb a b then Some v else o b.

(** [self.ns["xmlns"]] (nitf_tre_illuma.py:54). *)
Definition illuma_ns : list N := str "http://namespaces.ic.gov/NSGPDD/2012/v1.0/ILLUMA".

(** The declaration the writer puts first (nitf_tre_illuma.py:59). *)
Definition illuma_decl : list N :=
  str "<?xml version=" ++ [34%N] ++ str "1.0" ++ [34%N] ++ str " encoding=" ++ [34%N]
  ++ str "UTF-8" ++ [34%N] ++ str " ?>".

(** The start tag of the root (nitf_tre_illuma.py:60). *)
Definition illuma_open : list N :=
  str "<ILLUMA xmlns=" ++ [34%N] ++ str "http://namespaces.ic.gov/NSGPDD/2012/v1.0/ILLUMA" ++ [34%N]
  ++ str "     xmlns:xs=" ++ [34%N] ++ str "http://www.w3.org/2001/XMLSchema" ++ [34%N]
  ++ str " xmlns:ism=" ++ [34%N] ++ str "urn:us:gov:ic:ism" ++ [34%N] ++ str ">".

(** One value (nitf_tre_illuma.py:62-64). *)
Definition illuma_elem (o : illuma) (p : list N * list N) : list N :=
  match o (snd p) with
  | Some v => str "  <" ++ fst p ++ str ">" ++ fl_str FO v ++ str "</" ++ fst p ++ str ">"
  | None => []
  end.

(** [tre_bytes] (nitf_tre_illuma.py:56-66). *)
Definition illuma_bytes (o : illuma) : list N :=
  illuma_decl ++ illuma_open ++ List.concat (map (illuma_elem o) field_list) ++ str "</ILLUMA>".

(** [root.find(xml_name) or root.find("xmlns:" + xml_name, self.ns)]: an element without
    children counts as false (nitf_tre_illuma.py:73). *)
Definition illuma_find (root : xml) (name : list N) : option xml :=
  match xfind [] name root with
  | Some e => match x_children e with [] => xfind illuma_ns name root | _ => Some e end
  | None => xfind illuma_ns name root
  end.

(** [float(n.text)] (nitf_tre_illuma.py:75). *)
Definition illuma_num (e : xml) : res (fl FO) :=
  match x_text e with
  | [] => Err EType
  | t => match fl_parse FO t with Some v => Ok v | None => Err EValue end
  end.

(** The loop over [field_list] (nitf_tre_illuma.py:70-75). *)
Fixpoint illuma_fields (root : xml) (fs : list (list N * list N)) (o : illuma) : res illuma :=
  match fs with
  | [] => Ok o
  | (name, a) :: fs' =>
      match illuma_find root name with
      | Some e => do v <- illuma_num e; illuma_fields root fs' (iset a v o)
      | None => illuma_fields root fs' o
      end
  end.

(** [read_from_tre_bytes] (nitf_tre_illuma.py:68-75); [ParseError], a SyntaxError, for what is not
    XML. *)
Definition illuma_parse (o : illuma) (bt : list N) : res illuma :=
  match fromstring bt with
  | Some root => illuma_fields root field_list o
  | None => Err ESyntax
  end.

(** [write_to_file], inherited (nitf_tre.py:73-80). *)
Definition illuma_write (o : illuma) : res (list N) :=
  let b := illuma_bytes o in
  if (99999 <? Z.of_nat (List.length b))%Z then Err ERuntime
  else Ok (str "ILLUMA" ++ len5 (List.length b) ++ b).

(** [read_from_file] (nitf_tre_illuma.py:77-82). *)
Definition illuma_read (o : illuma) (inp : list N) : res (illuma * list N) :=
  do p <- read_tag inp;
  let '(tag, inp1) := p in
  if negb (list_eqb tag (str "ILLUMA")) then Err ERuntime
  else do q <- read_cel inp1;
       let '(cel, inp2) := q in
       let '(bt, rest) := fread cel inp2 in
       do o' <- illuma_parse o bt; Ok (o', rest).

End Illuma.
