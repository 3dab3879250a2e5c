(** Reading with what is left behind when it fails (nitf_field.py:364-398, 631-635, 835-847,
    916-933). *)
From Verif Require Import Base BaseLemmas Engine OpenFile.
Open Scope list_scope.

Section FailRead.
Variable FO : FloatOps.
Notation state := (state FO).

(** [NitfField.read_from_file] (nitf_field.py:364-398): the bytes are taken from the file even if
    there are too few ([fh.read] of a negative size takes all), and kept as raw bytes before they are
    converted.  The input is what the file holds from its position on. *)
Definition pread_field (fs : fstruct) (lit : bool) (f : field) (k : list Z) (p : state * list N) : (state * list N) * res unit :=
  let '(s, inp) := p in
  match check_condition FO (G FO fs s) fs f k with
  | Err e => ((s, inp), Err e)
  | Ok false => ((s, inp), Ok tt)
  | Ok true =>
      match fsize_of FO (G FO fs s) fs f k with
      | Err e => ((s, inp), Err e)
      | Ok sz =>
          let n := if (sz <? 0)%Z then List.length inp else Z.to_nat sz in
          let t := firstn n inp in
          let inp' := skipn n inp in
          if negb (Z.of_nat (List.length t) =? sz)%Z then ((s, inp'), Err ERuntime)
          else match fd_name (f_d f) with
               | None => ((s, inp'), Ok tt)
               | Some _ =>
                   let s1 := set_raw FO s (f_id f) k (Some t) in
                   match parse_field FO (f_d f) lit t with
                   | Err e => ((s1, inp'), Err e)
                   | Ok v => ((set_val FO s1 (f_id f) k v, inp'), Ok tt)
                   end
               end
      end
  end.

(** [NitfLoop.read_from_file] (nitf_field.py:631-635). *)
Fixpoint pread_item (fs : fstruct) (lit : bool) (lead : list Z) (it : item) (p : state * list N) : (state * list N) * res unit :=
  match it with
  | IField f => pread_field fs lit f lead p
  | ILoop sh its =>
      match eval_shape FO (G FO fs (fst p)) fs lead sh with
      | Err e => (p, Err e)
      | Ok n => each (fun i p =>
                  (fix go its p := match its with
                                   | [] => (p, Ok tt)
                                   | it :: its' => match pread_item fs lit (lead ++ [i]) it p with
                                                   | (p', Ok _) => go its' p'
                                                   | (p', Err e) => (p', Err e)
                                                   end
                                   end) its p) (zrange n) p
      end
  end.

(** [FieldStruct.read_from_file] (nitf_field.py:916-933), not delayed. *)
Definition pread (fs : fstruct) (lit : bool) (s : state) (inp : list N) : (state * list N) * res unit :=
  each (pread_item fs lit []) (fs_items fs) (s, inp).

(** A structure and the read that is due (nitf_field.py:927-931). *)
Record pending := { p_st : state; p_due : option (bool * list N) }.

(** [x.nm], [x.nm[k]] (nitf_field.py:835-847): the read that is due is made, once, even if it
    fails. *)
Definition pget (fs : fstruct) (d : pending) (nm : string) (k : list Z) : pending * res (pyval FO) :=
  match p_due d with
  | None => (d, get FO fs (p_st d) nm k)
  | Some (lit, inp) =>
      match pread fs lit (p_st d) inp with
      | ((s, _), Err e) => ({| p_st := s; p_due := None |}, Err e)
      | ((s, _), Ok _) => ({| p_st := s; p_due := None |}, get FO fs s nm k)
      end
  end.

End FailRead.
