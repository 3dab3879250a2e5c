(** Structures in an open file: writing and updating them at the position of the file, field by
    field, with what is left behind when a field fails (nitf_field.py:339-362, 625-629, 912-914,
    935-939). *)
From Verif Require Import Base BaseLemmas Engine.
Open Scope list_scope.

(** A file open for reading and writing: contents and position (nitf_field.py:346-362). *)
Record fhandle := { fh_bytes : list N; fh_pos : nat }.

(** [fh.seek(p)] (nitf_field.py:360, 362). *)
Definition fh_seek (h : fhandle) (p : nat) : fhandle := {| fh_bytes := fh_bytes h; fh_pos := p |}.

(** [fh.write(b)] (nitf_field.py:347, 361): what is there is replaced, the file grows if needed; a gap
    is filled with zeros. *)
Definition fh_write (h : fhandle) (b : list N) : fhandle :=
  match b with
  | [] => h
  | _ => {| fh_bytes := overwrite (fh_bytes h ++ repeat 0%N (fh_pos h - List.length (fh_bytes h))) (fh_pos h) b;
            fh_pos := fh_pos h + List.length b |}
  end.

Section OpenFile.
Variable FO : FloatOps.
Notation state := (state FO).
Notation sval := (sval FO).

(** [NitfField.write_to_file] (nitf_field.py:339-347): the location is kept before the bytes are
    made. *)
Definition fh_write_field (fs : fstruct) (f : field) (k : list Z) (p : state * fhandle) : (state * fhandle) * res unit :=
  let '(s, h) := p in
  match check_condition FO (G FO fs s) fs f k with
  | Err e => ((s, h), Err e)
  | Ok false => ((s, h), Ok tt)
  | Ok true =>
      let s1 := match fd_name (f_d f) with
                | None => s
                | Some _ => set_loc FO s (f_id f) k (Z.of_nat (fh_pos h))
                end in
      match field_bytes FO (G FO fs s1) fs s1 f k with
      | Err e => ((s1, h), Err e)
      | Ok b => ((s1, fh_write h b), Ok tt)
      end
  end.

(** [for x in l: ...], stopping at the first exception (nitf_field.py:627-629). *)
Fixpoint each {A W} (step : A -> W -> W * res unit) (l : list A) (w : W) : W * res unit :=
  match l with
  | [] => (w, Ok tt)
  | a :: l' => match step a w with (w', Ok _) => each step l' w' | (w', Err e) => (w', Err e) end
  end.

(** [NitfLoop.write_to_file] (nitf_field.py:625-629). *)
Fixpoint fh_write_item (fs : fstruct) (lead : list Z) (it : item) (p : state * fhandle) : (state * fhandle) * res unit :=
  match it with
  | IField f => fh_write_field fs f lead p
  | ILoop sh its =>
      match eval_shape FO (G FO fs (fst p)) fs lead sh with
      | Err e => (p, Err e)
      | Ok n => each (fun i p =>
                  (fix go its p := match its with
                                   | [] => (p, Ok tt)
                                   | it :: its' => match fh_write_item fs (lead ++ [i]) it p with
                                                   | (p', Ok _) => go its' p'
                                                   | (p', Err e) => (p', Err e)
                                                   end
                                   end) its p) (zrange n) p
      end
  end.

(** [FieldStruct.write_to_file] (nitf_field.py:912-914). *)
Definition fh_write_struct (fs : fstruct) (p : state * fhandle) : (state * fhandle) * res unit :=
  each (fh_write_item fs []) (fs_items fs) p.

(** [FieldStruct.update_field] (nitf_field.py:935-939) with [NitfField.update_file]
    (nitf_field.py:349-362): the position is kept and restored, unless making the bytes fails
    after the file was moved. *)
Definition fh_update (fs : fstruct) (nm : string) (k : list Z) (v : sval) (p : state * fhandle)
  : (state * fhandle) * res unit :=
  let '(s, h) := p in
  match lookup fs nm with
  | None => ((s, h), Err EKey)
  | Some f =>
      match fset FO fs s f k v with
      | (s1, Err e) => ((s1, h), Err e)
      | (s1, Ok _) =>
          match check_condition FO (G FO fs s1) fs f k with
          | Err e => ((s1, h), Err e)
          | Ok false => ((s1, h), Err ERuntime)
          | Ok true =>
              match st_loc FO s1 (f_id f) k with
              | None => ((s1, h), Err EKey)
              | Some q =>
                  let h1 := fh_seek h (Z.to_nat q) in
                  match field_bytes FO (G FO fs s1) fs s1 f k with
                  | Err e => ((s1, h1), Err e)
                  | Ok b => ((s1, fh_seek (fh_write h1 b) (fh_pos h)), Ok tt)
                  end
              end
          end
      end
  end.

(** Several structures and one file: write one at the position, write bytes, update a field
    (what nitf_file.py:212-219 and nitf_segment.py:180-185 do with the file header and the
    subheaders). *)
Inductive fop := FWrite (i : nat) | FPut (b : list N) | FUpdate (i : nat) (nm : string) (k : list Z) (v : sval).

(** nitf_file.py:200-219: the objects and the file. *)
Record world := { w_st : nat -> state; w_h : fhandle }.
(** An object changed. (nitf_field.py:339-362.) *)
Definition w_put (w : world) (i : nat) (p : state * fhandle) : world :=
  {| w_st := fun j => if Nat.eqb j i then fst p else w_st w j; w_h := snd p |}.

(** nitf_file.py:212-219, nitf_segment.py:180-185; [tabs i] is the table of structure [i]. *)
Definition fh_step (tabs : nat -> list row) (o : fop) (w : world) : world * res unit :=
  match o with
  | FPut b => ({| w_st := w_st w; w_h := fh_write (w_h w) b |}, Ok tt)
  | FWrite i => let '(p, r) := fh_write_struct (mk_fs (tabs i)) (w_st w i, w_h w) in (w_put w i p, r)
  | FUpdate i nm k v => let '(p, r) := fh_update (mk_fs (tabs i)) nm k v (w_st w i, w_h w) in (w_put w i p, r)
  end.
(** Statements one after the other, to the first exception (nitf_file.py:212-219). *)
Definition fh_run (tabs : nat -> list row) : list fop -> world -> world * res unit := each (fh_step tabs).

End OpenFile.
