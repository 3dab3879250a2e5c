(** Headers shared between data and segments: nitf_segment.py:13-60, 76-112,
    166-178, 183-199 and nitf_segment_data_handle.py:27-86.

    A NitfSegment and the NitfData in it refer to one NitfSharedHeader, which
    refers to a subheader and maybe a user subheader.  Here every object has a
    number, its place in a list, and a reference is a number; the other models
    (File.v) let a segment own its header instead, which is right as far as
    P_Shared.v shows.

    The contents of subheaders ([S]) and user subheaders ([U]) are arbitrary,
    and changing one in place is an arbitrary function.  Weak references are
    taken to be alive, and python's garbage collection is left out.  A segment of
    a delta takes the data object the other segment has when it is merged; that
    it would follow if the other segment got another one is left out. *)
From Coq Require Import List Arith.
Import ListNotations.

Section Shared.
Variables S U : Type.

(** nitf_segment.py:13-27: NitfSharedHeader, the number of the subheader and
    that of the user subheader *)
Record hdr := mkHdr { h_sub : nat; h_ush : option nat }.

(** nitf_segment_data_handle.py:45-56: the part of NitfData that matters here,
    [_shared_header] and [_seg] *)
Record data := mkData { d_hdr : nat; d_seg : option nat }.

(** nitf_segment.py:34-60: the part of NitfSegment that matters here, [data]
    and [_shared_header] *)
Record seg := mkSeg { s_data : option nat; s_hdr : nat }.

(** All the objects there are: subheaders, user subheaders, shared headers
    (nitf_segment.py:13-27), data (nitf_segment_data_handle.py:39-56) and
    segments (nitf_segment.py:29-60) *)
Record world := mkWorld {
  w_sub : list S; w_ush : list U; w_hdr : list hdr;
  w_data : list data; w_seg : list seg }.

(** nothing made yet: the state before nitf_segment.py:34 or
    nitf_segment_data_handle.py:45 was first called *)
Definition empty : world := mkWorld [] [] [] [] [].

(** what a program can do.  A subheader or user subheader that is given is
    either a new object, with its contents, or the one of another segment. *)
Inductive src (A : Type) := New (a : A) | OfSeg (sg : nat).
Arguments New {A} _. Arguments OfSeg {A} _.

Inductive op :=
  (* nitf_segment_data_handle.py:53-56: NitfData(), with the subheader
     sh_class() and maybe the user subheader uh_class() *)
| MkData (s : S) (u : option U)
  (* nitf_segment.py:34-60: NitfSegment(data), [s] is sh_class() and used if
     there is no data *)
| MkSegm (s : S) (d : option nat)
  (* nitf_segment.py:166-178: read_from_file: the subheader is read in place,
     a new user subheader is made if there is a class for it, and of the data
     classes tried the first [n] decline and the next one reads it *)
| Read (sg : nat) (s : S) (u : option U) (n : nat)
  (* nitf_segment.py:166-178 with no class that reads the data, or an exception
     from the one that does: [n] classes were tried *)
| ReadFails (sg : nat) (s : S) (u : option U) (n : nat)
  (* nitf_segment.py:82-85 *)
| SegSub (sg : nat) (v : src S)
  (* nitf_segment_data_handle.py:73-76 *)
| DataSub (d : nat) (v : src S)
  (* nitf_segment.py:92-95 *)
| SegUsh (sg : nat) (v : option (src U))
  (* nitf_segment_data_handle.py:83-86 *)
| DataUsh (d : nat) (v : option (src U))
  (* a change in place of what nitf_segment.py:77-80 gives, as idlvl,
     iid1 and security do (nitf_segment.py:108-111, 265-280) *)
| SegChange (sg : nat) (f : S -> S)
  (* the same for nitf_segment_data_handle.py:68-71, 127-130 *)
| DataChange (d : nat) (f : S -> S)
  (* a change in place of what nitf_segment.py:87-90 gives *)
| SegUshChange (sg : nat) (f : U -> U)
  (* the same for nitf_segment_data_handle.py:78-81 *)
| DataUshChange (d : nat) (f : U -> U)
  (* nitf_segment.py:36: data is a plain attribute, which a program can set *)
| SetData (sg : nat) (d : option nat)
  (* nitf_file_json.py:45-56, 181-185: a segment of a delta takes the data of a
     segment of the other file, and makes it use its own header *)
| Merge (sg : nat) (from : nat).

(** list assignment (python's [l[i] = v], used for the attributes of objects,
    nitf_segment.py:36-40, 85, 95) *)
Fixpoint upd {A} (l : list A) (i : nat) (f : A -> A) : list A :=
  match l, i with
  | [], _ => []
  | a :: r, 0 => f a :: r
  | a :: r, Datatypes.S j => a :: upd r j f
  end.

(** nitf_segment.py:77-80 and nitf_segment_data_handle.py:68-71: the subheader
    of a shared header *)
Definition hdr_sub (w : world) (h : nat) : option S :=
  match nth_error (w_hdr w) h with
  | Some x => nth_error (w_sub w) (h_sub x)
  | None => None
  end.

(** nitf_segment.py:87-90 and nitf_segment_data_handle.py:78-81: the user
    subheader of a shared header, and [None] if it has none *)
Definition hdr_ush (w : world) (h : nat) : option (option U) :=
  match nth_error (w_hdr w) h with
  | Some x => match h_ush x with
              | Some u => option_map Some (nth_error (w_ush w) u)
              | None => Some None
              end
  | None => None
  end.

(** nitf_segment.py:77-80: seg.subheader *)
Definition seg_sub (w : world) (sg : nat) : option S :=
  match nth_error (w_seg w) sg with Some x => hdr_sub w (s_hdr x) | None => None end.
(** nitf_segment.py:87-90: seg.user_subheader *)
Definition seg_ush (w : world) (sg : nat) : option (option U) :=
  match nth_error (w_seg w) sg with Some x => hdr_ush w (s_hdr x) | None => None end.
(** nitf_segment_data_handle.py:68-71: data.subheader *)
Definition data_sub (w : world) (d : nat) : option S :=
  match nth_error (w_data w) d with Some x => hdr_sub w (d_hdr x) | None => None end.
(** nitf_segment_data_handle.py:78-81: data.user_subheader *)
Definition data_ush (w : world) (d : nat) : option (option U) :=
  match nth_error (w_data w) d with Some x => hdr_ush w (d_hdr x) | None => None end.
(** nitf_segment.py:36: seg.data *)
Definition seg_data (w : world) (sg : nat) : option nat :=
  match nth_error (w_seg w) sg with Some x => s_data x | None => None end.

(** nitf_segment.py:22-27: NitfSharedHeader(sh_class, uh_class), and its number *)
Definition new_hdr (w : world) (s : S) (u : option U) : world * nat :=
  (mkWorld (w_sub w ++ [s])
           (match u with Some x => w_ush w ++ [x] | None => w_ush w end)
           (w_hdr w ++ [mkHdr (length (w_sub w))
                              (match u with Some _ => Some (length (w_ush w)) | None => None end)])
           (w_data w) (w_seg w),
   length (w_hdr w)).

(** nitf_segment.py:85, nitf_segment_data_handle.py:76: the header refers to the
    subheader [o] *)
Definition set_sub (w : world) (h o : nat) : world :=
  mkWorld (w_sub w) (w_ush w) (upd (w_hdr w) h (fun x => mkHdr o (h_ush x)))
          (w_data w) (w_seg w).

(** nitf_segment.py:95, nitf_segment_data_handle.py:86: the header refers to the
    user subheader [o] *)
Definition set_ush (w : world) (h : nat) (o : option nat) : world :=
  mkWorld (w_sub w) (w_ush w) (upd (w_hdr w) h (fun x => mkHdr (h_sub x) o))
          (w_data w) (w_seg w).

(** a new subheader object (nitf_segment.py:23) *)
Definition new_sub (w : world) (s : S) : world * nat :=
  (mkWorld (w_sub w ++ [s]) (w_ush w) (w_hdr w) (w_data w) (w_seg w), length (w_sub w)).
(** a new user subheader object (nitf_segment.py:25, 197) *)
Definition new_ush (w : world) (u : U) : world * nat :=
  (mkWorld (w_sub w) (w_ush w ++ [u]) (w_hdr w) (w_data w) (w_seg w), length (w_ush w)).

(** the object assigned at nitf_segment.py:85 and
    nitf_segment_data_handle.py:76 *)
Definition take_sub (w : world) (v : src S) : option (world * nat) :=
  match v with
  | New s => Some (new_sub w s)
  | OfSeg sg => match nth_error (w_seg w) sg with
                | Some x => match nth_error (w_hdr w) (s_hdr x) with
                            | Some h => Some (w, h_sub h)
                            | None => None
                            end
                | None => None
                end
  end.
(** the object assigned at nitf_segment.py:95 and
    nitf_segment_data_handle.py:86 *)
Definition take_ush (w : world) (v : option (src U)) : option (world * option nat) :=
  match v with
  | None => Some (w, None)
  | Some (New u) => let (w', o) := new_ush w u in Some (w', Some o)
  | Some (OfSeg sg) => match nth_error (w_seg w) sg with
                       | Some x => match nth_error (w_hdr w) (s_hdr x) with
                                   | Some h => Some (w, h_ush h)
                                   | None => None
                                   end
                       | None => None
                       end
  end.

(** nitf_segment.py:77-80, then a change of that object in place *)
Definition change_sub (w : world) (h : nat) (f : S -> S) : option world :=
  match nth_error (w_hdr w) h with
  | Some x => Some (mkWorld (upd (w_sub w) (h_sub x) f) (w_ush w) (w_hdr w)
                            (w_data w) (w_seg w))
  | None => None
  end.
(** nitf_segment.py:87-90, then a change of that object in place; there has to be
    one *)
Definition change_ush (w : world) (h : nat) (f : U -> U) : option world :=
  match nth_error (w_hdr w) h with
  | Some x => match h_ush x with
              | Some u => Some (mkWorld (w_sub w) (upd (w_ush w) u f) (w_hdr w)
                                        (w_data w) (w_seg w))
              | None => None
              end
  | None => None
  end.

(** nitf_segment_data_handle.py:34: [n] times [cls(seg = seg)] *)
Definition tries (w : world) (sg h n : nat) : world :=
  mkWorld (w_sub w) (w_ush w) (w_hdr w)
          (w_data w ++ repeat (mkData h (Some sg)) n) (w_seg w).

(** nitf_segment.py:36, 178: self.data = ... *)
Definition set_data (w : world) (sg : nat) (d : option nat) : world :=
  mkWorld (w_sub w) (w_ush w) (w_hdr w) (w_data w)
          (upd (w_seg w) sg (fun x => mkSeg d (s_hdr x))).

(** nitf_segment.py:171-172, 183-199: the subheader is read in place, and a new
    user subheader if there is a class *)
Definition read_hdr (w : world) (h : nat) (s : S) (u : option U) : option world :=
  match change_sub w h (fun _ => s) with
  | Some w1 => match u with
               | Some x => let (w2, o) := new_ush w1 x in Some (set_ush w2 h (Some o))
               | None => Some w1
               end
  | None => None
  end.

(** one operation, lines as at [op] (nitf_segment.py:34-199,
    nitf_segment_data_handle.py:31-86).  [None]: it names an object that does
    not exist, or changes a user subheader where there is none. *)
Definition step (w : world) (o : op) : option world :=
  match o with
  | MkData s u =>
      let (w1, h) := new_hdr w s u in
      Some (mkWorld (w_sub w1) (w_ush w1) (w_hdr w1)
                    (w_data w1 ++ [mkData h None]) (w_seg w1))
  | MkSegm s None =>
      let (w1, h) := new_hdr w s None in
      Some (mkWorld (w_sub w1) (w_ush w1) (w_hdr w1) (w_data w1)
                    (w_seg w1 ++ [mkSeg None h]))
  | MkSegm s (Some d) =>
      match nth_error (w_data w) d with
      | Some x => Some (mkWorld (w_sub w) (w_ush w) (w_hdr w) (w_data w)
                                (w_seg w ++ [mkSeg (Some d) (d_hdr x)]))
      | None => None
      end
  | Read sg s u n =>
      match nth_error (w_seg w) sg with
      | Some x => match read_hdr w (s_hdr x) s u with
                  | Some w1 => let w2 := tries w1 sg (s_hdr x) (n + 1) in
                               Some (set_data w2 sg (Some (length (w_data w) + n)))
                  | None => None
                  end
      | None => None
      end
  | ReadFails sg s u n =>
      match nth_error (w_seg w) sg with
      | Some x => match read_hdr w (s_hdr x) s u with
                  | Some w1 => Some (tries w1 sg (s_hdr x) n)
                  | None => None
                  end
      | None => None
      end
  | SegSub sg v =>
      match nth_error (w_seg w) sg, take_sub w v with
      | Some x, Some (w1, i) => Some (set_sub w1 (s_hdr x) i)
      | _, _ => None
      end
  | DataSub d v =>
      match nth_error (w_data w) d, take_sub w v with
      | Some x, Some (w1, i) => Some (set_sub w1 (d_hdr x) i)
      | _, _ => None
      end
  | SegUsh sg v =>
      match nth_error (w_seg w) sg, take_ush w v with
      | Some x, Some (w1, i) => Some (set_ush w1 (s_hdr x) i)
      | _, _ => None
      end
  | DataUsh d v =>
      match nth_error (w_data w) d, take_ush w v with
      | Some x, Some (w1, i) => Some (set_ush w1 (d_hdr x) i)
      | _, _ => None
      end
  | SegChange sg f =>
      match nth_error (w_seg w) sg with
      | Some x => change_sub w (s_hdr x) f | None => None end
  | DataChange d f =>
      match nth_error (w_data w) d with
      | Some x => change_sub w (d_hdr x) f | None => None end
  | SegUshChange sg f =>
      match nth_error (w_seg w) sg with
      | Some x => change_ush w (s_hdr x) f | None => None end
  | DataUshChange d f =>
      match nth_error (w_data w) d with
      | Some x => change_ush w (d_hdr x) f | None => None end
  | SetData sg d =>
      match nth_error (w_seg w) sg with
      | Some _ => Some (set_data w sg d) | None => None end
  | Merge sg from =>
      match nth_error (w_seg w) sg, seg_data w from with
      | Some x, Some d =>
          let w1 := set_data w sg (Some d) in
          Some (mkWorld (w_sub w1) (w_ush w1) (w_hdr w1)
                        (upd (w_data w1) d (fun y => mkData (s_hdr x) (d_seg y)))
                        (w_seg w1))
      | _, _ => None
      end
  end.

(** a program: operations one after the other (nitf_segment.py:34-199,
    nitf_segment_data_handle.py:31-86) *)
Fixpoint run (w : world) (os : list op) : option world :=
  match os with
  | [] => Some w
  | o :: r => match step w o with Some w' => run w' r | None => None end
  end.

End Shared.
Arguments New {A} _. Arguments OfSeg {A} _.
Arguments MkData {S U} _ _. Arguments MkSegm {S U} _ _.
Arguments Read {S U} _ _ _ _. Arguments ReadFails {S U} _ _ _ _.
Arguments SegSub {S U} _ _. Arguments DataSub {S U} _ _.
Arguments SegUsh {S U} _ _. Arguments DataUsh {S U} _ _.
Arguments SegChange {S U} _ _. Arguments DataChange {S U} _ _.
Arguments SegUshChange {S U} _ _. Arguments DataUshChange {S U} _ _.
Arguments SetData {S U} _ _. Arguments Merge {S U} _ _.
Arguments w_sub {S U} _. Arguments w_ush {S U} _. Arguments w_hdr {S U} _.
Arguments w_data {S U} _. Arguments w_seg {S U} _.
Arguments empty {S U}.
