(** Merged files, nitf_file_merge.py. *)
From Verif Require Import Base Engine File.
Open Scope list_scope.

Section Merge.
Variables (H S T : Type).

(** What a merged file asks its files for (nitf_file_merge.py:31-78): [None] / an empty list
    is false in python.  Header objects are always true: FieldStruct (nitf_field.py) has neither
    [__len__] nor [__bool__].  Not modelled: the notification of the files and the read hooks
    (nitf_file_merge.py:24-29); [read] and [write] only raise (nitf_file_merge.py:80-84). *)
Record mfile := { mf_hdr : option H; mf_segs : kind -> list S; mf_tres : list T }.

(** nitf_file_merge.py:31-36 ([file_header]). *)
Fixpoint m_header (fs : list mfile) : option H :=
  match fs with
  | [] => None
  | f :: fs' => match mf_hdr f with Some h => Some h | None => m_header fs' end
  end.
(** nitf_file_merge.py:38-71 ([image_segment] ... [res_segment]), the list of kind [k]. *)
Fixpoint m_segs (fs : list mfile) (k : kind) : list S :=
  match fs with
  | [] => []
  | f :: fs' => match mf_segs f k with [] => m_segs fs' k | l => l end
  end.
(** nitf_file_merge.py:73-78 ([tre_list]). *)
Fixpoint m_tres (fs : list mfile) : list T :=
  match fs with
  | [] => []
  | f :: fs' => match mf_tres f with [] => m_tres fs' | l => l end
  end.
(** The merged file itself can be asked in the same way (nitf_file_merge.py:7, 31-78). *)
Definition merged (fs : list mfile) : mfile := {| mf_hdr := m_header fs; mf_segs := m_segs fs; mf_tres := m_tres fs |}.

(** [segments()] of a file (nitf_file.py:228-252), inherited by the merged file. *)
Definition m_segments (f : mfile) : list (kind * nat * S) :=
  flat_map (fun k => map (fun p => (k, fst p, snd p)) (enumerate (mf_segs f k))) kinds.
End Merge.
Arguments mf_hdr {H S T}. Arguments mf_segs {H S T}. Arguments mf_tres {H S T}.
Arguments merged {H S T}. Arguments m_segments {H S T}. Arguments m_header {H S T}. Arguments m_segs {H S T}. Arguments m_tres {H S T}.
