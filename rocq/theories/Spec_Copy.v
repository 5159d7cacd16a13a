(** Specification vocabulary for copies. *)
From Verif Require Import Base Path Spec_Path Json Refs Meta Spec_Meta GitText Spec_Git Git Spec_Store State Objects Spec_Look Spec_Heap Spec_Versions Spec_Content.

(** The path [p] below [pre]. *)
Definition under (pre p : ppath) : ppath := PP [] (p_parts pre ++ p_parts p).
(** Parts of version lists, with [pre] in front of their paths. *)
Definition moved_key (pre : ppath) (k : key) : key :=
  match k with KVer v p => KVer v (under pre p) | _ => k end.
Definition moved_label (pre : ppath) (lb : label) : label :=
  match lb with LbVl b rs => LbVl b (map (fun r => (fst (fst (fst r)), under pre (snd (fst (fst r))), snd (fst r), snd r)) rs) | _ => lb end.
Definition moved_seen (pre : ppath) (x : seen) : seen :=
  match x with Seen lb => Seen (moved_label pre lb) | x => x end.
(** [c'] is [c] with the prefix [pre] for the paths of a version list.  All other
    content is the same. *)
Record moved (pre : ppath) (c c' : content) : Prop := {
  mv_root : c' [] = moved_seen pre (c []);
  mv_part : forall k q, c [k] <> Absent -> c' (moved_key pre k :: q) = c (k :: q);
  mv_none : forall k' q, (forall k, c [k] <> Absent -> moved_key pre k <> k') -> c' (k' :: q) = Absent;
}.
(** Paths that can be stored. *)
Definition prefix_ok (pre : ppath) : Prop := is_metadata_path pre /\ scalar_str (mp_as_posix pre).
