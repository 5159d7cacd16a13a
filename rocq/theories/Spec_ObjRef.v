(** Specification vocabulary: the references that keep objects alive. *)
From Verif Require Import Base GitText Spec_Git Git Spec_Store State Spec_Tree.

(** The reference, and the two references of older versions. *)
Definition object_references : pystr := ps "refs/datalad/object-references-2.0".
Definition legacy_references (t : etype) : pystr :=
  match t with
  | Directory => ps "refs/datalad/object-references/trees"
  | File => ps "refs/datalad/object-references/blobs"
  end.

(** id[0:3]/id[3:6]/id[6:9]/id[9:] *)
Definition fan_out (id : pystr) : list pystr :=
  [take 3 id; take 3 (drop 3 id); take 3 (drop 6 id); drop 9 id].

(** The reference tree of repository [n] has an entry for the object. *)
Definition in_refs (g : gstate) (n : pystr) (t : etype) (id : pystr) : Prop :=
  exists top, refs_of g n !! object_references = Some top /\
              tree_path (objs_of g n) top (fan_out id) = Some (t, id).
(** A legacy reference has an entry for the object. *)
Definition in_legacy (g : gstate) (n : pystr) (t : etype) (id : pystr) : Prop :=
  exists top es, refs_of g n !! legacy_references t = Some top /\
              tree_of (objs_of g n) top = Some es /\ id ∈ map te_id es.
Definition protected (g : gstate) (n : pystr) (t : etype) (id : pystr) : Prop :=
  in_refs g n t id \/ in_legacy g n t id.

(** The reference tree can be read: it exists if there is a reference, and so do
    its directories. *)
Definition refs_readable (g : gstate) (n : pystr) : Prop :=
  forall top, refs_of g n !! object_references = Some top ->
  exists es, tree_of (objs_of g n) top = Some es /\
    forall id, hex40 id -> dirs_present (objs_of g n) (entry_at es) (fan_out id).
