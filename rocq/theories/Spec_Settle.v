(** Specification vocabulary: references of objects that are not loaded. *)
From Verif Require Import Base Path Json Refs Meta GitText Git Spec_Store State BlobCache ObjRef Objects Spec_Objects Spec_Look Spec_Heap Spec_Content Spec_Outcome Spec_Parts.

(** What is not loaded is not an empty tree, which has no object in the repository. *)
Definition referenced (h : heap) (l : loc) : Prop := forall p x o ref,
  reach h l p = Some x -> h !! x = Some o -> h_mapped (o_hdr o) = false -> h_ref (o_hdr o) = Some ref -> is_none_reference ref = false.

(** The repository exists, directories and UUID sets have entries, and records
    have dataset level metadata. *)
Definition releasable (r : pystr) (x : loc) (s : pst) (g : gstate) : Prop :=
  let c := look (objs_of g r) (s_heap s) x in
  is_Some (local_repo g r) /\ referenced (s_heap s) x /\ dirs_filled c /\ uuids_given c /\ with_metadata c.
