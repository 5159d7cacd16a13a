(** Specification vocabulary for the published objects of a repository. *)
From Verif Require Import Base Json Refs GitText Git Spec_Store State ObjRef Objects Spec_Look Spec_Content.

(** What a repository publishes: the reference of a new tree version list and a
    new UUID set, with the name of the git reference replaced by its target. *)
Definition published (g : gstate) (r : pystr) (k : kd) (ref : reference) : Prop := exists h,
  (k = KdVl true /\ refs_of g r !! TREE_VERSION_LIST = Some h /\ ref = ref_of (ps "TreeVersionList") h) \/
  (k = KdUs /\ refs_of g r !! UUID_SET = Some h /\ ref = ref_of (ps "UUIDSet") h).
(** Everything that is published, and everything that is found from there, is in
    the repository and has the right format. *)
Definition sound (g : gstate) (r : pystr) : Prop := forall k ref,
  published g r k ref -> complete (look_stored (objs_of g r) k ref).
