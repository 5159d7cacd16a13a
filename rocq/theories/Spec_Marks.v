(** Specification vocabulary for the marks of objects: what counts as modified,
    and the calls that modify objects or use them without writing. *)
From Verif Require Import Base Path Json Refs Meta GitText Git Spec_Store State BlobCache ObjRef Objects Common Spec_Objects Spec_Look Spec_Heap Spec_Write Spec_Content Spec_History.

(** There is a loaded object at or below [x] that is saved nowhere. *)
Definition unsaved_below (h : heap) (x : loc) : Prop :=
  exists z o, loaded_below h x z /\ h !! z = Some o /\ h_mapped (o_hdr o) = true /\ h_saved (o_hdr o) = ∅.

Section Calls.
  Context `{Env}.
  (** The calls that modify [y] or something below, which they load if necessary. *)
  Inductive alters (fuel : nat) (y : loc) : M pst unit -> Prop :=
  | alter_own m : modifies fuel y m -> alters fuel y m
  | alter_add child path : alters fuel y (add_child_at fuel y child path)
  | alter_add_metadata path m : alters fuel y (add_metadata fuel y path m)
  | alter_add_dataset path m : alters fuel y (add_dataset fuel y path m)
  | alter_add_subtree sub path : alters fuel y (add_subtree fuel y sub path)
  | alter_remove path : alters fuel y (remove_child_at fuel y path)
  | alter_delete path : alters fuel y (delete_subtree fuel y path)
  | alter_run path ru : alters fuel y (filetree_add_run fuel y path ru).
  (** The calls that do not write. *)
  Inductive writeless : forall A, M pst A -> Prop :=
  | wl_use fuel y A m : use_call fuel y A m -> writeless A m
  | wl_alter fuel y m : alters fuel y m -> writeless _ m
  | wl_make lb m : makes lb m -> writeless _ m
  | wl_record u v m t : writeless _ (new_mrr u v m t)
  | wl_open k r ref : writeless _ (object_at k r ref)
  | wl_top fuel r : writeless _ (get_top_level_metadata_objects fuel r)
  | wl_from_top fuel tvl us u v prefix tree_path sub_u sub_v auto now :
      writeless _ (get_metadata_root_record_from_top_nodes fuel tvl us u v prefix tree_path sub_u sub_v auto now)
  | wl_look fuel r u v prefix tree_path sub_u sub_v auto now :
      writeless _ (get_top_nodes_and_metadata_root_record fuel r u v prefix tree_path sub_u sub_v auto now).
  (** Any number of such calls, with any outcome; the repositories may change in
      between. *)
  Inductive without_write : pst -> pst -> Prop :=
  | ww_none s : without_write s s
  | ww_call A m s g r s1 g1 s2 : writeless A m -> exec (m s) g = ((r, s1), g1) -> without_write s1 s2 -> without_write s s2.
End Calls.
