(** Specification vocabulary for writing: which repository a command works on,
    where an object is written to, what is loaded. *)
From Verif Require Import Base Path Json Refs Meta GitText Git Spec_Store State BlobCache ObjRef Objects.

(** The repository a command is run in (for a fetch: the one that receives). *)
Definition cmd_repo (c : cmd) : pystr :=
  match c with
  | HashObject r _ | HashFiles r _ | MkTree r _ | CatFileP r _ | CatFileE r _ | LsTree r _
  | Show r _ | UpdateRef r _ _ | DeleteRef r _ | PathExists r | Init r | Fetch r _ _ _
  | LockAcquire r | LockRelease r => r
  end.

(** [destination or self.realm] *)
Definition destination_of (o : obj) (destination : option pystr) : option pystr :=
  or_else destination (h_realm (o_hdr o)).

(** Every blob cache writes to the realm under which it is registered. *)
Definition caches_wf (cs : pydict pystr bcache) : Prop :=
  NoDup (dkeys cs) /\ forall n c, In (n, c) cs -> bc_realm c = n.
Definition caches_ok (s : pst) : Prop := caches_wf (s_caches s).

(** The two kinds of objects that are published under a git reference. *)
Definition is_tree_version_list (h : heap) (l : loc) : Prop :=
  exists x vs, h !! l = Some (Obj x (BVlist true vs)).
Definition is_uuid_set (h : heap) (l : loc) : Prop := exists x us, h !! l = Some (Obj x (BUset us)).
(** They are never part of another object. *)
Definition top_level_only (h : heap) : Prop := forall l o l',
  h !! l = Some o -> In l' (sub_objects (o_body o)) -> ~ is_tree_version_list h l' /\ ~ is_uuid_set h l'.

(** [y] is [x] or below [x], and everything between is loaded. *)
Inductive loaded_below (h : heap) : loc -> loc -> Prop :=
| below_self x o : h !! x = Some o -> loaded_below h x x
| below_sub x o z y : h !! x = Some o -> h_mapped (o_hdr o) = true -> In z (sub_objects (o_body o)) ->
    loaded_below h z y -> loaded_below h x y.
Definition saved_mark (h : heap) (l : loc) (r : pystr) : Prop :=
  exists o, h !! l = Some o /\ r ∈ h_saved (o_hdr o).

(** The calls that modify one object. *)
Inductive modifies `{Env} (fuel : nat) (y : loc) : M pst unit -> Prop :=
| mod_add_child name child : modifies fuel y (add_child fuel y name child)
| mod_remove_child name : modifies fuel y (remove_child fuel y name)
| mod_add_run r : modifies fuel y (metadata_add_run fuel y r)
| mod_file_tree t : modifies fuel y (set_file_tree fuel y t)
| mod_dataset_level m : modifies fuel y (set_dataset_level_metadata fuel y m)
| mod_versioned v t p e : modifies fuel y (set_versioned_element fuel y v t p e)
| mod_version_list u vl : modifies fuel y (set_version_list y u vl).

(** Writing: objects of all classes; FileTree and DatasetTree go through a proxy. *)
Inductive writes `{Env} (fuel : nat) (l : loc) (destination : option pystr) (force : bool) : M pst reference -> Prop :=
| writes_any : writes fuel l destination force (write_out fuel l destination force)
| writes_file_tree : writes fuel l destination force (filetree_write_out fuel l destination force)
| writes_dataset_tree : writes fuel l destination force (datasettree_write_out fuel l destination force).

(** From [g] to [g'] objects were added to the repository [d] and nothing else
    happened, except that the reference of [l] may be set. *)
Definition adds_to (h : heap) (d : pystr) (l : loc) (g g' : gstate) : Prop :=
  (forall n, n <> d -> g_repos g' !! n = g_repos g !! n) /\
  objs_of g d ⊆ objs_of g' d /\
  (forall x, refs_of g' d !! x <> refs_of g d !! x ->
     (x = TREE_VERSION_LIST /\ is_tree_version_list h l) \/ (x = UUID_SET /\ is_uuid_set h l)).
