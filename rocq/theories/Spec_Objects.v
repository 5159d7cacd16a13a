(** Specification vocabulary for the object layer: what a user of the library
    writes down. *)
From Verif Require Import Base Path Json Refs Meta GitText Git State BlobCache ObjRef Objects Common.

Section Spec.
  Context `{Env}.

  (** Constructors of new objects: [Metadata()], [FileTree()], [DatasetTree()],
      [MetadataRootRecord(u, v, m, t)], [VersionList()], [TreeVersionList()],
      [UUIDSet()] *)
  Definition new_metadata : M pst loc := new_obj (BMeta []) None None.
  Definition new_file_tree : M pst loc := new_obj (BNode LMeta []) None None.
  Definition new_dataset_tree : M pst loc := new_obj (BNode LMrr []) None None.
  Definition new_mrr (u : option uuid) (v : option pystr) (m t : option loc) : M pst loc :=
    new_obj (BMrr u v m t) None None.
  Definition new_version_list : M pst loc := new_obj (BVlist false []) None None.
  Definition new_tree_version_list : M pst loc := new_obj (BVlist true []) None None.
  Definition new_uuid_set : M pst loc := new_obj (BUset []) None None.
  (** and of objects that are stored: [FileTree(realm=realm, reference=ref)] etc. *)
  Definition file_tree_at (realm : pystr) (ref : reference) : M pst loc :=
    new_obj (BNode LMeta []) (Some realm) (Some ref).
  Definition dataset_tree_at (realm : pystr) (ref : reference) : M pst loc :=
    new_obj (BNode LMrr []) (Some realm) (Some ref).
  Definition uuid_set_at (realm : pystr) (ref : reference) : M pst loc :=
    new_obj (BUset []) (Some realm) (Some ref).
  Definition version_list_at (realm : pystr) (ref : reference) : M pst loc :=
    new_obj (BVlist false []) (Some realm) (Some ref).

  (** [MetadataPath(s)] *)
  Definition path (s : pystr) : ppath := MetadataPath [AStr s].
  (** The exception a call raises. *)
  Definition attempt {A} (m : M pst A) : M pst (option exn) :=
    mtry (m ;;; mret None) (fun e => mret (Some e)).
  (** The result of a script in a new process. *)
  Definition script {A} (g : gstate) (m : M pst A) : res A := fst (mrun m (init_pst, g)).
End Spec.
