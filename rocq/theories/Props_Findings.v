(** Statements about the object layer that turned out false: witnesses.  Each
    script is what a user of the library would run in a new process. *)
From Verif Require Import Base Path Json Refs Meta GitText Git Spec_Store State BlobCache ObjRef Objects Common Spec_Objects.

Section Findings.
  Local Existing Instance check_env.
  (** two repositories *)
  Definition A : pystr := ps "/a".
  Definition B : pystr := ps "/b".
  Definition gab : gstate := GState {[ A := empty_repo; B := empty_repo ]} ∅.
  Definition u1 : uuid := ps "0123456789abcdef0123456789abcdef".
  Definition u2 : uuid := ps "ffffffffffffffffffffffffffffffff".
  Definition run1 (content : pystr) : run :=
    Run (JInt 1) (ps "extractor") (JStr (ps "author")) (JStr (ps "a@b"))
        (EC (JStr (ps "1.0")) []) (JStr content).
  Definition some_metadata (content : pystr) : M pst loc :=
    mlet m <- new_metadata; metadata_add_run 9 m (run1 content) ;;; mret m.
  Definition runs (m : loc) : M pst metadata :=
    mlet o <- getobj m; match o_body o with BMeta x => mret x | _ => mraise Unmodelled end.
  Definition some_record (u : uuid) (v : pystr) : M pst loc :=
    mlet m <- some_metadata (ps "dataset"); mlet t <- new_file_tree; new_mrr (Some u) (Some v) (Some m) (Some t).

  (** C21: a UUID set that is not loaded cannot be used any more after
      [set_version_list]. *)
  Theorem C21_set_on_unloaded_refuted : exists g : gstate,
    script g (mlet us <- new_uuid_set;
              mlet vl <- new_version_list;
              set_version_list us u1 vl ;;;
              mlet ref <- write_out 9 us (Some A) false;
              mlet us' <- uuid_set_at A ref;
              mlet vl' <- new_version_list;
              set_version_list us' u2 vl' ;;;
              attempt (uuids 9 us')) = Ok (Some RuntimeError).
  Proof. exists gab. vm_compute. reflexivity. Qed.
  Print Assumptions C21_set_on_unloaded_refuted.

  (** C27: an entry is changed and written with [unget_metadata]; the tree is
      then written, but its reference still describes the old entry. *)
  Theorem C27_lost_update_unget_refuted : exists g : gstate,
    script g (mlet t <- new_file_tree;
              mlet m <- some_metadata (ps "old");
              add_metadata 9 t (path (ps "d/f")) m ;;;
              filetree_write_out 9 t (Some A) false ;;;
              mlet m1 <- get_metadata 9 t (path (ps "d/f"));
              match m1 with
              | None => mraise Unmodelled
              | Some m1 =>
                  metadata_add_run 9 m1 (run1 (ps "new")) ;;;
                  unget_metadata 9 m1 (Some A) ;;;
                  mlet ref <- filetree_write_out 9 t (Some A) false;
                  mlet t' <- file_tree_at A ref;
                  mlet m2 <- get_metadata 9 t' (path (ps "d/f"));
                  match m2 with
                  | Some m2 =>
                      mlet x <- runs m2;
                      mlet m3 <- get_metadata 9 t (path (ps "d/f"));
                      match m3 with
                      | Some m3 =>
                          mlet y <- runs m3;
                          mret (bool_decide (meta_to_json x = meta_to_json y), map fst x)
                      | None => mraise Unmodelled
                      end
                  | None => mraise Unmodelled
                  end
              end) = Ok (false, [ps "extractor"]).
  Proof. exists gab. vm_compute. reflexivity. Qed.
  Print Assumptions C27_lost_update_unget_refuted.
  (** C27: a root record that is in a dataset tree and in the version list of a
      UUID set; the tree version list is written first, as common.py suggests.
      The record is changed; the UUID set is written before the tree version
      list, whose reference then describes the old record. *)
  Theorem C27_lost_update_shared_refuted : exists g : gstate,
    script g (mlet tvl <- new_tree_version_list;
              mlet us <- new_uuid_set;
              mlet r <- get_metadata_root_record_from_top_nodes 9 tvl us u1 (ps "v") (path []) (path [])
                          None None true (fun _ => ps "0.0");
              match r with
              | None => mraise Unmodelled
              | Some mrr =>
                  mlet ref1 <- write_out 9 tvl (Some A) false;
                  write_out 9 us (Some A) false ;;;
                  mlet m <- get_dataset_level_metadata 9 mrr;
                  metadata_add_run 9 m (run1 (ps "new")) ;;;
                  write_out 9 us (Some A) false ;;;
                  mlet ref2 <- write_out 9 tvl (Some A) false;
                  mret (bool_decide (r_loc ref1 = r_loc ref2))
              end) = Ok true.
  Proof. exists gab. vm_compute. reflexivity. Qed.
  Print Assumptions C27_lost_update_shared_refuted.

  (** C34: after a failed write_out no file tree can be written to this
      realm, and metadata that is reported as written is not in the repository. *)
  Definition failed_write (k : pystr) : M pst unit :=
    mlet t <- new_file_tree;
    mlet m <- some_metadata k;
    add_metadata 9 t (path [97; 10; 98]%N) m ;;;      (* the name is a, line feed, b *)
    attempt (filetree_write_out 9 t (Some A) false) ;;; mret tt.
  Theorem C34_cache_left_behind_refuted : exists g : gstate,
    script g (failed_write (ps "x") ;;;
              mlet t <- new_file_tree;
              mlet m <- some_metadata (ps "y");
              add_metadata 9 t (path (ps "f")) m ;;;
              attempt (filetree_write_out 9 t (Some A) false)) = Ok (Some RuntimeError).
  Proof. exists gab. vm_compute. reflexivity. Qed.
  Print Assumptions C34_cache_left_behind_refuted.
  Theorem C34_metadata_not_written_refuted : exists (g : gstate),
    script g (failed_write (ps "x") ;;;
              mlet m <- some_metadata (ps "y");
              mlet ref <- write_out 9 m (Some A) false;
              mlet b <- match r_loc ref with Some x => git_object_exists_locally A x | None => mraise Unmodelled end;
              mret (bool_decide (r_loc ref = None), b)) = Ok (false, false).
  Proof. exists gab. vm_compute. reflexivity. Qed.
  Print Assumptions C34_metadata_not_written_refuted.

  (** C35: a UUID set without entries, and a tree from which the last entry of a
      directory was removed, cannot be written; a dataset tree without entries
      can be written in a version list, but after reloading it cannot be listed, and
      the version list cannot be written again. *)
  Theorem C35_empty_uuid_set_refuted : exists g : gstate,
    script g (mlet us <- new_uuid_set; attempt (write_out 9 us (Some A) false)) = Ok (Some RuntimeError).
  Proof. exists gab. vm_compute. reflexivity. Qed.
  Print Assumptions C35_empty_uuid_set_refuted.
  Theorem C35_empty_directory_refuted : exists g : gstate,
    script g (mlet t <- new_file_tree;
              mlet m <- some_metadata (ps "x");
              mlet m' <- some_metadata (ps "y");
              add_metadata 9 t (path (ps "d/f")) m ;;;
              add_metadata 9 t (path (ps "g")) m' ;;;
              remove_child_at 9 t (path (ps "d/f")) ;;;
              attempt (filetree_write_out 9 t (Some A) false)) = Ok (Some RuntimeError).
  Proof. exists gab. vm_compute. reflexivity. Qed.
  Print Assumptions C35_empty_directory_refuted.
  Theorem C35_empty_dataset_tree_refuted : exists g : gstate,
    script g (mlet vl <- new_version_list;
              mlet t <- new_dataset_tree;
              set_versioned_element 9 vl (ps "v") (ps "0.0") (path []) (ETree t) ;;;
              mlet ref <- write_out 9 vl (Some A) false;
              mlet vl' <- version_list_at A ref;
              mlet x <- get_versioned_element 9 vl' (ps "v") (path []);
              mlet t' <- new_dataset_tree;
              set_versioned_element 9 vl' (ps "w") (ps "1.0") (path []) (ETree t') ;;;
              mlet e1 <- attempt (dataset_paths 9 (elt_loc (vr_elt x)));
              mlet vl'' <- version_list_at A ref;
              set_versioned_element 9 vl'' (ps "w") (ps "1.0") (path []) (ETree t') ;;;
              mlet e2 <- attempt (write_out 9 vl'' (Some A) false);
              mret (e1, e2)) = Ok (Some ValueError, Some RuntimeError).
  Proof. exists gab. vm_compute. reflexivity. Qed.
  Print Assumptions C35_empty_dataset_tree_refuted.

  (** C41: the root record in the version list of a UUID set is not reachable
      from any reference after both top-level objects are written and the
      object references are flushed. *)
  Definition reachable (g : gstate) (n : pystr) (x : pystr) : bool :=
    match local_repo g n with
    | Some r => existsb (fun kv => match closure (r_objs r) (snd kv) with
                                   | Some m => is_some (m !! x)
                                   | None => false
                                   end) (map_to_list (r_refs r))
    | None => false
    end.
  Theorem C41_unreferenced_record_refuted : exists g : gstate,
    let '(res, (_, g')) := mrun (
      mlet us <- new_uuid_set;
      mlet vl <- new_version_list;
      mlet mrr <- some_record u1 (ps "v");
      set_versioned_element 9 vl (ps "v") (ps "0.0") (path []) (EMrr mrr) ;;;
      set_version_list us u1 vl ;;;
      mlet tvl <- new_tree_version_list;
      mlet dt <- new_dataset_tree;
      mlet mrr' <- some_record u1 (ps "w");
      add_dataset 9 dt (path []) mrr' ;;;
      set_versioned_element 9 tvl (ps "w") (ps "0.0") (path []) (ETree dt) ;;;
      write_out 9 tvl (Some A) false ;;;
      write_out 9 us (Some A) false ;;;
      flush_object_references A ;;;
      mlet us' <- uuid_set_at A (ref_of (ps "UUIDSet") UUID_SET);
      mlet vl' <- get_version_list 9 us' u1;
      mlet x <- get_versioned_element 9 vl' (ps "v") (path []);
      mlet o <- getobj (elt_loc (vr_elt x));
      mret (h_ref (o_hdr o))) (init_pst, g) in
    match res with
    | Ok (Some (Ref _ (Some x))) => bool_decide (is_Some (objs_of g' A !! x)) && negb (reachable g' A x)
    | _ => false
    end = true.
  Proof. exists gab. vm_compute. reflexivity. Qed.
  Print Assumptions C41_unreferenced_record_refuted.

  (** C44: a look-up without auto-creation adds an entry to the version list of
      the dataset and marks it as modified. *)
  Theorem C44_lookup_modifies_refuted : exists g : gstate,
    script g (mlet tvl <- new_tree_version_list;
              mlet dt <- new_dataset_tree;
              mlet mrr <- some_record u1 (ps "v");
              add_dataset 9 dt (path []) mrr ;;;
              set_versioned_element 9 tvl (ps "v") (ps "0.0") (path []) (ETree dt) ;;;
              mlet us <- new_uuid_set;
              mlet vl <- new_version_list;
              set_version_list us u1 vl ;;;
              write_out 9 tvl (Some A) false ;;;
              write_out 9 us (Some A) false ;;;
              mlet b1 <- is_saved_on 9 us (Some A);
              mlet n1 <- version_list_len vl;
              get_metadata_root_record_from_top_nodes 9 tvl us u1 (ps "v") (path []) (path [])
                None None false (fun _ => ps "0.0") ;;;
              mlet b2 <- is_saved_on 9 us (Some A);
              mlet n2 <- version_list_len vl;
              mret (b1, n1, b2, n2)) = Ok (true, 0, false, 1).
  Proof. exists gab. vm_compute. reflexivity. Qed.
  Print Assumptions C44_lookup_modifies_refuted.

  (** C45: only the tree version list was written; after auto-creation for
      another version and writing both objects the first version is lost. *)
  Definition create (v : pystr) : M pst (option (loc * loc * option loc)) :=
    get_top_nodes_and_metadata_root_record 9 A u1 v (path []) (path []) None None true (fun _ => ps "0.0").
  Theorem C45_partial_realm_refuted : exists g : gstate,
    script g (mlet x <- create (ps "v");
              match x with
              | Some (tvl, _, _) => write_out 9 tvl (Some A) false ;;; mret tt
              | None => mraise Unmodelled
              end ;;;
              mlet y <- create (ps "w");
              match y with
              | Some (tvl, us, _) => write_out 9 tvl (Some A) false ;;; write_out 9 us (Some A) false ;;; mret tt
              | None => mraise Unmodelled
              end ;;;
              mlet z <- get_top_level_metadata_objects 9 A;
              match z with
              | Some (tvl, _) => mlet vps <- versions_and_prefix_paths 9 tvl; mret (map fst vps)
              | None => mraise Unmodelled
              end) = Ok [ps "w"].
  Proof. exists gab. vm_compute. reflexivity. Qed.
  Print Assumptions C45_partial_realm_refuted.

  (** C46 *)
  Theorem C46_new_path_refuted : exists g : gstate,
    script g (mlet t <- new_file_tree;
              attempt (filetree_add_run 9 t (path (ps "d/f")) (run1 (ps "x")))) = Ok (Some AttributeError).
  Proof. exists gab. vm_compute. reflexivity. Qed.
  Print Assumptions C46_new_path_refuted.

  (** C47: an object is saved on one realm, a write to another one (that does not
      exist) fails; then the object is purged and cannot be read. *)
  Theorem C47_failed_write_refuted : exists g : gstate,
    script g (mlet t <- new_file_tree;
              mlet m <- some_metadata (ps "x");
              add_metadata 9 t (path (ps "f")) m ;;;
              write_out 9 t (Some A) false ;;;
              mlet e1 <- attempt (write_out 9 t (Some (ps "/missing")) false);
              purge 9 t ;;;
              mlet e2 <- attempt (get_metadata 9 t (path (ps "f")));
              mret (e1, e2)) = Ok (Some RuntimeError, Some RuntimeError).
  Proof. exists gab. vm_compute. reflexivity. Qed.
  Print Assumptions C47_failed_write_refuted.
  (** C47: written to two realms, changed and written to the second one only, the
      purged object counts as saved on the first one, and write_out to the first
      one returns a reference that is not there. *)
  Theorem C47_stale_mark_refuted : exists g : gstate,
    script g (mlet t <- new_dataset_tree;
              mlet mrr <- some_record u1 (ps "v");
              add_dataset 9 t (path []) mrr ;;;
              datasettree_write_out 9 t (Some A) false ;;;
              datasettree_write_out 9 t (Some B) false ;;;
              mlet m <- get_dataset_level_metadata 9 mrr;
              metadata_add_run 9 m (run1 (ps "new")) ;;;
              datasettree_write_out 9 t (Some B) false ;;;
              purge 9 t ;;;
              mlet b <- is_saved_on 9 t (Some A);
              mlet ref <- datasettree_write_out 9 t (Some A) false;
              mlet t' <- dataset_tree_at A ref;
              mlet e <- attempt (dataset_paths 9 t');
              mret (b, e)) = Ok (true, Some RuntimeError).
  Proof. exists gab. vm_compute. reflexivity. Qed.
  Print Assumptions C47_stale_mark_refuted.

  (** C49: a tree version list that was written cannot be used after it was
      purged, nor can a copy. *)
  Theorem C49_unusable_after_purge_refuted : exists g : gstate,
    script g (mlet tvl <- new_tree_version_list;
              write_out 9 tvl (Some A) false ;;;
              purge 9 tvl ;;;
              attempt (versions_and_prefix_paths 9 tvl)) = Ok (Some AssertionError).
  Proof. exists gab. vm_compute. reflexivity. Qed.
  Print Assumptions C49_unusable_after_purge_refuted.
  Theorem C49_unusable_copy_refuted : exists g : gstate,
    script g (mlet tvl <- new_tree_version_list;
              mlet c <- deepcopy 9 tvl (Some B) (path []);
              attempt (versions_and_prefix_paths 9 c)) = Ok (Some AssertionError).
  Proof. exists gab. vm_compute. reflexivity. Qed.
  Print Assumptions C49_unusable_copy_refuted.

  (** C50: the length of a version list, and equality of metadata objects
      (metadata.py 238-239), before and after a purge. *)
  Definition metadata_eq (a b : loc) : M pst bool :=
    mlet x <- runs a; mlet y <- runs b; mres (meta_eq x y).
  Theorem C50_len_refuted : exists g : gstate,
    script g (mlet vl <- new_version_list;
              mlet t <- new_dataset_tree;
              set_versioned_element 9 vl (ps "v") (ps "0.0") (path []) (ETree t) ;;;
              write_out 9 vl (Some A) false ;;;
              mlet n1 <- version_list_len vl;
              purge 9 vl ;;;
              mlet n2 <- version_list_len vl;
              mret (n1, n2)) = Ok (1, 0).
  Proof. exists gab. vm_compute. reflexivity. Qed.
  Print Assumptions C50_len_refuted.
  Theorem C50_eq_refuted : exists g : gstate,
    script g (mlet m <- some_metadata (ps "x");
              mlet m' <- some_metadata (ps "x");
              mlet b1 <- metadata_eq m m';
              write_out 9 m (Some A) false ;;;
              purge 9 m ;;;
              mlet b2 <- metadata_eq m m';
              mret (b1, b2)) = Ok (true, false).
  Proof. exists gab. vm_compute. reflexivity. Qed.
  Print Assumptions C50_eq_refuted.
End Findings.
