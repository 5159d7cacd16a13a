(** Property theorems about trees and version lists: C15 to C20. *)
From Verif Require Import Base Path Json Refs Meta GitText Git State ObjRef Objects Spec_Objects Spec_Look Spec_Heap Spec_Dataset Spec_Versions
  TreeFacts DatasetFacts VersionFacts HeapCase.

(** C15: after a successful [add_child_at] the child is found at the path.  A
    path [q] that was looked up before gives what it gave, unless it is at or
    below the new path; a path above the new one that gave nothing may now give a
    new directory.  The lookups afterwards need no command. *)
Theorem C15_added : forall `{Env} (fuel fuel1 : nat) (l child : loc) (p q : ppath) (s : pst) (g : gstate) (r : option loc)
    (s1 : pst) (g1 g2 : gstate) (u : unit) (s2 : pst) (g3 : gstate),
  heap_ok s -> node_at (s_heap s) l -> nodes_unshared (s_heap s) l ->
  is_metadata_path p -> is_metadata_path q ->
  exec (get_object_at_path fuel l q s) g = ((Ok r, s1), g1) ->
  exec (add_child_at fuel1 l child p s1) g2 = ((Ok u, s2), g3) ->
  forall fuel2 g4,
    exec (get_object_at_path fuel2 l p s2) g4 = ((Ok (Some child), s2), g4) /\
    (~ extends (all_parts q) (all_parts p) -> r <> None \/ ~ extends (all_parts p) (all_parts q) ->
     exec (get_object_at_path fuel2 l q s2) g4 = ((Ok r, s2), g4)).
Proof. exact @C15_added_lemma. Qed.
Print Assumptions C15_added.
(** If [add_child_at] raises, no lookup changes. *)
Theorem C15_failed : forall `{Env} (fuel fuel1 : nat) (l child : loc) (p q : ppath) (s : pst) (g : gstate) (r : option loc)
    (s1 : pst) (g1 g2 : gstate) (e : exn) (s2 : pst) (g3 : gstate),
  heap_ok s -> node_at (s_heap s) l -> is_metadata_path p ->
  exec (get_object_at_path fuel l q s) g = ((Ok r, s1), g1) ->
  exec (add_child_at fuel1 l child p s1) g2 = ((Err e, s2), g3) ->
  forall fuel2 g4, exec (get_object_at_path fuel2 l q s2) g4 = ((Ok r, s2), g4).
Proof. exact @C15_failed_lemma. Qed.
Print Assumptions C15_failed.

(** C16: if the path was looked up, [add_child_at] raises ValueError if it is
    occupied or there is a leaf object on the way; otherwise it succeeds. *)
Theorem C16_conflicts : forall `{Env} (fuel fuel1 : nat) (l child : loc) (p : ppath) (s : pst) (g : gstate) (r : option loc)
    (s1 : pst) (g1 g2 : gstate),
  heap_ok s -> node_at (s_heap s) l -> is_metadata_path p -> all_parts p <> [] ->
  exec (get_object_at_path fuel l p s) g = ((Ok r, s1), g1) ->
  let leaf_on_path := exists q z x o, is_metadata_path q /\ all_parts q <> [] /\ z <> [] /\ all_parts p = all_parts q ++ z /\
    exec (get_object_at_path fuel l q s1) g2 = ((Ok (Some x), s1), g2) /\ s_heap s1 !! x = Some o /\ is_node o = false in
  (r <> None \/ leaf_on_path -> exec (add_child_at fuel1 l child p s1) g2 = ((Err ValueError, s1), g2)) /\
  (r = None -> ~ leaf_on_path -> exists s2, exec (add_child_at fuel1 l child p s1) g2 = ((Ok tt, s2), g2)).
Proof. exact @C16_lemma. Qed.
Print Assumptions C16_conflicts.

(** C17, for trees whose nodes are all loaded: the listing yields exactly the
    pairs of a path and the leaf found there ([inter]: or the node), each path
    once, and changes nothing.  It fails only if the tree is deeper than the
    recursion limit. *)
Theorem C17_listing_partial : forall `{Env} (inter : bool) (fuel : nat) (l : loc) (s : pst) (g : gstate)
    (r : res (list (ppath * loc))) (s' : pst) (g' : gstate),
  heap_ok s -> node_at (s_heap s) l -> loaded_tree (s_heap s) l ->
  exec (get_paths_recursive fuel inter l s) g = ((r, s'), g') ->
  s' = s /\ g' = g /\
  match r with
  | Ok xs => NoDup (map fst xs) /\
      forall p x, In (p, x) xs <->
        is_metadata_path p /\ (forall fuel2 g2, exec (get_object_at_path fuel2 l p s) g2 = ((Ok (Some x), s), g2)) /\
        exists o, s_heap s !! x = Some o /\ (is_node o = true -> inter = true)
  | Err e => e = RecursionError /\ exists p x o, is_metadata_path p /\ length (all_parts p) = fuel /\
      (forall fuel2 g2, exec (get_object_at_path fuel2 l p s) g2 = ((Ok (Some x), s), g2)) /\ s_heap s !! x = Some o /\ is_node o = true
  end.
Proof. exact @C17_lemma. Qed.
Print Assumptions C17_listing_partial.

(** C18: after a successful [remove_child_at] lookups at the path and below it
    give nothing, others what they gave; *)
Theorem C18_removed : forall `{Env} (fuel fuel1 : nat) (l : loc) (p q : ppath) (s : pst) (g : gstate) (r : option loc)
    (s1 : pst) (g1 g2 : gstate) (u : unit) (s2 : pst) (g3 : gstate),
  heap_ok s -> node_at (s_heap s) l -> nodes_unshared (s_heap s) l ->
  is_metadata_path p -> is_metadata_path q ->
  exec (get_object_at_path fuel l q s) g = ((Ok r, s1), g1) ->
  exec (remove_child_at fuel1 l p s1) g2 = ((Ok u, s2), g3) ->
  forall fuel2 g4,
    (extends (all_parts q) (all_parts p) -> exec (get_object_at_path fuel2 l q s2) g4 = ((Ok None, s2), g4)) /\
    (~ extends (all_parts q) (all_parts p) -> exec (get_object_at_path fuel2 l q s2) g4 = ((Ok r, s2), g4)).
Proof. exact @C18_removed_lemma. Qed.
Print Assumptions C18_removed.
(** if it raises, no lookup changes. *)
Theorem C18_failed : forall `{Env} (fuel fuel1 : nat) (l : loc) (p q : ppath) (s : pst) (g : gstate) (r : option loc)
    (s1 : pst) (g1 g2 : gstate) (e : exn) (s2 : pst) (g3 : gstate),
  heap_ok s -> node_at (s_heap s) l -> is_metadata_path p ->
  exec (get_object_at_path fuel l q s) g = ((Ok r, s1), g1) ->
  exec (remove_child_at fuel1 l p s1) g2 = ((Err e, s2), g3) ->
  forall fuel2 g4, exec (get_object_at_path fuel2 l q s2) g4 = ((Ok r, s2), g4).
Proof. exact @C18_failed_lemma. Qed.
Print Assumptions C18_failed.

(** C19, for dataset paths without the reserved component: after any sequence
    of [add_dataset] calls on a new tree, of which the first for each path
    succeeds, the tree is the finite map of these calls. *)
Theorem C19_map_partial : forall `{Env} (fuel : nat) (l : loc) (hx : hdr) (c : leafcls) (calls : list (ppath * loc)) (s : pst) (g : gstate),
  heap_ok s -> s_heap s !! l = Some (Obj hx (BNode c [])) -> h_mapped hx = true ->
  List.Forall (fun cl => is_metadata_path (fst cl) /\ ~ In root_record_name (all_parts (fst cl)) /\ record_at (s_heap s) (snd cl)) calls ->
  exists s', exec (add_datasets fuel l calls s) g = ((Ok (first_times [] calls), s'), g) /\
  forall fuel2 g2,
    (forall p, is_metadata_path p -> ~ In root_record_name (all_parts p) ->
       exec (dataset_in fuel2 l p s') g2 = ((Ok (is_some (dget (datasets calls) p)), s'), g2) /\
       exec (get_metadata_root_record fuel2 l p s') g2 = ((Ok (dget (datasets calls) p), s'), g2)) /\
    exists r, exec (dataset_paths fuel2 l s') g2 = ((r, s'), g2) /\
      match r with
      | Ok xs => NoDup (map fst xs) /\ forall p x, In (p, x) xs <-> dget (datasets calls) p = Some x
      | Err e => e = RecursionError /\ (fuel2 = 0%nat \/ exists c, In c calls /\ (fuel2 <= length (all_parts (fst c)))%nat)
      end.
Proof. exact @C19_lemma. Qed.
Print Assumptions C19_map_partial.

(** C20: after any sequence of [set_versioned_element] calls on a loaded version
    list, the list is the finite map of the last record set for each version and
    path. *)
Theorem C20_map : forall `{Env} (fuel : nat) (l : loc) (hx : hdr) (k : bool) (vs : pydict pystr (pydict ppath vrec)) (calls : list vcall)
    (s : pst) (g : gstate),
  s_heap s !! l = Some (Obj hx (BVlist k vs)) -> h_mapped hx = true -> well_keyed vs ->
  exists s', exec (set_elements fuel l calls s) g = ((Ok tt, s'), g) /\
  (forall x, x <> l -> s_heap s' !! x = s_heap s !! x) /\
  forall fuel2 g2, exists vps ves,
    exec (versions_and_prefix_paths fuel2 l s') g2 = ((Ok vps, s'), g2) /\ NoDup vps /\
    (forall v p, In (v, p) vps <-> last_record calls v p (record_of vs v p) <> None) /\
    exec (version_list_len l s') g2 = ((Ok (length vps), s'), g2) /\
    exec (versioned_elements fuel2 l s') g2 = ((Ok ves, s'), g2) /\
    map (fun vr => (fst vr, vr_path (snd vr))) ves = vps /\
    (forall v r, In (v, r) ves <-> last_record calls v (vr_path r) (record_of vs v (vr_path r)) = Some r) /\
    forall v p, match last_record calls v p (record_of vs v p) with
      | None => exec (get_versioned_element fuel2 l v p s') g2 = ((Err KeyError, s'), g2)
      | Some r => forall o, s_heap s' !! elt_loc (vr_elt r) = Some o -> h_mapped (o_hdr o) = true ->
          exec (get_versioned_element fuel2 l v p s') g2 = ((Ok r, s'), g2)
      end.
Proof. exact @C20_lemma. Qed.
Print Assumptions C20_map.

Section Case.
  Local Existing Instance check_env.
  Definition gt : gstate := GState ∅ ∅.
  Definition after_t {X} (m : M pst X) (s : pst) : pst := snd (fst (exec (m s) gt)).
  Definition result_t {X} (m : M pst X) (s : pst) : res X := fst (fst (exec (m s) gt)).
  (** a file tree with entries d/f and g *)
  Definition build_t : M pst unit :=
    mlet t <- new_file_tree; mlet m <- new_metadata; mlet n <- new_metadata; mlet k <- new_metadata;
    add_metadata 9 t (path (ps "d/f")) m ;;; add_metadata 9 t (path (ps "g")) n.
  (** 0 is the tree, 1 and 2 the metadata in it, 3 other metadata, 4 the directory *)
  Definition st : pst := after_t build_t init_pst.
  Example tree_case : heap_ok st /\ node_at (s_heap st) 0%N /\ nodes_unshared (s_heap st) 0%N /\ loaded_tree (s_heap st) 0%N.
  Proof.
    split_and!; [apply heap_ok_check; vm_compute; reflexivity| |apply unshared_nodes, unshared_check; vm_compute; reflexivity|apply loaded_check; vm_compute; reflexivity].
    eexists _, _, _. vm_compute. reflexivity.
  Qed.
  Definition look_t (s : pst) (p : pystr) : res (option loc) := result_t (get_object_at_path 9 0%N (path p)) s.
  Definition st_added : pst := after_t (add_child_at 9 0%N 3%N (path (ps "d/e/h"))) st.
  Example C15_case : (result_t (add_child_at 9 0%N 3%N (path (ps "d/e/h"))) st,
     map (look_t st) [ps "d/e/h"; ps "d/f"; ps "g"; ps "d"; ps "d/e"], map (look_t st_added) [ps "d/e/h"; ps "d/f"; ps "g"; ps "d"; ps "d/e"]) =
    (Ok tt, [Ok None; Ok (Some 1); Ok (Some 2); Ok (Some 4); Ok None]%N, [Ok (Some 3); Ok (Some 1); Ok (Some 2); Ok (Some 4); Ok (Some 5)]%N).
  Proof. vm_compute. reflexivity. Qed.
  Example C15_failed_case : let m := add_child_at 9 0%N 3%N (path (ps "g/h")) in
    (result_t m st, map (look_t (after_t m st)) [ps "d/f"; ps "g"; ps "g/h"]) = (Err ValueError, [Ok (Some 1); Ok (Some 2); Ok None]%N).
  Proof. vm_compute. reflexivity. Qed.
  Example C16_case : map (fun p => result_t (add_child_at 9 0%N 3%N (path p)) st) [ps "g"; ps "d"; ps "g/h"; ps "d/f/x/y"; ps "d/g"; ps "x/y"; []] =
    [Err ValueError; Err ValueError; Err ValueError; Err ValueError; Ok tt; Ok tt; Err AssertionError].
  Proof. vm_compute. reflexivity. Qed.
  Example C17_case : (result_t (get_paths_recursive 9 false 0%N) st, result_t (get_paths_recursive 9 true 0%N) st) =
    (Ok [(path (ps "d/f"), 1); (path (ps "g"), 2)]%N, Ok [(path [], 0); (path (ps "d"), 4); (path (ps "d/f"), 1); (path (ps "g"), 2)]%N).
  Proof. vm_compute. reflexivity. Qed.
  Example C18_case : let m := remove_child_at 9 0%N (path (ps "d")) in
    (result_t m st, map (look_t (after_t m st)) [ps "d"; ps "d/f"; ps "g"], result_t (remove_child_at 9 0%N (path (ps "x"))) st) =
    (Ok tt, [Ok None; Ok None; Ok (Some 2)]%N, Err KeyError).
  Proof. vm_compute. reflexivity. Qed.
  (** C18: a tree whose last entry was removed cannot be written. *)
  Theorem C18_emptied_write_refuted : exists g : gstate,
    script g (mlet t <- new_file_tree; mlet m <- new_metadata; mlet n <- new_metadata;
              add_metadata 9 t (path (ps "d/f")) m ;;; add_metadata 9 t (path (ps "g")) n ;;;
              remove_child_at 9 t (path (ps "d/f")) ;;;
              attempt (filetree_write_out 9 t (Some (ps "/a")) false)) = Ok (Some RuntimeError).
  Proof. exists (GState {[ ps "/a" := empty_repo ]} ∅). vm_compute. reflexivity. Qed.
  Print Assumptions C18_emptied_write_refuted.

  (** a dataset tree: 0; root records: 1, 2, 3 *)
  Definition build_d : M pst unit :=
    mlet t <- new_dataset_tree; mlet a <- new_mrr None None None None; mlet b <- new_mrr None None None None; mlet c <- new_mrr None None None None; mret tt.
  Definition sd : pst := after_t build_d init_pst.
  Definition calls_d : list (ppath * loc) := [(path (ps "sub"), 1); (path (ps "sub/deep"), 2); (path [], 3); (path (ps "sub"), 3)]%N.
  Example C19_case_hypotheses : heap_ok sd /\
    List.Forall (fun cl => is_metadata_path (fst cl) /\ ~ In root_record_name (all_parts (fst cl)) /\ record_at (s_heap sd) (snd cl)) calls_d.
  Proof.
    split; [apply heap_ok_check; vm_compute; reflexivity|]. unfold calls_d.
    repeat apply List.Forall_cons; try apply List.Forall_nil; (split; [eexists; reflexivity|split; [vm_compute; intuition discriminate|eexists _, _, _, _, _; vm_compute; split; reflexivity]]).
  Qed.
  Example C19_case : (result_t (add_datasets 9 0%N calls_d) sd, result_t (dataset_paths 9 0%N) (after_t (add_datasets 9 0%N calls_d) sd)) =
    (Ok [true; true; true; false], Ok [(path (ps "sub"), 1); (path (ps "sub/deep"), 2); (path [], 3)]%N).
  Proof. vm_compute. reflexivity. Qed.
  (** C19: a dataset path that contains the reserved component: datasets that
      were not added seem to be there, and cannot be read. *)
  Theorem C19_reserved_component_refuted : exists g : gstate,
    script g (mlet t <- new_dataset_tree; mlet r <- new_mrr None None None None;
              add_dataset 9 t (path (ps "a/.datalad_metadata_root_record")) r ;;;
              mlet b <- dataset_in 9 t (path (ps "a"));
              mlet e <- attempt (get_metadata_root_record 9 t (path (ps "a")));
              mret (b, e)) = Ok (true, Some AssertionError).
  Proof. exists gt. vm_compute. reflexivity. Qed.
  Print Assumptions C19_reserved_component_refuted.

  (** a version list: 0; root records: 1, 2 *)
  Definition build_v : M pst unit :=
    mlet t <- new_version_list; mlet a <- new_mrr None None None None; mlet b <- new_mrr None None None None; mret tt.
  Definition sv : pst := after_t build_v init_pst.
  Definition calls_v : list vcall :=
    [VCall (ps "v1") (ps "1.0") (path []) (EMrr 1%N); VCall (ps "v1") (ps "2.0") (path (ps "d")) (EMrr 2%N); VCall (ps "v1") (ps "3.0") (path []) (EMrr 2%N)].
  Example C20_case_hypotheses : exists hx, s_heap sv !! 0%N = Some (Obj hx (BVlist false [])) /\ h_mapped hx = true /\ well_keyed [].
  Proof. eexists. split; [vm_compute; reflexivity|]. split; [reflexivity|]. split; [apply NoDup_nil_2|done]. Qed.
  Example C20_case : let s' := after_t (set_elements 9 0%N calls_v) sv in
    (result_t (versions_and_prefix_paths 9 0%N) s', result_t (get_versioned_element 9 0%N (ps "v1") (path [])) s', result_t (get_versioned_element 9 0%N (ps "v2") (path [])) s') =
    (Ok [(ps "v1", path []); (ps "v1", path (ps "d"))], Ok (VRec (ps "3.0") (path []) (EMrr 2%N)), Err KeyError).
  Proof. vm_compute. reflexivity. Qed.
End Case.
