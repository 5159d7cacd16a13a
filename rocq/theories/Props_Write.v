(** Property theorems about marks and writing: C22, C26, C29, C31. *)
From Verif Require Import Base Path Json Refs Meta GitText Git Spec_Store State BlobCache ObjRef Objects Lock Spec_Lock
  Spec_Objects Spec_Write WriteFacts.

(** C22: [is_saved_on] is true only if the object and everything loaded below
    carries the mark, *)
Theorem C22_marks : forall (fuel : nat) (h : heap) (x y : loc) (r : pystr),
  saved_on fuel h x (Some r) = Ok true -> loaded_below h x y -> saved_mark h y r.
Proof. exact C22_marks_lemma. Qed.
Print Assumptions C22_marks.
(** and is true if they all do, unless the graph is deeper than the recursion
    limit; *)
Theorem C22_marks_iff : forall (fuel : nat) (h : heap) (l : loc) (r : pystr),
  saved_on fuel h l (Some r) <> Err RecursionError ->
  (forall y, loaded_below h l y -> exists o, h !! y = Some o /\ r ∈ h_saved (o_hdr o) /\
     forall z, h_mapped (o_hdr o) = true -> In z (sub_objects (o_body o)) -> is_Some (h !! z)) ->
  is_Some (h !! l) -> saved_on fuel h l (Some r) = Ok true.
Proof. exact saved_on_fuel. Qed.
Print Assumptions C22_marks_iff.
(** so it is false on every realm after a modification of anything loaded below. *)
Theorem C22_modified : forall `{Env} (fuel fuel2 : nat) (x y : loc) (m : M pst unit) (o : obj) (s : pst) (g : gstate)
    (u : unit) (s' : pst) (g' : gstate) (r : pystr),
  modifies fuel y m -> s_heap s !! y = Some o -> h_mapped (o_hdr o) = true ->
  loaded_below (s_heap s) x y -> exec (m s) g = ((Ok u, s'), g') ->
  saved_on fuel2 (s_heap s') x (Some r) <> Ok true.
Proof. exact @C22_modify_lemma. Qed.
Print Assumptions C22_modified.

(** C26: writing an object that is saved on the destination returns its
    reference, runs no git command and changes no object but for the realm of
    this one. *)
Theorem C26_saved_no_write : forall `{Env} (fuel : nat) (l : loc) (o : obj) (ref : reference) (s : pst) (g : gstate) (d : pystr),
  s_heap s !! l = Some o -> h_ref (o_hdr o) = Some ref ->
  (h_mapped (o_hdr o) = false -> is_some (h_realm (o_hdr o)) = true) -> d <> [] ->
  (h_mapped (o_hdr o) = true -> is_remote d = false) ->
  saved_on fuel (s_heap s) l (Some d) = Ok true ->
  exec (write_out fuel l (Some d) false s) g = ((Ok ref, realm_set s l d), g) /\
  events (write_out fuel l (Some d) false s) g = [].
Proof. exact @C26_noop_events_lemma. Qed.
Print Assumptions C26_saved_no_write.
(** A second write after a successful one does nothing, even if the repository
    has changed in between. *)
Theorem C26_second_write : forall `{Env} (fuel : nat) (d : pystr) (l : loc) (force : bool) (s : pst) (g : gstate)
    (ref : reference) (s' : pst) (g' : gstate),
  d <> [] -> caches_ok s -> top_level_only (s_heap s) ->
  exec (write_out fuel l (Some d) force s) g = ((Ok ref, s'), g') ->
  forall g2, exec (write_out fuel l (Some d) false s') g2 = ((Ok ref, realm_set s' l d), g2) /\
             events (write_out fuel l (Some d) false s') g2 = [].
Proof. exact @C26_second_events_lemma. Qed.
Print Assumptions C26_second_write.
(** The same for a FileTree ([ft]) or a DatasetTree: the repository does not change. *)
Theorem C26_second_write_tree : forall `{Env} (fuel : nat) (ft : bool) (d : pystr) (l : loc) (force : bool) (s : pst) (g : gstate)
    (ref : reference) (s' : pst) (g' : gstate),
  d <> [] -> caches_ok s -> top_level_only (s_heap s) ->
  exec (proxy_write_out (write_out fuel) ft l (Some d) force s) g = ((Ok ref, s'), g') ->
  forall g2 r, local_repo g2 d = Some r ->
  exists s2, exec (proxy_write_out (write_out fuel) ft l (Some d) false s') g2 = ((Ok ref, s2), g2) /\
             s_heap s2 = s_heap (realm_set s' l d).
Proof. exact @C26_proxy_second_lemma. Qed.
Print Assumptions C26_second_write_tree.

(** C29: in every state during and after a write, whether it succeeds or not. *)
Theorem C29_only_adds : forall `{Env} (fuel : nat) (l : loc) (destination : option pystr) (force : bool)
    (m : M pst reference) (s : pst) (o : obj) (d : pystr) (g g' : gstate),
  writes fuel l destination force m -> caches_ok s -> top_level_only (s_heap s) ->
  s_heap s !! l = Some o -> destination_of o destination = Some d -> d <> [] ->
  g' ∈ trace (m s) g \/ g' = snd (exec (m s) g) -> adds_to (s_heap s) d l g g'.
Proof. exact @C29_entry_lemma. Qed.
Print Assumptions C29_only_adds.

(** C31: no loaded object is written to a remote realm, *)
Theorem C31_remote_not_written : forall `{Env} (fuel : nat) (l : loc) (destination : option pystr) (force : bool)
    (m : M pst reference) (s : pst) (o : obj) (d : pystr) (g : gstate),
  writes (S fuel) l destination force m -> s_heap s !! l = Some o -> h_mapped (o_hdr o) = true ->
  destination_of o destination = Some d -> d <> [] -> is_remote d = true ->
  fst (fst (exec (m s) g)) = Err RuntimeError /\ events (m s) g = [].
Proof. exact @C31_entry_lemma. Qed.
Print Assumptions C31_remote_not_written.
(** and all commands of a read from a remote realm run in its local cache. *)
Theorem C31_remote_read : forall `{Env} (r cp : pystr) (fuel : nat) (l : loc) (o : obj) (s : pst) (g : gstate),
  is_remote r = true -> get_repo_cache_path r = Ok cp -> s_heap s !! l = Some o -> h_realm (o_hdr o) = Some r ->
  Forall (fun e => cmd_repo (snd e) = cp) (events (read_in fuel l s) g) /\ is_remote cp = false /\
  forall (n : pystr) (g' : gstate), n <> cp ->
    g' ∈ trace (read_in fuel l s) g \/ g' = snd (exec (read_in fuel l s) g) -> g_repos g' !! n = g_repos g !! n.
Proof. exact @C31_read_entry_lemma. Qed.
Print Assumptions C31_remote_read.

Section Case.
  Local Existing Instance check_env.
  Definition W : pystr := ps "/w".
  Definition gw : gstate := GState {[ W := empty_repo ]} ∅.
  Definition run2 (content : pystr) : run :=
    Run (JInt 1) (ps "extractor") (JStr (ps "author")) (JStr (ps "a@b")) (EC (JStr (ps "1.0")) []) (JStr content).
  (** a file tree with metadata in a subdirectory *)
  Definition build : M pst (loc * loc) :=
    mlet t <- new_file_tree; mlet m <- new_metadata;
    metadata_add_run 9 m (run2 (ps "x")) ;;;
    add_metadata 9 t (path (ps "d/f")) m ;;; mret (t, m).
  Definition after {X} (m : M pst X) (s : pst) (g : gstate) : pst := snd (fst (exec (m s) g)).
  Definition git_after {X} (m : M pst X) (s : pst) (g : gstate) : gstate := snd (exec (m s) g).
  Definition s1 : pst := after build init_pst gw.
  (** the locations are 0 (tree), 1 (metadata) and 2 (directory) *)
  Definition saved_now (s : pst) : list (res bool) := map (fun l => saved_on 9 (s_heap s) l (Some W)) [0; 1; 2]%N.
  Definition s2 : pst := after (filetree_write_out 9 0%N (Some W) false) s1 gw.
  Definition g2 : gstate := git_after (filetree_write_out 9 0%N (Some W) false) s1 gw.
  (** before the write, after it, and after a change of the metadata *)
  Example C22_case :
    (saved_now s1, saved_now s2, saved_now (after (metadata_add_run 9 1%N (run2 (ps "y"))) s2 g2)) =
    ([Ok false; Ok false; Ok false], [Ok true; Ok true; Ok true], [Ok false; Ok false; Ok false]).
  Proof. vm_compute. reflexivity. Qed.
  Example C26_case : match exec (filetree_write_out 9 0%N (Some W) false s1) gw with
    | ((Ok ref, s'), g') =>
        match exec (filetree_write_out 9 0%N (Some W) false s') g' with
        | ((Ok ref2, _), g'') => bool_decide (r_loc ref = r_loc ref2 /\ is_Some (r_loc ref)) &&
                                 bool_decide (map fst (map_to_list (objs_of g' W)) = map fst (map_to_list (objs_of g'' W))) && (0 <? length (map_to_list (objs_of g' W)))%nat
        | _ => false
        end
    | _ => false
    end = true.
  Proof. vm_compute. reflexivity. Qed.
  (** a write that fails after some objects have been stored; a name in the
      second record has a line feed *)
  Definition record (u : pystr) (names : list pystr) : M pst loc :=
    mlet m <- new_metadata; mlet t <- new_file_tree;
    metadata_add_run 9 m (run2 u) ;;;
    miter (fun n => mlet x <- new_metadata; metadata_add_run 9 x (run2 n) ;;; add_metadata 9 t (path n) x) names ;;;
    new_mrr (Some (ps "0123456789abcdef0123456789abcdef")) (Some u) (Some m) (Some t).
  Definition s3 : pst := after (
    mlet us <- new_uuid_set; mlet vl <- new_version_list;
    mlet e1 <- record (ps "v1") [ps "a"; ps "d/f"]; mlet e2 <- record (ps "v2") [[97; 10; 98]%N];
    set_versioned_element 9 vl (ps "v1") (ps "0") (path []) (EMrr e1) ;;;
    set_versioned_element 9 vl (ps "v2") (ps "0") (path []) (EMrr e2) ;;;
    set_version_list us (ps "0123456789abcdef0123456789abcdef") vl) init_pst gw.
  Example C29_case : let m := write_out 9 0%N (Some W) false in
    (match fst (fst (exec (m s3) gw)) with Err e => Some e | _ => None end,
     length (trace (m s3) gw), length (map_to_list (objs_of (git_after m s3 gw) W)), refs_of (git_after m s3 gw) W !! UUID_SET) =
    (Some RuntimeError, 7%nat, 9%nat, None).
  Proof. vm_compute. reflexivity. Qed.
  Example C31_case : let m := filetree_write_out 9 0%N (Some (ps "https://h/x")) false in
    (match fst (fst (exec (m s1) gw)) with Err e => Some e | _ => None end, length (events (m s1) gw)) = (Some RuntimeError, 0%nat).
  Proof. vm_compute. reflexivity. Qed.
  (** the tree is read from a remote repository with the same content *)
  Definition R : pystr := ps "https://h/x".
  Definition gr : gstate := match g_repos g2 !! W with Some r => GState {[ R := r ]} ∅ | None => gw end.
  Definition tree_ref : reference := match s_heap s2 !! 0%N with Some o => match h_ref (o_hdr o) with Some r => r | None => ref_of [] [] end | None => ref_of [] [] end.
  Example C31_case_read : let m := mlet t <- file_tree_at R tree_ref; read_in 9 t ;;; mlet o <- getobj t; mret (length (sub_objects (o_body o))) in
    (match fst (fst (exec (m init_pst) gr)) with Ok n => Some n | _ => None end,
     length (events (m init_pst) gr), bool_decide (is_Some (g_repos (git_after m init_pst gr) !! R)), size (g_repos (git_after m init_pst gr))) =
    (Some 1%nat, 5%nat, true, 2%nat).
  Proof. vm_compute. reflexivity. Qed.
End Case.
