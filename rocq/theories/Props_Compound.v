(** Property theorems about calls that are made of calls of histories: C18, C27,
    C32, C46. *)
From Verif Require Import Base Path Spec_Path Json Spec_Json Refs Meta Spec_Meta GitText Git Spec_Store State BlobCache ObjRef Objects Spec_Objects Spec_Look Spec_Heap
  Spec_Versions Spec_Write Spec_Content Spec_Copy Spec_History CompoundFacts CopyAllFacts HeapCase ContentCase HistoryCase Props_Write Props_Findings Props_Session Props_History Props_Settle.

(** C27, C18: [remove_child_at] and [delete_subtree] continue a history: they look,
    and remove the entry at the path from its tree.  So C27 holds for histories
    with these calls, too. *)
Theorem C27_remove_at : forall `{Env} (r : pystr), is_remote r = false -> r <> [] ->
  forall (es : list event) (s : pst) (g : gstate) (R : gset loc) (l : loc) (p : list key) (y : loc) (fuel : nat) (path : ppath) (a : res unit) (s' : pst) (g' : gstate),
  history r es s g R -> l ∈ R -> reach (s_heap s) l p = Some y -> is_metadata_path path -> exec (remove_child_at fuel y path s) g = ((a, s'), g') ->
  (is_ok a = false /\ history r (es ++ [EUse]) s' g' R) \/
  exists ns n, all_parts path = ns ++ [n] /\ history r (es ++ [EUse; EOp l (p ++ map KName ns) (ORemove n) None (is_ok a)]) s' g' R.
Proof. exact @remove_at_lemma. Qed.
Print Assumptions C27_remove_at.

(** C27, C46: [FileTree.add_extractor_run] continues a history: it looks, and adds
    the run to the metadata at the path. *)
Theorem C27_add_run_at : forall `{Env} (r : pystr), is_remote r = false -> r <> [] ->
  forall (es : list event) (s : pst) (g : gstate) (R : gset loc) (l : loc) (p : list key) (y : loc) (fuel : nat) (path : ppath) (ru : run) (a : res unit) (s' : pst) (g' : gstate),
  history r es s g R -> l ∈ R -> reach (s_heap s) l p = Some y -> run_ok ru -> exec (filetree_add_run fuel y path ru s) g = ((a, s'), g') ->
  (is_ok a = false /\ history r (es ++ [EUse]) s' g' R) \/
  history r (es ++ [EUse; EOp l (p ++ map KName (all_parts path)) (ORun ru) None (is_ok a)]) s' g' R.
Proof. exact @add_run_at_lemma. Qed.
Print Assumptions C27_add_run_at.

(** C32: the copy of any part of an object of a history in one repository can be
    opened in any history in the other repository, with the content of the source;
    so C27 holds for what is done with it there.  The paths of a version list have
    the prefix in front. *)
Theorem C32_history : forall `{Env} (a b : pystr), a <> [] -> is_remote a = false -> b <> [] -> is_remote b = false ->
  forall (es : list event) (s : pst) (g : gstate) (R : gset loc) (l : loc) (p : list key) (x : loc) (fuel : nat) (pre : ppath) (y : loc) (s' : pst) (g' : gstate) (k : kd),
  history a es s g R -> l ∈ R -> reach (s_heap s) l p = Some x -> is_kind (s_heap s) x k -> k <> KdVl true ->
  dget (s_caches s) b = None -> prefix_ok pre -> exec (deepcopy fuel x (Some b) pre s) g = ((Ok y, s'), g') ->
  exists ref c, (exists o, s_heap s' !! y = Some o /\ h_ref (o_hdr o) = Some ref) /\ moved pre (look (objs_of g a) (s_heap s) x) c /\
  forall es2 s2 g2 R2, history b es2 s2 g2 R2 -> objs_of g' b ⊆ objs_of g2 b ->
  exists z s3 c2, exec (object_at k b ref s2) g2 = ((Ok z, s3), g2) /\ same c2 c /\ history b (es2 ++ [EOpen z c2]) s3 g2 ({[z]} ∪ R2).
Proof. exact @copy_history. Qed.
Print Assumptions C32_history.

Section Case.
  Local Existing Instance check_env.
  (** the file tree of the case of C27, see [C35_history_case] for the history *)
  Definition q_tree : list key := q_rec ++ [KTree].
  Lemma case_tree : reach (s_heap (fst h16)) 0%N q_tree = Some 3%N.
  Proof. vm_compute. reflexivity. Qed.
  Lemma case_removed : is_ok (out (remove_child_at 9 3%N p_ab) h16) = true.
  Proof. vm_compute. reflexivity. Qed.
  Lemma case_missing : is_ok (out (remove_child_at 9 3%N p_sub) h16) = false.
  Proof. vm_compute. reflexivity. Qed.
  Lemma case_parts : all_parts p_ab = [ps "a"; ps "b"].
  Proof. vm_compute. reflexivity. Qed.
  Example C27_remove_at_case : history W (take 16 es19) (fst h16) (snd h16) {[0%N]} /\ reach (s_heap (fst h16)) 0%N q_tree = Some 3%N /\ all_parts p_ab = [ps "a"; ps "b"] /\
    is_ok (out (remove_child_at 9 3%N p_ab) h16) = true /\ is_ok (out (remove_child_at 9 3%N p_sub) h16) = false.
  Proof. exact (conj (proj1 C35_history_case) (conj case_tree (conj case_parts (conj case_removed case_missing)))). Qed.
  Lemma case_run : is_ok (out (filetree_add_run 9 3%N p_ab rx) h16) = true.
  Proof. vm_compute. reflexivity. Qed.
  Example C27_add_run_at_case : reach (s_heap (fst h16)) 0%N q_tree = Some 3%N /\ run_ok rx /\ is_ok (out (filetree_add_run 9 3%N p_ab rx) h16) = true.
  Proof. exact (conj case_tree (conj (run2_ok (ps "x") eq_refl) case_run)). Qed.
  (** metadata with a run in a file tree, copied to another repository *)
  Definition B3 : pystr := ps "/b".
  Definition c0 : pst * gstate := (init_pst, GState {[ W := empty_repo; B3 := empty_repo ]} ∅).
  Definition c1 := next new_metadata c0.
  Definition c2 := next (metadata_add_run 9 0%N rx) c1.
  Definition c3 := next new_file_tree c2.
  Definition c4 := next (add_metadata 9 1%N p_ab 0%N) c3.
  Definition es4 : list event := [ENew 0%N (LbMeta []); EOp 0%N [] (ORun rx) None true; ENew 1%N (LbNode LMeta); EOp 1%N [] (OAdd p_ab) (Some 0%N) true].
  Lemma case_copy_history : hist W es4 c4 (roots_of es4).
  Proof.
    assert (A0 : hist W [] c0 ∅) by apply hist_start, fresh_init.
    assert (A1 : hist W (take 1 es4) c1 (roots_of (take 1 es4))) by (refine (st_new _ _ _ _ _ _ _ A0 makes_metadata _); vm_compute; reflexivity).
    assert (A2 : hist W (take 2 es4) c2 (roots_of (take 2 es4))) by (refine (st_op _ _ _ _ 9 0%N [] 0%N _ _ _ (Ok tt) A1 _ _ _ _ (call_run _ _ _) _);
      [apply (bool_decide_unpack _); vm_compute; exact I|vm_compute; reflexivity|apply (bool_decide_unpack _); vm_compute; exact I|by apply run_ok'|vm_compute; reflexivity]).
    assert (A3 : hist W (take 3 es4) c3 (roots_of (take 3 es4))) by (refine (st_new _ _ _ _ _ _ _ A2 makes_file_tree _); vm_compute; reflexivity).
    refine (st_op _ _ _ _ 9 1%N [] 1%N _ _ _ (Ok tt) A3 _ _ _ _ (call_add_metadata _ _ _ _) _);
      [apply (bool_decide_unpack _); vm_compute; exact I|vm_compute; reflexivity|apply (bool_decide_unpack _); vm_compute; exact I| |vm_compute; reflexivity].
    apply add_ok' with (c := LMeta); [apply path_ok|vm_compute; reflexivity|vm_compute; reflexivity|done|vm_compute; reflexivity].
  Qed.
  Lemma case_copy_root : bool_decide (1%N ∈ roots_of es4) = true.
  Proof. vm_compute. reflexivity. Qed.
  Lemma case_copy_kind : kindb (KdNode LMeta) c4 1%N = true.
  Proof. vm_compute. reflexivity. Qed.
  Lemma case_copy_caches : s_caches (fst c4) = [].
  Proof. vm_compute. reflexivity. Qed.
  Lemma case_copied : is_ok (out (deepcopy 9 1%N (Some B3) (MetadataPath [AStr []])) c4) = true.
  Proof. vm_compute. reflexivity. Qed.
  Lemma case_copy_free : dget (s_caches (fst c4)) B3 = None.
  Proof. exact (f_equal (fun c => dget c B3) case_copy_caches). Qed.
  Example C32_history_case : hist W es4 c4 (roots_of es4) /\ 1%N ∈ roots_of es4 /\ is_kind (s_heap (fst c4)) 1%N (KdNode LMeta) /\ dget (s_caches (fst c4)) B3 = None /\
    prefix_ok (MetadataPath [AStr []]) /\ is_ok (out (deepcopy 9 1%N (Some B3) (MetadataPath [AStr []])) c4) = true.
  Proof.
    exact (conj case_copy_history (conj (bool_decide_eq_true_1 _ case_copy_root) (conj (kindb_ok _ _ _ case_copy_kind) (conj case_copy_free (conj prefix_nopath case_copied))))).
  Qed.
End Case.
