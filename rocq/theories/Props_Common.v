(** Property theorems about looking up root records: C43, C44. *)
From Verif Require Import Base Path Spec_Path Json Refs Meta GitText Git Spec_Store State BlobCache ObjRef Objects Common Spec_Objects Spec_Look Spec_Heap
  Spec_Versions Spec_Common HeapCase CommonFacts CommonRunFacts Props_Write Props_Findings.

(** C43: a call with auto_create that returns, returns a record.  It is in the
    dataset tree for the version, and it is registered for its dataset.  What
    was not there is made: the record with the given id and version, the entry
    with the path and the time. *)
Theorem C43_created : forall `{Env} (fuel : nat) (tvl us : loc) (u : uuid) (v : pystr) (prefix tree_path : ppath)
  (root_u : option uuid) (root_v : option pystr) (now : nat -> pystr) (s : pst) (g : gstate) (r : option loc) (s' : pst) (g' : gstate),
  heap_ok s -> lists_keyed s -> is_metadata_path tree_path -> is_Some (s_heap s !! tvl) -> is_Some (s_heap s !! us) ->
  exec (get_metadata_root_record_from_top_nodes fuel tvl us u v prefix tree_path root_u root_v true now s) g = ((Ok r, s'), g') ->
  exists m, r = Some m /\ call_result true now s s' tvl us u v prefix tree_path root_u root_v m.
Proof. exact @C43_created_lemma. Qed.
Print Assumptions C43_created.
(** The same call again returns the same object and changes nothing, with or
    without auto_create and in any state of the repositories. *)
Theorem C43_repeat : forall `{Env} (fuel : nat) (tvl us : loc) (u : uuid) (v : pystr) (prefix tree_path : ppath)
  (root_u : option uuid) (root_v : option pystr) (auto : bool) (now : nat -> pystr) (s : pst) (g : gstate) (m : loc) (s' : pst) (g' : gstate),
  heap_ok s -> lists_keyed s -> is_metadata_path tree_path -> is_Some (s_heap s !! tvl) -> is_Some (s_heap s !! us) ->
  exec (get_metadata_root_record_from_top_nodes fuel tvl us u v prefix tree_path root_u root_v auto now s) g = ((Ok (Some m), s'), g') ->
  forall fuel2 auto2 now2 g2,
  exec (get_metadata_root_record_from_top_nodes fuel2 tvl us u v prefix tree_path root_u root_v auto2 now2 s') g2 = ((Ok (Some m), s'), g2).
Proof. exact @C43_repeat_lemma. Qed.
Print Assumptions C43_repeat.
(** This also holds after a call for another record. *)
Theorem C43_kept : forall `{Env} (fuel : nat) (tvl us : loc) (u : uuid) (v : pystr) (prefix tree_path : ppath)
  (root_u : option uuid) (root_v : option pystr) (auto : bool) (now : nat -> pystr) (s : pst) (g : gstate) (m : loc) (s' : pst) (g' : gstate),
  heap_ok s -> lists_keyed s -> is_metadata_path tree_path -> is_Some (s_heap s !! tvl) -> is_Some (s_heap s !! us) ->
  exec (get_metadata_root_record_from_top_nodes fuel tvl us u v prefix tree_path root_u root_v auto now s) g = ((Ok (Some m), s'), g') ->
  forall fuel1 u1 v1 prefix1 tree_path1 root_u1 root_v1 auto1 now1 g1 r1 s1 g1', is_metadata_path tree_path1 ->
  exec (get_metadata_root_record_from_top_nodes fuel1 tvl us u1 v1 prefix1 tree_path1 root_u1 root_v1 auto1 now1 s') g1 = ((Ok r1, s1), g1') ->
  forall fuel2 auto2 now2 g2,
  exec (get_metadata_root_record_from_top_nodes fuel2 tvl us u v prefix tree_path root_u root_v auto2 now2 s1) g2 = ((Ok (Some m), s1), g2).
Proof. exact @C43_kept_lemma. Qed.
Print Assumptions C43_kept.
(** The call adds entries for its arguments only.  Every loaded object is the
    same except for these entries, and what was reached is reached. *)
Theorem C43_others : forall `{Env} (fuel : nat) (tvl us : loc) (u : uuid) (v : pystr) (prefix tree_path : ppath)
  (root_u : option uuid) (root_v : option pystr) (auto : bool) (now : nat -> pystr) (s : pst) (g : gstate) (r : option loc) (s' : pst) (g' : gstate),
  heap_ok s -> lists_keyed s -> is_metadata_path tree_path -> is_Some (s_heap s !! tvl) -> is_Some (s_heap s !! us) ->
  exec (get_metadata_root_record_from_top_nodes fuel tvl us u v prefix tree_path root_u root_v auto now s) g = ((Ok r, s'), g') ->
  heap_ok s' /\ lists_keyed s' /\ extended (may_add_call auto (s_heap s') tvl us u v prefix tree_path root_u root_v) s s' /\
  forall p l x, reach (s_heap s) l p = Some x -> reach (s_heap s') l p = Some x.
Proof. exact @C43_others_lemma. Qed.
Print Assumptions C43_others.
(** A call with auto_create returns if the top-level objects and everything it
    may look at is in memory and fits, the path does not contain the name of
    records, and for a sub-dataset the root dataset is given.  Afterwards this
    is so again, hence any sequence of such calls returns. *)
Theorem C43_returns : forall `{Env} (D : loc -> Prop) (fuel : nat) (tvl us : loc) (u : uuid) (v : pystr) (prefix tree_path : ppath)
  (root_u : option uuid) (root_v : option pystr) (now : nat -> pystr) (s : pst) (g : gstate),
  heap_ok s -> lists_keyed s -> is_metadata_path tree_path -> ~ In root_record_name (all_parts tree_path) ->
  in_memory D (s_heap s) -> is_a D (s_heap s) tvl (KdVl true) -> is_a D (s_heap s) us KdUs -> (tree_path = no_path \/ is_Some root_u /\ is_Some root_v) ->
  exists m s' D', exec (get_metadata_root_record_from_top_nodes fuel tvl us u v prefix tree_path root_u root_v true now s) g = ((Ok (Some m), s'), g) /\
    in_memory D' (s_heap s') /\ (forall x k, is_a D (s_heap s) x k -> is_a D' (s_heap s') x k) /\ is_a D' (s_heap s') m KdMrr.
Proof. exact @C43_returns_lemma. Qed.
Print Assumptions C43_returns.
(** C44: without auto_create only versions of records that exist are added to
    the version lists of their datasets; a record that is returned was there. *)
Theorem C44_lookup_partial : forall `{Env} (fuel : nat) (tvl us : loc) (u : uuid) (v : pystr) (prefix tree_path : ppath)
  (root_u : option uuid) (root_v : option pystr) (now : nat -> pystr) (s : pst) (g : gstate) (r : option loc) (s' : pst) (g' : gstate),
  heap_ok s -> lists_keyed s -> is_metadata_path tree_path -> is_Some (s_heap s !! tvl) -> is_Some (s_heap s !! us) ->
  exec (get_metadata_root_record_from_top_nodes fuel tvl us u v prefix tree_path root_u root_v false now s) g = ((Ok r, s'), g') ->
  extended (only_registers (s_heap s') us u v prefix tree_path root_u root_v) s s' /\
  forall m, r = Some m -> call_result false now s s' tvl us u v prefix tree_path root_u root_v m.
Proof. exact @C44_lemma. Qed.
Print Assumptions C44_lookup_partial.

Section Case.
  Local Existing Instance check_env.
  (** new top-level objects, the root dataset, a sub-dataset, and both again *)
  Definition now9 (n : nat) : pystr := ps "1.0".
  Definition root_call (auto : bool) : M pst (option loc) :=
    get_metadata_root_record_from_top_nodes 9 0%N 1%N u1 (ps "v1") (path (ps "x")) (path []) None None auto now9.
  Definition sub_call (auto : bool) : M pst (option loc) :=
    get_metadata_root_record_from_top_nodes 9 0%N 1%N u2 (ps "v2") (path (ps "x")) (path (ps "d/e")) (Some u1) (Some (ps "v1")) auto now9.
  Definition c0 : pst := after (mlet tvl <- new_tree_version_list; new_uuid_set) init_pst gab.
  Definition c1 : pst := after (root_call true) c0 gab.
  Definition c2 : pst := after (sub_call true) c1 gab.
  Definition m1 : loc := match fst (fst (exec (root_call true c0) gab)) with Ok (Some m) => m | _ => 0%N end.
  Definition m2 : loc := match fst (fst (exec (sub_call true c1) gab)) with Ok (Some m) => m | _ => 0%N end.
  Example C43_case_hypotheses : heap_ok c0 /\ lists_keyed c0 /\ is_metadata_path (path []) /\ is_metadata_path (path (ps "d/e")) /\
    is_Some (s_heap c0 !! 0%N) /\ is_Some (s_heap c0 !! 1%N) /\
    exec (root_call true c0) gab = ((Ok (Some m1), c1), gab) /\ exec (sub_call true c1) gab = ((Ok (Some m2), c2), gab) /\ m1 <> m2 /\
    fst (fst (exec (sub_call false c0) gab)) = Ok None.
  Proof.
    split; [apply heap_ok_check; vm_compute; reflexivity|]. split.
    { intros x hx k vs Hx. apply entries_in in Hx. vm_compute in Hx. destruct Hx as [Hx|[Hx|[]]]; inversion Hx. split; [apply NoDup_nil_2|intros ? ? []]. }
    split; [by eexists|]. split; [by eexists|]. split; [vm_compute; by eexists|]. split; [vm_compute; by eexists|]. split; [vm_compute; reflexivity|]. split; [vm_compute; reflexivity|]. split; vm_compute; [discriminate|reflexivity].
  Qed.
  (** the new top-level objects are in memory *)
  Definition top_nodes (x : loc) : Prop := x = 0%N \/ x = 1%N.
  Example C43_returns_case : in_memory top_nodes (s_heap c0) /\ is_a top_nodes (s_heap c0) 0%N (KdVl true) /\ is_a top_nodes (s_heap c0) 1%N KdUs /\
    ~ In root_record_name (all_parts (path (ps "d/e"))) /\
    exists m s', exec (sub_call true c0) gab = ((Ok (Some m), s'), gab).
  Proof.
    assert (H1 : in_memory top_nodes (s_heap c0)).
    { intros x [->| ->]; eexists; (split; [vm_compute; reflexivity|split; [reflexivity|intros *; discriminate]]). }
    assert (H2 : is_a top_nodes (s_heap c0) 0%N (KdVl true)) by (split; [by left|eexists; split; [vm_compute; reflexivity|reflexivity]]).
    assert (H3 : is_a top_nodes (s_heap c0) 1%N KdUs) by (split; [by right|eexists; split; [vm_compute; reflexivity|reflexivity]]).
    assert (H4 : ~ In root_record_name (all_parts (path (ps "d/e")))) by (vm_compute; intros [Hx|[Hx|[]]]; discriminate Hx).
    destruct C43_case_hypotheses as (A1 & A2 & _ & A4 & _).
    split; [exact H1|]. split; [exact H2|]. split; [exact H3|]. split; [exact H4|].
    destruct (C43_returns top_nodes 9 0%N 1%N u2 (ps "v2") (path (ps "x")) (path (ps "d/e")) (Some u1) (Some (ps "v1")) now9 c0 gab A1 A2 A4 H4 H1 H2 H3
      (or_intror (conj (mk_is_Some _ _ eq_refl) (mk_is_Some _ _ eq_refl)))) as (m & s' & _ & He & _).
    exists m, s'. exact He.
  Qed.
  (** what the theorems say about such calls *)
  Lemma case_lemma (c0 c1 c2 : pst) (m1 m2 : loc) (g : gstate) : heap_ok c0 -> lists_keyed c0 -> is_metadata_path (path []) -> is_metadata_path (path (ps "d/e")) ->
    is_Some (s_heap c0 !! 0%N) -> is_Some (s_heap c0 !! 1%N) ->
    exec (root_call true c0) g = ((Ok (Some m1), c1), g) -> exec (sub_call true c1) g = ((Ok (Some m2), c2), g) ->
    call_result true now9 c0 c1 0%N 1%N u1 (ps "v1") (path (ps "x")) (path []) None None m1 /\
    call_result true now9 c1 c2 0%N 1%N u2 (ps "v2") (path (ps "x")) (path (ps "d/e")) (Some u1) (Some (ps "v1")) m2 /\
    (exec (root_call false c2) g = ((Ok (Some m1), c2), g) /\ exec (sub_call false c2) g = ((Ok (Some m2), c2), g)) /\
    call_result false now9 c2 c2 0%N 1%N u1 (ps "v1") (path (ps "x")) (path []) None None m1.
  Proof.
    intros H1 H2 H3 H4 H5 H6 H7 H8. unfold root_call in H7. unfold sub_call in H8.
    destruct (C43_others _ _ _ _ _ _ _ _ _ _ _ _ _ _ _ _ H1 H2 H3 H5 H6 H7) as (H9 & H10 & [_ _ Hex] & _).
    assert (H11 : is_Some (s_heap c1 !! 0%N)) by (destruct H5 as [o Ho]; destruct (Hex _ _ Ho) as (o' & Ho' & _); by exists o').
    assert (H12 : is_Some (s_heap c1 !! 1%N)) by (destruct H6 as [o Ho]; destruct (Hex _ _ Ho) as (o' & Ho' & _); by exists o').
    destruct (C43_others _ _ _ _ _ _ _ _ _ _ _ _ _ _ _ _ H9 H10 H4 H11 H12 H8) as (H13 & H14 & [_ _ Hex2] & _).
    assert (H15 : is_Some (s_heap c2 !! 0%N)) by (destruct H11 as [o Ho]; destruct (Hex2 _ _ Ho) as (o' & Ho' & _); by exists o').
    assert (H16 : is_Some (s_heap c2 !! 1%N)) by (destruct H12 as [o Ho]; destruct (Hex2 _ _ Ho) as (o' & Ho' & _); by exists o').
    pose proof (C43_kept _ _ _ _ _ _ _ _ _ _ _ _ _ _ _ _ H1 H2 H3 H5 H6 H7 _ _ _ _ _ _ _ _ _ _ _ _ _ H4 H8 9 false now9 g) as Hl.
    split; [|split; [|split; [split|]]].
    - destruct (C43_created _ _ _ _ _ _ _ _ _ _ _ _ _ _ _ H1 H2 H3 H5 H6 H7) as (m & Hm & Hr). injection Hm as <-. exact Hr.
    - destruct (C43_created _ _ _ _ _ _ _ _ _ _ _ _ _ _ _ H9 H10 H4 H11 H12 H8) as (m & Hm & Hr). injection Hm as <-. exact Hr.
    - exact Hl.
    - exact (C43_repeat _ _ _ _ _ _ _ _ _ _ _ _ _ _ _ _ H9 H10 H4 H11 H12 H8 9 false now9 g).
    - exact (proj2 (C44_lookup_partial _ _ _ _ _ _ _ _ _ _ _ _ _ _ _ H13 H14 H3 H15 H16 Hl) m1 eq_refl).
  Qed.
  Example C43_case : exec (root_call false c2) gab = ((Ok (Some m1), c2), gab) /\ exec (sub_call false c2) gab = ((Ok (Some m2), c2), gab).
  Proof.
    destruct C43_case_hypotheses as (H1 & H2 & H3 & H4 & H5 & H6 & H7 & H8 & _).
    exact (proj1 (proj2 (proj2 (case_lemma c0 c1 c2 m1 m2 gab H1 H2 H3 H4 H5 H6 H7 H8)))).
  Qed.
  (** a look-up of a registered record *)
  Example C44_case : call_result false now9 c2 c2 0%N 1%N u1 (ps "v1") (path (ps "x")) (path []) None None m1.
  Proof.
    destruct C43_case_hypotheses as (H1 & H2 & H3 & H4 & H5 & H6 & H7 & H8 & _).
    exact (proj2 (proj2 (proj2 (case_lemma c0 c1 c2 m1 m2 gab H1 H2 H3 H4 H5 H6 H7 H8)))).
  Qed.
End Case.
