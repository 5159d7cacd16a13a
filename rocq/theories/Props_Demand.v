(** Property theorems about records in repositories, loaded on demand: C43. *)
From Verif Require Import Base Path Spec_Path Json Spec_Json Refs Meta Spec_Meta GitText Git Spec_Store State BlobCache ObjRef Objects Spec_Objects Spec_Look Spec_Heap
  Spec_Versions Spec_Write Spec_Content Spec_Publish Spec_History Common Spec_Common CommonFacts Spec_Demand DemandFacts HeapCase ContentCase HistoryCase DemandCase Props_Write Props_Findings Props_Common.

(** With [auto_create] a call returns a record, also if the objects it meets are
    not loaded but in the repository; they can still be used afterwards. *)
Theorem C43_returns_loading : forall `{Env} (r : pystr) (g : gstate), is_remote r = false -> r <> [] ->
  forall (D : loc -> Prop) (fuel : nat) (tvl us : loc) (u : uuid) (v : pystr) (prefix tree_path : ppath)
    (root_u : option uuid) (root_v : option pystr) (now : nat -> pystr) (s : pst),
  heap_ok s -> lists_keyed s -> is_metadata_path tree_path -> ~ In root_record_name (all_parts tree_path) ->
  on_demand (objs_of g r) r D (s_heap s) -> is_a D (s_heap s) tvl (KdVl true) -> is_a D (s_heap s) us KdUs ->
  (tree_path = no_path \/ is_Some root_u /\ is_Some root_v) ->
  exists (m : loc) (s' : pst) (D' : loc -> Prop),
    exec (get_metadata_root_record_from_top_nodes fuel tvl us u v prefix tree_path root_u root_v true now s) g = ((Ok (Some m), s'), g) /\
    on_demand (objs_of g r) r D' (s_heap s') /\ (forall x k, is_a D (s_heap s) x k -> is_a D' (s_heap s') x k) /\ is_a D' (s_heap s') m KdMrr.
Proof. exact @C43_returns_loading_lemma. Qed.
Print Assumptions C43_returns_loading.
(** The whole call on a repository: whether references exist or not, it returns
    the top-level objects and a record, and calls on these return records, too. *)
Theorem C43_repository : forall `{Env} (r : pystr) (g : gstate), is_remote r = false -> r <> [] ->
  forall (fuel : nat) (u : uuid) (v : pystr) (prefix tree_path : ppath)
    (sub_u : option uuid) (sub_v : option pystr) (now : nat -> pystr) (s : pst),
  heap_ok s -> lists_keyed s -> well_published g r -> is_metadata_path tree_path -> ~ In root_record_name (all_parts tree_path) ->
  (tree_path = no_path /\ sub_u = None \/ is_Some sub_u /\ is_Some sub_v) ->
  exists (tvl us m : loc) (s' : pst) (D' : loc -> Prop),
    exec (get_top_nodes_and_metadata_root_record fuel r u v prefix tree_path sub_u sub_v true now s) g = ((Ok (Some (tvl, us, Some m)), s'), g) /\
    heap_ok s' /\ lists_keyed s' /\ on_demand (objs_of g r) r D' (s_heap s') /\
    is_a D' (s_heap s') tvl (KdVl true) /\ is_a D' (s_heap s') us KdUs /\ is_a D' (s_heap s') m KdMrr.
Proof. exact @C43_repository_lemma. Qed.
Print Assumptions C43_repository.

(** C52, the part that holds: if no path has a part that is named like records,
    calls do not get into each other's way.  Whatever the arguments, every call
    of a sequence returns a record, and after the last one each of them returns
    the same record again and changes nothing. *)
Theorem C52_sequence_partial : forall `{Env} (r : pystr) (g : gstate), is_remote r = false -> r <> [] ->
  forall (fuel : nat) (now : nat -> pystr) (tvl us : loc) (asks : list args) (D : loc -> Prop) (s : pst),
  heap_ok s -> lists_keyed s -> on_demand (objs_of g r) r D (s_heap s) -> is_a D (s_heap s) tvl (KdVl true) -> is_a D (s_heap s) us KdUs ->
  List.Forall proper asks -> exists (ms : list loc) (s' : pst), length ms = length asks /\ asked fuel now tvl us g s (combine asks ms) s' /\
    forall a m, In (a, m) (combine asks ms) -> forall fuel2 auto now2 g2, exec (ask fuel2 tvl us a auto now2 s') g2 = ((Ok (Some m), s'), g2).
Proof. exact @C52_lemma. Qed.
Print Assumptions C52_sequence_partial.

Section Case.
  Local Existing Instance check_env.
  (** a first process adds a sub-dataset to an empty repository and writes both *)
  Definition d_call (p : pystr) (u : uuid) : M pst (option (loc * loc * option loc)) :=
    get_top_nodes_and_metadata_root_record 9 W u1 (ps "v1") (path (ps "x")) (path p) (Some u) (Some (ps "v2")) true now9.
  Definition d1 := next (d_call (ps "d/e") u2) (init_pst, gw).
  Definition d_tops : loc * loc := match out (d_call (ps "d/e") u2) (init_pst, gw) with Ok (Some (tvl, us, _)) => (tvl, us) | _ => (0%N, 0%N) end.
  Definition d2 := next (write_out 9 (snd d_tops) (Some W) false) d1.
  Definition d3 := next (write_out 9 (fst d_tops) (Some W) false) d2.
  (** a second process adds another one *)
  Example C43_repository_case : is_Some (refs_of (snd d3) W !! TREE_VERSION_LIST) /\ is_Some (refs_of (snd d3) W !! UUID_SET) /\ well_published (snd d3) W /\
    heap_ok init_pst /\ lists_keyed init_pst /\ is_metadata_path (path (ps "d/f")) /\ ~ In root_record_name (all_parts (path (ps "d/f"))) /\
    exists tvl us m s', exec (d_call (ps "d/f") u1 init_pst) (snd d3) = ((Ok (Some (tvl, us, Some m)), s'), snd d3).
  Proof.
    split; [vm_compute; by eexists|]. split; [vm_compute; by eexists|].
    assert (H1 : well_published (snd d3) W) by (apply publishedb_ok with (n := 9); vm_compute; reflexivity).
    assert (H2 : heap_ok init_pst) by (apply heap_ok_check; vm_compute; reflexivity).
    assert (H3 : lists_keyed init_pst) by (intros x hx k vs Hx; apply entries_in in Hx; vm_compute in Hx; contradiction).
    assert (H4 : is_metadata_path (path (ps "d/f"))) by (by eexists).
    assert (H5 : ~ In root_record_name (all_parts (path (ps "d/f")))) by (vm_compute; intros [Hx|[Hx|[]]]; discriminate Hx).
    split_and!; [exact H1|exact H2|exact H3|exact H4|exact H5|].
    destruct (C43_repository W (snd d3) eq_refl ltac:(discriminate) 9 u1 (ps "v1") (path (ps "x")) (path (ps "d/f")) (Some u1) (Some (ps "v2")) now9 init_pst H2 H3 H1 H4 H5
      (or_intror (conj (mk_is_Some _ _ eq_refl) (mk_is_Some _ _ eq_refl)))) as (tvl & us & m & s' & _ & He & _).
    exists tvl, us, m, s'. exact He.
  Qed.
  (** a further call with the objects that the first call returned; some of them
      are not loaded *)
  Lemma loading_case (g : gstate) : well_published g W -> heap_ok init_pst -> lists_keyed init_pst -> is_metadata_path (path (ps "d/f")) -> ~ In root_record_name (all_parts (path (ps "d/f"))) ->
    exists tvl us m s' D', exec (d_call (ps "d/f") u1 init_pst) g = ((Ok (Some (tvl, us, Some m)), s'), g) /\
      (heap_ok s' /\ lists_keyed s' /\ on_demand (objs_of g W) W D' (s_heap s') /\ is_a D' (s_heap s') tvl (KdVl true) /\ is_a D' (s_heap s') us KdUs) /\
      exists m2 s'', exec (get_metadata_root_record_from_top_nodes 9 tvl us u2 (ps "v2") (path (ps "x")) (path (ps "d/f")) (Some u1) (Some (ps "v1")) true now9 s') g = ((Ok (Some m2), s''), g).
  Proof.
    intros H1 H2 H3 H4 H5.
    destruct (C43_repository W g eq_refl ltac:(discriminate) 9 u1 (ps "v1") (path (ps "x")) (path (ps "d/f")) (Some u1) (Some (ps "v2")) now9 init_pst H2 H3 H1 H4 H5
      (or_intror (conj (mk_is_Some _ _ eq_refl) (mk_is_Some _ _ eq_refl)))) as (tvl & us & m & s' & D' & He & B1 & B2 & B3 & B4 & B5 & _).
    exists tvl, us, m, s', D'. split; [exact He|]. split; [split_and!; assumption|].
    destruct (C43_returns_loading W g eq_refl ltac:(discriminate) D' 9 tvl us u2 (ps "v2") (path (ps "x")) (path (ps "d/f")) (Some u1) (Some (ps "v1")) now9 s' B1 B2 H4 H5 B3 B4 B5
      (or_intror (conj (mk_is_Some _ _ eq_refl) (mk_is_Some _ _ eq_refl)))) as (m2 & s'' & _ & He2 & _).
    exists m2, s''. exact He2.
  Qed.
  Example C43_loading_case : exists tvl us m s' D', exec (d_call (ps "d/f") u1 init_pst) (snd d3) = ((Ok (Some (tvl, us, Some m)), s'), snd d3) /\
    (heap_ok s' /\ lists_keyed s' /\ on_demand (objs_of (snd d3) W) W D' (s_heap s') /\ is_a D' (s_heap s') tvl (KdVl true) /\ is_a D' (s_heap s') us KdUs) /\
    exists m2 s'', exec (get_metadata_root_record_from_top_nodes 9 tvl us u2 (ps "v2") (path (ps "x")) (path (ps "d/f")) (Some u1) (Some (ps "v1")) true now9 s') (snd d3) = ((Ok (Some m2), s''), snd d3).
  Proof. destruct C43_repository_case as (_ & _ & H1 & H2 & H3 & H4 & H5 & _). exact (loading_case (snd d3) H1 H2 H3 H4 H5). Qed.
  (** three datasets, one after the other, in the repository of the first process *)
  Definition three : list args :=
    [Args u2 (ps "v2") (path (ps "x")) (path (ps "d/f")) (Some (u1, ps "v1")); Args u1 (ps "v1") (path (ps "x")) (path []) None;
     Args u2 (ps "v3") (path (ps "y")) (path (ps "d")) (Some (u1, ps "v4"))].
  Lemma three_proper : List.Forall proper three.
  Proof.
    repeat apply List.Forall_cons; try apply List.Forall_nil; (split; [by eexists|split; [vm_compute; intuition discriminate|first [by left|right; by eexists]]]).
  Qed.
  Lemma three_case (g : gstate) tvl us s D : heap_ok s -> lists_keyed s -> on_demand (objs_of g W) W D (s_heap s) -> is_a D (s_heap s) tvl (KdVl true) -> is_a D (s_heap s) us KdUs ->
    exists a b c s', asked 9 now9 tvl us g s (combine three [a; b; c]) s' /\ forall fuel2 auto now2 g2, exec (ask fuel2 tvl us (Args u2 (ps "v2") (path (ps "x")) (path (ps "d/f")) (Some (u1, ps "v1"))) auto now2 s') g2 = ((Ok (Some a), s'), g2).
  Proof.
    intros H1 H2 H3 H4 H5. destruct (C52_sequence_partial W g eq_refl ltac:(discriminate) 9 now9 tvl us three D s H1 H2 H3 H4 H5 three_proper) as (ms & s' & Hl & Ha & Hk).
    destruct ms as [|a [|b [|c [|]]]]; try discriminate Hl. exists a, b, c, s'. split; [exact Ha|]. apply Hk. left. reflexivity.
  Qed.
  Example C52_case : exists tvl us s a b c s', asked 9 now9 tvl us (snd d3) s (combine three [a; b; c]) s' /\
    forall fuel2 auto now2 g2, exec (ask fuel2 tvl us (Args u2 (ps "v2") (path (ps "x")) (path (ps "d/f")) (Some (u1, ps "v1"))) auto now2 s') g2 = ((Ok (Some a), s'), g2).
  Proof.
    destruct C43_loading_case as (tvl & us & m & s & D & _ & (H1 & H2 & H3 & H4 & H5) & _).
    destruct (three_case (snd d3) tvl us s D H1 H2 H3 H4 H5) as (a & b & c & s' & Hr). exists tvl, us, s, a, b, c, s'. exact Hr.
  Qed.
  (** C52: without the condition on the names datasets get into each other's way.
      There is a record at "d/e", so a dataset cannot be added under the name of
      records there. *)
  Theorem C52_reserved_refuted : exists (g : gstate) (p : ppath), well_published g W /\ is_metadata_path p /\
    fst (fst (exec (get_top_nodes_and_metadata_root_record 9 W u1 (ps "v1") (path (ps "x")) p (Some u1) (Some (ps "v2")) true now9 init_pst) g)) = Err ValueError.
  Proof.
    exists (snd d3), (path (ps "d/e/.datalad_metadata_root_record")). split; [apply C43_repository_case|]. split; [by eexists|vm_compute; reflexivity].
  Qed.
  Print Assumptions C52_reserved_refuted.
  (** The other order: such a dataset can be added first, but then none at "d". *)
  Definition reserved_call (p : pystr) (u : uuid) : M pst (option loc) :=
    get_metadata_root_record_from_top_nodes 9 0%N 1%N u (ps "v2") (path (ps "x")) (path p) (Some u1) (Some (ps "v1")) true now9.
  Theorem C52_blocked_refuted : exists (g : gstate) (p q : pystr) (m m' : loc), p <> q /\
    fst (fst (exec (reserved_call p u2 c0) g)) = Ok (Some m) /\
    fst (fst (exec (reserved_call q u2 c0) g)) = Ok (Some m') /\
    fst (fst (exec (reserved_call q u2 (after (reserved_call p u2) c0 g)) g)) = Err AssertionError.
  Proof.
    exists gab, (ps "d/.datalad_metadata_root_record"), (ps "d").
    eexists. eexists. split; [discriminate|]. split; [vm_compute; reflexivity|]. split; vm_compute; reflexivity.
  Qed.
  Print Assumptions C52_blocked_refuted.
  (** C53: a second dataset id at the same path gets the record of the first one,
      also in its version list. *)
  Theorem C53_other_dataset_refuted : exists (g : gstate) (p : pystr) (u u' : uuid), u <> u' /\
    script g (mlet tvl <- new_tree_version_list; mlet us <- new_uuid_set;
              let call w := get_metadata_root_record_from_top_nodes 9 tvl us w (ps "v2") (path (ps "x")) (path p) (Some u1) (Some (ps "v1")) true now9 in
              mlet m <- call u; mlet m' <- call u';
              match m, m' with
              | Some m, Some m' => mlet o <- getobj m'; mlet vl <- get_version_list 9 us u'; mlet e <- get_versioned_element 9 vl (ps "v2") (path []);
                  mret (match o_body o with BMrr (Some i) _ _ _ => bool_decide (i = u) | _ => false end,
                        match vr_elt e with EMrr l => bool_decide (l = m) | _ => false end)
              | _, _ => mraise Unmodelled
              end) = Ok (true, true).
  Proof. exists gab, (ps "d"), u2, (ps "00000000000000000000000000000000"). split; [discriminate|]. vm_compute. reflexivity. Qed.
  Print Assumptions C53_other_dataset_refuted.
  (** C54: a record in the dataset tree and the one in the version list of its
      dataset are one object when they are made, but two after they were read.  A
      second process adds a run to the record that the call returns and writes
      both top-level objects; a third one finds the run in the dataset tree, not
      in the version list. *)
  Definition e_call : M pst (option (loc * loc * option loc)) :=
    get_top_nodes_and_metadata_root_record 9 W u1 (ps "v1") (path (ps "x")) (path []) None None true now9.
  Definition e_write (add : bool) : M pst unit :=
    mlet top <- e_call; match top with Some (tvl, us, Some m) =>
      (if add then mlet d <- get_dataset_level_metadata 9 m; metadata_add_run 9 d (run1 (ps "new")) else mret tt) ;;;
      write_out 9 us (Some W) false ;;; write_out 9 tvl (Some W) false ;;; mret tt
    | _ => mraise Unmodelled end.
  (** the extractors of the dataset level metadata, found in both ways *)
  Definition e_extractors (m : loc) : M pst (list pystr) := mlet d <- get_dataset_level_metadata 9 m; mlet n <- runs d; mret (extractors n).
  Definition e_both : M pst (list pystr * list pystr) :=
    mlet top <- e_call; match top with Some (tvl, us, Some m) =>
      mlet vl <- get_version_list 9 us u1; mlet e <- get_versioned_element 9 vl (ps "v1") (path (ps "x"));
      mlet a <- e_extractors m; mlet b <- e_extractors (elt_loc (vr_elt e)); mret (a, b)
    | _ => mraise Unmodelled end.
  Theorem C54_stale_record_refuted : exists (g g1 g2 : gstate) (s1 s2 : pst),
    exec (e_write false init_pst) g = ((Ok tt, s1), g1) /\ exec (e_write true init_pst) g1 = ((Ok tt, s2), g2) /\
    fst (fst (exec (e_both init_pst) g2)) = Ok ([ps "extractor"], []).
  Proof.
    assert (Hx : forall (a : res unit * pst * gstate), match a with (Ok tt, _, _) => true | _ => false end = true -> exists s' g', a = ((Ok tt, s'), g') /\ g' = snd a) by (intros [[[[]|] s'] g'] Ha; [by exists s', g'|done]).
    destruct (Hx (exec (e_write false init_pst) gw)) as (s1 & g1 & E1 & G1); [vm_compute; reflexivity|].
    destruct (Hx (exec (e_write true init_pst) (snd (exec (e_write false init_pst) gw)))) as (s2 & g2 & E2 & G2); [vm_compute; reflexivity|].
    exists gw, g1, g2, s1, s2. rewrite E1. split; [done|]. rewrite <- G1 in E2. split; [exact E2|]. rewrite G2. vm_compute. reflexivity.
  Qed.
  Print Assumptions C54_stale_record_refuted.
End Case.
