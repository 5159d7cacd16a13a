(** Property theorems about whole processes: C55 and C56. *)
From Verif Require Import Base Path Spec_Path Json Spec_Json Refs Meta Spec_Meta GitText Git Spec_Store State BlobCache ObjRef Objects Spec_Objects Spec_Look Spec_Heap
  Spec_Versions Spec_Write Spec_Content Spec_Publish Spec_History Common Spec_Common Spec_Demand Spec_Workflow ContentFacts WorkFacts WorkOpenFacts WorkFindFacts HeapCase ContentCase HistoryCase DemandCase
  Props_Write Props_Findings Props_Common.

(** A process that asks for the record of a dataset, with [auto_create], and writes
    both top nodes: the call returns a record and does not change the repository;
    after the writes the repository publishes what it published before, and
    exactly the records that the call had to add. *)
Theorem C55_recorded : forall `{Env} (r : pystr) (g : gstate) (fuel : nat) (u : uuid) (v : pystr) (p : ppath) (now : nat -> pystr) (s : pst),
  is_remote r = false -> r <> [] -> fresh r s -> neat g r -> paired g r -> askable u v p -> times now ->
  exists (tvl us m : loc) (s1 : pst),
    exec (get_top_nodes_and_metadata_root_record fuel r u v p no_path None None true now s) g = ((Ok (Some (tvl, us, Some m)), s1), g) /\
    forall f1 f2 ref1 s2 g1 ref2 s3 g2,
      exec (write_out f1 tvl (Some r) false s1) g = ((Ok ref1, s2), g1) ->
      exec (write_out f2 us (Some r) false s2) g1 = ((Ok ref2, s3), g2) ->
      fresh r s3 /\ neat g2 r /\
      exists c1 c2 c1' c2', starts g r (KdVl true) c1 /\ starts g r KdUs c2 /\
        (exists ref, published g2 r (KdVl true) ref /\ forall q, look_stored (objs_of g2 r) (KdVl true) ref q = c1' q) /\
        (exists ref, published g2 r KdUs ref /\ forall q, look_stored (objs_of g2 r) KdUs ref q = c2' q) /\
        recorded u v p (now 2%nat) (now 3%nat) c1 c2 c1' c2' /\
        (exists i w, c1' [KVer v p; KName root_record_name] = Seen (LbMrr i w)) /\
        (exists lb, c2' [KUuid u; KVer v p] = Seen lb).
Proof. intros ?. exact C55_lemma. Qed.
Print Assumptions C55_recorded.

(** Any number of such processes, one after the other: everything that is
    published stays, and the records that were asked for are published. *)
Theorem C56_kept_partial : forall `{Env} (r : pystr) (l : list (uuid * pystr * ppath)), is_remote r = false -> r <> [] ->
  forall g g', neat g r -> paired g r -> rounds r g l g' ->
  neat g' r /\ paired g' r /\
  (forall k c c', publishes g r k c -> publishes g' r k c' -> within c c') /\
  forall u v p, In (u, v, p) l -> exists c1 c2 i w lb,
    publishes g' r (KdVl true) c1 /\ publishes g' r KdUs c2 /\
    c1 [KVer v p; KName root_record_name] = Seen (LbMrr i w) /\ c2 [KUuid u; KVer v p] = Seen lb.
Proof. intros ?. exact rounds_lemma. Qed.
Print Assumptions C56_kept_partial.

(** A process that starts later finds what is published, with and without
    [auto_create], and the look-up leaves nothing to write. *)
Theorem C56_found_partial : forall `{Env} (r : pystr) (g : gstate) (fuel : nat) (u : uuid) (v : pystr) (p : ppath) (auto : bool) (now : nat -> pystr) (s : pst) c1 c2 i w lb,
  is_remote r = false -> r <> [] -> fresh r s -> neat g r -> publishes g r (KdVl true) c1 -> publishes g r KdUs c2 ->
  c1 [KVer v p; KName root_record_name] = Seen (LbMrr i w) -> c2 [KUuid u; KVer v p] = Seen lb ->
  exists tvl us m s1,
    exec (get_top_nodes_and_metadata_root_record fuel r u v p no_path None None auto now s) g = ((Ok (Some (tvl, us, Some m)), s1), g) /\ fresh r s1 /\
    (forall q, look (objs_of g r) (s_heap s1) tvl q = c1 q) /\ (forall q, look (objs_of g r) (s_heap s1) us q = c2 q) /\
    all_saved r (s_heap s1) tvl /\ all_saved r (s_heap s1) us /\
    forall q, look (objs_of g r) (s_heap s1) m q = c1 (KVer v p :: KName root_record_name :: q).
Proof. intros ?. exact found_lemma. Qed.
Print Assumptions C56_found_partial.

Section Case.
  Local Existing Instance check_env.
  Definition a1 : uuid * pystr * ppath := (u1, ps "v1", path (ps "x")).
  Definition a2 : uuid * pystr * ppath := (u2, ps "v2", path (ps "x/y")).
  Definition w_call (a : uuid * pystr * ppath) : M pst (option (loc * loc * option loc)) :=
    let '(u, v, p) := a in get_top_nodes_and_metadata_root_record 9 W u v p no_path None None true now9.
  Definition w_tops (a : uuid * pystr * ppath) (st : pst * gstate) : loc * loc :=
    match out (w_call a) st with Ok (Some (tvl, us, _)) => (tvl, us) | _ => (0%N, 0%N) end.
  (** the three calls of a process *)
  Definition p1 (a : uuid * pystr * ppath) (g : gstate) := next (w_call a) (init_pst, g).
  Definition p2 (a : uuid * pystr * ppath) (g : gstate) := next (write_out 9 (fst (w_tops a (init_pst, g))) (Some W) false) (p1 a g).
  Definition p3 (a : uuid * pystr * ppath) (g : gstate) := next (write_out 9 (snd (w_tops a (init_pst, g))) (Some W) false) (p2 a g).
  Definition p_ok (a : uuid * pystr * ppath) (g : gstate) : bool :=
    match out (w_call a) (init_pst, g) with Ok (Some _) => true | _ => false end &&
    is_ok (out (write_out 9 (fst (w_tops a (init_pst, g))) (Some W) false) (p1 a g)) &&
    is_ok (out (write_out 9 (snd (w_tops a (init_pst, g))) (Some W) false) (p2 a g)).
  Lemma fresh_init : fresh W init_pst.
  Proof. split; [apply heap_ok_check; vm_compute; reflexivity|]. split; [|reflexivity]. split; [constructor|intros ? ? []]. Qed.
  Lemma times_now9 : times now9.
  Proof. intros n. apply scalar_strb_ok. reflexivity. Qed.
  Lemma ran (a : uuid * pystr * ppath) (g : gstate) : (let '(u, v, p) := a in askable u v p) -> p_ok a g = true -> round W g a (snd (p3 a g)).
  Proof.
    destruct a as [[u v] p]. set (a := (u, v, p)) in *. intros Ha Hp. unfold p_ok in Hp. apply andb_true_iff in Hp as [Hp Hp3]. apply andb_true_iff in Hp as [Hp1 Hp2].
    destruct (out (w_call a) (init_pst, g)) as [[[[tvl us] m]|]|] eqn:E1; try discriminate Hp1.
    assert (Et : w_tops a (init_pst, g) = (tvl, us)) by (unfold w_tops; rewrite E1; reflexivity). rewrite Et in Hp2, Hp3. cbn [fst snd] in Hp2, Hp3.
    destruct (out (write_out 9 tvl (Some W) false) (p1 a g)) as [ref1|] eqn:E2; [|discriminate Hp2].
    destruct (out (write_out 9 us (Some W) false) (p2 a g)) as [ref2|] eqn:E3; [|discriminate Hp3].
    apply x_next in E1, E2, E3. cbn [fst snd] in E1.
    exists 9%nat, 9%nat, 9%nat, now9, init_pst, tvl, us, m, (fst (p1 a g)), (snd (p1 a g)), ref1, (fst (p2 a g)), (snd (p2 a g)), ref2, (fst (p3 a g)).
    split; [exact fresh_init|]. split; [exact Ha|]. split; [exact times_now9|]. split; [exact E1|].
    unfold p3, p2 at 3 4. rewrite Et. cbn [fst snd]. unfold p2 in E3 |- *. rewrite Et in E3 |- *. cbn [fst snd] in E3 |- *. split; [exact E2|exact E3].
  Qed.
  Lemma published_lists (g : gstate) h : refs_of g W !! TREE_VERSION_LIST = Some h -> publishes g W (KdVl true) (look_stored (objs_of g W) (KdVl true) (ref_of (ps "TreeVersionList") h)).
  Proof. intros Hh. left. exists (ref_of (ps "TreeVersionList") h). split; [exists h; by left|done]. Qed.
  Definition listsb (g : gstate) (p : list key) : option seen :=
    match refs_of g W !! TREE_VERSION_LIST with Some h => Some (look_stored (objs_of g W) (KdVl true) (ref_of (ps "TreeVersionList") h) p) | None => None end.
  Lemma lists_at (g : gstate) p x : listsb g p = Some x -> exists c, publishes g W (KdVl true) c /\ c p = x.
  Proof. unfold listsb. destruct (refs_of g W !! TREE_VERSION_LIST) as [h|] eqn:E; [|discriminate]. intros [= Hx]. eexists. split; [by apply published_lists|exact Hx]. Qed.
  Lemma a1_ok : let '(u, v, p) := a1 in askable u v p.
  Proof. split_and!; [apply uuid_okb_ok; vm_compute; reflexivity|apply scalar_strb_ok; vm_compute; reflexivity|by eexists|apply scalar_strb_ok; vm_compute; reflexivity]. Qed.
  Lemma a2_ok : let '(u, v, p) := a2 in askable u v p.
  Proof. split_and!; [apply uuid_okb_ok; vm_compute; reflexivity|apply scalar_strb_ok; vm_compute; reflexivity|by eexists|apply scalar_strb_ok; vm_compute; reflexivity]. Qed.
  Lemma neat_gw : neat gw W /\ paired gw W.
  Proof. split; [|done]. intros k ref (h & [(_ & Hh & _)|(_ & Hh & _)]); vm_compute in Hh; discriminate Hh. Qed.
  (** two processes, the first one in an empty repository *)
  Definition g_one : gstate := snd (p3 a1 gw).
  Definition g_two : gstate := snd (p3 a2 g_one).
  Lemma ran1 : p_ok a1 gw = true. Proof. vm_compute. reflexivity. Qed.
  Lemma ran2 : p_ok a2 g_one = true. Proof. vm_compute. reflexivity. Qed.
  Lemma two_rounds : rounds W gw [a1; a2] g_two.
  Proof.
    exact (rounds_cons W gw a1 g_one [a2] g_two (ran a1 gw a1_ok ran1) (rounds_cons W g_one a2 g_two [] g_two (ran a2 g_one a2_ok ran2) (rounds_nil W g_two))).
  Qed.
  Lemma one_round : rounds W gw [a1] g_one.
  Proof. exact (rounds_cons W gw a1 g_one [] g_one (ran a1 gw a1_ok ran1) (rounds_nil W g_one)). Qed.
  Example C55_case : fresh W init_pst /\ neat g_one W /\ paired g_one W /\ askable u2 (ps "v2") (path (ps "x/y")) /\ times now9 /\
    (exists c, publishes g_one W (KdVl true) c /\ c [KVer (ps "v1") (path (ps "x")); KName root_record_name] = Seen (LbMrr (Some u1) (Some (ps "v1")))) /\
    exists tvl us m s1, exec (get_top_nodes_and_metadata_root_record 9 W u2 (ps "v2") (path (ps "x/y")) no_path None None true now9 init_pst) g_one = ((Ok (Some (tvl, us, Some m)), s1), g_one).
  Proof.
    destruct neat_gw as [H1 H2]. destruct (C56_kept_partial W [a1] eq_refl ltac:(discriminate) gw g_one H1 H2 one_round) as (H3 & H4 & _).
    split; [exact fresh_init|]. split; [exact H3|]. split; [exact H4|]. split; [exact a2_ok|]. split; [exact times_now9|]. split.
    - apply lists_at. vm_compute. reflexivity.
    - destruct (C55_recorded W g_one 9 u2 (ps "v2") (path (ps "x/y")) now9 init_pst eq_refl ltac:(discriminate) fresh_init H3 H4 a2_ok times_now9) as (tvl & us & m & s1 & He & _).
      exists tvl, us, m, s1. exact He.
  Qed.
  (** the record of the first one is still found after the second one *)
  Example C56_case : neat gw W /\ paired gw W /\ rounds W gw [a1; a2] g_two /\
    forall auto, exists tvl us m s1, exec (get_top_nodes_and_metadata_root_record 9 W u1 (ps "v1") (path (ps "x")) no_path None None auto now9 init_pst) g_two = ((Ok (Some (tvl, us, Some m)), s1), g_two).
  Proof.
    destruct neat_gw as [H1 H2]. destruct (C56_kept_partial W [a1; a2] eq_refl ltac:(discriminate) gw g_two H1 H2 two_rounds) as (H3 & H4 & _ & H5).
    split; [exact H1|]. split; [exact H2|]. split; [exact two_rounds|]. intros auto.
    destruct (H5 u1 (ps "v1") (path (ps "x"))) as (c1 & c2 & i & w & lb & P1 & P2 & L1 & L2); [left; reflexivity|].
    destruct (C56_found_partial W g_two 9 u1 (ps "v1") (path (ps "x")) auto now9 init_pst c1 c2 i w lb eq_refl ltac:(discriminate) fresh_init H3 P1 P2 L1 L2) as (tvl & us & m & s1 & He & _).
    exists tvl, us, m, s1. exact He.
  Qed.
  (** C56: the first process is killed between the two writes. The record of the
      second one replaces its record, which is not found any more. *)
  Definition g_half : gstate := snd (p2 a1 gw).
  Definition g_lost : gstate := snd (p3 a2 g_half).
  Lemma ran3 : p_ok a2 g_half = true. Proof. vm_compute. reflexivity. Qed.
  Lemma half_good : well_published g_half W. Proof. apply publishedb_ok with (n := 9%nat). vm_compute. reflexivity. Qed.
  Lemma half_has : listsb g_half [KVer (ps "v1") (path (ps "x")); KName root_record_name] = Some (Seen (LbMrr (Some u1) (Some (ps "v1")))). Proof. vm_compute. reflexivity. Qed.
  Lemma lost_not : listsb g_lost [KVer (ps "v1") (path (ps "x")); KName root_record_name] = Some Absent. Proof. vm_compute. reflexivity. Qed.
  Theorem C56_stopped_refuted : exists g g' c c',
    well_published g W /\ round W g a2 g' /\ publishes g W (KdVl true) c /\ publishes g' W (KdVl true) c' /\
    c [KVer (ps "v1") (path (ps "x")); KName root_record_name] = Seen (LbMrr (Some u1) (Some (ps "v1"))) /\
    c' [KVer (ps "v1") (path (ps "x")); KName root_record_name] = Absent.
  Proof.
    destruct (lists_at g_half [KVer (ps "v1") (path (ps "x")); KName root_record_name] (Seen (LbMrr (Some u1) (Some (ps "v1")))) half_has) as (c & P & E).
    destruct (lists_at g_lost [KVer (ps "v1") (path (ps "x")); KName root_record_name] Absent lost_not) as (c' & P' & E').
    exists g_half, g_lost, c, c'. exact (conj half_good (conj (ran a2 g_half a2_ok ran3) (conj P (conj P' (conj E E'))))).
  Qed.
  Print Assumptions C56_stopped_refuted.
End Case.
