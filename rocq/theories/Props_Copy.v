(** Property theorems about copies: C32. *)
From Verif Require Import Base Path Spec_Path Json Spec_Json Refs Meta Spec_Meta GitText Git Spec_Store State BlobCache ObjRef Objects Spec_Objects Spec_Look Spec_Heap
  Spec_Write Spec_Content Spec_Copy CopyAllFacts ContentCase Props_Write Props_Content.

(** C32: the copy is a new object that is not loaded.  It shows what the source
    shows, and so does its reference in any process that has the objects of the
    new realm.  The paths of a version list have the prefix in front. *)
Theorem C32_copy : forall `{Env} (a b : pystr), a <> [] -> is_remote a = false -> b <> [] ->
  forall (fuel : nat) (l : loc) (pre : ppath) (s : pst) (g : gstate) (y : loc) (s' : pst) (g' : gstate) (o : obj),
  is_remote b = false -> tidy (objs_of g a) a s l -> s_heap s !! l = Some o -> kind_of (o_body o) <> KdVl true ->
  caches_ok s -> dget (s_caches s) b = None -> prefix_ok pre -> exec (deepcopy fuel l (Some b) pre s) g = ((Ok y, s'), g') ->
  s_heap s !! y = None /\ exists o' ref c c', s_heap s' !! y = Some o' /\ h_mapped (o_hdr o') = false /\ h_realm (o_hdr o') = Some b /\ h_ref (o_hdr o') = Some ref /\
    (forall fuel p, fst (fst (exec (visit fuel l p s) g)) = Ok (c p)) /\ moved pre c c' /\
    (forall fuel p, fst (fst (exec (visit fuel y p s') g')) = Ok (c' p)) /\
    (forall s2 g2 fuel p, heap_ok s2 -> objs_of g' b ⊆ objs_of g2 b ->
       fst (fst (exec ((mlet x <- object_at (kind_of (o_body o)) b ref; visit fuel x p) s2) g2)) = Ok (c' p)).
Proof. exact @C32_copy_lemma. Qed.
Print Assumptions C32_copy.
(** Without a prefix the content is the same. *)
Theorem C32_same : forall `{Env} (a b : pystr), a <> [] -> is_remote a = false -> b <> [] ->
  forall (fuel : nat) (l : loc) (s : pst) (g : gstate) (y : loc) (s' : pst) (g' : gstate) (o : obj),
  is_remote b = false -> tidy (objs_of g a) a s l -> s_heap s !! l = Some o -> kind_of (o_body o) <> KdVl true ->
  caches_ok s -> dget (s_caches s) b = None -> exec (deepcopy fuel l (Some b) (MetadataPath [AStr []]) s) g = ((Ok y, s'), g') ->
  exists o' ref, s_heap s' !! y = Some o' /\ h_ref (o_hdr o') = Some ref /\
    forall s2 g2 fuel1 fuel2 p, heap_ok s2 -> objs_of g' b ⊆ objs_of g2 b ->
      exists lb, fst (fst (exec (visit fuel1 l p s) g)) = Ok lb /\
                 fst (fst (exec ((mlet x <- object_at (kind_of (o_body o)) b ref; visit fuel2 x p) s2) g2)) = Ok lb.
Proof. exact @C32_same_lemma. Qed.
Print Assumptions C32_same.
(** Objects that were loaded are the same; objects that were not loaded are still
    not loaded; everything shows what it showed; no other repository changes. *)
Theorem C32_source : forall `{Env} (a b : pystr), a <> [] -> is_remote a = false -> b <> [] ->
  forall (fuel : nat) (l : loc) (pre : ppath) (s : pst) (g : gstate) (y : loc) (s' : pst) (g' : gstate) (o : obj),
  tidy (objs_of g a) a s l -> s_heap s !! l = Some o -> kind_of (o_body o) <> KdVl true ->
  caches_ok s -> dget (s_caches s) b = None -> prefix_ok pre -> exec (deepcopy fuel l (Some b) pre s) g = ((Ok y, s'), g') ->
  (forall z oz, s_heap s !! z = Some oz -> exists oz', s_heap s' !! z = Some oz' /\
     (h_mapped (o_hdr oz) = true -> oz' = oz) /\ (h_mapped (o_hdr oz) = false -> h_mapped (o_hdr oz') = false /\ h_realm (o_hdr oz') = h_realm (o_hdr oz))) /\
  (forall r z, r <> [] -> is_remote r = false -> tidy (objs_of g r) r s z -> tidy (objs_of g' r) r s' z /\
     forall fuel1 fuel2 p, exists lb, fst (fst (exec (visit fuel1 z p s) g)) = Ok lb /\ fst (fst (exec (visit fuel2 z p s') g')) = Ok lb) /\
  (forall n, n <> b -> g_repos g' !! n = g_repos g !! n) /\ objs_of g b ⊆ objs_of g' b.
Proof. exact @C32_source_lemma. Qed.
Print Assumptions C32_source.

Section Case.
  Local Existing Instance check_env.
  (** the UUID set of the case for C24, written to one repository and unloaded,
      then copied to another one *)
  Definition B2 : pystr := ps "/b".
  Definition gwb : gstate := GState {[ W := empty_repo; B2 := empty_repo ]} ∅.
  Definition t6 : pst := after wr s5 gwb.
  Definition h6 : gstate := git_after wr s5 gwb.
  Definition t7 : pst := after (purge 9 0%N) t6 h6.
  Definition cp : M pst loc := deepcopy 9 0%N (Some B2) (path []).
  Definition t8 : pst := after cp t7 h6.
  Definition h8 : gstate := git_after cp t7 h6.
  Definition cp_at : loc := match exec (cp t7) h6 with ((Ok y, _), _) => y | _ => 0%N end.
  Lemma wr_runs : exists ref, exec (wr s5) gwb = ((Ok ref, t6), h6).
  Proof.
    assert (H : match exec (wr s5) gwb with ((Ok _, _), _) => true | _ => false end = true) by (vm_compute; reflexivity).
    revert H. unfold t6, h6, after, git_after. destruct (exec (wr s5) gwb) as [[[ref|e] s'] g']; [|discriminate]. intros _. exists ref. reflexivity.
  Qed.
  Lemma purge_runs : exists u g', exec (purge 9 0%N t6) h6 = ((Ok u, t7), g').
  Proof.
    assert (H : match exec (purge 9 0%N t6) h6 with ((Ok _, _), _) => true | _ => false end = true) by (vm_compute; reflexivity).
    revert H. unfold t7, after. destruct (exec (purge 9 0%N t6) h6) as [[[ref|e] s'] g']; [|discriminate]. intros _. exists ref, g'. reflexivity.
  Qed.
  Example C32_case_hypotheses : tidy (objs_of h6 W) W t7 0%N /\
    (exists o, s_heap t7 !! 0%N = Some o /\ kind_of (o_body o) = KdUs /\ h_mapped (o_hdr o) = false) /\
    caches_ok t7 /\ dget (s_caches t7) B2 = None /\ prefix_ok (path []) /\ exec (cp t7) h6 = ((Ok cp_at, t8), h8).
  Proof.
    destruct wr_runs as [ref Hw]. destruct purge_runs as (u & g' & Hp).
    destruct C24_case_hypotheses as (H1 & H2 & _ & (o & H4 & H5) & _).
    split; [|split; [|split; [|split; [|split]]]].
    - assert (Hk : kind_of (o_body o) <> KdVl true) by (rewrite H5; discriminate).
      destruct (C24_write_keeps_content W ltac:(discriminate) eq_refl 9 0%N false wr s5 gwb ref t6 h6 o (writes_any _ _ _ _) H1 H2 (s5_tidy _) H4 Hk Hw) as (Ht & _).
      assert (H1r : one_realm W (s_heap t6) 0%N) by (apply one_realm_check; vm_compute; reflexivity).
      exact (proj1 (proj2 (C25_transparent W 9 0%N [] 0%N (purge 9 0%N) t6 h6 (Ok u) t7 g' eq_refl ltac:(discriminate) Ht H1r eq_refl (handles_purge _ _) Hp))).
    - eexists. split; [|split]; vm_compute; reflexivity.
    - unfold caches_ok. replace (s_caches t7) with (@nil (pystr * bcache)) by (vm_compute; reflexivity). split; [apply NoDup_nil_2|intros ? ? []].
    - vm_compute. reflexivity.
    - split; [exists [AStr []]; reflexivity|]. apply scalar_strb_ok. vm_compute. reflexivity.
    - assert (H : match exec (cp t7) h6 with ((Ok _, _), _) => true | _ => false end = true) by (vm_compute; reflexivity).
      revert H. unfold cp_at, t8, h8, after, git_after. destruct (exec (cp t7) h6) as [[[ref'|e] s'] g2]; [|discriminate]. intros _. reflexivity.
  Qed.
  (** seen through the copy, and in a new process with the second repository only *)
  Definition only_b (g : gstate) : gstate := GState (match g_repos g !! B2 with Some r => {[ B2 := r ]} | None => ∅ end) ∅.
  Definition cp_ref : reference := match s_heap t8 !! cp_at with Some o => match h_ref (o_hdr o) with Some ref => ref | None => ref_of [] [] end | None => ref_of [] [] end.
  Example C32_case : seen_as t8 h8 (mret cp_at) = seen_as s5 gw (mret 0%N) /\ seen_as init_pst (only_b h8) (object_at KdUs B2 cp_ref) = seen_as s5 gw (mret 0%N) /\
    option_map (fun o => h_mapped (o_hdr o)) (s_heap t8 !! 0%N) = Some false.
  Proof. split; [|split]; vm_compute; reflexivity. Qed.
  (** the version list below a prefix *)
  Example C32_prefix_case :
    fst (fst (exec ((mlet y <- deepcopy 9 1%N (Some B2) (path (ps "sub")); mlet v <- visit 9 y []; mlet w <- visit 9 y [KVer (ps "v2") (path (ps "sub/x/y")); KTree; KName (ps "b")]; mret (v, w)) s5) gwb)) =
    match add_extractor_run [] (run2 (ps "b")) with
    | Ok m => Ok (Seen (LbVl false [(ps "v1", path (ps "sub"), ps "0", false); (ps "v2", path (ps "sub/x/y"), ps "1", false)]), Seen (LbMeta m))
    | Err e => Err e
    end.
  Proof. vm_compute. reflexivity. Qed.
End Case.
