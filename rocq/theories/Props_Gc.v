(** Property theorems about git's garbage collection: C41. *)
From Verif Require Import Base Path Json Refs Meta GitText Spec_Git Git Spec_Store State BlobCache ObjRef Objects Spec_Objects Spec_Look Spec_Heap Spec_Write Spec_Content Spec_Publish
  Spec_Tree Spec_ObjRef Spec_Flush HeapCase Spec_Gc GcCase GcRunFacts Props_Write Props_Content.

(** C41: after any use of the repository [r] (writes of any objects and flushes
    that may fail, anything in memory, anything in other repositories) and a
    flush that returns, git keeps what the loader needs, and the next process
    finds the repository in the state that is assumed here.  [needed g' r p k x]:
    the loader reads the git object [x] for the object of kind [k] at the end of
    the path [p], which starts at the published tree version list or UUID set.
    Missing: the objects of root records that are elements of version lists; git
    may collect them, see C41_unreferenced_record_refuted. *)
Theorem C41_kept_partial : forall `{Env} (r : pystr) (s : pst) (g : gstate) (s1 : pst) (g1 : gstate) (s' : pst) (g' : gstate),
  r <> [] -> begin_ok r s g -> caches_ok s -> dget (s_caches s) r = None -> recorded s g r ->
  rtc (uses r) (s, g) (s1, g1) -> exec (flush_object_references r s1) g1 = ((Ok tt, s'), g') ->
  (forall s2, recorded s2 g' r) /\
  (submodules_apart (objs_of g' r) -> forall p k x, needed g' r p k x -> git_keeps g' r x \/ listed p k).
Proof. exact @C41_kept_lemma. Qed.
Print Assumptions C41_kept_partial.
(** Nothing is missing if the root records of version lists are also found in
    dataset trees. *)
Theorem C41_all_kept : forall `{Env} (r : pystr) (s : pst) (g : gstate) (s1 : pst) (g1 : gstate) (s' : pst) (g' : gstate),
  r <> [] -> begin_ok r s g -> caches_ok s -> dget (s_caches s) r = None -> recorded s g r ->
  rtc (uses r) (s, g) (s1, g1) -> exec (flush_object_references r s1) g1 = ((Ok tt, s'), g') -> submodules_apart (objs_of g' r) ->
  (forall p x, needed g' r p KdMrr x -> listed p KdMrr -> exists q, needed g' r q KdMrr x /\ ~ listed q KdMrr) ->
  forall p k x, needed g' r p k x -> git_keeps g' r x.
Proof. exact @C41_all_lemma. Qed.
Print Assumptions C41_all_kept.
(** At any time, also when writes and flushes have failed: everything that is
    mentioned in a document of the repository is in the reference tree or is
    remembered for the next flush. *)
Theorem C41_recorded : forall `{Env} (r : pystr) (s : pst) (g : gstate) (s' : pst) (g' : gstate),
  r <> [] -> begin_ok r s g -> caches_ok s -> dget (s_caches s) r = None -> recorded s g r ->
  rtc (uses r) (s, g) (s', g') -> begin_ok r s' g' /\ recorded s' g' r.
Proof. exact @C41_records_lemma. Qed.
Print Assumptions C41_recorded.

Section Case.
  Local Existing Instance check_env.
  (** the UUID set of C24 is written into an empty repository and the references
      are flushed *)
  Definition fl : M pst unit := flush_object_references W.
  Definition s8 : pst := after fl s6 g6.
  Definition g8 : gstate := git_after fl s6 g6.
  Example C41_case_hypotheses : begin_ok W s5 gw /\ recorded s5 gw W /\ rtc (uses W) (s5, gw) (s6, g6) /\ exec (fl s6) g6 = ((Ok tt, s8), g8).
  Proof.
    assert (Eo : objs_of gw W = ∅) by (vm_compute; reflexivity). assert (Er : refs_of gw W = ∅) by (vm_compute; reflexivity).
    split; [split; [reflexivity|split; [|split; [|split]]]|split; [|split]].
    - intros n x o Hx. unfold objs_of in Hx. destruct (g_repos gw !! n) as [rp|] eqn:E; [|by rewrite lookup_empty in Hx].
      unfold gw in E. cbn [g_repos] in E. apply lookup_singleton_Some in E as [<- <-]. cbn in Hx. by rewrite lookup_empty in Hx.
    - intros top. rewrite Er, lookup_empty. done.
    - replace (s_orefs s5) with (@nil (etype * pystr)) by (vm_compute; reflexivity). apply List.Forall_nil.
    - intros n. replace (g_locks gw) with (∅ : gset pystr) by (vm_compute; reflexivity). unfold Lock.lock_counter. replace (s_locks s5) with (@nil (pystr * nat)) by (vm_compute; reflexivity). cbn. set_solver by lia.
    - intros h b t x. rewrite Eo, lookup_empty. done.
    - apply rtc_once. eapply (uses_write W 9 0%N false); [|exact (proj1 (proj2 (proj2 (proj2 (proj2 C24_case_hypotheses)))))].
      apply typed_check; [vm_compute; reflexivity|]. exact s5_built.
    - assert (Hf : match exec (fl s6) g6 with ((Ok _, _), _) => true | _ => false end = true) by (vm_compute; reflexivity).
      revert Hf. unfold s8, g8, after, git_after. destruct (exec (fl s6) g6) as [[[[]|e] s'] g']; done.
  Qed.
  (** what is needed for the metadata of d/f in the first record: the object
      that the reference names and the one with the content; and what is needed
      for the record itself *)
  Definition at_path (g : gstate) (p : list key) : option (kd * pystr * bool) :=
    match refs_of g W !! UUID_SET with
    | Some h => match found (objs_of g W) KdUs (ref_of (ps "UUIDSet") h) p with
                | Some (k, ref) => match r_loc ref with Some x => Some (k, x, negb (is_none_reference ref) && bool_decide (is_Some (objs_of g W !! x))) | None => None end
                | None => None
                end
    | None => None
    end.
  Definition q_v1 : list key := [KUuid u0; KVer (ps "v1") (path [])].
  Lemma at_needed g p k : match at_path g p with Some (k', _, true) => bool_decide (k' = k) | _ => false end = true -> exists x, needed g W p k x.
  Proof.
    unfold at_path. destruct (refs_of g W !! UUID_SET) as [h|] eqn:Eh; [|done]. destruct (found _ _ _ p) as [[k' ref]|] eqn:Ef; [|done]. destruct (r_loc ref) as [y|] eqn:Ey; [|done].
    destruct (_ && _) eqn:Hb; [|done]. intros ->%bool_decide_eq_true. apply andb_true_iff in Hb as [H1 H2]. apply negb_true_iff in H1. apply bool_decide_eq_true in H2.
    exists y, KdUs, (ref_of (ps "UUIDSet") h), ref. split; [exists h; right; done|]. split; [done|]. split; [done|]. split; [done|by left].
  Qed.
  Example C41_case : (exists x, needed g8 W q_df KdMeta x) /\ (exists x, needed g8 W q_v1 KdMrr x) /\ listed q_v1 KdMrr /\ ~ listed q_df KdMeta /\
    (length (map_to_list (objs_of g6 W)), length (map_to_list (objs_of g8 W)), is_some (refs_of g8 W !! object_references)) = (17, 45, true)%nat.
  Proof.
    split_and!.
    - apply at_needed. vm_compute. reflexivity.
    - apply at_needed. vm_compute. reflexivity.
    - split; [done|]. by exists [KUuid u0], (ps "v1"), (path []).
    - by intros [? _].
    - vm_compute. reflexivity.
  Qed.
End Case.
