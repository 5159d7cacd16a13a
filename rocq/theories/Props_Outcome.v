(** Property theorems about the outcome of writes: C35. *)
From Verif Require Import Base Path Json Refs Meta GitText Git Spec_Store State BlobCache ObjRef Objects Spec_Objects Spec_Look Spec_Heap Spec_Write Spec_Content Spec_Outcome
  RunAllFacts OutcomeCase Props_Write Props_Content.

(** C35: writes to an existing local repository succeed, if directories and UUID
    sets have entries, what is not loaded is marked as saved there, and loaded
    objects are nested less than the recursion limit.  The only other outcome is
    that two objects have one id.  Missing: the statement fails for objects
    without entries (the [_refuted] theorems). *)
Theorem C35_written_partial : forall `{Env} (r : pystr), r <> [] -> is_remote r = false ->
  forall (fuel : nat) (l : loc) (force : bool) (m : M pst reference) (s : pst) (g : gstate),
  fitting fuel l r force (look (objs_of g r) (s_heap s) l) m -> is_Some (local_repo g r) -> caches_ok s -> dget (s_caches s) r = None ->
  tidy (objs_of g r) r s l -> settled r (s_heap s) l ->
  dirs_filled (look (objs_of g r) (s_heap s) l) -> uuids_given (look (objs_of g r) (s_heap s) l) -> shallow fuel (s_heap s) l ->
  (exists ref s' g', exec (m s) g = ((Ok ref, s'), g')) \/ collision r m s g.
Proof. exact @C35_written_lemma. Qed.
Print Assumptions C35_written_partial.

Section Case.
  Local Existing Instance check_env.
  (** the set of C24, with two records that have file trees *)
  Example C35_case_hypotheses : fitting 9 0%N W false (look (objs_of gw W) (s_heap s5) 0%N) wr /\ is_Some (local_repo gw W) /\ caches_ok s5 /\ dget (s_caches s5) W = None /\
    tidy (objs_of gw W) W s5 0%N /\ settled W (s_heap s5) 0%N /\ dirs_filled (look (objs_of gw W) (s_heap s5) 0%N) /\ uuids_given (look (objs_of gw W) (s_heap s5) 0%N) /\ shallow 9 (s_heap s5) 0%N.
  Proof.
    destruct C24_case_hypotheses as (H1 & H2 & H3 & _). split; [constructor|]. split; [eexists; vm_compute; reflexivity|]. split; [exact H1|]. split; [exact H2|]. split; [exact H3|].
    split; [apply settled_check; vm_compute; reflexivity|]. split; [apply filled_check; vm_compute; reflexivity|].
    split; [|apply shallow_check; vm_compute; reflexivity]. intros _. exists (KUuid u0). eexists. vm_compute. reflexivity.
  Qed.
  (** there are five levels below the set *)
  Example C35_case : shallowb 6 (s_heap s5) 0%N = true /\ shallowb 5 (s_heap s5) 0%N = false /\
    fst (fst (exec (write_out 6 0%N (Some W) false s5) gw)) = Ok us_ref /\ fst (fst (exec (write_out 5 0%N (Some W) false s5) gw)) = Err RecursionError.
  Proof. split_and!; vm_compute; reflexivity. Qed.
End Case.
