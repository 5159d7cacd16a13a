(** Property theorem about what a purge unloads: C23. *)
From Verif Require Import Base Path Json Spec_Json Refs Meta Spec_Meta GitText Git Spec_Store State BlobCache ObjRef Objects Spec_Objects Spec_Look Spec_Heap
  Spec_Write Spec_Content ReadBackFacts PurgeFacts ContentCase Props_Write Props_Findings PurgeAllFacts Props_Content.

(** C23: after a purge that succeeds nothing of what was loaded below the object is
    loaded, also where objects are shared. *)
Theorem C23_unloads : forall `{Env} (fuel : nat) (l : loc) (s : pst) (g : gstate) (s' : pst) (g' : gstate),
  heap_ok s -> is_Some (s_heap s !! l) -> exec (purge fuel l s) g = ((Ok tt, s'), g') ->
  forall y, loaded_below (s_heap s) l y -> exists o', s_heap s' !! y = Some o' /\ h_mapped (o_hdr o') = false.
Proof. exact @C23_unloads_lemma. Qed.
Print Assumptions C23_unloads.

Section Case.
  Local Existing Instance check_env.
  (** The set of the case of C25 after the write: everything is loaded, and nothing
      after the purge. *)
  Definition loaded_at (s : pst) (l : loc) : option bool := option_map (fun o => h_mapped (o_hdr o)) (s_heap s !! l).
  Lemma unloads_ok : heap_ok s6 /\ is_Some (s_heap s6 !! 0%N).
  Proof. destruct C25_case_hypotheses as (HT & _). split; [exact (td_heap _ _ _ _ HT)|]. apply (bool_decide_unpack _). vm_compute. exact I. Qed.
  Lemma unloads_run : fst (fst (exec (purge 9 0%N s6) g6)) = Ok tt.
  Proof. vm_compute. reflexivity. Qed.
  Lemma unloads_reach : reach (s_heap s6) 0%N q_df = Some 5%N.
  Proof. vm_compute. reflexivity. Qed.
  Lemma unloads_before : (loaded_at s6 0%N, loaded_at s6 5%N) = (Some true, Some true).
  Proof. vm_compute. reflexivity. Qed.
  Lemma unloads_after : (loaded_at s7 0%N, loaded_at s7 5%N) = (Some false, Some false).
  Proof. vm_compute. reflexivity. Qed.
  Example C23_unloads_case : (heap_ok s6 /\ is_Some (s_heap s6 !! 0%N)) /\ fst (fst (exec (purge 9 0%N s6) g6)) = Ok tt /\ reach (s_heap s6) 0%N q_df = Some 5%N /\
    (loaded_at s6 0%N, loaded_at s6 5%N) = (Some true, Some true) /\ (loaded_at s7 0%N, loaded_at s7 5%N) = (Some false, Some false).
  Proof. exact (conj unloads_ok (conj unloads_run (conj unloads_reach (conj unloads_before unloads_after)))). Qed.
End Case.
