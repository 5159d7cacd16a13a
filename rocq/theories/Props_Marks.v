(** Property theorems about the marks of objects: C22. *)
From Verif Require Import Base Path Json Refs Meta GitText Git Spec_Store State BlobCache ObjRef Objects Common Spec_Objects Spec_Look Spec_Heap Spec_Write Spec_Content Spec_History
  Spec_Marks MarkFacts AlterFacts Props_Write.

(** C22: after a call that modifies a loaded or unloaded object, there is a loaded
    object that is saved nowhere at or below every object above it; a UUIDSet
    must be loaded first. *)
Theorem C22_altered : forall `{Env} (fuel : nat) (x y : loc) (m : M pst unit) (s : pst) (g : gstate) (u : unit) (s' : pst) (g' : gstate),
  heap_ok s -> alters fuel y m ->
  (is_uuid_set (s_heap s) y -> exists o, s_heap s !! y = Some o /\ h_mapped (o_hdr o) = true) ->
  loaded_below (s_heap s) x y -> exec (m s) g = ((Ok u, s'), g') -> unsaved_below (s_heap s') x.
Proof. exact @C22_altered_lemma. Qed.
Print Assumptions C22_altered.
(** No sequence of calls that do not write changes this, whatever their outcome
    and whatever happens to the repositories. *)
Theorem C22_kept : forall `{Env} (s s' : pst) (x : loc),
  (forall (l : loc) o, s_heap s !! l = Some o -> (l < s_next s)%N) -> without_write s s' ->
  unsaved_below (s_heap s) x -> unsaved_below (s_heap s') x.
Proof. exact @C22_kept_lemma. Qed.
Print Assumptions C22_kept.
(** So [is_saved_on] is not true for any realm until something is written. *)
Theorem C22_until_written : forall `{Env} (fuel fuel2 : nat) (x y : loc) (m : M pst unit) (s : pst) (g : gstate) (u : unit) (s1 : pst) (g1 : gstate)
    (s' : pst) (r : pystr),
  heap_ok s -> alters fuel y m ->
  (is_uuid_set (s_heap s) y -> exists o, s_heap s !! y = Some o /\ h_mapped (o_hdr o) = true) ->
  loaded_below (s_heap s) x y -> exec (m s) g = ((Ok u, s1), g1) -> without_write s1 s' ->
  saved_on fuel2 (s_heap s') x (Some r) <> Ok true.
Proof. exact @C22_until_lemma. Qed.
Print Assumptions C22_until_written.

Section Case.
  Local Existing Instance check_env.
  (** the tree of the case in [Props_Write] is opened again, its metadata is
      changed, it is searched, and it is written *)
  Definition t0 : pst := after (file_tree_at W tree_ref) s2 g2.
  Definition t1 : pst := after (filetree_add_run 9 3%N (path (ps "d/f")) (run2 (ps "z"))) t0 g2.
  Definition t2 : pst := after (get_metadata 9 3%N (path (ps "d/g"))) (after (get_paths_recursive 9 true 3%N) t1 g2) g2.
  Definition t3 : pst := after (filetree_write_out 9 3%N (Some W) false) t2 g2.
  Definition shown (s : pst) : res bool := saved_on 9 (s_heap s) 3%N (Some W).
  Example C22_case_opened : (map shown [t0; t1; t2; t3],
      match s_heap t0 !! 3%N with Some o => Some (h_mapped (o_hdr o)) | None => None end,
      match fst (fst (exec (filetree_add_run 9 3%N (path (ps "d/f")) (run2 (ps "z")) t0) g2)) with Ok _ => true | Err _ => false end) =
    ([Ok true; Ok false; Ok false; Ok true], Some false, true).
  Proof. vm_compute. reflexivity. Qed.
  Definition ok_b (s : pst) : bool := forallb (fun lo : loc * obj =>
    (fst lo <? s_next s)%N && forallb (fun x => is_some (s_heap s !! x)) (sub_objects (o_body (snd lo))) &&
    (h_mapped (o_hdr (snd lo)) || match sub_objects (o_body (snd lo)) with [] => true | _ => false end) &&
    bool_decide (NoDup (dkeys (kids_of (o_body (snd lo)))))) (map_to_list (s_heap s)).
  Lemma ok_b_sound s : ok_b s = true -> heap_ok s.
  Proof.
    unfold ok_b. rewrite forallb_forall. intros Hf l o Hl. specialize (Hf (l, o)). cbn [fst snd] in Hf.
    assert (Hin : In (l, o) (map_to_list (s_heap s))) by (apply elem_of_list_In, elem_of_map_to_list; exact Hl).
    specialize (Hf Hin). apply andb_prop in Hf as [Hf H4]. apply andb_prop in Hf as [Hf H3]. apply andb_prop in Hf as [H1 H2].
    split; [by apply N.ltb_lt|]. split; [|split].
    - intros x Hx. rewrite forallb_forall in H2. specialize (H2 x Hx). destruct (s_heap s !! x); [by eexists|done].
    - intros Hm. rewrite Hm in H3. cbn in H3. by destruct (sub_objects (o_body o)).
    - by apply bool_decide_eq_true in H4.
  Qed.
  Lemma node_only (h : heap) (l : loc) : match h !! l with Some (Obj _ (BNode _ _)) => true | _ => false end = true -> ~ is_uuid_set h l /\ loaded_below h l l.
  Proof.
    destruct (h !! l) as [o|] eqn:E; [|done]. intros Ho. split; [|by eapply below_self]. intros (x & us & Hx). rewrite E in Hx. injection Hx as ->. done.
  Qed.
  Lemma call_after {A : Type} (m : M pst A) s g s' : writeless A m -> without_write (after m s g) s' -> without_write s s'.
  Proof. intros Hm Hs. unfold after in Hs. destruct (exec (m s) g) as [[r s1] g1] eqn:E. eapply ww_call; [exact Hm|exact E|exact Hs]. Qed.
  Example C22_case_sound : heap_ok t0 /\ alters 9 3%N (filetree_add_run 9 3%N (path (ps "d/f")) (run2 (ps "z"))) /\
    (~ is_uuid_set (s_heap t0) 3%N /\ loaded_below (s_heap t0) 3%N 3%N) /\ without_write t1 t2.
  Proof.
    split; [apply ok_b_sound; vm_compute; reflexivity|]. split; [apply alter_run|]. split; [apply node_only; vm_compute; reflexivity|].
    eapply call_after; [eapply wl_use, use_list|]. eapply call_after; [eapply wl_use, use_metadata|]. apply ww_none.
  Qed.
End Case.
