(** Decision procedures used by the concrete cases. *)
From Verif Require Import Base BaseFacts Refs GitText Spec_Git GitTextFacts Git Spec_Store TreeTextFacts GitFacts TreeUpdFacts.

Definition wf_nameb (b : bytes) : bool := forallb (fun c => (0 <? c) && (c <? 256) && negb (c =? 47))%N b.
Definition wf_entryb (e : tentry) : bool := object_id (te_id e) && wf_nameb (te_name e).
Definition wf_objb (o : gobj) : bool := match o with Blob _ => true | Tree es => forallb wf_entryb es end.
Definition goodb `{Env} (g : gstate) : bool :=
  forallb (fun nr => forallb (fun ho => bool_decide (oid (snd ho) = fst ho) && wf_objb (snd ho))
                             (map_to_list (r_objs (snd nr)))) (map_to_list (g_repos g)).
Lemma wf_nameb_ok b : wf_nameb b = true -> wf_name b.
Proof.
  unfold wf_nameb. rewrite forallb_forall. intros Hb. apply List.Forall_forall. intros c Hc. apply Hb in Hc.
  rewrite !andb_true_iff, negb_true_iff, !N.ltb_lt, N.eqb_neq in Hc. unfold name_byte. tauto.
Qed.
Lemma goodb_ok `{Env} g : goodb g = true -> good g.
Proof.
  unfold goodb. rewrite forallb_forall. intros Hg n h o. unfold objs_of. destruct (g_repos g !! n) as [r|] eqn:Er; [|done].
  intros Ho. specialize (Hg (n, r)). rewrite forallb_forall in Hg.
  assert (H1 := proj2 (elem_of_map_to_list _ _ _) Er). apply elem_of_list_In in H1.
  assert (H2 := proj2 (elem_of_map_to_list _ _ _) Ho). apply elem_of_list_In in H2.
  specialize (Hg H1 (h, o) H2). cbn [fst snd] in Hg. apply andb_true_iff in Hg as [E1 E2].
  apply bool_decide_eq_true in E1. split; [exact E1|]. destruct o as [b|es]; [done|]. cbn in *.
  rewrite forallb_forall in E2. apply List.Forall_forall. intros e He. apply E2 in He. unfold wf_entryb in He.
  apply andb_true_iff in He as [A B]. split; [by apply object_id_hex40|by apply wf_nameb_ok].
Qed.
