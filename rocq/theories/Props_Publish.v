(** Property theorems about published objects: C30. *)
From Verif Require Import Base Path Json Refs Meta GitText Git Spec_Store State BlobCache ObjRef Objects Spec_Objects Spec_Look Spec_Heap
  Spec_Write Spec_Content Spec_Publish HeapCase PublishFacts Props_Write Props_Content.

(** C30: at every instant of a write to [r] ([trace] lists the states of the git
    repositories after each git command), what the repositories publish is there
    if it was there before. *)
Theorem C30_published_never_dangles : forall `{Env} (r : pystr) (fuel : nat) (l : loc) (force : bool) (s : pst) (g g' : gstate) (o : obj) (n : pystr),
  r <> [] -> caches_ok s -> dget (s_caches s) r = None -> top_level_only (s_heap s) -> tidy (objs_of g r) r s l -> s_heap s !! l = Some o ->
  g' ∈ trace (write_out fuel l (Some r) force s) g \/ g' = snd (exec (write_out fuel l (Some r) force s) g) -> sound g n -> sound g' n.
Proof. exact @C30_lemma. Qed.
Print Assumptions C30_published_never_dangles.
(** Nothing else that is written changes what is published, whatever its state. *)
Theorem C30_other_objects : forall `{Env} (fuel : nat) (l : loc) (destination : option pystr) (force : bool) (m : M pst reference) (s : pst) (o : obj) (d : pystr)
    (g g' : gstate) (n : pystr),
  writes fuel l destination force m -> caches_ok s -> top_level_only (s_heap s) -> s_heap s !! l = Some o ->
  kind_of (o_body o) <> KdVl true -> kind_of (o_body o) <> KdUs -> destination_of o destination = Some d -> d <> [] ->
  g' ∈ trace (m s) g \/ g' = snd (exec (m s) g) -> sound g n -> sound g' n.
Proof. exact @C30_others_lemma. Qed.
Print Assumptions C30_other_objects.

Section Case.
  Local Existing Instance check_env.
  Definition top_levelb (h : heap) : bool :=
    forallb (fun lo : loc * obj => forallb (fun x => match h !! x with Some o => match o_body o with BVlist true _ | BUset _ => false | _ => true end | None => true end)
      (sub_objects (o_body (snd lo)))) (HeapCase.entries h).
  Lemma top_level_check h : top_levelb h = true -> top_level_only h.
  Proof.
    intros Hc x o y Hx Hy. unfold top_levelb in Hc. rewrite forallb_forall in Hc. apply HeapCase.entries_in in Hx. specialize (Hc _ Hx). cbn [snd] in Hc.
    rewrite forallb_forall in Hc. specialize (Hc _ Hy). split.
    - intros (hx & vs & E). by rewrite E in Hc.
    - intros (hx & us & E). by rewrite E in Hc.
  Qed.
  (** the first write of the UUID set of C24, into an empty repository, and
      another one that is forced *)
  Example C30_case_hypotheses : top_level_only (s_heap s5) /\ sound gw W /\ top_level_only (s_heap s6) /\ tidy (objs_of g6 W) W s6 0%N /\ sound g6 W.
  Proof.
    assert (T5 : top_level_only (s_heap s5)) by (apply top_level_check; vm_compute; reflexivity).
    assert (S5 : sound gw W). { intros k ref (h & [(_ & E & _)|(_ & E & _)]); vm_compute in E; done. }
    split; [exact T5|]. split; [exact S5|]. split; [apply top_level_check; vm_compute; reflexivity|]. split; [exact (proj1 C25_case_hypotheses)|].
    destruct C24_case_hypotheses as (H1 & H2 & H3 & (o & H4 & _) & H6 & _).
    refine (C30_published_never_dangles W 9 0%N false s5 gw g6 o W ltac:(discriminate) H1 H2 T5 H3 H4 _ S5). right.
    change (g6 = snd (exec (wr s5) gw)). rewrite H6. cbn [snd]. reflexivity.
  Qed.
  Example C30_case : map (fun g => refs_of g W !! UUID_SET) (trace (wr s5) gw) = repeat None 13 ++ [r_loc us_ref] /\
    map (fun g => refs_of g W !! UUID_SET) (trace (write_out 9 0%N (Some W) true s6) g6) = repeat (r_loc us_ref) 2 /\ is_Some (r_loc us_ref).
  Proof. split_and!; [vm_compute; reflexivity|vm_compute; reflexivity|]. eexists. vm_compute. reflexivity. Qed.
End Case.
