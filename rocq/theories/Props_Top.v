(** Property theorems about opening the published objects of a repository: C45. *)
From Verif Require Import Base Path Spec_Path Json Spec_Json Refs Meta Spec_Meta GitText Git Spec_Store State BlobCache ObjRef Objects Spec_Objects Spec_Look Spec_Heap
  Spec_Versions Spec_Write Spec_Content Spec_Publish Spec_History Common TopFacts ContentCase HistoryCase Props_Write Props_Findings Props_Session Props_History.

(** C45, the part that holds: if both references exist, two new objects show
    what is published, and nothing else changes.  Missing: with one reference
    the data behind it is lost, see [Props_Findings]. *)
Theorem C45_opened_partial : forall `{Env} (r : pystr) (g : gstate), is_remote r = false -> r <> [] ->
  forall (fuel : nat) (s : pst) (h1 h2 : pystr),
  heap_ok s -> refs_of g r !! TREE_VERSION_LIST = Some h1 -> refs_of g r !! UUID_SET = Some h2 -> sound g r ->
  exists (tvl us : loc) (s' : pst), exec (get_top_level_metadata_objects fuel r s) g = ((Ok (Some (tvl, us)), s'), g) /\ heap_ok s' /\
    s_heap s !! tvl = None /\ s_heap s !! us = None /\ tvl <> us /\ (forall (x : loc) o, s_heap s !! x = Some o -> s_heap s' !! x = Some o) /\
    forall (fuel2 : nat) (p : list key),
      fst (fst (exec (visit fuel2 tvl p s') g)) = Ok (look_stored (objs_of g r) (KdVl true) (ref_of (ps "TreeVersionList") h1) p) /\
      fst (fst (exec (visit fuel2 us p s') g)) = Ok (look_stored (objs_of g r) KdUs (ref_of (ps "UUIDSet") h2) p).
Proof. exact @C45_opened_lemma. Qed.
Print Assumptions C45_opened_partial.
(** If one is missing, a look-up returns nothing, whatever it asks for, and
    nothing changes. *)
Theorem C45_lookup_partial : forall `{Env} (r : pystr) (g : gstate), is_remote r = false -> r <> [] ->
  forall (fuel : nat) (u : uuid) (v : pystr) (prefix tree_path : ppath) (sub_u : option uuid) (sub_v : option pystr) (now : nat -> pystr) (s : pst),
  heap_ok s -> refs_of g r !! TREE_VERSION_LIST = None \/ (refs_of g r !! UUID_SET = None /\ sound g r) ->
  exists s' : pst, exec (get_top_nodes_and_metadata_root_record fuel r u v prefix tree_path sub_u sub_v false now s) g = ((Ok None, s'), g) /\
    forall (x : loc) o, s_heap s !! x = Some o -> s_heap s' !! x = Some o.
Proof. exact @C45_lookup_lemma. Qed.
Print Assumptions C45_lookup_partial.

Section Case.
  Local Existing Instance check_env.
  (** a tree version list with a dataset tree, and a UUID set with a version list
      with a root record, both written *)
  Definition t0 : pst * gstate := (init_pst, gw).
  Definition t1 := next new_tree_version_list t0.
  Definition t2 := next new_dataset_tree t1.
  Definition t3 := next (set_versioned_element 9 0%N (ps "v1") (ps "1.0") (path (ps "d")) (ETree 1%N)) t2.
  Definition t4 := next (write_out 9 0%N (Some W) false) t3.
  Definition t5 := next new_uuid_set t4.
  Definition t6 := next new_version_list t5.
  Definition t7 := next (new_mrr (Some u1) (Some (ps "v1")) None None) t6.
  Definition t8 := next (set_versioned_element 9 3%N (ps "v1") (ps "1.0") (path (ps "d")) (EMrr 4%N)) t7.
  Definition t9 := next (set_version_list 2%N u1 3%N) t8.
  Definition t10 := next (write_out 9 2%N (Some W) false) t9.
  Definition wref l st : reference := match out (write_out 9 l (Some W) false) st with Ok ref => ref | _ => Ref JNull None end.
  Definition h_tvl : pystr := match r_loc (wref 0%N t3) with Some h => h | None => [] end.
  Definition h_us : pystr := match r_loc (wref 2%N t9) with Some h => h | None => [] end.
  Ltac inR := apply (bool_decide_unpack _); vm_compute; exact I.
  Ltac kind := apply kindb_ok; vm_compute; reflexivity.
  Ltac vmr := vm_compute; reflexivity.
  Lemma ver_ok st y x k b p : is_metadata_path p -> scalar_strb (mp_as_posix p) = true -> kindb (KdVl k) st y = true -> kindb (if b : bool then KdNode LMrr else KdMrr) st x = true ->
    op_ok (s_heap (fst st)) y (OVersion (ps "v1") (ps "1.0") p b) (Some x).
  Proof. intros Hp Hs Hy Hx. split_and!; [by apply scalar_strb_ok|by apply scalar_strb_ok|done|by apply scalar_strb_ok|exists k; by apply kindb_ok|exists x; split; [done|by apply kindb_ok]]. Qed.
  Definition ev3 : list event := [ENew 0%N (LbVl true []); ENew 1%N (LbNode LMrr); EOp 0%N [] (OVersion (ps "v1") (ps "1.0") (path (ps "d")) true) (Some 1%N) true].
  Definition ev9 : list event := ev3 ++ [EPublish 0%N (published_at W t4 (wref 0%N t3));
     ENew 2%N LbUs; ENew 3%N (LbVl false []); ERecord 4%N u1 (ps "v1") None None; EOp 3%N [] (OVersion (ps "v1") (ps "1.0") (path (ps "d")) false) (Some 4%N) true; EOp 2%N [] (OList u1) (Some 3%N) true].
  Lemma some_only (h : pystr) (P : pystr -> Prop) : P h -> forall h', Some h = Some h' -> P h'.
  Proof. by intros ? ? [= <-]. Qed.
  Lemma two_sound g r o1 o2 : refs_of g r !! TREE_VERSION_LIST = o1 -> refs_of g r !! UUID_SET = o2 ->
    (forall h, o1 = Some h -> complete (look_stored (objs_of g r) (KdVl true) (ref_of (ps "TreeVersionList") h))) ->
    (forall h, o2 = Some h -> complete (look_stored (objs_of g r) KdUs (ref_of (ps "UUIDSet") h))) -> sound g r.
  Proof. intros <- <- H1 H2 k ref (h & [(-> & Eh & ->)|(-> & Eh & ->)]); [by apply H1|by apply H2]. Qed.
  Definition at_top (n : nat) (st : pst * gstate) : Prop := hist W (take n ev9) st (roots_of (take n ev9)).
  Lemma st_write_to r es st st' R fuel l k ref : is_remote r = false -> r <> [] -> st' = next (write_out fuel l (Some r) false) st -> hist r es st R -> l ∈ R ->
    is_kind (s_heap (fst st)) l k -> k <> KdVl true -> out (write_out fuel l (Some r) false) st = Ok ref ->
    hist r (es ++ [EWrite l (wrote r st' k ref)]) st' R /\ complete (wrote r st' k ref).
  Proof. intros ?? -> ????. by apply st_write. Qed.
  Lemma t10_is : t10 = next (write_out 9 2%N (Some W) false) t9.
  Proof. reflexivity. Qed.
  Example C45_case_sound : sound (snd t10) W /\ refs_of (snd t10) W !! TREE_VERSION_LIST = Some h_tvl /\ refs_of (snd t10) W !! UUID_SET = Some h_us /\
    sound (snd t4) W /\ refs_of (snd t4) W !! UUID_SET = None /\ heap_ok (fst t10).
  Proof.
    assert (B0 : at_top 0 t0) by apply hist_start, fresh_init.
    assert (B1 : at_top 1 t1) by (refine (st_new _ _ _ _ _ _ _ B0 makes_tree_version_list _); vmr).
    assert (B2 : at_top 2 t2) by (refine (st_new _ _ _ _ _ _ _ B1 makes_dataset_tree _); vmr).
    assert (B3 : at_top 3 t3) by (refine (st_op _ _ t2 _ 9 0%N [] 0%N _ _ _ (Ok tt) B2 _ _ _ _ (call_version _ _ _ _ _ (ETree 1%N)) _);
      [inR|vmr|inR|apply ver_ok with (k := true); [apply path_ok|vmr|vmr|vmr]|vmr]).
    destruct (st_publish W _ t3 _ 9 0%N (wref 0%N t3) eq_refl ltac:(done) B3) as [B4 HC4]; [inR|kind|vmr|]. change (at_top 4 t4) in B4.
    assert (B5 : at_top 5 t5) by (refine (st_new _ _ _ _ _ _ _ B4 makes_uuid_set _); vmr).
    assert (B6 : at_top 6 t6) by (refine (st_new _ _ _ _ _ _ _ B5 makes_version_list _); vmr).
    assert (B7 : at_top 7 t7).
    { refine (hist_next _ _ _ _ _ _ B6 (do_record _ _ _ _ _ _ _ _ _ _ _ _ _ _ _ _ _ _ (x_next _ t6 (Ok 4%N) _)));
      [by apply uuid_okb_ok|by apply scalar_strb_ok|inR|inR|inR|done|done|vmr]. }
    assert (B8 : at_top 8 t8) by (refine (st_op _ _ t7 _ 9 3%N [] 3%N _ _ _ (Ok tt) B7 _ _ _ _ (call_version _ _ _ _ _ (EMrr 4%N)) _);
      [inR|vmr|inR|apply ver_ok with (k := false); [apply path_ok|vmr|vmr|vmr]|vmr]).
    assert (B9 : at_top 9 t9).
    { refine (st_op _ _ t8 _ 9 2%N [] 2%N _ _ _ (Ok tt) B8 _ _ _ _ (call_list _ _ _ _) _); [inR|vmr|inR| |vmr].
      split; [by apply uuid_okb_ok|]. split; [exists 3%N; split; [done|kind]|]. eexists _, _. split; vmr. }
    destruct (st_write_to W _ t9 t10 _ 9 2%N KdUs (wref 2%N t9) eq_refl ltac:(done) t10_is B9) as [B10 HC10]; [inR|kind|done|vmr|].
    fold t4 in HC4.
    assert (HS : objs_of (snd t4) W ⊆ objs_of (snd t10) W) by (apply store_inb_ok; vmr).
    assert (E1 : refs_of (snd t10) W !! TREE_VERSION_LIST = Some h_tvl) by vmr. assert (E2 : refs_of (snd t10) W !! UUID_SET = Some h_us) by vmr.
    assert (E3 : refs_of (snd t4) W !! TREE_VERSION_LIST = Some h_tvl) by vmr. assert (E4 : refs_of (snd t4) W !! UUID_SET = None) by vmr.
    assert (Q1 : Ref (JStr (ps "TreeVersionList")) (r_loc (wref 0%N t3)) = ref_of (ps "TreeVersionList") h_tvl) by vmr.
    assert (Q2 : wref 2%N t9 = ref_of (ps "UUIDSet") h_us) by vmr.
    unfold published_at in HC4. rewrite Q1 in HC4. unfold wrote in HC10. rewrite Q2 in HC10.
    split; [|split; [done|split; [done|split; [|split; [done|]]]]].
    - apply (two_sound _ _ _ _ E1 E2); [apply some_only; exact (complete_grows _ _ _ _ HS HC4)|apply some_only; exact HC10].
    - apply (two_sound _ _ _ _ E3 E4); [apply some_only; exact HC4|done].
    - destruct (HistoryFacts.run_history W eq_refl ltac:(done) _ _ _ _ B10) as [HH _]. apply HH.
  Qed.
End Case.
