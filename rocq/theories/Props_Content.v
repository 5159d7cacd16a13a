(** Property theorems about content: C23, C24, C25, C51. *)
From Verif Require Import Base Path Json Spec_Json Refs Meta Spec_Meta GitText Git Spec_Store State BlobCache ObjRef Objects Spec_Objects Spec_Look Spec_Heap
  Spec_Write Spec_Content ReadBackFacts PurgeFacts ContentCase Props_Write Props_Findings.

(** C23: a purge runs no git command; every object it unloads had nothing loaded
    below it that was not written; it succeeds only if that holds for the whole
    graph, and ValueError means that it does not hold.  The only other error, apart from
    chains of loaded objects as long as the recursion limit, is that of a record
    without dataset level metadata. *)
Theorem C23_purge : forall `{Env} (fuel : nat) (l : loc) (s : pst) (g : gstate) (res : Base.res unit) (s' : pst) (g' : gstate),
  heap_ok s -> is_Some (s_heap s !! l) -> exec (purge fuel l s) g = ((res, s'), g') ->
  g' = g /\
  (forall y o, s_heap s !! y = Some o -> s_heap s' !! y = Some o \/
     (forall z, loaded_below (s_heap s) y z -> ~ unsaved (s_heap s) z) /\ exists o', s_heap s' !! y = Some o' /\ o_hdr o' = hd_mapped false (o_hdr o)) /\
  match res with
  | Ok _ => forall y, loaded_below (s_heap s) l y -> ~ unsaved (s_heap s) y
  | Err ValueError => exists y, loaded_below (s_heap s) l y /\ unsaved (s_heap s) y
  | Err AttributeError => exists y x i v t, loaded_below (s_heap s) l y /\ s_heap s !! y = Some (Obj x (BMrr i v None t)) /\ h_mapped x = true
  | Err e => e = RecursionError /\ exists p, length p = fuel /\ is_Some (reach (s_heap s) l p)
  end.
Proof. exact @C23_lemma. Qed.
Print Assumptions C23_purge.

(** C24: what is written can be read back, now or later, by the same or another
    process ([s2], [g2]): at every path of keys both show the same. *)
Theorem C24_read_back : forall `{Env} (r : pystr), r <> [] -> is_remote r = false ->
  forall (fuel : nat) (l : loc) (force : bool) (m : M pst reference) (s : pst) (g : gstate) (ref : reference) (s' : pst) (g' : gstate) (o : obj),
  writes fuel l (Some r) force m -> caches_ok s -> dget (s_caches s) r = None ->
  tidy (objs_of g r) r s l -> s_heap s !! l = Some o -> kind_of (o_body o) <> KdVl true -> exec (m s) g = ((Ok ref, s'), g') ->
  forall (s2 : pst) (g2 : gstate) (fuel1 fuel2 : nat) (p : list key), heap_ok s2 -> objs_of g' r ⊆ objs_of g2 r ->
  exists lb, fst (fst (exec (visit fuel1 l p s) g)) = Ok lb /\
             fst (fst (exec ((mlet a <- object_at (kind_of (o_body o)) r ref; visit fuel2 a p) s2) g2)) = Ok lb.
Proof. exact @C24_lemma. Qed.
Print Assumptions C24_read_back.
(** The written object itself shows what it showed, and can be written and read
    again. *)
Theorem C24_write_keeps_content : forall `{Env} (r : pystr), r <> [] -> is_remote r = false ->
  forall (fuel : nat) (l : loc) (force : bool) (m : M pst reference) (s : pst) (g : gstate) (ref : reference) (s' : pst) (g' : gstate) (o : obj),
  writes fuel l (Some r) force m -> caches_ok s -> dget (s_caches s) r = None ->
  tidy (objs_of g r) r s l -> s_heap s !! l = Some o -> kind_of (o_body o) <> KdVl true -> exec (m s) g = ((Ok ref, s'), g') ->
  tidy (objs_of g' r) r s' l /\ all_marked r (s_heap s') l /\ caches_ok s' /\ dget (s_caches s') r = None /\
  forall fuel1 fuel2 p, exists lb, fst (fst (exec (visit fuel1 l p s) g)) = Ok lb /\ fst (fst (exec (visit fuel2 l p s') g')) = Ok lb.
Proof. exact @C24_keeps_lemma. Qed.
Print Assumptions C24_write_keeps_content.
(** The reference of a tree version list names the wrong class (C49); its
    location leads to the content. *)
Theorem C24_tree_version_list : forall `{Env} (r : pystr), r <> [] -> is_remote r = false ->
  forall (fuel : nat) (l : loc) (force : bool) (s : pst) (g : gstate) (ref : reference) (s' : pst) (g' : gstate) (o : obj),
  caches_ok s -> dget (s_caches s) r = None ->
  tidy (objs_of g r) r s l -> s_heap s !! l = Some o -> kind_of (o_body o) = KdVl true -> exec (write_out fuel l (Some r) force s) g = ((Ok ref, s'), g') ->
  forall (s2 : pst) (g2 : gstate) (fuel1 fuel2 : nat) (p : list key), heap_ok s2 -> objs_of g' r ⊆ objs_of g2 r ->
  exists lb, fst (fst (exec (visit fuel1 l p s) g)) = Ok lb /\
             fst (fst (exec ((mlet a <- object_at (KdVl true) r (Ref (JStr (ps "TreeVersionList")) (r_loc ref)); visit fuel2 a p) s2) g2)) = Ok lb.
Proof. exact @C24_tvl_lemma. Qed.
Print Assumptions C24_tree_version_list.

(** C25: loading and unloading any part, successful or not, changes nothing that
    can be seen. *)
Theorem C25_transparent : forall `{Env} (r : pystr) (fuel : nat) (l : loc) (p : list key) (x : loc) (m : M pst unit) (s : pst) (g : gstate)
    (res : Base.res unit) (s' : pst) (g' : gstate),
  is_remote r = false -> r <> [] -> tidy (objs_of g r) r s l -> one_realm r (s_heap s) l -> reach (s_heap s) l p = Some x ->
  handles fuel x m -> exec (m s) g = ((res, s'), g') ->
  g' = g /\ tidy (objs_of g r) r s' l /\ one_realm r (s_heap s') l /\
  forall fuel1 fuel2 q, exists lb, fst (fst (exec (visit fuel1 l q s) g)) = Ok lb /\ fst (fst (exec (visit fuel2 l q s') g')) = Ok lb.
Proof. exact @C25_lemma. Qed.
Print Assumptions C25_transparent.

Section Case.
  Local Existing Instance check_env.
  (** a UUID set with one version list with two records, both with a file tree *)
  Definition u0 : uuid := ps "0123456789abcdef0123456789abcdef".
  Definition s5 : pst := after (
    mlet us <- new_uuid_set; mlet vl <- new_version_list;
    mlet e1 <- record (ps "v1") [ps "a"; ps "d/f"]; mlet e2 <- record (ps "v2") [ps "b"];
    set_versioned_element 9 vl (ps "v1") (ps "0") (path []) (EMrr e1) ;;;
    set_versioned_element 9 vl (ps "v2") (ps "1") (path (ps "x/y")) (EMrr e2) ;;;
    set_version_list us u0 vl) init_pst gw.
  (** all metadata there comes from one call *)
  Lemma run2_built c m : scalar_strb c = true -> add_extractor_run [] (run2 c) = Ok m -> built m.
  Proof.
    intros Hc Hm. apply scalar_strb_ok in Hc. eapply built_run; [apply built_empty| |exact Hm].
    split_and!; try by apply scalar_strb_ok. all: cbn; repeat split; try done; try by apply scalar_strb_ok.
    apply NoDup_nil_2.
  Qed.
  Lemma s5_built x hx m : s_heap s5 !! x = Some (Obj hx (BMeta m)) -> built m.
  Proof.
    intros Hx.
    assert (Hb : Forall (fun lo : loc * obj => match o_body (snd lo) with BMeta m => built m | _ => True end) (HeapCase.entries (s_heap s5))).
    { let e := eval vm_compute in (HeapCase.entries (s_heap s5)) in replace (HeapCase.entries (s_heap s5)) with e by (vm_compute; reflexivity).
      repeat (apply List.Forall_cons; [cbn [snd o_body]; first [exact I|apply (run2_built (ps "v1")); [reflexivity|vm_compute; reflexivity]|
        apply (run2_built (ps "v2")); [reflexivity|vm_compute; reflexivity]|apply (run2_built (ps "a")); [reflexivity|vm_compute; reflexivity]|
        apply (run2_built (ps "b")); [reflexivity|vm_compute; reflexivity]|apply (run2_built (ps "d/f")); [reflexivity|vm_compute; reflexivity]]|]).
      apply List.Forall_nil. }
    rewrite List.Forall_forall in Hb. apply HeapCase.entries_in in Hx. by apply (Hb _) in Hx.
  Qed.
  Lemma s5_tidy O : tidy O W s5 0%N.
  Proof. apply tidy_check; [vm_compute; reflexivity|]. exact s5_built. Qed.
  Definition wr : M pst reference := write_out 9 0%N (Some W) false.
  Definition s6 : pst := after wr s5 gw.
  Definition g6 : gstate := git_after wr s5 gw.
  Definition us_ref : reference := match exec (wr s5) gw with ((Ok ref, _), _) => ref | _ => ref_of [] [] end.
  Example C24_case_hypotheses : caches_ok s5 /\ dget (s_caches s5) W = None /\ tidy (objs_of gw W) W s5 0%N /\
    (exists o, s_heap s5 !! 0%N = Some o /\ kind_of (o_body o) = KdUs) /\ exec (wr s5) gw = ((Ok us_ref, s6), g6) /\ objs_of gw W = ∅.
  Proof.
    split_and!; [|vm_compute; reflexivity|apply s5_tidy| | |vm_compute; reflexivity].
    - unfold caches_ok. replace (s_caches s5) with (@nil (pystr * bcache)) by (vm_compute; reflexivity). split; [apply NoDup_nil_2|by intros ? ? []].
    - eexists. split; vm_compute; reflexivity.
    - assert (H : match exec (wr s5) gw with ((Ok _, _), _) => true | _ => false end = true) by (vm_compute; reflexivity).
      revert H. unfold us_ref, s6, g6, after, git_after. destruct (exec (wr s5) gw) as [[[ref|e] s'] g']; done.
  Qed.
  (** the metadata of d/f in the first record, the records, and a file that is not
      there, before the write and read back in a new process *)
  Definition q_df : list key := [KUuid u0; KVer (ps "v1") (path []); KTree; KName (ps "d"); KName (ps "f")].
  Definition q_vl : list key := [KUuid u0].
  Definition q_no : list key := [KUuid u0; KVer (ps "v2") (path (ps "x/y")); KTree; KName (ps "c")].
  Definition seen_as (s : pst) (g : gstate) (a : M pst loc) : list (res seen) :=
    map (fun p => fst (fst (exec ((mlet l <- a; visit 9 l p) s) g))) [q_df; q_vl; q_no].
  Example C24_case : seen_as s5 gw (mret 0%N) = seen_as init_pst g6 (object_at KdUs W us_ref) /\
    seen_as s5 gw (mret 0%N) =
      [match add_extractor_run [] (run2 (ps "d/f")) with Ok m => Ok (Seen (LbMeta m)) | Err e => Err e end;
       Ok (Seen (LbVl false [(ps "v1", path [], ps "0", false); (ps "v2", path (ps "x/y"), ps "1", false)])); Ok Absent].
  Proof. split; vm_compute; reflexivity. Qed.

  (** the same set after the write and after it was purged; then the tree of the
      first record is loaded, and the set purged again *)
  Definition s7 : pst := after (purge 9 0%N) s6 g6.
  Example C25_case_hypotheses : tidy (objs_of g6 W) W s6 0%N /\ one_realm W (s_heap s6) 0%N /\
    match exec (purge 9 0%N s6) g6 with ((Ok _, _), _) => True | _ => False end.
  Proof.
    destruct C24_case_hypotheses as (H1 & H2 & H3 & (o & H4 & H5) & H6 & _). split_and!.
    - assert (Hk : kind_of (o_body o) <> KdVl true) by (rewrite H5; done).
      by destruct (C24_write_keeps_content W ltac:(done) eq_refl 9 0%N false wr s5 gw us_ref s6 g6 o (writes_any _ _ _ _) H1 H2 H3 H4 Hk H6) as (Ht & _).
    - apply one_realm_check. vm_compute. reflexivity.
    - vm_compute. done.
  Qed.
  Example C25_case : seen_as s7 g6 (mret 0%N) = seen_as s5 gw (mret 0%N) /\
    seen_as (after (visit 9 0%N q_df ;;; purge 9 0%N) s7 g6) g6 (mret 0%N) = seen_as s5 gw (mret 0%N) /\
    option_map (fun o => h_mapped (o_hdr o)) (s_heap s7 !! 0%N) = Some false.
  Proof. split_and!; vm_compute; reflexivity. Qed.
  (** a purge of the set while the metadata of d/f is changed fails *)
  Example C23_case : let s := after (metadata_add_run 9 5%N (run2 (ps "new"))) s6 g6 in
    reach (s_heap s6) 0%N q_df = Some 5%N /\ fst (fst (exec (metadata_add_run 9 5%N (run2 (ps "new")) s6) g6)) = Ok tt /\
    (match fst (fst (exec (purge 9 0%N s) g6)) with Err e => Some e | _ => None end,
     option_map (fun o => h_mapped (o_hdr o)) (s_heap (after (purge 9 0%N) s g6) !! 0%N)) = (Some ValueError, Some true).
  Proof. split_and!; vm_compute; reflexivity. Qed.

  (** C51: the purge of a record that was written fails with another error if it
      has no dataset level metadata (metadatarootrecord.py 47-48), *)
  Theorem C51_purge_refuted : exists g : gstate,
    script g (mlet t <- new_file_tree; mlet m <- some_metadata (ps "x"); add_metadata 9 t (path (ps "f")) m ;;;
              mlet mrr <- new_mrr (Some u1) (Some (ps "v")) None (Some t);
              write_out 9 mrr (Some A) false ;;;
              attempt (purge 9 mrr)) = Ok (Some AttributeError).
  Proof. exists gab. vm_compute. reflexivity. Qed.
  Print Assumptions C51_purge_refuted.
  (** and so does the copy of such a record. *)
  Theorem C51_deepcopy_refuted : exists g : gstate,
    script g (mlet t <- new_file_tree; mlet m <- some_metadata (ps "x"); add_metadata 9 t (path (ps "f")) m ;;;
              mlet mrr <- new_mrr (Some u1) (Some (ps "v")) None (Some t);
              attempt (deepcopy 9 mrr (Some B) (path []))) = Ok (Some AttributeError).
  Proof. exists gab. vm_compute. reflexivity. Qed.
  Print Assumptions C51_deepcopy_refuted.
End Case.
