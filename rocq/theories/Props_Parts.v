(** Property theorems: the parts of C21, C34, C46, C47, C49, C50 and C51 that hold. *)
From Verif Require Import Base Path Json Spec_Json Refs Meta Spec_Meta GitText Git Spec_Store State BlobCache ObjRef Objects Spec_Objects Spec_Look Spec_Heap
  Spec_Write Spec_Content Spec_Outcome Spec_Parts TreeEditFacts ContentCase OutcomeCase PartCase PartFacts Props_Write Props_Content Props_Session.

(** C21: after any sequence of [set_version_list] calls on a loaded UUID set, the
    set is the finite map of the last list set for each identifier.  For sets that
    are not loaded it is false (C21_set_on_unloaded_refuted). *)
Theorem C21_map_partial : forall `{Env} (l : loc) (hx : hdr) (us : pydict uuid loc) (calls : list (uuid * loc)) (s : pst) (g : gstate),
  s_heap s !! l = Some (Obj hx (BUset us)) -> h_mapped hx = true -> NoDup (dkeys us) ->
  exists s', exec (set_lists l calls s) g = ((Ok tt, s'), g) /\ (forall x, x <> l -> s_heap s' !! x = s_heap s !! x) /\
  forall fuel2 g2, exists ids, exec (uuids fuel2 l s') g2 = ((Ok ids, s'), g2) /\ NoDup ids /\
    (forall u, In u ids <-> last_list calls u (dget us u) <> None) /\
    forall u, match last_list calls u (dget us u) with
      | None => exec (get_version_list fuel2 l u s') g2 = ((Err KeyError, s'), g2)
      | Some x => exec (get_version_list fuel2 l u s') g2 = exec ((read_in fuel2 x ;;; mret x) s') g2 /\
          forall o, s_heap s' !! x = Some o -> h_mapped (o_hdr o) = true -> exec (get_version_list fuel2 l u s') g2 = ((Ok x, s'), g2)
      end.
Proof. exact @C21_lemma. Qed.
Print Assumptions C21_map_partial.

(** C34: a write to [d] (whatever its outcome) does no harm to objects that share
    nothing with the written one: they are tidy as before, and when they are
    written to [r], what the write returns leads to the content they have had.
    If [d] is [r], this needs that the first write left no blob cache behind; a
    failed write of a file tree leaves one (C34_cache_left_behind_refuted). *)
Theorem C34_others_partial : forall `{Env} (d r : pystr), d <> [] -> r <> [] -> is_remote r = false ->
  forall (fuel1 : nat) (x : loc) (force1 : bool) (m1 : M pst reference) (s : pst) (g : gstate) (a : res reference) (s1 : pst) (g1 : gstate) (l : loc) (o : obj),
  writes fuel1 x (Some d) force1 m1 -> caches_ok s -> dget (s_caches s) r = None -> tidy (objs_of g r) r s l -> apart (s_heap s) l x ->
  s_heap s !! l = Some o -> kind_of (o_body o) <> KdVl true -> exec (m1 s) g = ((a, s1), g1) -> (d = r -> dget (s_caches s1) r = None) ->
  (caches_ok s1 /\ dget (s_caches s1) r = None /\ tidy (objs_of g1 r) r s1 l) /\
  forall fuel2 force2 m2 ref s2 g2, writes fuel2 l (Some r) force2 m2 -> exec (m2 s1) g1 = ((Ok ref, s2), g2) ->
  forall s3 g3 fuel3 fuel4 p, heap_ok s3 -> objs_of g2 r ⊆ objs_of g3 r ->
  exists lb, fst (fst (exec (visit fuel3 l p s) g)) = Ok lb /\
             fst (fst (exec ((mlet b <- object_at (kind_of (o_body o)) r ref; visit fuel4 b p) s3) g3)) = Ok lb.
Proof. exact @C34_lemma. Qed.
Print Assumptions C34_others_partial.

(** C46: in a tree whose parts are loaded on demand, the run is recorded in the
    metadata at the path and nothing else changes; without metadata there the call
    fails and nothing changes (C46_new_path_refuted). *)
Theorem C46_recorded_partial : forall `{Env} (r : pystr), is_remote r = false -> r <> [] ->
  forall (fuel : nat) (g : gstate) (s : pst) (l : loc) (p : ppath) (ru : run) (res : Base.res unit) (s' : pst) (g' : gstate),
  tidy (objs_of g r) r s l -> one_realm r (s_heap s) l -> run_ok ru ->
  exec (filetree_add_run fuel l p ru s) g = ((res, s'), g') ->
  let q := map KName (all_parts p) in let c := look (objs_of g r) (s_heap s) l in let c' := look (objs_of g r) (s_heap s') l in
  g' = g /\ tidy (objs_of g r) r s' l /\ one_realm r (s_heap s') l /\ (forall q', q' <> q -> c' q' = c q') /\
  match c q with
  | Seen (LbMeta m) => match add_extractor_run m ru with Ok m' => res = Ok tt /\ c' q = Seen (LbMeta m') | Err e => res = Err e /\ c' q = c q end
  | Seen _ => res = Err AssertionError /\ c' q = c q
  | _ => res = Err AttributeError /\ c' q = c q
  end.
Proof. exact @C46_lemma. Qed.
Print Assumptions C46_recorded_partial.

(** C47: for objects that live in one realm, [is_saved_on] answers yes only if the
    repository holds the current content under the reference of the object. *)
Theorem C47_saved_partial : forall `{Env} (r : pystr), r <> [] -> is_remote r = false ->
  forall (fuel : nat) (l : loc) (s : pst) (g : gstate) (o : obj) (s1 : pst) (g1 : gstate), tidy (objs_of g r) r s l -> s_heap s !! l = Some o ->
  exec (is_saved_on fuel l (Some r) s) g = ((Ok true, s1), g1) ->
  exists ref, h_ref (o_hdr o) = Some ref /\
  forall s2 g2 fuel1 fuel2 p, heap_ok s2 -> objs_of g r ⊆ objs_of g2 r ->
  exists lb, fst (fst (exec (visit fuel1 l p s) g)) = Ok lb /\
             fst (fst (exec ((mlet a <- object_at (kind_of (o_body o)) r ref; visit fuel2 a p) s2) g2)) = Ok lb.
Proof. exact @C47_lemma. Qed.
Print Assumptions C47_saved_partial.

(** C50: after loading, the length of a version list is the number of its records,
    and the runs of a metadata object are those that it shows, however much was
    loaded before. *)
Theorem C50_len_partial : forall `{Env} (r : pystr), r <> [] -> is_remote r = false ->
  forall (fuel : nat) (l : loc) (s : pst) (g : gstate) (t : bool) (rs : list (pystr * ppath * pystr * bool)),
  tidy (objs_of g r) r s l -> fst (fst (exec (visit fuel l [] s) g)) = Ok (Seen (LbVl t rs)) ->
  forall fuel2, fst (fst (exec (loaded_len fuel2 l s) g)) = Ok (length rs).
Proof. exact @C50_len_lemma. Qed.
Print Assumptions C50_len_partial.
Theorem C50_runs_partial : forall `{Env} (r : pystr), r <> [] -> is_remote r = false ->
  forall (fuel : nat) (l : loc) (s : pst) (g : gstate) (m : metadata),
  tidy (objs_of g r) r s l -> fst (fst (exec (visit fuel l [] s) g)) = Ok (Seen (LbMeta m)) ->
  forall fuel2, fst (fst (exec (loaded_runs fuel2 l s) g)) = Ok m.
Proof. exact @C50_runs_lemma. Qed.
Print Assumptions C50_runs_partial.

(** C51, C47, C49: what was just written can be purged, if all records have
    dataset level metadata (otherwise C51_purge_refuted) and it is no tree version
    list (C49_unusable_after_purge_refuted); it is not loaded then, and shows what
    it showed before the write. *)
Theorem C51_purge_partial : forall `{Env} (r : pystr), r <> [] -> is_remote r = false ->
  forall (fuel : nat) (l : loc) (force : bool) (m : M pst reference) (s : pst) (g : gstate) (ref : reference) (s' : pst) (g' : gstate) (o : obj),
  writes fuel l (Some r) force m -> caches_ok s -> dget (s_caches s) r = None ->
  tidy (objs_of g r) r s l -> one_realm r (s_heap s) l -> s_heap s !! l = Some o -> kind_of (o_body o) <> KdVl true -> exec (m s) g = ((Ok ref, s'), g') ->
  forall (fuel2 : nat) (g2 : gstate), with_metadata (look (objs_of g r) (s_heap s) l) -> shallow fuel2 (s_heap s) l -> objs_of g' r ⊆ objs_of g2 r ->
  exists s2 o2, exec (purge fuel2 l s') g2 = ((Ok tt, s2), g2) /\ s_heap s2 !! l = Some o2 /\ h_mapped (o_hdr o2) = false /\
    tidy (objs_of g2 r) r s2 l /\ one_realm r (s_heap s2) l /\
    forall fuel1 fuel3 p, exists lb, fst (fst (exec (visit fuel1 l p s) g)) = Ok lb /\ fst (fst (exec (visit fuel3 l p s2) g2)) = Ok lb.
Proof. exact @C51_lemma. Qed.
Print Assumptions C51_purge_partial.

Section Case.
  Local Existing Instance check_env.
  (** two lists for one identifier, one for another one *)
  Definition u3 : uuid := ps "ffffffffffffffffffffffffffffffff".
  Definition su : pst := after (mlet us <- new_uuid_set; new_version_list ;;; new_version_list ;;; new_version_list) init_pst gw.
  Definition calls_u : list (uuid * loc) := [(u0, 1%N); (u3, 2%N); (u0, 3%N)].
  Example C21_case_hypotheses : exists hx, s_heap su !! 0%N = Some (Obj hx (BUset [])) /\ h_mapped hx = true.
  Proof. eexists. split; vm_compute; reflexivity. Qed.
  Example C21_case : let s' := after (set_lists 0%N calls_u) su gw in
    fst (fst (exec (uuids 9 0%N s') gw)) = Ok [u0; u3] /\ fst (fst (exec (get_version_list 9 0%N u0 s') gw)) = Ok 3%N /\
    fst (fst (exec (get_version_list 9 0%N (ps "0") s') gw)) = Err KeyError.
  Proof. split_and!; vm_compute; reflexivity. Qed.

  (** the set of C24 is written, after the write of another, empty set failed *)
  Definition s8 : pst := after new_uuid_set s5 gw.
  Definition n8 : loc := s_next s5.
  Lemma s8_built x hx m : s_heap s8 !! x = Some (Obj hx (BMeta m)) -> built m.
  Proof.
    unfold s8, after, new_uuid_set. rewrite TreeEditFacts.x_new. cbn [fst snd s_heap]. intros [[_ He]|[_ Hx]]%lookup_insert_Some; [done|]. by eapply s5_built.
  Qed.
  Definition w8 : M pst reference := write_out 9 n8 (Some W) false.
  Example C34_case_hypotheses : writes 9 n8 (Some W) false w8 /\ caches_ok s8 /\ dget (s_caches s8) W = None /\ tidy (objs_of gw W) W s8 0%N /\ apart (s_heap s8) 0%N n8 /\
    (exists o, s_heap s8 !! 0%N = Some o /\ kind_of (o_body o) = KdUs) /\ dget (s_caches (after w8 s8 gw)) W = None.
  Proof.
    split; [constructor|]. split; [|split; [vm_compute; reflexivity|split; [apply tidy_check; [vm_compute; reflexivity|exact s8_built]|split; [apply lone_check; vm_compute; reflexivity|split; [eexists; split; vm_compute; reflexivity|vm_compute; reflexivity]]]]].
    unfold caches_ok. replace (s_caches s8) with (@nil (pystr * bcache)) by (vm_compute; reflexivity). split; [apply NoDup_nil_2|by intros ? ? []].
  Qed.
  Example C34_case : fst (fst (exec (w8 s8) gw)) = Err RuntimeError /\
    (let s := after w8 s8 gw in let g := git_after w8 s8 gw in fst (fst (exec (wr s) g)) = Ok us_ref /\
     seen_as init_pst (git_after wr s g) (object_at KdUs W us_ref) = seen_as s5 gw (mret 0%N)).
  Proof. split; [vm_compute; reflexivity|]. cbv zeta. split; vm_compute; reflexivity. Qed.

  (** a file tree, after it was written and purged *)
  Definition s9 : pst := after (mlet t <- new_file_tree; miter (fun n => mlet x <- new_metadata; metadata_add_run 9 x (run2 n) ;;; add_metadata 9 t (path n) x) [ps "a"; ps "d/f"]) init_pst gw.
  Definition wt : M pst reference := write_out 9 0%N (Some W) false.
  Definition s10 : pst := after wt s9 gw.
  Definition g10 : gstate := git_after wt s9 gw.
  Definition s11 : pst := after (purge 9 0%N) s10 g10.
  Lemma s9_built x hx m : s_heap s9 !! x = Some (Obj hx (BMeta m)) -> built m.
  Proof.
    intros Hx.
    assert (Hb : Forall (fun lo : loc * obj => match o_body (snd lo) with BMeta m => built m | _ => True end) (HeapCase.entries (s_heap s9))).
    { let e := eval vm_compute in (HeapCase.entries (s_heap s9)) in replace (HeapCase.entries (s_heap s9)) with e by (vm_compute; reflexivity).
      repeat (apply List.Forall_cons; [cbn [snd o_body]; first [exact I|apply (run2_built (ps "a")); [reflexivity|vm_compute; reflexivity]|
        apply (run2_built (ps "d/f")); [reflexivity|vm_compute; reflexivity]]|]).
      apply List.Forall_nil. }
    rewrite List.Forall_forall in Hb. apply HeapCase.entries_in in Hx. by apply (Hb _) in Hx.
  Qed.
  Example C51_case_hypotheses : writes 9 0%N (Some W) false wt /\ caches_ok s9 /\ dget (s_caches s9) W = None /\ tidy (objs_of gw W) W s9 0%N /\ one_realm W (s_heap s9) 0%N /\
    (exists o, s_heap s9 !! 0%N = Some o /\ kind_of (o_body o) <> KdVl true) /\ (exists ref, exec (wt s9) gw = ((Ok ref, s10), g10)) /\
    with_metadata (look (objs_of gw W) (s_heap s9) 0%N) /\ shallow 9 (s_heap s9) 0%N.
  Proof.
    split; [constructor|]. split; [|split; [vm_compute; reflexivity|split; [apply tidy_check; [vm_compute; reflexivity|exact s9_built]|split; [apply one_realm_check; vm_compute; reflexivity|split; [|split; [|split; [apply records_check; vm_compute; reflexivity|apply shallow_check; vm_compute; reflexivity]]]]]]].
    - unfold caches_ok. replace (s_caches s9) with (@nil (pystr * bcache)) by (vm_compute; reflexivity). split; [apply NoDup_nil_2|by intros ? ? []].
    - eexists. split; [vm_compute; reflexivity|done].
    - assert (H : match exec (wt s9) gw with ((Ok _, _), _) => true | _ => false end = true) by (vm_compute; reflexivity).
      revert H. unfold s10, g10, after, git_after. destruct (exec (wt s9) gw) as [[[ref|e] s'] g']; [|done]. intros _. by exists ref.
  Qed.
  (** the set of C24 has metadata in all records *)
  Example C51_case_records : with_metadata (look (objs_of gw W) (s_heap s5) 0%N) /\ shallow 9 (s_heap s5) 0%N /\ one_realm W (s_heap s5) 0%N.
  Proof. split; [apply records_check; vm_compute; reflexivity|split; [apply shallow_check; vm_compute; reflexivity|apply one_realm_check; vm_compute; reflexivity]]. Qed.
  Example C51_case : fst (fst (exec (purge 9 0%N s10) g10)) = Ok tt /\ option_map (fun o => h_mapped (o_hdr o)) (s_heap s11 !! 0%N) = Some false /\
    map (fun p => fst (fst (exec (visit 9 0%N p s11) g10))) [[]; [KName (ps "a")]; [KName (ps "d"); KName (ps "f")]; [KName (ps "e")]] =
    map (fun p => fst (fst (exec (visit 9 0%N p s9) gw))) [[]; [KName (ps "a")]; [KName (ps "d"); KName (ps "f")]; [KName (ps "e")]].
  Proof. split_and!; vm_compute; reflexivity. Qed.
  Example C46_case_hypotheses : tidy (objs_of g10 W) W s11 0%N /\ one_realm W (s_heap s11) 0%N /\ run_ok (run2 (ps "new")).
  Proof.
    destruct C51_case_hypotheses as (H1 & H2 & H3 & H4 & H5 & (o & H6 & H7) & (ref & H8) & H9 & H10).
    destruct (C51_purge_partial W ltac:(done) eq_refl 9 0%N false wt s9 gw ref s10 g10 o H1 H2 H3 H4 H5 H6 H7 H8 9 g10 H9 H10 ltac:(done)) as (s2 & o2 & E & _ & _ & Ht & Ho & _).
    assert (s11 = s2) as -> by (unfold s11, after; by rewrite E). split; [exact Ht|]. split; [exact Ho|].
    by apply run2_ok.
  Qed.
  Example C46_case : map (fun p => fst (fst (exec (filetree_add_run 9 0%N (path p) (run2 (ps "new")) s11) g10))) [ps "d/f"; ps "d"; ps "e"] = [Ok tt; Err AssertionError; Err AttributeError].
  Proof. vm_compute. reflexivity. Qed.

  (** the set of C24, just written; before the write and after a
      change of the metadata of d/f it is not saved *)
  Example C47_case_hypotheses : tidy (objs_of g6 W) W s6 0%N /\ (exists o, s_heap s6 !! 0%N = Some o) /\ fst (fst (exec (is_saved_on 9 0%N (Some W) s6) g6)) = Ok true.
  Proof. split; [exact (proj1 C25_case_hypotheses)|split; [eexists; vm_compute; reflexivity|vm_compute; reflexivity]]. Qed.
  Example C47_case : fst (fst (exec (is_saved_on 9 0%N (Some W) s5) gw)) = Ok false /\
    fst (fst (exec (metadata_add_run 9 5%N (run2 (ps "new")) s6) g6)) = Ok tt /\
    fst (fst (exec (is_saved_on 9 0%N (Some W) (after (metadata_add_run 9 5%N (run2 (ps "new"))) s6 g6)) g6)) = Ok false.
  Proof. split_and!; vm_compute; reflexivity. Qed.
End Case.
