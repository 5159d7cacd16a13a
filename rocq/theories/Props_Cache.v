(** Property theorems about the blob cache (C33) and the backend lock (C40). *)
From Verif Require Import Base BaseFacts Json Refs GitText Spec_Git GitTextFacts Git Spec_Store Rely State BlobCache Spec_Cache
  CacheFacts Lock Spec_Flush Spec_Lock BlockFacts.

(** C33: batched writing succeeds exactly if immediate writing does, with the same
    ids and the same repository in the end, whatever the size of the cache. *)
Theorem C33_batched_is_immediate : forall `{Env} (n : pystr) (max : N) (blobs : list pystr) (g : gstate)
    (hs : list pystr) (g' : gstate),
  is_Some (local_repo g n) ->
  (exists c', exec (write_batched n blobs (new_cache n max)) g = ((Ok hs, c'), g')) <->
  (exists s', exec (write_each n blobs tt) g = ((Ok hs, s'), g')).
Proof. exact @C33_equivalent_lemma. Qed.
Print Assumptions C33_batched_is_immediate.
(** The ids are those of the blobs, all of which are stored by the flush, which
    leaves none pending.  It fails only if a blob has no UTF-8 encoding or if
    git refuses to write. *)
Theorem C33_all_written : forall `{Env} (n : pystr) (max : N) (blobs : list pystr) (g : gstate),
  is_Some (local_repo g n) ->
  let '(r, c', g') := exec (write_batched n blobs (new_cache n max)) g in
  match r with
  | Ok hs => hs = map blob_id blobs /\ bc_objs c' = [] /\
             forall b, b ∈ blobs -> objs_of g' n !! blob_id b = Some (Blob (utf8_bytes b))
  | Err e => (e = UnicodeError /\ ~ Forall scalar_str blobs) \/
             (e = RuntimeError /\ exists d s' g'', d `prefix_of` blobs /\
                exec (write_each n d tt) g = ((Err RuntimeError, s'), g''))
  end.
Proof. exact @C33_batched_lemma. Qed.
Print Assumptions C33_all_written.
(** Never more than the given number of blobs are pending. *)
Theorem C33_bounded : forall `{Env} (n : pystr) (max : N) (blobs : list pystr) (g : gstate),
  is_Some (local_repo g n) -> (0 < max)%N ->
  let '(_, c', _) := exec (mmap (cache_blob n) blobs (new_cache n max)) g in
  (N.of_nat (length (bc_objs c')) <= max)%N.
Proof. exact @C33_bound_lemma. Qed.
Print Assumptions C33_bounded.

(** C40: for all nestings of blocks, [f] tells which blocks are open. *)
Theorem C40_lock_reentrant : forall `{Env} (f : gset pystr -> cmd) (b : block),
  (forall O, lock_free (f O) = true) ->
  forall (s : pst) (g : gstate), locks_counted (g_locks g) s ->
  let '(r, s', g') := exec (run_block f (g_locks g) b s) g in
  r = block_result b /\ g_locks g' = g_locks g /\ locks_counted (g_locks g') s' /\
  (forall m, lock_counter s' m = lock_counter s m) /\
  Forall (lock_event f) (events (run_block f (g_locks g) b s) g).
Proof. exact @block_lemma. Qed.
Print Assumptions C40_lock_reentrant.

Section Case.
  Local Existing Instance real_env.
  Definition rn : pystr := ps "/r".
  Definition gn : gstate := GState {[ rn := empty_repo ]} ∅.
  (** four blobs, one twice, with a cache for two; the third call flushes *)
  Definition blobs4 : list pystr := [ps "a"; [0xE9]%N; ps "a"; []].
  Example C33_case : let '(r, c', g') := exec (write_batched rn blobs4 (new_cache rn 2)) gn in
    (r, bc_objs c', length (map_to_list (objs_of g' rn))) =
    (Ok [ps "2e65efe2a145dda7ee51d1741299f848e5bf752e"; ps "4b04fff51468d8ab5201ab02b725dc477bc7cb45";
         ps "2e65efe2a145dda7ee51d1741299f848e5bf752e"; ps "e69de29bb2d1d6434b8b29ae775ad8c2e48c5391"], [], 3).
  Proof. vm_compute. reflexivity. Qed.
  Example C33_case_pending : let '(_, c', g') := exec (mmap (cache_blob rn) blobs4 (new_cache rn 2)) gn in
    (length (bc_objs c'), length (map_to_list (objs_of g' rn))) = (2, 2).
  Proof. vm_compute. reflexivity. Qed.
  (** A cache of size 0 is not bounded. *)
  Theorem C33_bounded_size_zero_refuted : exists blobs : list pystr,
    let '(r, c', _) := exec (mmap (cache_blob rn) blobs (new_cache rn 0)) gn in
    (exists hs, r = Ok hs) /\ (0 < N.of_nat (length (bc_objs c')))%N.
  Proof.
    exists [ps "a"; ps "b"; ps "c"].
    assert (E : (let '(r, c', _) := exec (mmap (cache_blob rn) [ps "a"; ps "b"; ps "c"] (new_cache rn 0)) gn in
                 match r with Ok _ => (length (bc_objs c') =? 3)%nat | Err _ => false end) = true) by (vm_compute; reflexivity).
    destruct (exec _ gn) as [[[hs|e] c'] g']; [|done]. apply Nat.eqb_eq in E. rewrite E. split; [by exists hs|lia].
  Qed.
  Print Assumptions C33_bounded_size_zero_refuted.

  (** two realms, nested twice, left by exceptions *)
  Definition nested : block :=
    Catch (Locked (ps "/a") (Seq Work (Locked (ps "/b") (Seq (Locked (ps "/a") (Seq Work (Raise ValueError))) Work)))) Work.
  Definition tell (O : gset pystr) : cmd := PathExists (ps "/" ++ concat (elements O)).
  Example C40_case_start : (forall O, lock_free (tell O) = true) /\ locks_counted (g_locks gn) init_pst.
  Proof. split; [done|]. intros m. cbn. split; [set_solver|lia]. Qed.
  Example C40_case : (fst (fst (exec (run_block tell ∅ nested init_pst) gn)),
      map (fun ev => (elements (g_locks (fst ev)), snd ev)) (events (run_block tell ∅ nested init_pst) gn)) =
    (Ok tt,
     [([], LockAcquire (ps "/a")); ([ps "/a"], PathExists (ps "//a"));
      ([ps "/a"], LockAcquire (ps "/b")); ([ps "/a"; ps "/b"], PathExists (ps "//a/b"));
      ([ps "/a"; ps "/b"], LockRelease (ps "/b")); ([ps "/a"], LockRelease (ps "/a")); ([], PathExists (ps "/"))]).
  Proof. vm_compute. reflexivity. Qed.
End Case.
