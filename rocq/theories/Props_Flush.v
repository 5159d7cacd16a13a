(** Property theorems about object references: C37, C38, C39, C42. *)
From Verif Require Import Base BaseFacts Json Refs GitText Spec_Git GitTextFacts Git Spec_Store Rely State Lock TreeUpd ObjRef Spec_Tree
  Spec_ObjRef Spec_Flush FlushFacts CaseFacts.

(** C37: any number of rounds of recording and flushing references. *)
Theorem C37_flushed_not_lost : forall `{Env} (n : pystr) (rounds : list (list (etype * pystr))) (s : pst) (g : gstate),
  begin_ok n s g -> Forall ids_ok rounds ->
  let '(r, s', g') := exec (flush_rounds n rounds s) g in
  good g' /\ refs_readable g' n /\ locks_counted (g_locks g') s' /\ (forall m, lock_counter s' m = lock_counter s m) /\
  (forall t id, in_refs g n t id -> in_refs g' n t id) /\
  (forall t id, (t, id) ∈ s_orefs s -> (t, id) ∈ s_orefs s' \/ in_refs g' n t id) /\
  (r = Ok tt -> rounds <> [] -> s_orefs s' = [] /\
     (forall t id, (t, id) ∈ s_orefs s -> in_refs g' n t id) /\
     (forall t id o, o ∈ rounds -> (t, id) ∈ o -> in_refs g' n t id)).
Proof. exact @C37_lemma. Qed.
Print Assumptions C37_flushed_not_lost.

(** C38: every state between two commands. *)
Theorem C38_no_gap : forall `{Env} (n : pystr) (rounds : list (list (etype * pystr))) (s : pst) (g g' : gstate),
  begin_ok n s g -> Forall ids_ok rounds ->
  g' ∈ trace (flush_rounds n rounds s) g ->
  (forall t id, protected g n t id -> protected g' n t id) /\
  (forall t id, in_refs g n t id -> in_refs g' n t id) /\
  (forall t, refs_of g' n !! legacy_references t <> refs_of g n !! legacy_references t ->
     forall id, in_legacy g n t id -> in_refs g' n t id).
Proof. exact @C38_lemma. Qed.
Print Assumptions C38_no_gap.
(** The first successful flush of a realm converts everything. *)
Theorem C38_converted : forall `{Env} (n : pystr) (s : pst) (g : gstate),
  begin_ok n s g -> n ∉ s_legacy s ->
  let '(r, s', g') := exec (flush_object_references n s) g in
  r = Ok tt ->
  (forall t id, protected g n t id -> in_refs g' n t id) /\
  (forall t, (exists id, in_legacy g n t id) -> refs_of g' n !! legacy_references t = None).
Proof. exact @C38_end_lemma. Qed.
Print Assumptions C38_converted.

(** C39: any number of processes, any interleaving, processes may be killed. *)
Theorem C39_concurrent_flushes : forall `{Env} (n : pystr) (jobs : list (pst * list (list (etype * pystr))))
    (procs : list (process (res unit * pst))) (g : gstate) (procs' : list (process (res unit * pst))) (g' : gstate),
  is_remote n = false -> good g -> refs_readable g n -> g_locks g = ∅ ->
  Forall2 (fun j p => starts n (fst j) (snd j) p) jobs procs ->
  rtc pstep (procs, g) (procs', g') ->
  good g' /\ refs_readable g' n /\
  (forall t id, in_refs g n t id -> in_refs g' n t id) /\
  (forall t id, protected g n t id -> protected g' n t id) /\
  (forall i s rounds X s', jobs !! i = Some (s, rounds) -> procs' !! i = Some (Proc X (Some (Ret (Ok tt, s')))) ->
     rounds <> [] -> s_orefs s' = [] /\
     (forall t id, (t, id) ∈ s_orefs s -> in_refs g' n t id) /\
     (forall t id o, o ∈ rounds -> (t, id) ∈ o -> in_refs g' n t id)).
Proof. exact @C39_lemma. Qed.
Print Assumptions C39_concurrent_flushes.
(** They never block each other for ever. *)
Theorem C39_no_deadlock : forall `{Env} (n : pystr) (jobs : list (pst * list (list (etype * pystr))))
    (procs : list (process (res unit * pst))) (g : gstate) (procs' : list (process (res unit * pst))) (g' : gstate),
  is_remote n = false -> good g -> refs_readable g n -> g_locks g = ∅ ->
  Forall2 (fun j p => starts n (fst j) (snd j) p) jobs procs ->
  rtc pstep (procs, g) (procs', g') ->
  Forall at_end procs' \/ exists i X c k, procs' !! i = Some (Proc X (Some (Do c k))) /\ enabled c g'.
Proof. exact @C39_progress_lemma. Qed.
Print Assumptions C39_no_deadlock.

(** C42 holds if every realm is flushed before objects of another one are
    recorded. *)
Theorem C42_own_realm_partial : forall `{Env} (rounds : list (pystr * list (etype * pystr))) (s : pst) (g : gstate),
  good g ->
  Forall (fun nr => is_remote (fst nr) = false /\ refs_readable g (fst nr) /\ ids_ok (snd nr)) rounds ->
  s_orefs s = [] -> locks_counted (g_locks g) s ->
  let '(r, s', g') := exec (flush_realms rounds s) g in
  (forall n t id, (exists o, (n, o) ∈ rounds) -> in_refs g n t id -> in_refs g' n t id) /\
  (r = Ok tt -> s_orefs s' = [] /\ forall n t id o, (n, o) ∈ rounds -> (t, id) ∈ o -> in_refs g' n t id).
Proof. exact @C42_lemma. Qed.
Print Assumptions C42_own_realm_partial.

(** A case: a repository with legacy references to a blob (aaa…) and a tree (bbb…). *)
Section Case.
  Local Existing Instance real_env.
  Definition r1 : pystr := ps "/r".
  Definition hC (c : N) : pystr := repeat c 40.
  Definition leg_b : gobj := Tree [TE 33188 (hC 97) (hC 97)].
  Definition leg_t : gobj := Tree [TE 16384 (hC 98) (hC 98)].
  Definition g1 : gstate :=
    GState {[ r1 := Repo (<[oid leg_b := leg_b]> (<[oid leg_t := leg_t]> ∅))
                         (<[legacy_references File := oid leg_b]> (<[legacy_references Directory := oid leg_t]> ∅)) ]} ∅.
  Definition rounds1 : list (list (etype * pystr)) := [[(File, hC 99); (File, hC 100)]; []; [(Directory, hC 101)]].

  Example C37_case_begin : begin_ok r1 init_pst g1 /\ Forall ids_ok rounds1.
  Proof.
    assert (Hh : forall c, (97 <= c <= 102)%N -> hex40 (hC c)).
    { intros c Hc. split; [unfold hC; by rewrite repeat_length|]. apply List.Forall_forall. intros x Hx. apply repeat_spec in Hx.
      subst. right. lia. }
    split.
    - split; [reflexivity|]. split; [apply goodb_ok; vm_compute; reflexivity|]. split; [|split; [constructor|]].
      + intros top. unfold refs_of, g1. cbn [g_repos]. rewrite lookup_singleton. cbn [r_refs].
        rewrite !lookup_insert_ne by done. by rewrite lookup_empty.
      + intros m. unfold g1. cbn. split; [set_solver|lia].
    - repeat (apply List.Forall_cons; [repeat (apply List.Forall_cons; [apply Hh; cbn; lia|]); constructor|]). constructor.
  Qed.
  Definition refs_found (g : gstate) (hs : list pystr) : list (option (etype * pystr)) :=
    match refs_of g r1 !! object_references with
    | Some top => map (fun h => tree_path (objs_of g r1) top (fan_out h)) hs
    | None => []
    end.
  Example C37_case : let '(r, s', g') := exec (flush_rounds r1 rounds1 init_pst) g1 in
    (r, s_orefs s', refs_found g' [hC 97; hC 98; hC 99; hC 100; hC 101; hC 102],
     refs_of g' r1 !! legacy_references File, refs_of g' r1 !! legacy_references Directory, elements (g_locks g')) =
    (Ok tt, [], [Some (File, hC 97); Some (Directory, hC 98); Some (File, hC 99); Some (File, hC 100); Some (Directory, hC 101); None],
     None, None, []).
  Proof. vm_compute. reflexivity. Qed.
  (** the states between the commands: where the legacy blob can be found (legacy
      reference, new reference) *)
  Example C38_case : map (fun g => (bool_decide (is_Some (refs_of g r1 !! legacy_references File)),
                                    match refs_found g [hC 97] with [Some (File, _)] => true | _ => false end))
      (trace (flush_rounds r1 [[]] init_pst) g1)
    = repeat (true, false) 11 ++ repeat (true, true) 3 ++ [(false, true)].
  Proof. vm_compute. reflexivity. Qed.


  (** two processes, one after the other *)
  Example C39_case : exists g' s1 s2,
    rtc pstep ([Proc ∅ (Some (flush_rounds r1 [[(File, hC 99)]] init_pst));
                Proc ∅ (Some (flush_rounds r1 [[(Directory, hC 100)]] init_pst))], g1)
      ([Proc ∅ (Some (Ret (Ok tt, s1))); Proc ∅ (Some (Ret (Ok tt, s2)))], g') /\
    refs_found g' [hC 99; hC 100] = [Some (File, hC 99); Some (Directory, hC 100)].
  Proof.
    assert (Hx : match exec (flush_rounds r1 [[(File, hC 99)]] init_pst) g1 with
                 | (Ok _, _, g2) => match exec (flush_rounds r1 [[(Directory, hC 100)]] init_pst) g2 with
                       | (Ok _, _, g3) => bool_decide (refs_found g3 [hC 99; hC 100] = [Some (File, hC 99); Some (Directory, hC 100)])
                       | _ => false end
                 | _ => false end = true) by (vm_compute; reflexivity).
    destruct (exec (flush_rounds r1 [[(File, hC 99)]] init_pst) g1) as [[[[]|] s1] g2] eqn:E1; [|done].
    destruct (exec (flush_rounds r1 [[(Directory, hC 100)]] init_pst) g2) as [[[[]|] s2] g3] eqn:E2; [|done].
    apply bool_decide_eq_true in Hx. exists g3, s1, s2. split; [|exact Hx].
    destruct C37_case_begin as [(Hn & Hg & Hr & _ & _) Hi].
    assert (H1 : Forall ids_ok [[(File, hC 99)]]).
    { apply List.Forall_cons_iff in Hi as [Hi _]. apply List.Forall_cons; [|constructor].
      apply List.Forall_cons_iff in Hi as [Hi _]. apply List.Forall_cons; [exact Hi|constructor]. }
    assert (H2 : Forall ids_ok [[(Directory, hC 100)]]).
    { apply List.Forall_cons_iff in Hi as [Hi _]. apply List.Forall_cons; [|constructor].
      apply List.Forall_cons_iff in Hi as [_ Hi]. apply List.Forall_cons_iff in Hi as [Hi _]. apply List.Forall_cons; [exact Hi|constructor]. }
    eapply two_processes; [exact Hn|exact Hg|exact Hr|reflexivity| | |exact E1|exact E2].
    - split; [reflexivity|]. split; [constructor|]. split; [exact H1|]. intros m. reflexivity.
    - split; [reflexivity|]. split; [constructor|]. split; [exact H2|]. intros m. reflexivity.
  Qed.

  (** C42 is false: the recorded references are not kept apart by realm.  An
      object of realm /b is recorded before realm /a is flushed; it is named in
      the reference tree of /a only. *)
  Theorem C42_own_realm_refuted : exists (s1 s2 s3 : pst) (a b id : pystr) (g ga gb : gstate),
    s_orefs s1 = [] /\ exists_repo g b /\
    exec (add_object_reference File id s1) g = (Ok tt, s2, g) /\
    exec (flush_object_references a s2) g = (Ok tt, s3, ga) /\
    fst (fst (exec (flush_object_references b s3) ga)) = Ok tt /\
    gb = snd (exec (flush_object_references b s3) ga) /\
    ~ in_refs gb b File id.
  Proof.
    set (g := GState (<[ps "/a" := Repo ∅ ∅]> (<[ps "/b" := Repo ∅ ∅]> ∅)) ∅).
    set (s2 := with_orefs init_pst [(File, hC 97)]).
    assert (Hx : match exec (flush_object_references (ps "/a") s2) g with
                 | (Ok _, s3, ga) => match exec (flush_object_references (ps "/b") s3) ga with
                     | (Ok _, _, gb) => match refs_of gb (ps "/b") !! object_references with Some _ => false | None => true end
                     | _ => false end
                 | _ => false end = true) by (vm_compute; reflexivity).
    destruct (exec (flush_object_references (ps "/a") s2) g) as [[[[]|] s3] ga] eqn:E1; [|done].
    exists init_pst, s2, s3, (ps "/a"), (ps "/b"), (hC 97), g, ga, (snd (exec (flush_object_references (ps "/b") s3) ga)).
    split; [reflexivity|]. split; [exists (Repo ∅ ∅); reflexivity|]. split; [reflexivity|]. split; [exact E1|].
    destruct (exec (flush_object_references (ps "/b") s3) ga) as [[[[]|] s4] gb] eqn:E2; [|done]. cbn [fst snd].
    split; [reflexivity|]. split; [reflexivity|].
    intros (top & Ht & _). rewrite Ht in Hx. done.
  Qed.
End Case.
Print Assumptions C42_own_realm_refuted.
