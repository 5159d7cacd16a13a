(** C40: nested lock blocks. *)
From Verif Require Import Base BaseFacts Json Refs GitText Git GitFacts Rely State Lock LockFacts Spec_Flush Spec_Lock ExecFacts.

Section Blocks.
  Context `{Env}.

  Lemma events_bind {A B : Type} (p : prog A) (f : A -> prog B) g :
    events (pbind p f) g = events p g ++ (let '(a, g') := exec p g in events (f a) g').
  Proof.
    revert g. induction p as [a|c k IH]; intros g; cbn; [done|].
    destruct (git c g) as [x g'] eqn:E. by rewrite IH.
  Qed.
  Lemma e_bind {S A B : Type} (m : M S A) (f : A -> M S B) s g :
    events (mbind m f s) g = events (m s) g ++ match exec (m s) g with
                                               | ((Ok a, s'), g') => events (f a s') g'
                                               | _ => []
                                               end.
  Proof. unfold mbind. rewrite events_bind. by destruct (exec (m s) g) as [[[a|e] s'] g']. Qed.
  Lemma e_try {S A : Type} (m : M S A) (h : exn -> M S A) s g :
    events (mtry m h s) g = events (m s) g ++ match exec (m s) g with
                                               | ((Err e, s'), g') => events (h e s') g'
                                               | _ => []
                                               end.
  Proof. unfold mtry. rewrite events_bind. by destruct (exec (m s) g) as [[[a|e] s'] g']. Qed.
  Lemma e_finally {S A : Type} (m : M S A) (f : M S unit) s g :
    events (mfinally m f s) g = events (m s) g ++ (let '((_, s'), g') := exec (m s) g in events (f s') g').
  Proof.
    unfold mfinally. rewrite events_bind. destruct (exec (m s) g) as [[r s'] g'].
    rewrite events_bind. cbn. destruct (exec (f s') g') as [[[a|e] s''] g'']; cbn; by rewrite app_nil_r.
  Qed.

  Lemma lookup_counter s n m v :
    lock_counter (with_locks s (dset (s_locks s) n v)) m = if decide (m = n) then v else lock_counter s m.
  Proof.
    unfold lock_counter. cbn. rewrite dget_dset. repeat case_decide; congruence.
  Qed.
  Lemma lock_backend_run f n s g : locks_counted (g_locks g) s ->
    let '(r, s', g') := exec (lock_backend n s) g in
    r = Ok tt /\ g_locks g' = {[n]} ∪ g_locks g /\ locks_counted (g_locks g') s' /\
    (forall m, lock_counter s' m = (if decide (m = n) then 1 else 0) + lock_counter s m)%nat /\
    Forall (lock_event f) (events (lock_backend n s) g).
  Proof.
    intros HL. unfold lock_backend. rewrite e_bind, x_bind, x_get. cbn [events]. rewrite e_bind, x_bind. cbn [mget events app].
    destruct (Nat.eqb_spec (lock_counter s n) 0) as [E|E].
    - rewrite e_bind, x_bind, x_execute. cbn [execute events app].
      assert (Hn : n ∉ g_locks g). { intros Hin%HL. lia. }
      cbn [git]. rewrite decide_False by done. cbn [fst snd app]. rewrite x_ret. unfold set_counter. rewrite x_mod. cbn.
      assert (Hc : (forall m, lock_counter (with_locks s (dset (s_locks s) n (Datatypes.S (lock_counter s n)))) m =
                 (if decide (m = n) then 1 else 0) + lock_counter s m)%nat).
      { intros m. rewrite lookup_counter. case_decide; [subst; lia|done]. }
      split; [done|]. split; [done|]. split; [|split; [done|]].
      + intros m. rewrite elem_of_union, elem_of_singleton, Hc. pose proof (HL m). case_decide; subst.
        * split; [lia|auto]. * rewrite H0. cbn. naive_solver.
      + apply List.Forall_cons; [done|constructor].
    - rewrite x_ret. cbn [events mret app]. unfold set_counter. rewrite x_mod. cbn.
      assert (Hn : n ∈ g_locks g). { apply HL. lia. }
      assert (Hc : (forall m, lock_counter (with_locks s (dset (s_locks s) n (Datatypes.S (lock_counter s n)))) m =
                 (if decide (m = n) then 1 else 0) + lock_counter s m)%nat).
      { intros m. rewrite lookup_counter. case_decide; [subst; lia|done]. }
      split; [done|]. split; [set_solver|]. split; [|split; [done|constructor]].
      intros m. rewrite Hc. pose proof (HL m). case_decide; subst; [split; [lia|done]|by cbn].
  Qed.
  Lemma unlock_backend_run f n s g : locks_counted (g_locks g) s -> (0 < lock_counter s n)%nat ->
    let '(r, s', g') := exec (unlock_backend n s) g in
    r = Ok tt /\ locks_counted (g_locks g') s' /\
    (forall m, lock_counter s m = (if decide (m = n) then 1 else 0) + lock_counter s' m)%nat /\
    Forall (lock_event f) (events (unlock_backend n s) g).
  Proof.
    intros HL Hp. unfold unlock_backend. rewrite e_bind, x_bind, x_get. cbn [events mget app]. rewrite e_bind, x_bind, x_assert.
    rewrite (proj2 (Nat.ltb_lt _ _) Hp). cbn [massert mret events app].
    rewrite e_bind, x_bind. unfold set_counter. rewrite x_mod. cbn [mmod events app].
    set (s' := with_locks s (dset (s_locks s) n (lock_counter s n - 1)%nat)).
    assert (Hc : (forall m, lock_counter s m = (if decide (m = n) then 1 else 0) + lock_counter s' m)%nat).
    { intros m. subst s'. rewrite lookup_counter. case_decide; [subst; lia|done]. }
    destruct (Nat.eqb_spec (lock_counter s n - 1) 0) as [E|E].
    - rewrite e_bind, x_bind, x_execute. cbn [execute events app]. cbn [git fst snd mret]. rewrite x_ret. cbn.
      split; [done|]. split; [|split; [done|]].
      + intros m. rewrite elem_of_difference, elem_of_singleton, (HL m), (Hc m). case_decide; [|cbn; naive_solver].
        subst m. pose proof (Hc n). rewrite decide_True in H0 by done. split; [intros [_ ?]; done|]. lia.
      + apply List.Forall_cons; [|constructor]. cbn. by apply HL.
    - rewrite x_ret. cbn. split; [done|]. split; [|split; [done|constructor]].
      intros m. rewrite (HL m), (Hc m). case_decide; [|done]. subst m. pose proof (Hc n). rewrite decide_True in H0 by done. lia.
  Qed.

  Lemma locks_same X Y s s' : locks_counted X s -> locks_counted Y s' ->
    (forall m, lock_counter s' m = lock_counter s m) -> X = Y.
  Proof.
    intros H1 H2 He. apply set_eq. intros m. rewrite (H1 m), (H2 m), He. done.
  Qed.
  Lemma block_lemma (f : gset pystr -> cmd) (b : block) : (forall O, lock_free (f O) = true) ->
    forall s g, locks_counted (g_locks g) s ->
    let '(r, s', g') := exec (run_block f (g_locks g) b s) g in
    r = block_result b /\ g_locks g' = g_locks g /\ locks_counted (g_locks g') s' /\
    (forall m, lock_counter s' m = lock_counter s m) /\
    Forall (lock_event f) (events (run_block f (g_locks g) b s) g).
  Proof.
    intros Hf. induction b as [|e|a IHa b IHb|a IHa b IHb|n a IHa|]; intros s g HL; cbn [run_block block_result].
    - cbn. split_and!; done.
    - cbn. split_and!; done.
    - rewrite x_bind, e_bind. specialize (IHa s g HL).
      destruct (exec (run_block f (g_locks g) a s) g) as [[r s1] g1]. destruct IHa as (<- & E1 & L1 & C1 & V1).
      destruct r as [[]|e].
      + specialize (IHb s1 g1 L1). rewrite E1 in IHb.
        destruct (exec (run_block f (g_locks g) b s1) g1) as [[r s2] g2]. destruct IHb as (<- & E2 & L2 & C2 & V2).
        split_and!; [done|congruence|done|intros m; by rewrite C2|]. apply Forall_app. split; done.
      + split_and!; try done. by rewrite app_nil_r.
    - rewrite x_try, e_try. specialize (IHa s g HL).
      destruct (exec (run_block f (g_locks g) a s) g) as [[r s1] g1]. destruct IHa as (<- & E1 & L1 & C1 & V1).
      destruct r as [[]|e].
      + split_and!; try done. by rewrite app_nil_r.
      + specialize (IHb s1 g1 L1). rewrite E1 in IHb.
        destruct (exec (run_block f (g_locks g) b s1) g1) as [[r s2] g2]. destruct IHb as (<- & E2 & L2 & C2 & V2).
        split_and!; [done|congruence|done|intros m; by rewrite C2|]. apply Forall_app. split; done.
    - unfold locked_backend. rewrite x_bind, e_bind. pose proof (lock_backend_run f n s g HL) as H1.
      destruct (exec (lock_backend n s) g) as [[r1 s1] g1]. destruct H1 as (-> & E1 & L1 & C1 & V1).
      rewrite x_finally, e_finally. specialize (IHa s1 g1 L1). rewrite E1 in IHa.
      destruct (exec (run_block f ({[n]} ∪ g_locks g) a s1) g1) as [[r2 s2] g2]. destruct IHa as (-> & E2 & L2 & C2 & V2).
      pose proof (unlock_backend_run f n s2 g2 L2) as H3.
      feed specialize H3. { rewrite C2, C1, decide_True by done. lia. }
      destruct (exec (unlock_backend n s2) g2) as [[r3 s3] g3]. destruct H3 as (-> & L3 & C3 & V3).
      assert (Hc : forall m, lock_counter s3 m = lock_counter s m).
      { intros m. pose proof (C3 m). pose proof (C2 m). pose proof (C1 m). lia. }
      split_and!; [done| |done|done|].
      + by eapply locks_same.
      + apply Forall_app. split; [done|apply Forall_app; split; done].
    - rewrite x_bind, x_execute, e_bind, x_execute. cbn.
      assert (Hl := git_locks (f (g_locks g)) g). feed specialize Hl. { pose proof (Hf (g_locks g)). by destruct (f (g_locks g)). }
      split_and!; [done|done|by rewrite Hl|done|].
      destruct (git (f (g_locks g)) g). cbn. apply List.Forall_cons; [|constructor].
      unfold lock_event. cbn. pose proof (Hf (g_locks g)) as Hfr. remember (f (g_locks g)) as c eqn:Ec. destruct c; try done; by exists (g_locks g).
  Qed.
End Blocks.
