(** Proofs about the backend lock. *)
From Verif Require Import Base BaseFacts Json Refs GitText Spec_Git Git Spec_Store GitFacts Rely State Lock TreeUpdFacts.

Section LockFacts.
  Context `{Env} (guar : gset pystr -> gstate -> gstate -> Prop).
  Record guar_lock := {
    guar_acquire : forall g n, guar ∅ g (snd (git (LockAcquire n) g));
    guar_release : forall X g n, guar X g (snd (git (LockRelease n) g));
  }.
  Context (GL : guar_lock).
  Notation rely := (rely guar).
  Notation mwp := (mwp guar).
  Implicit Types (X : gset pystr) (s : pst) (g : gstate) (n : pystr).

  (** the locks a process holds are those with a positive counter *)
  Definition lock_link X s : Prop := forall n, n ∈ X <-> (0 < lock_counter s n)%nat.
  Definition count_up s n : pst := with_locks s (dset (s_locks s) n (Datatypes.S (lock_counter s n))).
  Definition set_count s n (k : nat) : pst := with_locks s (dset (s_locks s) n k).

  Lemma counter_set s n k m : lock_counter (set_count s n k) m = if decide (n = m) then k else lock_counter s m.
  Proof. unfold lock_counter, set_count. cbn. rewrite dget_dset. by destruct (decide (n = m)). Qed.
  Lemma link_up X s n : lock_link X s -> lock_link ({[n]} ∪ X) (count_up s n).
  Proof.
    intros Hl m. change (count_up s n) with (set_count s n (Datatypes.S (lock_counter s n))). rewrite counter_set.
    rewrite elem_of_union, elem_of_singleton, (Hl m). destruct (decide (n = m)); [|naive_solver]. subst. split; [lia|by left].
  Qed.

  Lemma rely_anti X Y g g' : X ⊆ Y -> rely Y g g' -> rely X g g'.
  Proof.
    intros Hs. induction 1 as [|Z a b c Hd Hg Hr IH]; [constructor|]. eapply rely_step; [|exact Hg|exact IH]. set_solver +Hs Hd.
  Qed.

  Lemma locked_wp {A : Type} X n (block : M pst A) s (Q : gset pystr -> res A -> pst -> gstate -> Prop) g :
    lock_link X s ->
    (lock_counter s n = 0%nat -> forall g1, guar X g1 (snd (git (LockAcquire n) g1))) ->
    (forall g1, rely X g g1 ->
      mwp ({[n]} ∪ X) block (count_up s n) (fun X' r s' g' => X' = {[n]} ∪ X /\
        (forall m, lock_counter s' m = lock_counter (count_up s n) m) /\
        forall g'', rely X g' g'' -> Q X r (set_count s' n (lock_counter s n)) g'') g1) ->
    mwp X (locked_backend n block) s Q g.
  Proof using GL.
    intros Hl Hacq HB. unfold locked_backend. apply mwp_bind. unfold lock_backend.
    apply mwp_bind, mwp_get. intros g0 H0. apply mwp_bind.
    assert (Hin : forall g1, rely X g g1 ->
      mwp ({[n]} ∪ X) (set_counter n (Datatypes.S (lock_counter s n))) s
        (fun X' r s' g' => match r with
                           | Ok _ => mwp X' (mfinally block (unlock_backend n)) s' Q g'
                           | Err e => forall g1, rely X' g' g1 -> Q X' (Err e) s' g1
                           end) g1).
    { intros g1 H1. unfold set_counter. apply mwp_mod. intros g2 H2.
      change (with_locks s _) with (count_up s n).
      assert (H02 : rely X g g2).
      { eapply rely_trans; [exact H1|]. eapply rely_anti; [|exact H2]. set_solver. }
      apply mwp_finally. eapply mwp_mono; [exact (HB g2 H02)|].
      intros X' r s' g' (-> & Hc & HQ). unfold unlock_backend.
      assert (Ec : lock_counter s' n = Datatypes.S (lock_counter s n)).
      { rewrite Hc. change (count_up s n) with (set_count s n (Datatypes.S (lock_counter s n))). rewrite counter_set.
        by rewrite decide_True. }
      apply mwp_bind, mwp_get. intros g3 H3. rewrite Ec. apply mwp_bind. cbn [Nat.ltb Nat.leb massert].
      apply mwp_ret. intros g4 H4. apply mwp_bind. replace (Datatypes.S (lock_counter s n) - 1)%nat with (lock_counter s n) by lia.
      unfold set_counter. apply mwp_mod. intros g5 H5. change (with_locks s' _) with (set_count s' n (lock_counter s n)).
      assert (H05 : rely ({[n]} ∪ X) g' g5).
      { eapply rely_trans; [exact H3|]. by eapply rely_trans. }
      destruct (lock_counter s n) as [|k] eqn:Ek; cbn [Nat.eqb].
      - assert (Hni : n ∉ X). { rewrite (Hl n), Ek. lia. }
        apply mwp_bind, mwp_execute; [cbn; set_solver|]. intros g6 H6 _. split; [apply (guar_release GL)|].
        intros g7 H7. cbn [next_locks] in *. assert (({[n]} ∪ X) ∖ {[n]} = X) as EX by set_solver.
        rewrite EX in *. cbn [git fst snd] in *. apply mwp_ret. intros g8 H8 g9 H9. apply HQ.
        eapply rely_trans; [eapply rely_anti; [|exact H05]; set_solver|].
        eapply rely_trans; [eapply rely_anti; [|exact H6]; set_solver|].
        eapply rely_trans; [|eapply rely_trans; [exact H7|]; by eapply rely_trans].
        apply (rely_one guar X ∅); [set_solver|]. apply (guar_release GL).
      - assert (Hni : n ∈ X). { rewrite (Hl n), Ek. lia. }
        assert ({[n]} ∪ X = X) as EX by set_solver. rewrite EX in *.
        apply mwp_ret. intros g6 H6 g7 H7. apply HQ. eapply rely_trans; [exact H05|]. by eapply rely_trans. }
    destruct (lock_counter s n) as [|k] eqn:Ek; cbn [Nat.eqb].
    - assert (Hni : n ∉ X). { rewrite (Hl n), Ek. lia. }
      apply mwp_bind, mwp_execute; [done|]. intros g1 H1 He. split; [by apply Hacq|]. intros g2 H2.
      cbn [next_locks] in *. assert (E : fst (git (LockAcquire n) g1) = Some []).
      { cbn. by rewrite decide_False. }
      rewrite E. apply mwp_ret. intros g3 H3. apply Hin.
      eapply rely_trans; [exact H0|]. eapply rely_trans; [exact H1|].
      eapply rely_trans; [apply (rely_one guar X ∅); [set_solver|apply (guar_acquire GL g1 n)]|].
      eapply rely_trans; (eapply rely_anti; [|eassumption]); set_solver.
    - assert (Hni : n ∈ X). { rewrite (Hl n), Ek. lia. }
      assert ({[n]} ∪ X = X) as EX by set_solver. rewrite EX in Hin.
      apply mwp_ret. intros g1 H1. apply Hin. by eapply rely_trans.
  Qed.
End LockFacts.
