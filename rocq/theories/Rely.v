(** Several processes: interleaving semantics and a rely-guarantee calculus. *)
From Verif Require Import Base Json Refs GitText Git.

(** A process: the locks it holds and what remains to be done (None: killed). *)
Record process (A : Type) := Proc { p_locks : gset pystr; p_prog : option (prog A) }.
Arguments Proc {A}.
Arguments p_locks {A}.
Arguments p_prog {A}.

(** Acquiring a lock blocks while any process holds it. *)
Definition enabled (c : cmd) (g : gstate) : Prop :=
  match c with LockAcquire n => n ∉ g_locks g | _ => True end.
Definition next_locks (X : gset pystr) (c : cmd) : gset pystr :=
  match c with LockAcquire n => {[n]} ∪ X | LockRelease n => X ∖ {[n]} | _ => X end.
Definition drop_locks (g : gstate) (X : gset pystr) : gstate := GState (g_repos g) (g_locks g ∖ X).

Definition lock_free (c : cmd) : bool :=
  match c with LockAcquire _ | LockRelease _ => false | _ => true end.

Section Interleave.
  Context `{Env} {A : Type}.

  (** One step of one process: it runs its next command, or it is killed, in
      which case the operating system releases its locks (fcntl locks). *)
  Inductive pstep : list (process A) * gstate -> list (process A) * gstate -> Prop :=
  | step_cmd pl g i X c k :
      pl !! i = Some (Proc X (Some (Do c k))) -> enabled c g ->
      pstep (pl, g) (<[i := Proc (next_locks X c) (Some (k (fst (git c g))))]> pl, snd (git c g))
  | step_kill pl g i X p :
      pl !! i = Some (Proc X (Some p)) ->
      pstep (pl, g) (<[i := Proc ∅ None]> pl, drop_locks g X).
End Interleave.

Section Rely.
  Context `{Env}.
  (** [guar X g g']: a process that holds the locks [X] may change g to g'. *)
  Context (guar : gset pystr -> gstate -> gstate -> Prop).

  (** what a process that holds [X] has to expect from the others *)
  Inductive rely (X : gset pystr) : gstate -> gstate -> Prop :=
  | rely_refl g : rely X g g
  | rely_step Y g g1 g2 : Y ## X -> guar Y g g1 -> rely X g1 g2 -> rely X g g2.
  Lemma rely_trans X g1 g2 g3 : rely X g1 g2 -> rely X g2 g3 -> rely X g1 g3.
  Proof. induction 1; [done|]. intros. eapply rely_step; eauto. Qed.
  Lemma rely_one X Y g g' : Y ## X -> guar Y g g' -> rely X g g'.
  Proof. intros. eapply rely_step; [done|done|constructor]. Qed.
  (** a relation that every foreign step respects *)
  Lemma rely_ind' X (R : gstate -> gstate -> Prop) :
    (forall g, R g g) -> (forall g1 g2 g3, R g1 g2 -> R g2 g3 -> R g1 g3) ->
    (forall Y g g', Y ## X -> guar Y g g' -> R g g') ->
    forall g g', rely X g g' -> R g g'.
  Proof. intros H1 H2 H3. induction 1; [done|]. eapply H2; [|exact IHrely]. by eapply H3. Qed.

  Definition disc (X : gset pystr) (c : cmd) : Prop :=
    match c with LockAcquire n => n ∉ X | LockRelease n => n ∈ X | _ => True end.

  Fixpoint wp {A : Type} (X : gset pystr) (p : prog A) (Q : gset pystr -> A -> gstate -> Prop) (g : gstate) : Prop :=
    match p with
    | Ret a => forall g1, rely X g g1 -> Q X a g1
    | Do c k => disc X c /\ forall g1, rely X g g1 -> enabled c g1 ->
        guar X g1 (snd (git c g1)) /\ wp (next_locks X c) (k (fst (git c g1))) Q (snd (git c g1))
    end.

  Lemma wp_stable {A : Type} (X : gset pystr) (p : prog A) Q g g' : wp X p Q g -> rely X g g' -> wp X p Q g'.
  Proof.
    intros Hw Hr. destruct p as [a|c k]; cbn in *.
    - intros g1 H1. apply Hw. by eapply rely_trans.
    - destruct Hw as [Hd Hw]. split; [done|]. intros g1 H1. apply Hw. by eapply rely_trans.
  Qed.
  Lemma wp_mono {A : Type} (X : gset pystr) (p : prog A) (Q Q' : gset pystr -> A -> gstate -> Prop) g :
    (forall X a g, Q X a g -> Q' X a g) -> wp X p Q g -> wp X p Q' g.
  Proof.
    intros HQ. revert X g. induction p as [a|c k IH]; intros X g; cbn.
    - intros Hw g1 H1. apply HQ, Hw, H1.
    - intros [Hd Hw]. split; [done|]. intros g1 H1 H2. destruct (Hw g1 H1 H2) as [H3 H4]. split; [done|].
      apply IH, H4.
  Qed.
  Lemma wp_bind {A B : Type} (X : gset pystr) (p : prog A) (f : A -> prog B) Q g :
    wp X p (fun X' a g' => wp X' (f a) Q g') g -> wp X (pbind p f) Q g.
  Proof.
    revert X g. induction p as [a|c k IH]; intros X g; cbn.
    - intros Hw. apply Hw. constructor.
    - intros [Hd Hw]. split; [done|]. intros g1 H1 H2. destruct (Hw g1 H1 H2) as [H3 H4]. split; [done|].
      apply IH, H4.
  Qed.
  Lemma wp_ret {A : Type} (X : gset pystr) (a : A) (Q : gset pystr -> A -> gstate -> Prop) g :
    (forall g1, rely X g g1 -> Q X a g1) -> wp X (Ret a) Q g.
  Proof. done. Qed.

  (** ** Running alone *)
  Inductive reach : gstate -> gstate -> Prop :=
  | reach_refl g : reach g g
  | reach_step Y g g1 g2 : guar Y g g1 -> reach g1 g2 -> reach g g2.
  Lemma reach_trans g1 g2 g3 : reach g1 g2 -> reach g2 g3 -> reach g1 g3.
  Proof. induction 1; [done|]. intros. eapply reach_step; eauto. Qed.
  Lemma rely_reach X g g' : rely X g g' -> reach g g'.
  Proof. induction 1; [constructor|]. eapply reach_step; eauto. Qed.
  Lemma reach_ind' (R : gstate -> gstate -> Prop) :
    (forall g, R g g) -> (forall g1 g2 g3, R g1 g2 -> R g2 g3 -> R g1 g3) ->
    (forall Y g g', guar Y g g' -> R g g') -> forall g g', reach g g' -> R g g'.
  Proof. intros H1 H2 H3. induction 1; [done|]. eapply H2; [|exact IHreach]. by eapply H3. Qed.

  Lemma git_locks_next c g X : g_locks g = X -> disc X c -> g_locks (snd (git c g)) = next_locks X c.
  Proof.
    intros <- Hd. destruct c; cbn in *; repeat case_match; cbn; done.
  Qed.
  Lemma wp_exec {A : Type} (X : gset pystr) (p : prog A) Q g : g_locks g = X -> wp X p Q g ->
    exists X', g_locks (snd (exec p g)) = X' /\ Q X' (fst (exec p g)) (snd (exec p g)) /\ reach g (snd (exec p g)).
  Proof.
    revert X g. induction p as [a|c k IH]; intros X g HX; cbn.
    - intros Hw. exists X. split; [done|]. split; [|constructor]. apply Hw. constructor.
    - intros [Hd Hw]. assert (He : enabled c g).
      { destruct c; cbn in *; try done. by rewrite HX. }
      destruct (Hw g (rely_refl _ _) He) as [H3 H4].
      assert (HX' := git_locks_next c g X HX Hd).
      destruct (git c g) as [x g']. cbn [fst snd] in *.
      destruct (IH x _ g' HX' H4) as (X' & H5 & H6 & H7). exists X'. split; [done|]. split; [done|].
      by eapply reach_step.
  Qed.
  (** every crash point *)
  Lemma wp_trace {A : Type} (X : gset pystr) (p : prog A) Q g g' : g_locks g = X -> wp X p Q g -> g' ∈ trace p g -> reach g g'.
  Proof.
    revert X g. induction p as [a|c k IH]; intros X g HX; cbn; [by intros _ ?%elem_of_nil|].
    intros [Hd Hw]. assert (He : enabled c g).
    { destruct c; cbn in *; try done. by rewrite HX. }
    destruct (Hw g (rely_refl _ _) He) as [H3 H4].
    assert (HX' := git_locks_next c g X HX Hd).
    destruct (git c g) as [x g1]. cbn [fst snd] in *. intros [->|Hin]%elem_of_cons.
    - eapply reach_step; [done|constructor].
    - eapply reach_step; [done|]. by eapply IH.
  Qed.

  (** ** Running together *)
  Definition pinv {A : Type} (Qs : nat -> gset pystr -> A -> gstate -> Prop) (pl : list (process A)) (g : gstate) : Prop :=
    (forall i X p, pl !! i = Some (Proc X p) -> X ⊆ g_locks g) /\
    (forall i j X Y p q, i <> j -> pl !! i = Some (Proc X p) -> pl !! j = Some (Proc Y q) -> X ## Y) /\
    (forall i X p, pl !! i = Some (Proc X (Some p)) -> wp X p (Qs i) g).

  Lemma pstep_inv {A : Type} Qs (pl pl' : list (process A)) g g' :
    (forall X g, guar X g (drop_locks g X)) ->
    pinv Qs pl g -> pstep (pl, g) (pl', g') -> pinv Qs pl' g' /\ exists X, guar X g g'.
  Proof.
    intros Hkill (H1 & H2 & H3) Hs. inversion Hs; subst; clear Hs.
    - match goal with HH : pl !! i = _ |- _ => rename HH into Hi end.
      destruct (H3 _ _ _ Hi) as [Hd Hw]. destruct (Hw g (rely_refl _ _)) as [Hg Hk]; [done|].
      assert (Hsub : X ⊆ g_locks g) by by eapply H1.
      assert (Hl : forall Y, Y ## X -> Y ⊆ g_locks g -> Y ⊆ g_locks (snd (git c g))).
      { intros Y HY HYs. destruct c; cbn in *; repeat case_match; cbn in *; set_solver. }
      assert (Hl2 : next_locks X c ⊆ g_locks (snd (git c g))).
      { destruct c; cbn in *; repeat case_match; cbn in *; set_solver. }
      assert (Hl3 : forall Y, Y ## X -> Y ⊆ g_locks g -> Y ## next_locks X c).
      { intros Y HY HYs. destruct c; cbn in *; set_solver. }
      assert (Hdis : forall j Y q, j <> i -> pl !! j = Some (Proc Y q) -> Y ## X).
      { intros j Y q Hji Hj. by eapply (H2 j i). }
      split; [|eauto]. split; [|split].
      + intros j Y q. destruct (decide (j = i)) as [->|Hji].
        * rewrite list_lookup_insert by by eapply lookup_lt_Some. intros [= <- <-]. done.
        * rewrite list_lookup_insert_ne by done. intros Hj. apply Hl; [by eapply Hdis|by eapply H1].
      + intros j j' Y Y' q q' Hne. destruct (decide (j = i)) as [->|Hji], (decide (j' = i)) as [->|Hji'].
        * done.
        * rewrite list_lookup_insert by by eapply lookup_lt_Some. rewrite list_lookup_insert_ne by done.
          intros [= <- <-] Hj. symmetry. apply Hl3; [by eapply Hdis|by eapply H1].
        * rewrite list_lookup_insert by by eapply lookup_lt_Some. rewrite list_lookup_insert_ne by done.
          intros Hj [= <- <-]. apply Hl3; [by eapply Hdis|by eapply H1].
        * rewrite !list_lookup_insert_ne by done. by apply H2.
      + intros j Y q. destruct (decide (j = i)) as [->|Hji].
        * rewrite list_lookup_insert by by eapply lookup_lt_Some. intros [= <- <-]. done.
        * rewrite list_lookup_insert_ne by done. intros Hj. eapply wp_stable; [by eapply H3|].
          eapply rely_one; [|exact Hg]. symmetry. by eapply Hdis.
    - match goal with HH : pl !! i = _ |- _ => rename HH into Hi end.
      assert (Hdis : forall j Y q, j <> i -> pl !! j = Some (Proc Y q) -> Y ## X).
      { intros j Y q Hji Hj. by eapply (H2 j i). }
      split; [|eauto]. split; [|split].
      + intros j Y q. destruct (decide (j = i)) as [->|Hji].
        * rewrite list_lookup_insert by by eapply lookup_lt_Some. intros [= <- <-]. set_solver.
        * rewrite list_lookup_insert_ne by done. intros Hj.
          pose proof (Hdis _ _ _ Hji Hj). apply H1 in Hj. unfold drop_locks. cbn. set_solver.
      + intros j j' Y Y' q q' Hne. destruct (decide (j = i)) as [->|Hji], (decide (j' = i)) as [->|Hji'].
        * done.
        * rewrite list_lookup_insert by by eapply lookup_lt_Some. intros [= <- <-]. set_solver.
        * intros _. rewrite list_lookup_insert by by eapply lookup_lt_Some. intros [= <- <-]. set_solver.
        * rewrite !list_lookup_insert_ne by done. by apply H2.
      + intros j Y q. destruct (decide (j = i)) as [->|Hji].
        * rewrite list_lookup_insert by by eapply lookup_lt_Some. done.
        * rewrite list_lookup_insert_ne by done. intros Hj. eapply wp_stable; [by eapply H3|].
          eapply rely_one; [|apply Hkill]. symmetry. by eapply Hdis.
  Qed.
  Lemma psteps_inv {A : Type} Qs (c c' : list (process A) * gstate) :
    (forall X g, guar X g (drop_locks g X)) ->
    rtc pstep c c' -> pinv Qs (fst c) (snd c) -> pinv Qs (fst c') (snd c') /\ reach (snd c) (snd c').
  Proof.
    intros Hkill. induction 1 as [c|[pl g] [pl' g'] c'' Hs Hss IH]; intros Hi; [split; [done|constructor]|].
    cbn in *. destruct (pstep_inv _ _ _ _ _ Hkill Hi Hs) as [Hi' [X HX]].
    destruct (IH Hi') as [? ?]. split; [done|]. by eapply reach_step.
  Qed.
  Lemma pinv_result {A : Type} Qs (pl : list (process A)) g i X a :
    pinv Qs pl g -> pl !! i = Some (Proc X (Some (Ret a))) -> Qs i X a g.
  Proof. intros (_ & _ & H3) Hi. apply H3 in Hi. cbn in Hi. apply Hi. constructor. Qed.

  (** ** Python functions *)
  Definition mwp {S A : Type} (X : gset pystr) (m : M S A) (s : S)
      (Q : gset pystr -> res A -> S -> gstate -> Prop) (g : gstate) : Prop :=
    wp X (m s) (fun X' rs g' => Q X' (fst rs) (snd rs) g') g.
  Context {S : Type}.
  Implicit Types (X : gset pystr) (s : S) (g : gstate).

  Lemma mwp_mono {A : Type} X (m : M S A) s (Q Q' : gset pystr -> res A -> S -> gstate -> Prop) g :
    mwp X m s Q g -> (forall X' r s' g', Q X' r s' g' -> Q' X' r s' g') -> mwp X m s Q' g.
  Proof. intros H1 H2. eapply wp_mono; [|exact H1]. intros X' [r s'] g'. apply H2. Qed.
  Lemma mwp_stable {A : Type} X (m : M S A) s (Q : gset pystr -> res (A) -> S -> gstate -> Prop) g g' : mwp X m s Q g -> rely X g g' -> mwp X m s Q g'.
  Proof. apply wp_stable. Qed.
  Lemma mwp_ret {A : Type} X (a : A) s (Q : gset pystr -> res (A) -> S -> gstate -> Prop) g : (forall g1, rely X g g1 -> Q X (Ok a) s g1) -> mwp X (mret a) s Q g.
  Proof. done. Qed.
  Lemma mwp_raise {A : Type} X (e : exn) s (Q : gset pystr -> res A -> S -> gstate -> Prop) g :
    (forall g1, rely X g g1 -> Q X (Err e) s g1) -> mwp X (mraise e) s Q g.
  Proof. done. Qed.
  Lemma mwp_bind {A B : Type} X (m : M S A) (f : A -> M S B) s (Q : gset pystr -> res (B) -> S -> gstate -> Prop) g :
    mwp X m s (fun X' r s' g' => match r with
                                 | Ok a => mwp X' (f a) s' Q g'
                                 | Err e => forall g1, rely X' g' g1 -> Q X' (Err e) s' g1
                                 end) g ->
    mwp X (mbind m f) s Q g.
  Proof.
    intros Hm. unfold mwp, mbind. apply wp_bind. eapply wp_mono; [|exact Hm].
    intros X' [r s'] g'. cbn [fst snd]. destruct r; done.
  Qed.
  Lemma mwp_res {A : Type} X (r : res A) s (Q : gset pystr -> res (A) -> S -> gstate -> Prop) g : (forall g1, rely X g g1 -> Q X r s g1) -> mwp X (mres r) s Q g.
  Proof. by destruct r. Qed.
  Lemma mwp_get {A : Type} X (f : S -> A) s (Q : gset pystr -> res (A) -> S -> gstate -> Prop) g : (forall g1, rely X g g1 -> Q X (Ok (f s)) s g1) -> mwp X (mget f) s Q g.
  Proof. done. Qed.
  Lemma mwp_mod X (f : S -> S) s (Q : gset pystr -> res (unit) -> S -> gstate -> Prop) g : (forall g1, rely X g g1 -> Q X (Ok tt) (f s) g1) -> mwp X (mmod f) s Q g.
  Proof. done. Qed.
  Lemma mwp_try {A : Type} X (m : M S A) (h : exn -> M S A) s (Q : gset pystr -> res (A) -> S -> gstate -> Prop) g :
    mwp X m s (fun X' r s' g' => match r with
                                 | Ok a => forall g1, rely X' g' g1 -> Q X' (Ok a) s' g1
                                 | Err e => mwp X' (h e) s' Q g'
                                 end) g ->
    mwp X (mtry m h) s Q g.
  Proof.
    intros Hm. unfold mwp, mtry. apply wp_bind. eapply wp_mono; [|exact Hm].
    intros X' [r s'] g'. cbn [fst snd]. destruct r; done.
  Qed.
  Lemma mwp_finally {A : Type} X (m : M S A) (f : M S unit) s (Q : gset pystr -> res (A) -> S -> gstate -> Prop) g :
    mwp X m s (fun X' r s' g' =>
      mwp X' f s' (fun X2 r2 s2 g2 => forall g3, rely X2 g2 g3 ->
        Q X2 (match r2 with Ok _ => r | Err e => Err e end) s2 g3) g') g ->
    mwp X (mfinally m f) s Q g.
  Proof.
    intros Hm. unfold mwp, mfinally. apply wp_bind. eapply wp_mono; [|exact Hm].
    intros X' [r s'] g'. cbn [fst snd]. intros Hf. apply wp_bind. eapply wp_mono; [|exact Hf].
    intros X2 [r2 s2] g2. cbn [fst snd]. destruct r2; done.
  Qed.
  Lemma mwp_execute X (c : cmd) s (Q : gset pystr -> res (answer) -> S -> gstate -> Prop) g : disc X c ->
    (forall g1, rely X g g1 -> enabled c g1 ->
       guar X g1 (snd (git c g1)) /\
       forall g2, rely (next_locks X c) (snd (git c g1)) g2 -> Q (next_locks X c) (Ok (fst (git c g1))) s g2) ->
    mwp X (execute c) s Q g.
  Proof. intros Hd Hg. split; [done|]. intros g1 H1 H2. by apply Hg. Qed.
  Lemma mwp_checked X (c : cmd) s (Q : gset pystr -> res (list pystr) -> S -> gstate -> Prop) g : lock_free c = true ->
    (forall g1, rely X g g1 ->
       guar X g1 (snd (git c g1)) /\
       forall g2, rely X (snd (git c g1)) g2 ->
         Q X (match fst (git c g1) with None => Err RuntimeError | Some out => stdout_lines out end) s g2) ->
    mwp X (checked_execute c) s Q g.
  Proof.
    intros Hl Hg. unfold checked_execute. apply mwp_bind. apply mwp_execute; [by destruct c|].
    intros g1 H1 _. destruct (Hg g1 H1) as [H2 H3]. split; [done|].
    assert (next_locks X c = X) as -> by (by destruct c). intros g2 H4.
    destruct (fst (git c g1)).
    - apply mwp_res. intros g3 H5. apply H3. by eapply rely_trans.
    - apply mwp_raise. intros g3 H5. apply H3. by eapply rely_trans.
  Qed.
End Rely.
