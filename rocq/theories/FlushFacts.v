(** Proofs of the properties of flush_object_references. *)
From Verif Require Import Base BaseFacts Json Refs GitText Spec_Git GitTextFacts Git Spec_Store TreeTextFacts GitFacts
  Rely State Lock TreeUpd ObjRef Spec_Tree Spec_TreeUpd TreeUpdFacts TreeMergeFacts Spec_ObjRef LockFacts ObjRefFacts Spec_Flush.

Section FlushFacts.
  Context `{Env} (strict : bool).
  Implicit Types (X Y : gset pystr) (s : pst) (g : gstate) (n id : pystr) (t : etype) (o : list (etype * pystr)) (rounds : list (list (etype * pystr))).
  Notation safe := (safe strict).
  Notation rely := (rely safe).
  Notation mwp := (mwp safe).

  Lemma add_refs_wp X o s (Q : gset pystr -> res unit -> pst -> gstate -> Prop) g : ids_ok o ->
    (forall g1 o', rely X g g1 -> (forall x, x ∈ o' <-> x ∈ s_orefs s \/ x ∈ o) -> Q X (Ok tt) (with_orefs s o') g1) ->
    mwp X (miter (fun th => add_object_reference (fst th) (snd th)) o) s Q g.
  Proof.
    intros Ho. revert s g. induction Ho as [|[t id] o Hid Ho IH]; intros s g HQ; cbn [miter].
    - apply mwp_ret. intros g1 H1. replace s with (with_orefs s (s_orefs s)) by (by destruct s). apply HQ; [done|]. set_solver.
    - apply mwp_bind. unfold add_object_reference. cbn [fst snd]. rewrite decide_False.
      2: { intros ->. by destruct Hid as [? _]. }
      apply mwp_mod. intros g1 H1. apply IH. intros g2 o' H2 Ho'.
      change (with_orefs (with_orefs s (set_add (t, id) (s_orefs s))) o') with (with_orefs s o'). apply HQ.
      + by eapply rely_trans.
      + intros x. rewrite Ho'. cbn [s_orefs with_orefs]. rewrite set_add_in, elem_of_cons. naive_solver.
  Qed.

  Lemma link_same X s s' : same_rest s s' -> lock_link X s -> lock_link X s'.
  Proof. intros (_ & _ & _ & E) Hl m. by rewrite (Hl m), E. Qed.

  Lemma round_wp X n o s (Q : gset pystr -> res unit -> pst -> gstate -> Prop) g :
    is_remote n = false -> fit n g -> orefs_ok (s_orefs s) -> lock_link X s -> (strict = true -> X = ∅) -> ids_ok o ->
    (forall g1 r s', rely ∅ g g1 -> same_rest s s' -> orefs_ok (s_orefs s') ->
       (forall t id, (t, id) ∈ s_orefs s \/ (t, id) ∈ o -> (t, id) ∈ s_orefs s' \/ in_refs g1 n t id) ->
       (r = Ok tt -> s_orefs s' = []) ->
       (r = Ok tt -> n ∉ s_legacy s -> forall t id, protected g n t id -> in_refs g1 n t id) -> Q X r s' g1) ->
    mwp X (flush_round n o) s Q g.
  Proof.
    intros Hn Hf Hok Hl Hst Ho HQ. unfold flush_round. apply mwp_bind. apply add_refs_wp; [done|]. intros g1 o' H1 Ho'.
    assert (Hok' : orefs_ok o').
    { apply Forall_forall. intros x Hx. apply Ho' in Hx. unfold orefs_ok, ids_ok in *. rewrite Forall_forall in Hok, Ho. naive_solver. }
    assert (H01 : rely ∅ g g1) by (eapply (rely_anti safe ∅ X); [set_solver|done]).
    apply flush_wp; [done|by eapply rely_fit|done|done|done|].
    intros g2 r s' (H2 & Hs & Hok2 & Hin & Hr). apply HQ; try done.
    - by eapply rely_trans.
    - intros t id Hi. apply Hin. by apply Ho'.
    - intros E. by apply Hr.
    - intros E Hnl t id Hp. destruct (Hr E) as (_ & Hpr & _). apply Hpr; [done|]. by apply (rely_keeps strict n ∅ g g1 H01 Hf).
  Qed.

  Lemma rounds_wp X n rounds s (Q : gset pystr -> res unit -> pst -> gstate -> Prop) g :
    is_remote n = false -> fit n g -> orefs_ok (s_orefs s) -> lock_link X s -> (strict = true -> X = ∅) -> Forall ids_ok rounds ->
    (forall g1 r s', rely ∅ g g1 -> same_rest s s' -> orefs_ok (s_orefs s') ->
       (forall t id, (t, id) ∈ s_orefs s -> (t, id) ∈ s_orefs s' \/ in_refs g1 n t id) ->
       (r = Ok tt -> rounds <> [] \/ s_orefs s = [] -> s_orefs s' = []) ->
       (r = Ok tt -> forall t id o, o ∈ rounds -> (t, id) ∈ o -> in_refs g1 n t id) -> Q X r s' g1) ->
    mwp X (flush_rounds n rounds) s Q g.
  Proof.
    intros Hn Hf Hok Hl Hst Ho. revert s g Hf Hok Hl Q.
    induction Ho as [|o rounds Hid Ho IH]; intros s g Hf Hok Hl Q HQ; unfold flush_rounds; cbn [miter].
    - apply mwp_ret. intros g1 H1. apply HQ; try done.
      + eapply (rely_anti safe ∅ X); [set_solver|done].
      + by left.
      + by intros _ [?|?].
      + intros _ t id o Hi. by apply elem_of_nil in Hi.
    - apply mwp_bind. apply round_wp; try done. intros g1 r s1 H1 Hs1 Hok1 Hin1 Hr1 _. destruct r as [[]|e].
      + assert (Hf1 : fit n g1) by by eapply rely_fit.
        apply IH; [done|done|by eapply link_same|]. intros g2 r s2 H2 Hs2 Hok2 Hin2 Hr2 Hall. apply HQ.
        * by eapply rely_trans.
        * by eapply same_rest_trans.
        * done.
        * intros t id Hi. destruct (Hin1 t id (or_introl Hi)) as [Hi1|Hi1]; [by apply Hin2|]. right. by apply (rely_in strict n ∅ g1 g2).
        * intros E _. apply Hr2; [done|]. right. by apply Hr1.
        * intros E t id o' Ho' Hi. apply elem_of_cons in Ho' as [->|Ho']; [|by eapply Hall].
          specialize (Hin1 t id (or_intror Hi)). rewrite Hr1 in Hin1 by done. destruct Hin1 as [Hi1|Hi1]; [by apply elem_of_nil in Hi1|].
          by apply (rely_in strict n ∅ g1 g2).
      + intros g2 H2. assert (H12 : rely ∅ g1 g2) by (eapply (rely_anti safe ∅ X); [set_solver|done]).
        apply HQ; try done; [by eapply rely_trans|]. intros t id Hi. destruct (Hin1 t id (or_introl Hi)) as [Hi1|Hi1]; [by left|].
        right. apply (rely_in strict n ∅ g1 g2); [done|by eapply rely_fit|done].
  Qed.

  Lemma realms_wp X (rounds : list (pystr * list (etype * pystr))) s (Q : gset pystr -> res unit -> pst -> gstate -> Prop) g :
    Forall (fun nr => is_remote (fst nr) = false /\ ids_ok (snd nr)) rounds -> (forall n o, (n, o) ∈ rounds -> fit n g) ->
    s_orefs s = [] -> lock_link X s -> (strict = true -> X = ∅) ->
    (forall g1 r s', rely ∅ g g1 ->
       (r = Ok tt -> s_orefs s' = [] /\ forall n t id o, (n, o) ∈ rounds -> (t, id) ∈ o -> in_refs g1 n t id) -> Q X r s' g1) ->
    mwp X (flush_realms rounds) s Q g.
  Proof.
    intros Hr Hf Hok Hl Hst. revert s g Hf Hok Hl Q.
    induction Hr as [|[n o] rounds [Hn Ho] Hr IH]; intros s g Hf Hok Hl Q HQ; unfold flush_realms; cbn [miter].
    - apply mwp_ret. intros g1 H1. apply HQ.
      + eapply (rely_anti safe ∅ X); [set_solver|done].
      + intros _. split; [done|]. intros n t id o Hi. by apply elem_of_nil in Hi.
    - assert (Hfn : fit n g) by (apply (Hf n o); by left). cbn [fst snd] in *.
      apply mwp_bind. apply round_wp; try done; [by rewrite Hok; constructor|].
      intros g1 r s1 H1 Hs1 Hok1 Hin1 Hr1 _. destruct r as [[]|e].
      + apply IH; [|by apply Hr1|by eapply link_same|].
        { intros m o' Hm. eapply rely_fit; [exact H1|]. apply (Hf m o'). by right. }
        intros g2 r s2 H2 Hall. apply HQ; [by eapply rely_trans|]. intros E. destruct (Hall E) as [E2 Hall2].
        split; [done|]. intros m t id o' Hm Hi. apply elem_of_cons in Hm as [[= -> ->]|Hm]; [|by eapply Hall2].
        specialize (Hin1 t id (or_intror Hi)). rewrite Hr1 in Hin1 by done.
        destruct Hin1 as [Hi1|Hi1]; [by apply elem_of_nil in Hi1|].
        apply (rely_in strict n ∅ g1 g2); [done|by eapply rely_fit|done].
      + intros g2 H2. apply HQ; [|done]. eapply rely_trans; [exact H1|].
        eapply (rely_anti safe ∅ X); [set_solver|done].
  Qed.

  (** ** Crash points *)
  Lemma safe_legacy n t Y g g' : safe Y g g' -> refs_of g' n !! legacy_references t = refs_of g n !! legacy_references t \/
    refs_of g' n !! legacy_references t = None.
  Proof. intros (_ & _ & _ & Hn). by apply Hn. Qed.
  Lemma reach_legacy n t g g' : reach safe g g' -> refs_of g' n !! legacy_references t = refs_of g n !! legacy_references t \/
    refs_of g' n !! legacy_references t = None.
  Proof.
    apply (reach_ind' safe (fun g g' => refs_of g' n !! legacy_references t = refs_of g n !! legacy_references t \/
      refs_of g' n !! legacy_references t = None)).
    - by left.
    - intros a b c [E1|E1] [E2|E2]; rewrite ?E2; auto.
    - intros Y a b. apply safe_legacy.
  Qed.
End FlushFacts.

Section FlushProps.
  Context `{Env}.
  Implicit Types (X Y : gset pystr) (s : pst) (g : gstate) (n id : pystr) (t : etype) (o : list (etype * pystr)) (rounds : list (list (etype * pystr))).
  Notation safe := (safe false).
  Notation rely := (rely safe).
  Notation mwp := (mwp safe).

  Lemma C37_lemma n rounds s g : begin_ok n s g -> Forall ids_ok rounds ->
    let '(r, s', g') := exec (flush_rounds n rounds s) g in
    good g' /\ refs_readable g' n /\ locks_counted (g_locks g') s' /\ (forall m, lock_counter s' m = lock_counter s m) /\
    (forall t id, in_refs g n t id -> in_refs g' n t id) /\
    (forall t id, (t, id) ∈ s_orefs s -> (t, id) ∈ s_orefs s' \/ in_refs g' n t id) /\
    (r = Ok tt -> rounds <> [] -> s_orefs s' = [] /\
       (forall t id, (t, id) ∈ s_orefs s -> in_refs g' n t id) /\
       (forall t id o, o ∈ rounds -> (t, id) ∈ o -> in_refs g' n t id)).
  Proof.
    intros (Hn & Hg & Hr & Ho & Hl) Hids.
    assert (Hw := rounds_wp false (g_locks g) n rounds s (fun X r s' g' => X = g_locks g /\ rely ∅ g g' /\ same_rest s s' /\
       (forall t id, (t, id) ∈ s_orefs s -> (t, id) ∈ s_orefs s' \/ in_refs g' n t id) /\
       (r = Ok tt -> rounds <> [] \/ s_orefs s = [] -> s_orefs s' = []) /\
       (r = Ok tt -> forall t id o, o ∈ rounds -> (t, id) ∈ o -> in_refs g' n t id)) g
       Hn (conj Hg Hr) Ho Hl ltac:(done) Hids).
    feed specialize Hw. { intros. done. }
    destruct (wp_exec safe (g_locks g) _ _ g eq_refl Hw) as (X' & HX & (-> & Hre & Hs & Hin & He & Hall) & Hreach).
    destruct (exec (flush_rounds n rounds s) g) as [[r s'] g']. cbn [fst snd] in *.
    destruct (rely_keeps false n ∅ g g' Hre (conj Hg Hr)) as ([Hg' Hr'] & K1 & K2).
    split; [done|]. split; [done|]. split; [rewrite HX; by eapply link_same|]. split; [apply Hs|]. split; [done|].
    split; [done|]. intros E Hne. specialize (He E (or_introl Hne)). split; [done|]. split; [|by apply Hall].
    intros t id Hi. destruct (Hin t id Hi) as [Hi'|Hi']; [|done]. rewrite He in Hi'. by apply elem_of_nil in Hi'.
  Qed.

  Lemma C38_lemma n rounds s g g' : begin_ok n s g -> Forall ids_ok rounds ->
    g' ∈ trace (flush_rounds n rounds s) g ->
    (forall t id, protected g n t id -> protected g' n t id) /\
    (forall t id, in_refs g n t id -> in_refs g' n t id) /\
    (forall t, refs_of g' n !! legacy_references t <> refs_of g n !! legacy_references t ->
       forall id, in_legacy g n t id -> in_refs g' n t id).
  Proof.
    intros (Hn & Hg & Hr & Ho & Hl) Hids Hin.
    assert (Hw := rounds_wp false (g_locks g) n rounds s (fun X r s' g' => True) g Hn (conj Hg Hr) Ho Hl ltac:(done) Hids).
    feed specialize Hw. { intros. done. }
    pose proof (wp_trace safe (g_locks g) _ _ g g' eq_refl Hw Hin) as Hre.
    destruct (reach_keeps _ n g g' Hre (conj Hg Hr)) as ([Hg' Hr'] & K1 & K2).
    split; [done|]. split; [done|]. intros t Hne id Hi. destruct (K2 t id (or_intror Hi)) as [Hi'|Hi']; [done|].
    destruct (reach_legacy _ n t g g' Hre) as [E|E]; [done|]. destruct Hi' as (top & es & E' & _). congruence.
  Qed.
  Lemma C38_end_lemma n s g : begin_ok n s g -> n ∉ s_legacy s ->
    let '(r, s', g') := exec (flush_object_references n s) g in
    r = Ok tt ->
    (forall t id, protected g n t id -> in_refs g' n t id) /\
    (forall t, (exists id, in_legacy g n t id) -> refs_of g' n !! legacy_references t = None).
  Proof.
    intros (Hn & Hg & Hr & Ho & Hl) Hnl.
    assert (Hw := flush_wp false (g_locks g) n s (fun X r s' g' => flush_post false n s g r s' g') g Hn (conj Hg Hr) Ho Hl ltac:(done)).
    feed specialize Hw. { intros. done. }
    destruct (wp_exec safe (g_locks g) _ _ g eq_refl Hw) as (X' & HX & (_ & _ & _ & _ & Hok) & Hreach).
    destruct (exec (flush_object_references n s) g) as [[r s'] g']. cbn [fst snd] in *. intros E.
    destruct (Hok E) as (_ & H1 & H2). split; [by apply H1|by apply H2].
  Qed.

  Lemma C42_lemma (rounds : list (pystr * list (etype * pystr))) s g : good g ->
    Forall (fun nr => is_remote (fst nr) = false /\ refs_readable g (fst nr) /\ ids_ok (snd nr)) rounds ->
    s_orefs s = [] -> locks_counted (g_locks g) s ->
    let '(r, s', g') := exec (flush_realms rounds s) g in
    (forall n t id, (exists o, (n, o) ∈ rounds) -> in_refs g n t id -> in_refs g' n t id) /\
    (r = Ok tt -> s_orefs s' = [] /\ forall n t id o, (n, o) ∈ rounds -> (t, id) ∈ o -> in_refs g' n t id).
  Proof.
    intros Hg Hr Ho Hl.
    assert (Hf : forall n o, (n, o) ∈ rounds -> fit n g).
    { intros n o Hi. split; [done|]. rewrite Forall_forall in Hr. by apply Hr in Hi as (_ & ? & _). }
    assert (Hw := realms_wp false (g_locks g) rounds s (fun X r s' g' => rely ∅ g g' /\ (r = Ok tt ->
      s_orefs s' = [] /\ forall n t id o, (n, o) ∈ rounds -> (t, id) ∈ o -> in_refs g' n t id)) g).
    feed specialize Hw; try done.
    { eapply Forall_impl; [exact Hr|]. intros [n o] (? & _ & ?). done. }
    destruct (wp_exec safe (g_locks g) _ _ g eq_refl Hw) as (X' & HX & (Hre & Hall) & Hreach).
    destruct (exec (flush_realms rounds s) g) as [[r s'] g']. cbn [fst snd] in *. split; [|done].
    intros n t id [o Hi] Hin. eapply (rely_in false n ∅ g g'); [done|by eapply Hf|done].
  Qed.
End FlushProps.

(** ** Several processes *)
Section Several.
  Context `{Env}.
  Implicit Types (X Y : gset pystr) (s : pst) (g : gstate) (n id : pystr) (t : etype) (o : list (etype * pystr)) (rounds : list (list (etype * pystr))).
  Notation safe := (safe true).

  (** ** No deadlock *)
  (** every lock is held by a process *)
  Definition held {A : Type} (pl : list (process A)) g : Prop :=
    forall n, n ∈ g_locks g -> exists i X p, pl !! i = Some (Proc X p) /\ n ∈ X.
  Lemma pstep_held {A : Type} (Qs : nat -> gset pystr -> A -> gstate -> Prop) (pl pl' : list (process A)) g g' :
    pinv safe Qs pl g -> held pl g -> pstep (pl, g) (pl', g') -> held pl' g'.
  Proof.
    intros (H1 & H2 & H3) Hh Hs. inversion Hs; subst; clear Hs; intros m Hm.
    - match goal with HH : pl !! i = _ |- _ => rename HH into Hi end.
      assert (Hcase : m ∈ g_locks g \/ c = LockAcquire m).
      { destruct (lock_free c) eqn:El; [left; by rewrite git_locks_free in Hm|]. destruct c; try done; cbn in Hm.
        - rewrite decide_False in Hm by done. cbn in Hm. set_solver.
        - set_solver. }
      destruct (decide (m ∈ next_locks X c)) as [Hx|Hx].
      { exists i, (next_locks X c), (Some (k (fst (git c g)))). split; [|done].
        apply list_lookup_insert. by eapply lookup_lt_Some. }
      destruct Hcase as [Hg| ->]; [|cbn in Hx; set_solver].
      destruct (Hh m Hg) as (j & Y & q & Hj & Hy). destruct (decide (j = i)) as [->|Hji].
      + rewrite Hi in Hj. injection Hj as <- <-. exfalso.
        destruct c; cbn in Hx, Hm; try set_solver.
      + exists j, Y, q. by rewrite list_lookup_insert_ne.
    - match goal with HH : pl !! i = _ |- _ => rename HH into Hi end. cbn in Hm. apply elem_of_difference in Hm as [Hg Hx].
      destruct (Hh m Hg) as (j & Y & q & Hj & Hy). destruct (decide (j = i)) as [->|Hji].
      + rewrite Hi in Hj. by injection Hj as <- <-.
      + exists j, Y, q. by rewrite list_lookup_insert_ne.
  Qed.
  Definition whole {A : Type} (Qs : nat -> gset pystr -> A -> gstate -> Prop) (c : list (process A) * gstate) : Prop :=
    pinv safe Qs (fst c) (snd c) /\ held (fst c) (snd c) /\ forall i X, fst c !! i = Some (Proc X None) -> X = ∅.
  Lemma psteps_whole {A : Type} Qs (c c' : list (process A) * gstate) : rtc pstep c c' -> whole Qs c -> whole Qs c'.
  Proof.
    induction 1 as [c|[pl g] [pl' g'] c'' Hs Hss IH]; [done|]. intros (Hi & Hh & Hk). apply IH. cbn [fst snd] in *.
    destruct (pstep_inv safe Qs pl pl' g g' (safe_kill true) Hi Hs) as [Hi' _].
    split; [done|]. split; [exact (pstep_held Qs pl pl' g g' Hi Hh Hs)|]. cbn [fst]. intros i X. inversion Hs; subst.
    - destruct (decide (i = i0)) as [->|Hne]; [|rewrite list_lookup_insert_ne by done; apply Hk].
      rewrite list_lookup_insert by by eapply lookup_lt_Some. done.
    - destruct (decide (i = i0)) as [->|Hne]; [|rewrite list_lookup_insert_ne by done; apply Hk].
      rewrite list_lookup_insert by by eapply lookup_lt_Some. by intros [= <-].
  Qed.
  (** A process with a lock does not wait. *)
  Lemma not_waiting {A : Type} X n (k : answer -> prog A) Q g : wp safe X (Do (LockAcquire n) k) Q g -> X = ∅.
  Proof.
    intros [Hd Hw]. destruct (decide (X = ∅)) as [|Hne]; [done|]. exfalso. cbn in Hd.
    destruct (Hw (drop_locks g {[n]})) as [(_ & _ & Hl & _) _].
    - apply (rely_one safe X {[n]}); [set_solver|apply safe_kill].
    - cbn. set_solver.
    - specialize (Hl eq_refl Hne). cbn in Hl. rewrite decide_False in Hl by set_solver. cbn in Hl. set_solver.
  Qed.

  Definition jobs_done n (jobs : list (pst * list (list (etype * pystr)))) (i : nat) X (a : res unit * pst) g' : Prop :=
    X = ∅ /\ forall s rounds s', jobs !! i = Some (s, rounds) -> a = (Ok tt, s') -> rounds <> [] ->
        s_orefs s' = [] /\ (forall t id, (t, id) ∈ s_orefs s -> in_refs g' n t id) /\
       (forall t id o, o ∈ rounds -> (t, id) ∈ o -> in_refs g' n t id).

  Lemma start_whole n jobs procs g :
    is_remote n = false -> good g -> refs_readable g n -> g_locks g = ∅ ->
    Forall2 (fun j p => starts n (fst j) (snd j) p) jobs procs -> whole (jobs_done n jobs) (procs, g).
  Proof.
    intros Hn Hg Hr Hlk Hst.
    assert (Hall : forall i X p, procs !! i = Some (Proc X p) -> X = ∅).
    { intros i X p Hp. eapply Forall2_lookup_r in Hst as ([s rounds] & _ & [E _]); [|exact Hp]. by injection E. }
    split; [|split; cbn [fst snd]].
    - split; [|split].
      + intros i X p Hp. apply Hall in Hp as ->. set_solver.
      + intros i j X Y p q _ Hp Hq. apply Hall in Hp as ->. set_solver.
      + intros i X p Hp. pose proof Hst as Hst2. eapply Forall2_lookup_r in Hst2 as ([s rounds] & Hj & [E (Ho & Hids & Hc)]); [|exact Hp].
        injection E as -> ->. cbn [fst snd] in *.
        eapply (wp_mono safe ∅ _ (fun X' rs g' => jobs_done n jobs i X' (fst rs, snd rs) g')); [by intros ? [] ?|].
        apply (rounds_wp true ∅ n rounds s (fun X r s' g' => jobs_done n jobs i X (r, s') g')); try done.
        { intros m. rewrite Hc. split; [set_solver|lia]. }
        intros g1 r s' H1 Hs1 Hok1 Hin1 Hr1 Hall1. split; [done|]. intros s2 rounds2 s2' Hj2.
        rewrite Hj in Hj2. injection Hj2 as <- <-. intros [= -> ->] Hne.
        specialize (Hr1 eq_refl (or_introl Hne)). split; [done|]. split; [|by apply Hall1].
        intros t id Hi. destruct (Hin1 t id Hi) as [Hi'|Hi']; [|done]. rewrite Hr1 in Hi'. by apply elem_of_nil in Hi'.
    - intros m. rewrite Hlk. set_solver.
    - intros i X Hp. by apply Hall in Hp.
  Qed.

  Lemma C39_lemma n jobs procs g procs' g' :
    is_remote n = false -> good g -> refs_readable g n -> g_locks g = ∅ ->
    Forall2 (fun j p => starts n (fst j) (snd j) p) jobs procs ->
    rtc pstep (procs, g) (procs', g') ->
    good g' /\ refs_readable g' n /\
    (forall t id, in_refs g n t id -> in_refs g' n t id) /\
    (forall t id, protected g n t id -> protected g' n t id) /\
    (forall i s rounds X s', jobs !! i = Some (s, rounds) -> procs' !! i = Some (Proc X (Some (Ret (Ok tt, s')))) ->
       rounds <> [] -> s_orefs s' = [] /\
       (forall t id, (t, id) ∈ s_orefs s -> in_refs g' n t id) /\
       (forall t id o, o ∈ rounds -> (t, id) ∈ o -> in_refs g' n t id)).
  Proof.
    intros Hn Hg Hr Hlk Hst Hsteps.
    pose proof (start_whole n jobs procs g Hn Hg Hr Hlk Hst) as [Hi _].
    destruct (psteps_inv safe _ (procs, g) (procs', g') (safe_kill true) Hsteps Hi) as [Hi' Hre]. cbn [fst snd] in *.
    destruct (reach_keeps true n g g' Hre (conj Hg Hr)) as ([Hg' Hr'] & K1 & K2).
    split; [done|]. split; [done|]. split; [done|]. split; [done|].
    intros i s rounds X s' Hj Hp Hne. pose proof (pinv_result safe _ procs' g' i X _ Hi' Hp) as [_ Hd]. by eapply Hd.
  Qed.
  Lemma C39_progress_lemma n jobs procs g procs' g' :
    is_remote n = false -> good g -> refs_readable g n -> g_locks g = ∅ ->
    Forall2 (fun j p => starts n (fst j) (snd j) p) jobs procs ->
    rtc pstep (procs, g) (procs', g') ->
    Forall at_end procs' \/
    exists i X c k, procs' !! i = Some (Proc X (Some (Do c k))) /\ enabled c g'.
  Proof.
    intros Hn Hg Hr Hlk Hst Hsteps.
    pose proof (psteps_whole _ _ _ Hsteps (start_whole n jobs procs g Hn Hg Hr Hlk Hst)) as (Hi & Hh & Hk). cbn [fst snd] in *.
    destruct (decide (Forall (fun p : process (res unit * pst) => match p_prog p with Some (Do _ _) => false | _ => true end = true) procs')) as [Hend|Hend].
    { left. eapply Forall_impl; [exact Hend|]. intros [X [[]|]]; done. }
    right. apply not_Forall_Exists in Hend; [|intros ?; apply _]. apply Exists_exists in Hend as ([X p] & Hin & Hp). cbn in Hp.
    destruct p as [[a|c k]|]; [done| |done].
    apply elem_of_list_lookup in Hin as [i Hx].
    assert (Hen : enabled c g' \/ exists m, c = LockAcquire m /\ m ∈ g_locks g').
    { destruct c as [| | | | | | | | | | | |m|]; try (by left). cbn. destruct (decide (m ∈ g_locks g')); [right; eauto|by left]. }
    destruct Hen as [Hen|(m & -> & Hm)]; [by exists i, X, c, k|].
    destruct (Hh m Hm) as (j & Y & q & Hj & Hy). destruct Hi as (I1 & I2 & I3).
    destruct q as [q|]; [|apply Hk in Hj; set_solver]. destruct q as [a|c' k'].
    - pose proof (pinv_result safe _ procs' g' j Y a (conj I1 (conj I2 I3)) Hj) as [-> _]. set_solver.
    - exists j, Y, c', k'. split; [done|]. destruct c'; try done. apply I3, not_waiting in Hj. set_solver.
  Qed.

  (** A process that is not disturbed runs to its end. *)
  Lemma run_alone {A : Type} (p : prog A) : forall (pl : list (process A)) i X Q g,
    pl !! i = Some (Proc X (Some p)) -> wp safe X p Q g -> g_locks g = X ->
    rtc pstep (pl, g) (<[i := Proc (g_locks (snd (exec p g))) (Some (Ret (fst (exec p g))))]> pl, snd (exec p g)).
  Proof.
    induction p as [a|c k IH]; intros pl i X Q g Hi Hw HX; cbn [exec].
    - cbn [fst snd]. rewrite HX, list_insert_id by done. constructor.
    - destruct Hw as [Hd Hw]. assert (He : enabled c g).
      { destruct c; cbn in *; try done. by rewrite HX. }
      destruct (Hw g (rely_refl _ _ _) He) as [_ Hw']. pose proof (git_locks_next c g X HX Hd) as HX'.
      eapply rtc_l; [by apply step_cmd|]. destruct (git c g) as [x g'] eqn:Eg. cbn [fst snd] in *.
      assert (Hl : <[i := Proc (next_locks X c) (Some (k x))]> pl !! i = Some (Proc (next_locks X c) (Some (k x)))).
      { apply list_lookup_insert. by eapply lookup_lt_Some. }
      specialize (IH x _ i _ _ g' Hl Hw' HX'). by rewrite list_insert_insert in IH.
  Qed.
  Lemma two_processes n s1 s2 rounds1 rounds2 g r1 s1' g1 r2 s2' g2 :
    is_remote n = false -> good g -> refs_readable g n -> g_locks g = ∅ ->
    let p1 := Proc ∅ (Some (flush_rounds n rounds1 s1)) in let p2 := Proc ∅ (Some (flush_rounds n rounds2 s2)) in
    starts n s1 rounds1 p1 -> starts n s2 rounds2 p2 ->
    exec (flush_rounds n rounds1 s1) g = (r1, s1', g1) -> exec (flush_rounds n rounds2 s2) g1 = (r2, s2', g2) ->
    rtc pstep ([p1; p2], g) ([Proc ∅ (Some (Ret (r1, s1'))); Proc ∅ (Some (Ret (r2, s2')))], g2).
  Proof.
    intros Hn Hg Hr Hlk p1 p2 S1 S2 E1 E2.
    assert (Hw : whole (jobs_done n [(s1, rounds1); (s2, rounds2)]) ([p1; p2], g)).
    { apply start_whole; try done. constructor; [done|]. by constructor. }
    pose proof Hw as ((_ & _ & I3) & _).
    pose proof (run_alone _ [p1; p2] 0%nat ∅ _ g eq_refl (I3 0%nat _ _ eq_refl) Hlk) as R1.
    rewrite E1 in R1. cbn [fst snd insert list_insert] in R1.
    pose proof (psteps_whole _ _ _ R1 Hw) as ((_ & _ & J3) & _ & _). cbn [fst snd] in J3.
    assert (Hl1 : g_locks g1 = ∅).
    { pose proof (J3 0%nat _ _ eq_refl) as W. cbn in W. by apply (W g1 (rely_refl _ _ _)). }
    rewrite Hl1 in R1.
    pose proof (run_alone _ [Proc ∅ (Some (Ret (r1, s1'))); p2] 1%nat ∅ _ g1 eq_refl (J3 1%nat _ _ eq_refl) Hl1) as R2.
    rewrite E2 in R2. cbn [fst snd insert list_insert] in R2.
    assert (Hw2 := psteps_whole _ _ _ (rtc_transitive _ _ _ R1 R2) Hw). destruct Hw2 as ((_ & _ & K3) & _ & _). cbn [fst snd] in K3.
    assert (Hl2 : g_locks g2 = ∅).
    { pose proof (K3 1%nat _ _ eq_refl) as W. cbn in W. by apply (W g2 (rely_refl _ _ _)). }
    rewrite Hl2 in R2. by eapply rtc_transitive.
  Qed.
End Several.
