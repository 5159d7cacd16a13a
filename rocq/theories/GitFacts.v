(** Facts about the git commands and about programs that run them, alone or
    together with other processes. *)
From Verif Require Import Base BaseFacts Json Refs GitText Spec_Git GitTextFacts Git Spec_Store TreeTextFacts.

Arguments closure : simpl never.

Lemma objs_set g n r m : objs_of (set_repo g n r) m = if decide (m = n) then r_objs r else objs_of g m.
Proof.
  unfold objs_of, set_repo. cbn. destruct (decide (m = n)) as [->|].
  - by rewrite lookup_insert. - by rewrite lookup_insert_ne.
Qed.
Lemma refs_set g n r m : refs_of (set_repo g n r) m = if decide (m = n) then r_refs r else refs_of g m.
Proof.
  unfold refs_of, set_repo. cbn. destruct (decide (m = n)) as [->|].
  - by rewrite lookup_insert. - by rewrite lookup_insert_ne.
Qed.
Lemma exists_set g n r m : exists_repo g m -> exists_repo (set_repo g n r) m.
Proof.
  unfold exists_repo, set_repo. cbn. intros H. destruct (decide (m = n)) as [->|].
  - rewrite lookup_insert. eauto. - by rewrite lookup_insert_ne.
Qed.
Lemma local_repo_inv g n r : local_repo g n = Some r -> is_remote n = false /\ g_repos g !! n = Some r.
Proof. unfold local_repo. by destruct (is_remote n). Qed.
Lemma objs_repo g n r : g_repos g !! n = Some r -> objs_of g n = r_objs r.
Proof. unfold objs_of. by intros ->. Qed.
Lemma refs_repo g n r : g_repos g !! n = Some r -> refs_of g n = r_refs r.
Proof. unfold refs_of. by intros ->. Qed.

Lemma object_id_hex40 h : object_id h = true <-> hex40 h.
Proof.
  unfold object_id, hex40. rewrite andb_true_iff, Nat.eqb_eq, forallb_forall, List.Forall_forall.
  enough (forall x, is_lhex x = true <-> lower_hex_digit x) as H.
  { split; intros [? Hx]; (split; [done|]); intros x Hi; apply H, Hx, Hi. }
  intros x. unfold is_lhex, lower_hex_digit. rewrite orb_true_iff, !andb_true_iff, !N.leb_le. lia.
Qed.

(** a line with an object id *)
Lemma line_lines h : hex40 h -> stdout_lines (line h) = Ok [h].
Proof.
  intros [Hl Hh]. unfold stdout_lines, line.
  assert (Ha : Forall (fun x => (x = 9 \/ (32 <= x /\ x < 127))%N) h).
  { eapply Forall_impl; [exact Hh|]. unfold lower_hex_digit. simpl. lia. }
  rewrite decode_ascii.
  - cbn [rbind]. rewrite splitlines_line; [done|]. eapply Forall_impl; [exact Ha|]. intros x. apply not_linesep.
  - apply Forall_app. split; [by apply lhex_ascii|]. fall. unfold ascii. lia.
Qed.

Section GitFacts.
  Context `{Env}.

  Lemma oid_hex o : hex40 (oid o).
  Proof. apply object_id_hex40, sha1_id. Qed.

  Lemma grow_refl g : grow g g.
  Proof. intros n. done. Qed.
  Lemma grow_trans a b c : grow a b -> grow b c -> grow a c.
  Proof. intros H1 H2 n. destruct (H1 n), (H2 n). split; [by etrans|auto]. Qed.
  Lemma grow_objs g g' n h o : grow g g' -> objs_of g n !! h = Some o -> objs_of g' n !! h = Some o.
  Proof. intros Hg Ho. eapply lookup_weaken; [exact Ho|apply Hg]. Qed.
  Lemma grow_exists g g' n : grow g g' -> exists_repo g n -> exists_repo g' n.
  Proof. intros Hg. apply Hg. Qed.

  Lemma put_obj_inv o r r' : put_obj o r = Some r' ->
    r_refs r' = r_refs r /\ r_objs r ⊆ r_objs r' /\ r_objs r' !! oid o = Some o /\
    (forall h x, r_objs r' !! h = Some x -> r_objs r !! h = Some x \/ (h = oid o /\ x = o)).
  Proof.
    unfold put_obj. destruct (r_objs r !! oid o) as [o'|] eqn:E.
    - destruct (decide (o' = o)) as [->|]; [|done]. intros [= ->]. auto.
    - intros [= <-]. cbn. split; [done|]. split; [by apply insert_subseteq|].
      split; [by rewrite lookup_insert|]. intros h x. destruct (decide (h = oid o)) as [->|].
      + rewrite lookup_insert. intros [= ->]. auto.
      + rewrite lookup_insert_ne by done. auto.
  Qed.
  Lemma put_objs_inv os r r' : put_objs os r = Some r' ->
    r_refs r' = r_refs r /\ r_objs r ⊆ r_objs r' /\ Forall (fun o => r_objs r' !! oid o = Some o) os /\
    (forall h x, r_objs r' !! h = Some x -> r_objs r !! h = Some x \/ (h = oid x /\ x ∈ os)).
  Proof.
    revert r. induction os as [|o os IH]; cbn; intros r.
    - intros [= ->]. repeat split; auto.
    - destruct (put_obj o r) as [r1|] eqn:E; [|done]. intros Hr.
      apply put_obj_inv in E as (E1 & E2 & E3 & E4). apply IH in Hr as (F1 & F2 & F3 & F4).
      split; [congruence|]. split; [by etrans|]. split.
      + apply List.Forall_cons; [|done]. by eapply lookup_weaken.
      + intros h x Hx. apply F4 in Hx as [Hx|[-> Hx]].
        * apply E4 in Hx as [?|[-> ->]]; [by left|]. right. split; [done|left].
        * right. split; [done|by right].
  Qed.

  Lemma collect_inv fuel objs todo acc res : collect fuel objs todo acc = Some res ->
    forall h o, res !! h = Some o -> acc !! h = Some o \/ objs !! h = Some o.
  Proof.
    revert todo acc. induction fuel as [|f IH]; intros [|x r] acc; cbn; try done.
    - intros [= ->]. auto.
    - intros [= ->]. auto.
    - destruct (acc !! x) eqn:Ea; [by apply IH|]. destruct (objs !! x) eqn:Eo; [|done].
      intros Hc h o Hh. apply IH with (h := h) (o := o) in Hc; [|done].
      destruct Hc as [Hc|]; [|auto]. destruct (decide (h = x)) as [->|].
      + rewrite lookup_insert in Hc. right. congruence.
      + rewrite lookup_insert_ne in Hc by done. auto.
  Qed.

  (** ** Every command only adds objects and keeps them consistent *)
  Lemma git_grow c g : grow g (snd (git c g)).
  Proof.
    destruct c; cbn; repeat case_match; cbn; try apply grow_refl.
    all: intros m; split.
    all: try (apply exists_set).
    all: rewrite ?objs_set.
    all: repeat match goal with
         | H : local_repo _ _ = Some _ |- _ => apply local_repo_inv in H as [? H]
         | H : put_obj _ _ = Some _ |- _ => apply put_obj_inv in H as (? & ? & ? & ?)
         | H : put_objs _ _ = Some _ |- _ => apply put_objs_inv in H as (? & ? & ? & ?)
         end.
    all: try (destruct (decide (m = r)) as [->|]; [|done]).
    all: try (erewrite objs_repo by eassumption; cbn; first [done | apply map_union_subseteq_l]).
    - unfold objs_of. rewrite H0. cbn. apply map_empty_subseteq.
    - done.
    - done.
    - done.
    - done.
  Qed.

  Lemma git_good c g : good g -> good (snd (git c g)).
  Proof.
    intros Hg. destruct c; cbn; repeat case_match; cbn; try done.
    all: intros m h o; rewrite ?objs_set.
    all: repeat match goal with
         | H : local_repo _ _ = Some _ |- _ => apply local_repo_inv in H as [? H]
         | H : put_obj _ _ = Some _ |- _ => apply put_obj_inv in H as (? & ? & ? & ?)
         | H : put_objs _ _ = Some _ |- _ => apply put_objs_inv in H as (? & ? & ? & ?)
         end.
    all: try (destruct (decide (m = r)) as [->|]; [|by apply Hg]).
    all: try (by apply Hg).
    all: intros Ho.
    all: try match goal with
         | F : forall h x, r_objs ?r' !! h = Some x -> _, Ho : r_objs ?r' !! _ = Some _ |- _ =>
             apply F in Ho as [Ho|[Ho1 Ho2]]
         end.
    all: try (eapply Hg; erewrite objs_repo by eassumption; exact Ho).
    all: try (subst; split; [done|]; first [done|by apply elem_of_list_fmap in Ho2 as (? & -> & _)]).
    { subst. split; [done|]. rewrite andb_true_iff in *. destruct_and?.
      eapply mktree_input_wf; [|eassumption]. rewrite forallb_forall in *.
      apply List.Forall_forall. intros c Hc. apply N.ltb_lt. auto. }
    all: cbn in Ho; try done.
    all: apply lookup_union_Some_raw in Ho as [Ho|[_ Ho]];
      [eapply (Hg r); erewrite objs_repo by eassumption; exact Ho|].
    all: match goal with F : closure _ _ = Some _ |- _ =>
           unfold closure in F; eapply collect_inv in F; [|exact Ho]; destruct F as [F|F]; [done|] end.
    all: eapply (Hg remote); erewrite objs_repo by eassumption; done.
  Qed.

  (** the references a command may change *)
  Definition ref_written (c : cmd) : option (pystr * pystr) :=
    match c with
    | UpdateRef r n _ | DeleteRef r n => Some (r, n)
    | Fetch r _ _ (Some l) => Some (r, l)
    | _ => None
    end.
  (** the locks *)
  Definition lock_cmd (c : cmd) : bool :=
    match c with LockAcquire _ | LockRelease _ => true | _ => false end.

  Lemma git_refs c g n x : ref_written c <> Some (n, x) -> refs_of (snd (git c g)) n !! x = refs_of g n !! x.
  Proof.
    intros Hc. destruct c; cbn in *; repeat case_match; cbn; try done.
    all: rewrite ?refs_set.
    all: repeat match goal with
         | H : local_repo _ _ = Some _ |- _ => apply local_repo_inv in H as [? H]
         | H : put_obj _ _ = Some _ |- _ => apply put_obj_inv in H as (? & ? & ? & ?)
         | H : put_objs _ _ = Some _ |- _ => apply put_objs_inv in H as (? & ? & ? & ?)
         end.
    all: try (destruct (decide (n = r)) as [->|]; [|done]).
    all: try (erewrite (refs_repo _ r) by eassumption; cbn).
    all: try congruence.
    all: try (rewrite lookup_insert_ne; [done|congruence]).
    - rewrite lookup_delete_ne; [done|congruence].
    - unfold refs_of. rewrite H0. done.
  Qed.

  Lemma git_locks c g : lock_cmd c = false -> g_locks (snd (git c g)) = g_locks g.
  Proof. intros Hc. destruct c; cbn in *; repeat case_match; cbn; done. Qed.

  (** ** Programs *)
  Lemma pbind_assoc {A B C} (p : prog A) (f : A -> prog B) (k : B -> prog C) g :
    exec (pbind (pbind p f) k) g = exec (pbind p (fun a => pbind (f a) k)) g.
  Proof. revert g. induction p as [a|c q IH]; intros g; cbn; [done|]. destruct (git c g). apply IH. Qed.
  Lemma exec_bind {A B} (p : prog A) (f : A -> prog B) g :
    exec (pbind p f) g = let '(a, g') := exec p g in exec (f a) g'.
  Proof. revert g. induction p as [a|c k IH]; intros g; cbn; [done|]. destruct (git c g). apply IH. Qed.
  Lemma trace_bind {A B} (p : prog A) (f : A -> prog B) g :
    trace (pbind p f) g = trace p g ++ (let '(a, g') := exec p g in trace (f a) g').
  Proof.
    revert g. induction p as [a|c k IH]; intros g; cbn; [done|].
    destruct (git c g) as [x g'] eqn:E. cbn. by rewrite IH.
  Qed.

  Lemma exec_grow {A} (p : prog A) g : grow g (snd (exec p g)).
  Proof.
    revert g. induction p as [a|c k IH]; intros g; cbn; [apply grow_refl|].
    pose proof (git_grow c g). destruct (git c g) as [x g']. eapply grow_trans; [done|apply IH].
  Qed.
  Lemma exec_good {A} (p : prog A) g : good g -> good (snd (exec p g)).
  Proof.
    revert g. induction p as [a|c k IH]; intros g Hg; cbn; [done|].
    pose proof (git_good c g Hg). destruct (git c g) as [x g']. by apply IH.
  Qed.
  Lemma trace_grow {A} (p : prog A) g g' : g' ∈ trace p g -> grow g g'.
  Proof.
    revert g. induction p as [a|c k IH]; intros g; cbn; [by intros ?%elem_of_nil|].
    pose proof (git_grow c g). destruct (git c g) as [x g1]. cbn in *.
    intros [->|Hin]%elem_of_cons; [done|]. eapply grow_trans; [done|by eapply IH].
  Qed.
  Lemma trace_good {A} (p : prog A) g g' : good g -> g' ∈ trace p g -> good g'.
  Proof.
    revert g. induction p as [a|c k IH]; intros g Hg; cbn; [by intros ?%elem_of_nil|].
    pose proof (git_good c g Hg). destruct (git c g) as [x g1]. cbn in *.
    intros [->|Hin]%elem_of_cons; [done|]. by eapply IH.
  Qed.

  (** every command of a program satisfies [P], whatever git answers *)
  Fixpoint all_cmds {A} (P : cmd -> Prop) (p : prog A) : Prop :=
    match p with
    | Ret _ => True
    | Do c k => P c /\ forall x, all_cmds P (k x)
    end.
  Lemma all_cmds_bind {A B} P (p : prog A) (f : A -> prog B) :
    all_cmds P p -> (forall a, all_cmds P (f a)) -> all_cmds P (pbind p f).
  Proof. induction p as [a|c k IH]; cbn; [auto|]. intros [? ?] ?. split; [done|]. auto. Qed.
  Lemma all_cmds_mono {A} (P Q : cmd -> Prop) (p : prog A) :
    (forall c, P c -> Q c) -> all_cmds P p -> all_cmds Q p.
  Proof. intros HPQ. induction p as [a|c k IH]; cbn; [auto|]. intros [? ?]. auto. Qed.
  Lemma exec_refs {A} (p : prog A) g n x :
    all_cmds (fun c => ref_written c <> Some (n, x)) p ->
    refs_of (snd (exec p g)) n !! x = refs_of g n !! x.
  Proof.
    revert g. induction p as [a|c k IH]; intros g; cbn; [done|]. intros [Hc Hk].
    pose proof (git_refs c g n x Hc). destruct (git c g) as [y g']. cbn in *. by rewrite IH.
  Qed.
  Lemma trace_refs {A} (p : prog A) g g' n x :
    all_cmds (fun c => ref_written c <> Some (n, x)) p -> g' ∈ trace p g ->
    refs_of g' n !! x = refs_of g n !! x.
  Proof.
    revert g. induction p as [a|c k IH]; intros g; cbn; [by intros _ ?%elem_of_nil|]. intros [Hc Hk].
    pose proof (git_refs c g n x Hc). destruct (git c g) as [y g1]. cbn in *.
    intros [->|Hin]%elem_of_cons; [done|]. by rewrite (IH _ _ (Hk y) Hin).
  Qed.
End GitFacts.
