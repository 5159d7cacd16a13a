(** Proofs about objectreference.py. *)
From Verif Require Import Base BaseFacts Json Refs GitText Spec_Git GitTextFacts Git Spec_Store TreeTextFacts
  GitFacts Rely State Spec_Tree TreeUpd Spec_TreeUpd TreeUpdFacts TreeMergeFacts Lock LockFacts ObjRef Spec_ObjRef.

(** ** Trees in a growing store *)
Lemma dirs_present_mono objs objs' path : objs ⊆ objs' -> forall look,
  dirs_present objs look path -> dirs_present objs' look path.
Proof.
  intros Hs. induction path as [|b r IH]; intros look; [done|]. cbn [dirs_present]. destruct r as [|c r]; [done|].
  destruct (look b) as [[[] h]|]; try done. intros (es & Ht & Hd). exists es. split; [by eapply tree_of_mono|]. by apply IH.
Qed.
Lemma at_path_mono objs objs' path x : objs ⊆ objs' -> forall look,
  at_path objs look path = Some x -> at_path objs' look path = Some x.
Proof.
  intros Hs. induction path as [|b r IH]; intros look; [done|]. cbn [at_path]. destruct r as [|c r]; [done|].
  destruct (look b) as [[[] h]|]; try done. destruct (tree_of objs h) as [es|] eqn:Et; [|done].
  erewrite tree_of_mono by eassumption. apply IH.
Qed.
Lemma at_path_present objs objs' path : objs ⊆ objs' -> forall look,
  dirs_present objs look path -> at_path objs' look path = at_path objs look path.
Proof.
  intros Hs. induction path as [|b r IH]; intros look; [done|]. cbn [at_path dirs_present]. destruct r as [|c r]; [done|].
  destruct (look b) as [[[] h]|]; try done. intros (es & Ht & Hd). rewrite Ht. erewrite tree_of_mono by eassumption. by apply IH.
Qed.
Lemma tree_path_mono objs objs' h path x : objs ⊆ objs' ->
  tree_path objs h path = Some x -> tree_path objs' h path = Some x.
Proof.
  intros Hs. unfold tree_path. destruct (tree_of objs h) as [es|] eqn:Et; [|done].
  erewrite tree_of_mono by eassumption. by apply at_path_mono.
Qed.
Lemma merged_present objs look infos look' : merged objs look infos look' ->
  forall path, Forall wf_name path -> (forall p, p ∈ infos -> pi_elements p <> []) ->
  (forall p, p ∈ infos -> pi_elements p `prefix_of` path -> pi_elements p = path) ->
  dirs_present objs look path -> dirs_present objs look' path.
Proof.
  intros Hm path. revert look infos look' Hm.
  induction path as [|b r IH]; intros look infos look' Hm Hwf Hne Hpre Hd; [done|].
  destruct r as [|c r]; [done|]. destruct Hm as [look infos look' H1 H2 H3].
  apply List.Forall_cons_iff in Hwf as [Hb Hr].
  destruct (decide (Exists (fun p => head (pi_elements p) = Some b) infos)) as [Hex|Hno].
  - apply Exists_exists in Hex as (p & Hp & Hh). specialize (Hpre p Hp) as Hpp.
    destruct (pi_elements p) as [|b' rest] eqn:Ep; [done|]. cbn in Hh. injection Hh as ->.
    destruct rest as [|c' rest]; [discriminate Hpp; by exists (c :: r)|].
    assert (Hq : sub_info infos b (PathI (c' :: rest) (pi_hash p) (pi_type p))).
    { exists p. split; [done|]. by rewrite Ep. }
    destruct (H3 _ _ Hq) as (h & es & subs & sub & E1 & E2 & E3 & E4 & E5).
    change (match look' b with
      | Some (Directory, h) => exists es, tree_of objs h = Some es /\ dirs_present objs (entry_at es) (c :: r)
      | _ => True end). rewrite E1. exists es. split; [done|]. eapply (IH _ _ _ E5); [done| | |].
    + intros q Hqq. apply E4 in Hqq as (? & _ & _ & ? & _). done.
    + intros q Hqq Hpq. apply E4 in Hqq as (p' & Hp' & Ep' & _). specialize (Hpre p' Hp'). rewrite Ep' in Hpre.
      assert (HH := Hpre (prefix_cons _ _ _ Hpq)). by injection HH.
    + change (match look b with
        | Some (Directory, h) => exists es, tree_of objs h = Some es /\ dirs_present objs (entry_at es) (c :: r)
        | _ => True end) in Hd.
      destruct E3 as [[_ ->]|(h0 & es0 & F1 & F2 & ->)]; [by destruct r|]. rewrite F1 in Hd. destruct Hd as (es1 & G1 & G2). congruence.
  - assert (Eb : look' b = look b).
    { apply H1; [done|]. intros p Hp E. apply Hno, Exists_exists. eauto. }
    cbn [dirs_present] in *. by rewrite Eb.
Qed.

(** ** The four path elements of an id *)
Lemma fan_out_inj a b : fan_out a = fan_out b -> a = b.
Proof.
  intros E. unfold fan_out in E. injection E as E1 E2 E3 E4.
  rewrite <- (take_drop 3 a), <- (take_drop 3 b). f_equal; [done|].
  rewrite <- (take_drop 3 (drop 3 a)), <- (take_drop 3 (drop 3 b)). f_equal; [done|]. rewrite !drop_drop.
  rewrite <- (take_drop 3 (drop (3 + 3) a)), <- (take_drop 3 (drop (3 + 3) b)). f_equal; [done|]. rewrite !drop_drop. done.
Qed.
Lemma fan_out_related a b : related (fan_out a) (fan_out b) -> a = b.
Proof.
  intros [[k Hk]|[k Hk]]; assert (k = []) as -> by (apply (f_equal length) in Hk; rewrite app_length in Hk; destruct k; [done|cbn in Hk; lia]);
    rewrite app_nil_r in Hk; apply fan_out_inj; done.
Qed.
Lemma hex_plain h : Forall lower_hex_digit h -> Forall plain_char h.
Proof. intros Hh. eapply Forall_impl; [exact Hh|]. unfold lower_hex_digit, plain_char. lia. Qed.
Lemma fan_out_plain h : hex40 h -> Forall plain_name (fan_out h).
Proof.
  intros [Hl Hh]. apply hex_plain in Hh. unfold fan_out, plain_name.
  assert (Hn : forall s : pystr, (0 < length s)%nat -> s <> []) by (intros []; cbn; [lia|done]).
  fall.
  all: split; [apply Hn; rewrite ?take_length, ?drop_length; lia|].
  all: repeat (first [apply Forall_take|apply Forall_drop]); done.
Qed.
Lemma fan_out_wf h : hex40 h -> Forall wf_name (fan_out h).
Proof. intros Hh. eapply Forall_impl; [by apply fan_out_plain|]. apply plain_wf. Qed.

Section ObjRefFacts.
  Context `{Env}.
  (** [strict]: no process takes a lock while it holds another one *)
  Context (strict : bool).
  Implicit Types (X Y : gset pystr) (s : pst) (g : gstate) (n id h top : pystr) (t : etype) (es : list tentry) (o : list (etype * pystr)).

  (** ** What no process may destroy *)
  Definition safe Y g g' : Prop :=
    grow g g' /\ (good g -> good g') /\ (strict = true -> Y <> ∅ -> g_locks g' ⊆ g_locks g) /\
    forall n, (n ∉ Y -> refs_of g' n !! object_references = refs_of g n !! object_references) /\
      (forall t, refs_of g' n !! legacy_references t = refs_of g n !! legacy_references t \/
                 refs_of g' n !! legacy_references t = None) /\
      (good g -> refs_readable g n ->
         refs_readable g' n /\ (forall t id, in_refs g n t id -> in_refs g' n t id) /\
         (forall t id, protected g n t id -> protected g' n t id)).

  Lemma in_refs_hex g n t id : good g -> in_refs g n t id -> hex40 id.
  Proof.
    intros Hg (top & _ & Hp). unfold tree_path in Hp. destruct (tree_of (objs_of g n) top) as [es|] eqn:Et; [|done].
    assert (Hwf : forall h es, tree_of (objs_of g n) h = Some es -> Forall wf_entry es).
    { intros h es' Ht. apply tree_of_inv in Ht as [Ho _]. by apply Hg in Ho as [_ Ho]. }
    assert (Hgen : forall path es, Forall wf_entry es -> at_path (objs_of g n) (entry_at es) path = Some (t, id) -> hex40 id).
    { clear Hp Et es. induction path as [|b r IH]; intros es He; [done|]. cbn [at_path].
      assert (Hlook : forall x, entry_at es b = Some x -> hex40 (snd x)).
      { intros x. unfold entry_at. destruct List.find as [e|] eqn:Ef; [|done]. intros [= <-]. cbn.
        apply find_some in Ef as [Hin _]. apply in_rev in Hin. rewrite List.Forall_forall in He. by apply He in Hin as [? _]. }
      destruct r as [|c r]; [intros E; by apply (Hlook (t, id))|].
      destruct (entry_at es b) as [[[] h]|]; try done. destruct (tree_of (objs_of g n) h) as [es'|] eqn:Et; [|done].
      apply IH. by eapply Hwf. }
    eapply Hgen; [|exact Hp]. by eapply Hwf.
  Qed.
  Lemma in_legacy_hex g n t id : good g -> in_legacy g n t id -> hex40 id.
  Proof.
    intros Hg (top & es & _ & Ht & Hin). apply tree_of_inv in Ht as [Ho _]. apply Hg in Ho as [_ Ho].
    apply elem_of_list_fmap in Hin as (e & -> & He). cbn in Ho. rewrite List.Forall_forall in Ho.
    by apply elem_of_list_In, Ho in He as [? _].
  Qed.

  Lemma refs_same g g' n : grow g g' ->
    refs_of g' n !! object_references = refs_of g n !! object_references ->
    (refs_readable g n -> refs_readable g' n) /\ (forall t id, in_refs g n t id -> in_refs g' n t id).
  Proof.
    intros Hg E. split.
    - intros Hr top Ht. rewrite E in Ht. destruct (Hr top Ht) as (es & Hes & Hd). exists es.
      split; [eapply tree_of_mono; [apply Hg|done]|]. intros id Hid. eapply dirs_present_mono; [apply Hg|by apply Hd].
    - intros t id (top & Ht & Hp). exists top. split; [by rewrite E|]. eapply tree_path_mono; [apply Hg|done].
  Qed.
  Lemma legacy_same g g' n t : grow g g' ->
    refs_of g' n !! legacy_references t = refs_of g n !! legacy_references t ->
    forall id, in_legacy g n t id -> in_legacy g' n t id.
  Proof.
    intros Hg E id (top & es & Ht & Hes & Hin). exists top, es. split; [by rewrite E|].
    split; [eapply tree_of_mono; [apply Hg|done]|done].
  Qed.
  Lemma safe_other Y g g' : grow g g' -> (good g -> good g') -> (strict = true -> Y <> ∅ -> g_locks g' ⊆ g_locks g) ->
    (forall n x, x = object_references \/ (exists t, x = legacy_references t) -> refs_of g' n !! x = refs_of g n !! x) ->
    safe Y g g'.
  Proof.
    intros Hg Hgd Hst Hr. split; [done|]. split; [done|]. split; [done|]. intros n.
    destruct (refs_same g g' n Hg) as [H1 H2]; [apply Hr; by left|].
    split; [intros _; apply Hr; by left|]. split; [intros t; left; apply Hr; right; by exists t|].
    intros Hgood Hrd. split; [by apply H1|]. split; [done|]. intros t id [Hi|Hi]; [left; by apply H2|right].
    eapply legacy_same; [done| |done]. apply Hr. right. by exists t.
  Qed.
  Lemma git_locks_free c g : lock_free c = true -> g_locks (snd (git c g)) = g_locks g.
  Proof. destruct c; try done; intros _; cbn [git]; repeat case_match; done. Qed.
  Lemma safe_cmd Y c g :
    (forall n x, x = object_references \/ (exists t, x = legacy_references t) -> ref_written c <> Some (n, x)) ->
    (strict = true -> Y <> ∅ -> forall n, c <> LockAcquire n) ->
    safe Y g (snd (git c g)).
  Proof.
    intros Hc Hst. apply safe_other; [apply git_grow|apply git_good| |].
    - intros Hs HY. destruct (lock_free c) eqn:El; [by rewrite git_locks_free|]. destruct c; try done.
      + exfalso. by eapply (Hst Hs HY).
      + cbn. set_solver.
    - intros n x Hx. apply git_refs. by apply Hc.
  Qed.

  Lemma safe_ok : guar_ok safe.
  Proof.
    split; [by intros ? ? ? (? & _)|by intros ? ? ? (_ & ? & _)|].
    intros X g c [Hr Hlf]. apply safe_cmd; [intros n x _; by rewrite Hr|]. intros _ _ n ->. done.
  Qed.
  Lemma safe_lock : guar_lock safe.
  Proof. split; intros; by apply safe_cmd. Qed.
  Lemma safe_kill X g : safe X g (drop_locks g X).
  Proof. apply safe_other; [|done| |done]; [intros n; split; done|]. intros _ _. cbn. set_solver. Qed.

  Notation rely := (rely safe).
  Notation mwp := (mwp safe).

  Ltac rchain :=
    lazymatch goal with
    | |- Rely.rely _ _ ?a ?b =>
        first [assumption | apply rely_refl
              | match goal with H : Rely.rely _ _ a ?m |- _ => eapply rely_trans; [exact H|]; clear H; rchain end]
    end.

  (** a state in which the work can be done *)
  Definition fit n g : Prop := good g /\ refs_readable g n.
  Definition keeps n g g' : Prop := fit n g -> fit n g' /\
    (forall t id, in_refs g n t id -> in_refs g' n t id) /\ (forall t id, protected g n t id -> protected g' n t id).
  Lemma keeps_refl n g : keeps n g g.
  Proof. intros Hf. done. Qed.
  Lemma keeps_trans n a b c : keeps n a b -> keeps n b c -> keeps n a c.
  Proof. intros K1 K2 Hf. destruct (K1 Hf) as (Hf1 & A1 & A2), (K2 Hf1) as (Hf2 & B1 & B2). split; [done|]. split; auto. Qed.
  Lemma safe_keeps n Y g g' : safe Y g g' -> keeps n g g'.
  Proof.
    intros (Hg & Hgd & _ & Hn) [F1 F2]. destruct (Hn n) as (_ & _ & Hk). destruct (Hk F1 F2) as (K1 & K2 & K3).
    split; [split; auto|]. auto.
  Qed.
  Lemma rely_keeps n X g g' : rely X g g' -> keeps n g g'.
  Proof.
    apply (rely_ind' safe X (keeps n)); [apply keeps_refl|apply keeps_trans|]. intros Y a b _. apply safe_keeps.
  Qed.
  Lemma reach_keeps n g g' : reach safe g g' -> keeps n g g'.
  Proof.
    apply (reach_ind' safe (keeps n)); [apply keeps_refl|apply keeps_trans|]. intros Y a b. apply safe_keeps.
  Qed.
  Lemma rely_fit n X g g' : rely X g g' -> fit n g -> fit n g'.
  Proof. intros Hr Hf. by apply (rely_keeps n X g g' Hr). Qed.
  Lemma rely_in n X g g' t id : rely X g g' -> fit n g -> in_refs g n t id -> in_refs g' n t id.
  Proof. intros Hr Hf. by apply (rely_keeps n X g g' Hr). Qed.
  Lemma rely_refs n X g g' : n ∈ X -> rely X g g' ->
    refs_of g' n !! object_references = refs_of g n !! object_references.
  Proof.
    intros Hn. apply (rely_ind' safe X (fun g g' => refs_of g' n !! object_references = refs_of g n !! object_references));
      [done|congruence|]. intros Y a b Hd (_ & _ & _ & Hs). apply Hs. set_solver.
  Qed.
  Lemma rely_legacy n X t g g' : rely X g g' ->
    refs_of g' n !! legacy_references t = refs_of g n !! legacy_references t \/ refs_of g' n !! legacy_references t = None.
  Proof.
    apply (rely_ind' safe X (fun g g' => refs_of g' n !! legacy_references t = refs_of g n !! legacy_references t
      \/ refs_of g' n !! legacy_references t = None)).
    - by left.
    - intros a b c [E1|E1] [E2|E2]; rewrite ?E2; auto.
    - intros Y a b _ (_ & _ & _ & Hs). apply Hs.
  Qed.

  (** ** Writing the reference *)
  Lemma safe_update X n h es g : n ∈ X -> tree_of (objs_of g n) h = Some es -> hex40 h ->
    (fit n g -> (forall id, hex40 id -> dirs_present (objs_of g n) (entry_at es) (fan_out id)) /\
      forall t id, in_refs g n t id -> at_path (objs_of g n) (entry_at es) (fan_out id) = Some (t, id)) ->
    safe X g (snd (git (UpdateRef n object_references h) g)).
  Proof.
    intros Hn Ht Hh Hf. set (g' := snd (git (UpdateRef n object_references h) g)).
    assert (Hgr : grow g g') by apply git_grow.
    assert (Hleg : forall m t, refs_of g' m !! legacy_references t = refs_of g m !! legacy_references t).
    { intros m t. apply git_refs. cbn. intros [= <- E]. by destruct t. }
    assert (Hother : forall m, m <> n -> refs_of g' m !! object_references = refs_of g m !! object_references).
    { intros m Hm. apply git_refs. cbn. congruence. }
    split; [done|]. split; [apply git_good|]. split; [intros _ _; unfold g'; by rewrite git_locks_free|]. intros m.
    split; [intros Hm; apply Hother; set_solver|]. split; [intros t; left; apply Hleg|].
    intros Hgd Hrd.
    assert (Hpart : refs_readable g' m /\ (forall t id, in_refs g m t id -> in_refs g' m t id)).
    { destruct (decide (m = n)) as [->|Hm].
      2: { destruct (refs_same g g' m Hgr (Hother m Hm)) as [R1 R2]. split; [by apply R1|done]. }
      destruct (Hf (conj Hgd Hrd)) as [F1 F2].
      assert (Hcase : g' = g \/ refs_of g' n !! object_references = Some h).
      { unfold g'. cbn [git]. destruct (local_repo g n) as [r|] eqn:El; [|by left].
        destruct (resolve r h) as [h'|] eqn:Er; [|by left]. destruct (r_objs r !! h'); [|by left].
        right. cbn [snd]. rewrite refs_set, decide_True by done. cbn [r_refs]. rewrite lookup_insert.
        unfold resolve in Er. rewrite (proj2 (object_id_hex40 h) Hh) in Er. congruence. }
      destruct Hcase as [E|E].
      { rewrite E. done. }
      split.
      - intros top Htop. rewrite E in Htop. injection Htop as <-. exists es.
        split; [eapply tree_of_mono; [apply Hgr|done]|]. intros id Hid. eapply dirs_present_mono; [apply Hgr|by apply F1].
      - intros t id Hi. exists h. split; [done|]. unfold tree_path. erewrite tree_of_mono; [|apply Hgr|exact Ht].
        eapply at_path_mono; [apply Hgr|]. by apply F2. }
    destruct Hpart as [P1 P2]. split; [done|]. split; [done|].
    intros t id [Hi|Hi]; [left; by apply P2|right]. eapply legacy_same; [done| |done]. apply Hleg.
  Qed.
  (** ** Deleting a legacy reference *)
  Lemma safe_delete X n t g : (fit n g -> forall id, in_legacy g n t id -> in_refs g n t id) ->
    safe X g (snd (git (DeleteRef n (legacy_references t)) g)).
  Proof.
    intros Hf. set (g' := snd (git (DeleteRef n (legacy_references t)) g)).
    assert (Hgr : grow g g') by apply git_grow.
    assert (Hobj : forall m, refs_of g' m !! object_references = refs_of g m !! object_references).
    { intros m. apply git_refs. cbn. intros [= <- E]. by destruct t. }
    assert (Hleg : forall m t', m <> n \/ t' <> t -> refs_of g' m !! legacy_references t' = refs_of g m !! legacy_references t').
    { intros m t' Hd. apply git_refs. cbn. intros [= <- E]. destruct Hd as [?|Hd]; [done|]. by destruct t, t'. }
    assert (Hcase : g' = g \/ refs_of g' n !! legacy_references t = None).
    { unfold g'. cbn [git]. destruct (local_repo g n) as [r|] eqn:El; [|by left]. right. cbn [snd].
      rewrite refs_set, decide_True by done. cbn [r_refs]. by rewrite lookup_delete. }
    split; [done|]. split; [apply git_good|]. split; [intros _ _; unfold g'; by rewrite git_locks_free|].
    intros m. split; [intros _; apply Hobj|]. split.
    - intros t'. destruct (decide (m = n)) as [->|Hm]; [|left; apply Hleg; by left].
      destruct (decide (t' = t)) as [->|Ht]; [|left; apply Hleg; by right].
      destruct Hcase as [->|E]; [by left|by right].
    - intros Hgd Hrd. destruct (refs_same g g' m Hgr (Hobj m)) as [R1 R2]. split; [by apply R1|]. split; [done|].
      intros t' id [Hi|Hi]; [left; by apply R2|].
      destruct (decide (m = n)) as [->|Hm]; [|right; eapply legacy_same; [done|apply Hleg; by left|done]].
      destruct (decide (t' = t)) as [->|Ht]; [|right; eapply legacy_same; [done|apply Hleg; by right|done]].
      left. apply R2. apply Hf; done.
  Qed.

  (** ** Reading legacy entries *)
  (** what is known after the entries of a legacy reference have been read *)
  Definition legacy_read n t (o : list (etype * pystr)) g : Prop :=
    exists top es, tree_of (objs_of g n) top = Some es /\
      (refs_of g n !! legacy_references t = Some top \/ refs_of g n !! legacy_references t = None) /\
      forall id, id ∈ map te_id es -> (t, id) ∈ o.
  Lemma legacy_read_rely n t o X g g' : rely X g g' -> legacy_read n t o g -> legacy_read n t o g'.
  Proof.
    intros Hr (top & es & Ht & Hl & Ho). exists top, es.
    split; [eapply tree_of_mono; [|exact Ht]; apply (rely_grow safe safe_ok X g g' Hr)|]. split; [|done].
    destruct (rely_legacy n X t g g' Hr) as [E|E]; rewrite E; auto.
  Qed.
  Lemma legacy_read_mono n t (o o' : list (etype * pystr)) g : (forall x, x ∈ o -> x ∈ o') -> legacy_read n t o g -> legacy_read n t o' g.
  Proof. intros Hs (top & es & Ht & Hl & Ho). exists top, es. split; [done|]. split; [done|]. auto. Qed.
  Lemma legacy_read_in n t o g id : legacy_read n t o g -> in_legacy g n t id -> (t, id) ∈ o.
  Proof.
    intros (top & es & Ht & Hl & Ho) (top' & es' & Hr & Ht' & Hin). rewrite Hr in Hl.
    destruct Hl as [Hl|Hl]; [|done]. injection Hl as ->. rewrite Ht in Ht'. injection Ht' as ->. by apply Ho.
  Qed.

  Lemma set_add_in {A : Type} `{EqDecision A} (x : A) (l : list A) y : y ∈ set_add x l <-> y = x \/ y ∈ l.
  Proof. unfold set_add. destruct (decide (x ∈ l)); set_solver. Qed.
  Definition orefs_ok (o : list (etype * pystr)) : Prop := Forall (fun th => hex40 (snd th)) o.
  Lemma orefs_ok_in (o : list (etype * pystr)) t id : orefs_ok o -> (t, id) ∈ o -> hex40 id.
  Proof. intros Ho Hi. unfold orefs_ok in Ho. rewrite Forall_forall in Ho. by apply Ho in Hi. Qed.

  Lemma add_lines_wp X t es s (Q : gset pystr -> res unit -> pst -> gstate -> Prop) g : Forall wf_entry es ->
    (forall g1 o, rely X g g1 -> (forall x, x ∈ o <-> x ∈ s_orefs s \/ exists e, e ∈ es /\ x = (t, te_id e)) ->
       Q X (Ok tt) (with_orefs s o) g1) ->
    mwp X (miter (fun l => mlet x <- mres (split_git_lstree_line l);
                          let '(_, _, h, _) := x in add_ref t h) (map eline es)) s Q g.
  Proof.
    intros He. revert s g. induction He as [|e es He Hes IH]; intros s g HQ; cbn [map miter].
    - apply mwp_ret. intros g1 H1. replace s with (with_orefs s (s_orefs s)) by (by destruct s).
      apply HQ; [done|]. intros x. set_solver.
    - apply mwp_bind. rewrite split_eline by done. cbn [mres].
      apply mwp_bind, mwp_ret. intros g1 H1. unfold add_ref. apply mwp_mod. intros g2 H2. apply IH.
      intros g3 o H3 Ho. change (with_orefs (with_orefs s (set_add (t, te_id e) (s_orefs s))) o) with (with_orefs s o).
      apply HQ; [eapply rely_trans; [exact H1|]; by eapply rely_trans|].
      intros x. rewrite Ho. cbn [s_orefs with_orefs]. rewrite set_add_in. setoid_rewrite elem_of_cons. naive_solver.
  Qed.

  (** every legacy entry is now cached or referenced; if there were entries, the
      reference is gone or the entries were read *)
  Definition legacy_seen n t (b : bool) o g g' : Prop := refs_readable g n ->
    (forall id, protected g n t id -> in_refs g' n t id \/ (t, id) ∈ o) /\
    ((exists id, in_legacy g n t id) -> b = true \/ refs_of g' n !! legacy_references t = None).
  Lemma legacy_seen_rely n t b o X g g1 g2 : good g1 -> (refs_readable g n -> refs_readable g1 n) ->
    rely X g1 g2 -> legacy_seen n t b o g g1 -> legacy_seen n t b o g g2.
  Proof.
    intros Hg Hrd Hr Hs Hf. destruct (Hs Hf) as [S1 S2]. split.
    - intros id Hp. destruct (S1 id Hp) as [Hi|Hi]; [left|by right]. eapply rely_in; [exact Hr| |done]. split; auto.
    - intros He. destruct (S2 He) as [Hb|Hb]; [by left|right]. destruct (rely_legacy n X t g1 g2 Hr) as [E|E]; congruence.
  Qed.
  Lemma legacy_seen_before n t b o X g0 g g1 : good g0 ->
    rely X g0 g -> legacy_seen n t b o g g1 -> rely X g g1 -> legacy_seen n t b o g0 g1.
  Proof.
    intros Hg Hr Hs Hr1 Hf. destruct (rely_keeps n X g0 g Hr (conj Hg Hf)) as ([Hg' Hf'] & K1 & K2).
    destruct (Hs Hf') as [S1 S2]. split; [auto|]. intros [id (top & es & E & Ht & Hin)].
    destruct (rely_legacy n X t g0 g Hr) as [E'|E'].
    - apply S2. exists id, top, es. split; [congruence|]. split; [|done]. eapply tree_of_mono; [|exact Ht].
      apply (rely_grow safe safe_ok X g0 g Hr).
    - right. destruct (rely_legacy n X t g g1 Hr1) as [E2|E2]; congruence.
  Qed.
  Lemma read_legacy_wp X n t s (Q : gset pystr -> res bool -> pst -> gstate -> Prop) g :
    is_remote n = false -> good g ->
    (forall g1 b o, rely X g g1 -> (orefs_ok (s_orefs s) -> orefs_ok o) -> (forall x, x ∈ s_orefs s -> x ∈ o) ->
       (b = true -> legacy_read n t o g1) -> legacy_seen n t b o g g1 -> Q X (Ok b) (with_orefs s o) g1) ->
    mwp X (add_legacy_store_entries_from n (legacy_references t) t) s Q g.
  Proof.
    intros Hn Hg HQ. unfold add_legacy_store_entries_from. apply mwp_try.
    assert (Hno : forall g1, rely X g g1 -> (exists g0, rely X g g0 /\ rely X g0 g1 /\ forall id, ~ in_legacy g0 n t id) ->
      mwp X (mret false) s Q g1).
    { intros g1 H1 (g0 & Hg0 & Hg1 & Hno). apply mwp_ret. intros g2 H2. replace s with (with_orefs s (s_orefs s)) by (by destruct s).
      apply HQ; try done; [rchain|]. eapply legacy_seen_before; [done|exact Hg0| |rchain].
      intros Hrd. split.
      - intros id [Hi|Hi]; [|by apply Hno in Hi]. left. eapply (rely_in n X g0 g2); [rchain| |done].
        split; [by apply (rely_good safe safe_ok X g g0)|done].
      - intros [id Hi]. by apply Hno in Hi. }
    apply mwp_bind. unfold git_ls_tree, adapt_for_remote. rewrite Hn.
    apply mwp_bind, mwp_ret. intros g1 H1. apply mwp_checked; [done|]. intros g2 H2.
    split; [by apply (guar_simple _ safe_ok)|].
    assert (Es : snd (git (LsTree n (legacy_references t)) g2) = g2) by (cbn; repeat case_match; done).
    rewrite Es. intros g3 H3.
    assert (H02 : rely X g g2) by rchain.
    assert (H03 : rely X g g3) by rchain.
    destruct (fst (git (LsTree n (legacy_references t)) g2)) as [out|] eqn:Ea.
    2: { intros g4 H4. apply Hno; [rchain|]. exists g2. split; [done|]. split; [rchain|].
         intros id (top & es & Er & Ht & _). pose proof (proj1 (tree_of_inv _ _ _ Ht)) as Ho.
         cbn [git] in Ea. unfold local_repo in Ea. rewrite Hn in Ea.
         unfold refs_of, objs_of in Er, Ho. destruct (g_repos g2 !! n) as [rp|]; [|done].
         unfold read_obj, resolve in Ea.
         assert (object_id (legacy_references t) = false) as El by (by destruct t). rewrite El in Ea.
         cbn [Init.Nat.add] in Ea. rewrite Er, Ho in Ea. cbn [fst] in Ea.
         by rewrite (listing_of _ _ _ Ht) in Ea. }
    assert (Hinv : exists top es, refs_of g2 n !! legacy_references t = Some top /\
              tree_of (objs_of g2 n) top = Some es /\ tree_listing es = Some out).
    { cbn [git] in Ea. destruct (local_repo g2 n) as [r|] eqn:El; [|done]. apply local_repo_inv in El as [_ El].
      unfold read_obj in Ea. destruct (resolve r (legacy_references t)) as [top|] eqn:Er; [|done].
      destruct (r_objs r !! top) as [[|es]|] eqn:Eo; try done. cbn [fst] in Ea. exists top, es.
      split; [erewrite refs_repo by done; destruct t; done|]. split; [|done].
      apply tree_of_intro; [erewrite objs_repo by done; done|].
      unfold tree_listing in Ea. destruct existsb eqn:Ex; [done|]. apply List.Forall_forall. intros e He Hne.
      assert (existsb (fun e => bool_decide (te_name e = [])) es = true) as Ex'; [|congruence].
      apply existsb_exists. exists e. split; [done|]. by apply bool_decide_eq_true_2. }
    destruct Hinv as (top & es & Hr & Ht & Hli).
    assert (Hwf : Forall wf_entry es).
    { pose proof (rely_good safe safe_ok X g g2 H02 Hg) as Hg2. apply tree_of_inv in Ht as [Ho _]. by apply Hg2 in Ho as [_ Ho]. }
    rewrite (listing_of _ _ _ Ht) in Hli. injection Hli as <-. rewrite listing_lines by done.
    apply mwp_bind. apply add_lines_wp; [done|]. intros g4 o H4 Ho. apply mwp_ret. intros g5 H5 g6 H6.
    assert (H26 : rely X g2 g6).
    { eapply rely_trans; [exact H3|]. eapply rely_trans; [exact H4|]. rchain. }
    apply HQ.
    - rchain.
    - intros Hok. apply Forall_forall. intros x Hx. apply Ho in Hx as [Hx|(e & He & ->)].
      + unfold orefs_ok in Hok. rewrite Forall_forall in Hok. by apply Hok.
      + rewrite Forall_forall in Hwf. by apply Hwf in He as [? _].
    - intros x Hx. apply Ho. by left.
    - intros _. eapply legacy_read_rely; [exact H26|]. exists top, es. split; [done|]. split; [by left|].
      intros id Hid. apply elem_of_list_fmap in Hid as (e & -> & He). apply Ho. right. eauto.
    - eapply legacy_seen_before; [done|exact H02| |rchain]. intros Hrd. split; [|by left].
      intros id [Hi|(top' & es' & E & Ht' & Hin)].
      + left. eapply (rely_in n X g2 g6); [done| |done]. split; [by apply (rely_good safe safe_ok X g g2)|done].
      + right. assert (top' = top) as -> by congruence. assert (es' = es) as -> by congruence.
        apply elem_of_list_fmap in Hin as (e & -> & He). apply Ho. right. eauto.
  Qed.

  (** the state with other object references and other checked stores *)
  Definition with_ol s o (l : list pystr) : pst := PSt (s_heap s) (s_next s) (s_caches s) o l (s_locks s).

  Lemma add_legacy_wp X n s (Q : gset pystr -> res (bool * bool) -> pst -> gstate -> Prop) g :
    is_remote n = false -> good g ->
    (forall g1 bt bb o l, rely X g g1 -> (orefs_ok (s_orefs s) -> orefs_ok o) -> (forall x, x ∈ s_orefs s -> x ∈ o) ->
       (bt = true -> legacy_read n Directory o g1) -> (bb = true -> legacy_read n File o g1) ->
       (n ∉ s_legacy s -> legacy_seen n Directory bt o g g1 /\ legacy_seen n File bb o g g1) ->
       Q X (Ok (bt, bb)) (with_ol s o l) g1) ->
    mwp X (add_legacy_store_entries n) s Q g.
  Proof.
    intros Hn Hg HQ. unfold add_legacy_store_entries. apply mwp_bind, mwp_get. intros g1 H1.
    destruct (decide (n ∈ s_legacy s)).
    - apply mwp_ret. intros g2 H2. replace s with (with_ol s (s_orefs s) (s_legacy s)) by (by destruct s).
      apply HQ; try done. rchain.
    - apply mwp_bind, mwp_mod. intros g2 H2. assert (H02 : rely X g g2) by rchain.
      set (s1 := with_legacy s _). apply mwp_bind.
      assert (Hg2 : good g2) by by apply (rely_good safe safe_ok X g g2).
      apply (read_legacy_wp X n Directory s1); [done|done|].
      intros g3 bt o H3 Hok1 Hin1 Hl1 Hs1. apply mwp_bind.
      assert (Hg3 : good g3) by by apply (rely_good safe safe_ok X g2 g3).
      apply (read_legacy_wp X n File (with_orefs s1 o)); [done|done|].
      intros g4 bb o2 H4 Hok2 Hin2 Hl2 Hs2. apply mwp_ret. intros g5 H5. assert (H35 : rely X g3 g5) by rchain.
      assert (Hg4 : good g4) by by apply (rely_good safe safe_ok X g3 g4).
      change (with_orefs (with_orefs s1 o) o2) with (with_ol s o2 (set_add n (s_legacy s))). apply HQ.
      + eapply rely_trans; [exact H02|]. rchain.
      + auto.
      + auto.
      + intros Hb. eapply legacy_read_mono; [exact Hin2|]. eapply legacy_read_rely; [exact H35|]. by apply Hl1.
      + intros Hb. eapply legacy_read_rely; [exact H5|]. by apply Hl2.
      + intros _. split.
        * eapply legacy_seen_before; [done|exact H02| |rchain].
          eapply (legacy_seen_rely n Directory bt o2 X g2 g3 g5); [done| |done|].
          -- intros Hr. by apply (rely_fit n X g2 g3 H3 (conj Hg2 Hr)).
          -- intros Hr. destruct (Hs1 Hr) as [S1 S2]. split; [|done]. intros id Hp. destruct (S1 id Hp); auto.
        * eapply legacy_seen_before; [done|exact (rely_trans _ _ _ _ _ H02 H3)| |rchain].
          eapply (legacy_seen_rely n File bb o2 X g3 g4 g5); [done| |done|done].
          intros Hr. by apply (rely_fit n X g3 g4 H4 (conj Hg3 Hr)).
  Qed.

  (** ** The update of the reference tree *)
  Definition infos_of o : list pathinfo := map (fun th => PathI (shard (snd th)) (snd th) (fst th)) (set_order _ o).
  Lemma infos_of_in o p : p ∈ infos_of o <-> exists t id, (t, id) ∈ o /\ p = PathI (fan_out id) id t.
  Proof.
    unfold infos_of. rewrite elem_of_list_fmap. setoid_rewrite (set_order_perm _ o). split.
    - intros ([t id] & -> & Hin). eauto.
    - intros (t & id & Hin & ->). by exists (t, id).
  Qed.
  Lemma infos_of_ok o : orefs_ok o -> Forall info_ok (infos_of o).
  Proof.
    intros Ho. apply Forall_forall. intros p Hp. apply infos_of_in in Hp as (t & id & Hin & ->).
    pose proof (orefs_ok_in o t id Ho Hin) as Hh. split; [done|]. split; [by apply fan_out_plain|done].
  Qed.

  Definition update_block n (infos : list pathinfo) : M pst unit :=
    mlet root <- mtry (get_dir n OBJECT_REFERENCES)
                      (fun e => match e with RuntimeError => mret [] | _ => mraise e end);
    mlet tree_hash <- add_paths n infos root;
    git_update_ref n OBJECT_REFERENCES tree_hash.

  (** what is known about the entries that were read *)
  Definition root_read n es g : Prop :=
    refs_of g n !! object_references = None /\ es = [] \/
    exists top, refs_of g n !! object_references = Some top /\ tree_of (objs_of g n) top = Some es.

  Lemma read_root_wp X n s (Q : gset pystr -> res (list direntry) -> pst -> gstate -> Prop) g :
    is_remote n = false -> n ∈ X -> fit n g ->
    (forall g1 es, rely X g g1 -> root_read n es g1 -> Forall wf_entry es -> names_ne es -> Q X (Ok (map dirent_of es)) s g1) ->
    mwp X (mtry (get_dir n OBJECT_REFERENCES)
                (fun e => match e with RuntimeError => mret [] | _ => mraise e end)) s Q g.
  Proof.
    intros Hn Hx Hf HQ. apply mwp_try. apply (get_dir_wp safe safe_ok); [done|]. intros g1 g2 H1 H2.
    assert (Hf1 : fit n g1) by by eapply rely_fit.
    assert (Hrr : forall es g3, rely X g1 g3 -> root_read n es g1 -> root_read n es g3).
    { intros es g3 H3 [[E ->]|(top & E & Ht)].
      - left. split; [|done]. by rewrite (rely_refs n X g1 g3 Hx H3).
      - right. exists top. split; [by rewrite (rely_refs n X g1 g3 Hx H3)|].
        eapply tree_of_mono; [|exact Ht]. apply (rely_grow safe safe_ok X g1 g3 H3). }
    destruct (refs_of g1 n !! object_references) as [top|] eqn:Er.
    - destruct Hf1 as [Hg1 Hr1]. destruct (Hr1 top Er) as (es & Ht & _).
      destruct (dir_answer_tree n OBJECT_REFERENCES g1 (top, es) Hn Hg1) as (E1 & E2 & E3); [exact Er|exact Ht|].
      rewrite E1. intros g3 H3. apply HQ; try done.
      + eapply rely_trans; [exact H1|]. rchain.
      + apply Hrr; [rchain|]. right. exists top. done.
    - assert (E1 : dir_answer (fst (git (CatFileP n OBJECT_REFERENCES) g1)) = Err RuntimeError).
      { cbn [git]. unfold local_repo. rewrite Hn. unfold refs_of in Er. destruct (g_repos g1 !! n) as [r|]; [|done].
        unfold read_obj, resolve. change (object_id OBJECT_REFERENCES) with false. cbn iota.
        change OBJECT_REFERENCES with object_references. by rewrite Er. }
      rewrite E1. apply mwp_ret. intros g3 H3. apply (HQ g3 []); try done.
      + eapply rely_trans; [exact H1|]. rchain.
      + apply Hrr; [rchain|]. by left.
      + constructor.
  Qed.

  Lemma update_block_wp X n o s (Q : gset pystr -> res unit -> pst -> gstate -> Prop) g :
    is_remote n = false -> n ∈ X -> fit n g -> orefs_ok o ->
    (forall g1 r, rely ∅ g g1 -> fit n g1 -> (r = Ok tt -> forall t id, (t, id) ∈ o -> in_refs g1 n t id) -> Q X r s g1) ->
    mwp X (update_block n (infos_of o)) s Q g.
  Proof.
    intros Hn Hx Hf Ho HQ. unfold update_block. apply mwp_bind, read_root_wp; try done.
    intros g1 es H1 Hrr Hwf Hne. apply mwp_bind.
    assert (Hf1 : fit n g1) by by eapply rely_fit.
    assert (Hlook : forall id, hex40 id -> dirs_present (objs_of g1 n) (entry_at es) (fan_out id)).
    { intros id Hid. destruct Hrr as [[_ ->]|(top & E & Ht)]; [done|]. destruct Hf1 as [_ Hr1].
      destruct (Hr1 top E) as (es' & Ht' & Hd). assert (es' = es) as -> by congruence. by apply Hd. }
    pose proof (infos_of_ok o Ho) as Hio.
    assert (Hdp : Forall (fun p => dirs_present (objs_of g1 n) (entry_at es) (pi_elements p)) (infos_of o)).
    { apply Forall_forall. intros p Hp. apply infos_of_in in Hp as (t & id & Hin & ->). apply Hlook.
      by apply (orefs_ok_in o t). }
    apply (add_paths_wp safe safe_ok); try done; [apply Hf1|].
    intros g2 r H2 Hu. destruct r as [h|e].
    2: { intros g3 H3. assert (H03 : rely X g g3).
         { eapply rely_trans; [exact H1|]. rchain. }
         apply HQ; [by apply (rely_anti safe ∅ X); [set_solver|]|by eapply rely_fit|done]. }
    destruct Hu as (Hh & Hnc & es' & Ht & Hm).
    eapply not_conflict_compatible in Hnc; [|done|apply maxlen|done]. destruct Hnc as (_ & Htypes & _).
    unfold git_update_ref. apply mwp_bind, mwp_checked; [done|]. intros g3 H3.
    assert (H13 : rely X g1 g3) by rchain.
    assert (Hgr13 : objs_of g1 n ⊆ objs_of g3 n) by apply (rely_grow safe safe_ok X g1 g3 H13).
    assert (Hgr23 : objs_of g2 n ⊆ objs_of g3 n) by apply (rely_grow safe safe_ok X g2 g3 H3).
    assert (Ht3 : tree_of (objs_of g3 n) h = Some es') by by eapply tree_of_mono.
    assert (Hm3 : merged (objs_of g3 n) (entry_at es) (infos_of o) (entry_at es')) by by eapply merged_mono.
    assert (Hne' : forall p, p ∈ infos_of o -> pi_elements p <> []).
    { intros p Hp. by apply infos_of_in in Hp as (t & id & Hin & ->). }
    assert (Hpres : forall id, hex40 id -> dirs_present (objs_of g3 n) (entry_at es') (fan_out id)).
    { intros id Hid. eapply merged_present; [exact Hm3|by apply fan_out_wf|done| |].
      - intros p Hp Hpre. apply infos_of_in in Hp as (t & id' & Hin & ->). cbn in *.
        by rewrite (fan_out_related id' id) by (by left).
      - eapply dirs_present_mono; [exact Hgr13|by apply Hlook]. }
    assert (Hin : forall t id, (t, id) ∈ o -> at_path (objs_of g3 n) (entry_at es') (fan_out id) = Some (t, id)).
    { intros t id Hi. apply (merged_given _ _ _ _ Hm3 (PathI (fan_out id) id t)); [|done]. apply infos_of_in. eauto. }
    assert (Hsafe : safe X g3 (snd (git (UpdateRef n OBJECT_REFERENCES h) g3))).
    { apply (safe_update X n h es'); [done|done|done|]. intros Hf3. split; [done|].
      intros t id Hi. pose proof (in_refs_hex g3 n t id (proj1 Hf3) Hi) as Hid.
      destruct Hi as (top & Er & Hp).
      assert (Hold : at_path (objs_of g1 n) (entry_at es) (fan_out id) = Some (t, id)).
      { rewrite <- (at_path_present (objs_of g1 n) (objs_of g3 n)) by auto.
        rewrite (rely_refs n X g1 g3 Hx H13) in Er. destruct Hrr as [[E _]|(top' & E & Ht')]; [congruence|].
        assert (top' = top) as -> by congruence. unfold tree_path in Hp.
        by rewrite (tree_of_mono _ _ _ _ Hgr13 Ht') in Hp. }
      destruct (decide (Exists (fun th => snd th = id) o)) as [Hex|Hno].
      - apply Exists_exists in Hex as ([t' id'] & Hi & E). cbn in E. subst id'.
        assert (t = t') as ->; [|by apply Hin].
        apply (Htypes (PathI (fan_out id) id t') t id); [|done]. apply infos_of_in. eauto.
      - rewrite (merged_other _ _ _ _ Hm3 (fan_out id)); [|by apply fan_out_wf|done|].
        + by apply (at_path_mono (objs_of g1 n)).
        + intros p Hpi Hrel. apply infos_of_in in Hpi as (t' & id' & Hi & ->). cbn in Hrel. apply fan_out_related in Hrel as ->.
          apply Hno, Exists_exists. by exists (t', id). }
    split; [done|]. intros g4 H4.
    assert (Hf3 : fit n g3) by by eapply rely_fit.
    assert (Hf4 : fit n g4).
    { eapply rely_fit; [exact H4|]. by apply (safe_keeps n X _ _ Hsafe). }
    assert (Hg4 : forall g5, rely X g4 g5 -> rely ∅ g g5).
    { intros g5 H5. eapply rely_trans; [apply (rely_anti safe ∅ X); [set_solver|exact (rely_trans _ _ _ _ _ H1 H13)]|].
      eapply rely_step; [|exact Hsafe|]; [set_solver|]. apply (rely_anti safe ∅ X); [set_solver|]. rchain. }
    set (g3' := snd (git (UpdateRef n OBJECT_REFERENCES h) g3)) in *.
    destruct (fst (git (UpdateRef n OBJECT_REFERENCES h) g3)) as [out|] eqn:Ea.
    2: { intros g5 H5. apply HQ; [by apply Hg4|by eapply rely_fit|done]. }
    assert (Hnow : out = [] /\ refs_of g3' n !! object_references = Some h /\ objs_of g3 n ⊆ objs_of g3' n).
    { split; [|split; [|apply git_grow]].
      - revert Ea. cbn [git]. repeat case_match; cbn; congruence.
      - revert Ea. unfold g3'. cbn [git]. destruct (local_repo g3 n) as [r|]; [|done].
        unfold resolve. rewrite (proj2 (object_id_hex40 h) Hh). destruct (r_objs r !! h); [|done]. intros _. cbn [snd].
        rewrite refs_set, decide_True by done. cbn [r_refs]. by rewrite lookup_insert. }
    destruct Hnow as (-> & Href & Hsub). cbn [stdout_lines]. 
    change (stdout_lines []) with (Ok ([] : list pystr)). apply mwp_ret. intros g5 H5.
    apply HQ; [by apply Hg4|by eapply rely_fit|].
    - intros _ t id Hi. eapply (rely_in n X g4 g5 t id H5 Hf4).
      eapply (rely_in n X g3' g4 t id H4); [by apply (safe_keeps n X _ _ Hsafe)|].
      exists h. split; [done|]. unfold tree_path. erewrite tree_of_mono; [|exact Hsub|exact Ht3].
      eapply at_path_mono; [exact Hsub|]. by apply Hin.
  Qed.

  (** ** flush_object_references *)
  Definition same_rest s s' : Prop :=
    s_heap s' = s_heap s /\ s_next s' = s_next s /\ s_caches s' = s_caches s /\
    forall m, lock_counter s' m = lock_counter s m.
  Lemma same_rest_trans s1 s2 s3 : same_rest s1 s2 -> same_rest s2 s3 -> same_rest s1 s3.
  Proof.
    intros (A1 & A2 & A3 & A4) (B1 & B2 & B3 & B4). split; [congruence|]. split; [congruence|]. split; [congruence|].
    intros m. by rewrite B4, A4.
  Qed.

  (** the part of flush_object_references that updates the reference *)
  Definition update_part n : M pst unit :=
    mlet refs <- mget s_orefs;
    match refs with
    | [] => mret tt
    | _ => mlet infos <- mres (rmap (fun th => mk_pathinfo (shard (snd th)) (snd th) (fst th)) (set_order _ refs));
           locked_backend n (update_block n infos) ;;; mmod (fun s => with_orefs s [])
    end.

  Lemma infos_of_rmap o : orefs_ok o ->
    rmap (fun th => mk_pathinfo (shard (snd th)) (snd th) (fst th)) (set_order _ o) = Ok (infos_of o).
  Proof.
    intros Ho. unfold infos_of. apply rmap_ok. intros [t id] Hin%elem_of_list_In. rewrite set_order_perm in Hin.
    apply (orefs_ok_in o t id Ho) in Hin as [E _]. unfold mk_pathinfo, check_hash_len. cbn [fst snd]. by rewrite E.
  Qed.

  Lemma keeps_grow n X g g' : rely X g g' -> grow g g' /\ keeps n g g'.
  Proof. intros Hr. split; [apply (rely_grow safe safe_ok X g g' Hr)|by eapply rely_keeps]. Qed.

  Lemma update_part_wp X n s (Q : gset pystr -> res unit -> pst -> gstate -> Prop) g :
    is_remote n = false -> fit n g -> orefs_ok (s_orefs s) -> lock_link X s -> (strict = true -> X = ∅) ->
    (forall g1 r s', rely ∅ g g1 -> same_rest s s' -> s_legacy s' = s_legacy s ->
       s_orefs s' = match r with Ok _ => [] | Err _ => s_orefs s end ->
       (r = Ok tt -> forall t id, (t, id) ∈ s_orefs s -> in_refs g1 n t id) -> Q X r s' g1) ->
    mwp X (update_part n) s Q g.
  Proof.
    intros Hn Hf Ho Hl Hst HQ. unfold update_part. apply mwp_bind, mwp_get. intros g1 H1.
    destruct (s_orefs s) as [|th o] eqn:Eo.
    { apply mwp_ret. intros g2 H2. apply HQ; try done.
      - eapply (rely_anti safe ∅ X); [set_solver|]. rchain.
      - intros _ t id Hin. by apply elem_of_nil in Hin. }
    rewrite <- Eo in *. rewrite infos_of_rmap by done. cbn [mres]. apply mwp_bind, mwp_ret. intros g2 H2.
    apply mwp_bind. apply (locked_wp safe safe_lock); [done|intros _ g3; apply safe_cmd; [done|intros Hs ?; by specialize (Hst Hs)]|]. intros g3 H3.
    assert (H03 : rely X g g3) by rchain.
    eapply mwp_mono.
    - apply (update_block_wp ({[n]} ∪ X) n (s_orefs s) (count_up s n)
               (fun X' r s' g' => X' = {[n]} ∪ X /\ s' = count_up s n /\ rely ∅ g3 g' /\ fit n g' /\
                  (r = Ok tt -> forall t id, (t, id) ∈ s_orefs s -> in_refs g' n t id))); [done|set_solver|by eapply rely_fit|done|].
      intros g4 r H4 Hf4 Hin. done.
    - intros X' r s' g4 (-> & -> & H4 & Hf4 & Hin). split; [done|]. split; [done|]. intros g5 H5.
      assert (H05 : rely ∅ g g5).
      { eapply rely_trans; [eapply (rely_anti safe ∅ X); [set_solver|exact H03]|]. eapply rely_trans; [exact H4|].
        eapply (rely_anti safe ∅ X); [set_solver|exact H5]. }
      assert (Hsame : same_rest s (set_count (count_up s n) n (lock_counter s n))).
      { split; [done|]. split; [done|]. split; [done|]. intros m. rewrite counter_set.
        destruct (decide (n = m)) as [->|Hm]; [done|].
        change (count_up s n) with (set_count s n (Datatypes.S (lock_counter s n))). rewrite counter_set. by rewrite decide_False. }
      destruct r as [[]|e].
      + apply mwp_mod. intros g6 H6. apply HQ; try done.
        * eapply rely_trans; [exact H05|]. eapply (rely_anti safe ∅ X); [set_solver|exact H6].
        * intros _ t id Hi. eapply (rely_in n X g5 g6); [done|by eapply rely_fit|].
          eapply (rely_in n X g4 g5); [done|done|by apply Hin].
      + intros g6 H6. apply HQ; try done.
        eapply rely_trans; [exact H05|]. eapply (rely_anti safe ∅ X); [set_solver|exact H6].
  Qed.

  Lemma delete_wp X n t s (Q : gset pystr -> res unit -> pst -> gstate -> Prop) g :
    (forall g1, rely X g g1 -> forall id, in_legacy g1 n t id -> in_refs g1 n t id) ->
    (forall g1 r, rely ∅ g g1 -> (r = Ok tt -> refs_of g1 n !! legacy_references t = None) -> Q X r s g1) ->
    mwp X (git_delete_ref n (legacy_references t)) s Q g.
  Proof.
    intros Hl HQ. unfold git_delete_ref. apply mwp_bind, mwp_checked; [done|]. intros g1 H1.
    assert (Hs : safe X g1 (snd (git (DeleteRef n (legacy_references t)) g1))).
    { apply safe_delete. intros _. by apply Hl. }
    split; [done|]. intros g2 H2.
    assert (Hk : forall g3, rely X g2 g3 -> rely ∅ g g3).
    { intros g3 H3. eapply rely_trans; [eapply (rely_anti safe ∅ X); [set_solver|exact H1]|].
      eapply rely_step; [|exact Hs|]; [set_solver|]. eapply (rely_anti safe ∅ X); [set_solver|]. rchain. }
    destruct (fst (git (DeleteRef n (legacy_references t)) g1)) as [out|] eqn:Ea.
    2: { intros g3 H3. apply HQ; [by apply Hk|done]. }
    assert (out = [] /\ refs_of (snd (git (DeleteRef n (legacy_references t)) g1)) n !! legacy_references t = None) as [-> En].
    { revert Ea. cbn [git]. destruct (local_repo g1 n) as [r|]; [|done]. cbn [fst snd].
      intros [= <-]. split; [done|]. rewrite refs_set, decide_True by done. cbn [r_refs]. by rewrite lookup_delete. }
    change (stdout_lines []) with (Ok ([] : list pystr)). apply mwp_ret. intros g3 H3. apply HQ; [by apply Hk|].
    intros _. edestruct (rely_legacy n X t) as [E|E]; [exact (rely_trans _ _ _ _ _ H2 H3)| |exact E]. by rewrite E.
  Qed.

  Definition flush_post n s g (r : res unit) s' g' : Prop :=
    rely ∅ g g' /\ same_rest s s' /\ orefs_ok (s_orefs s') /\
    (forall t id, (t, id) ∈ s_orefs s -> (t, id) ∈ s_orefs s' \/ in_refs g' n t id) /\
    (r = Ok tt -> s_orefs s' = [] /\
       (n ∉ s_legacy s -> forall t id, protected g n t id -> in_refs g' n t id) /\
       (n ∉ s_legacy s -> forall t, (exists id, in_legacy g n t id) -> refs_of g' n !! legacy_references t = None)).

  Lemma flush_wp X n s (Q : gset pystr -> res unit -> pst -> gstate -> Prop) g :
    is_remote n = false -> fit n g -> orefs_ok (s_orefs s) -> lock_link X s -> (strict = true -> X = ∅) ->
    (forall g1 r s', flush_post n s g r s' g1 -> Q X r s' g1) ->
    mwp X (flush_object_references n) s Q g.
  Proof.
    intros Hn Hf Ho Hl Hst HQ. unfold flush_object_references.
    assert (Hweak : forall a b, rely X a b -> rely ∅ a b).
    { intros a b. apply (rely_anti safe ∅ X). set_solver. }
    apply mwp_bind. apply add_legacy_wp; [done|apply Hf|].
    intros g1 bt bb o l H1 Hok Hin HLt HLb Hseen. specialize (Hok Ho).
    assert (Hf1 : fit n g1) by by eapply rely_fit.
    set (s1 := with_ol s o l).
    assert (Hpart : forall (k : M pst unit) (Q' : gset pystr -> res unit -> pst -> gstate -> Prop),
      (forall g2, mwp X (update_part n) s1 (fun X' r s' g' => match r with
                                 | Ok a => mwp X' k s' Q' g'
                                 | Err e => forall g1, rely X' g' g1 -> Q' X' (Err e) s' g1
                                 end) g2 -> mwp X (update_part n ;;; k) s1 Q' g2)).
    { intros k Q' g2. apply mwp_bind. }
    assert (Heq : forall (k : M pst unit) Q' g2, mwp X (update_part n ;;; k) s1 Q' g2 ->
       mwp X (mlet refs <- mget s_orefs;
              (match refs with
               | [] => mret tt
               | _ => mlet infos <- mres (rmap (fun th => mk_pathinfo (shard (snd th)) (snd th) (fst th)) (set_order _ refs));
                      locked_backend n (update_block n infos) ;;; mmod (fun s => with_orefs s [])
               end) ;;; k) s1 Q' g2).
    { intros k Q' g2. exact id. }
    apply Heq. clear Heq Hpart. apply mwp_bind. apply update_part_wp; [done|done|exact Hok|exact Hl|exact Hst|].
    intros g2 r s2 H2 Hrest2 Hl2 Ho2 Hin2. change (s_orefs s1) with o in *.
    assert (Hrest : same_rest s s2) by (eapply same_rest_trans; [|exact Hrest2]; done).
    assert (H02 : rely ∅ g g2). { eapply rely_trans; [apply Hweak, H1|exact H2]. }
    assert (Hf2 : fit n g2) by by eapply rely_fit.
    destruct r as [[]|e].
    2: { intros g3 H3. apply HQ. split; [eapply rely_trans; [exact H02|by apply Hweak]|].
         split; [done|]. rewrite Ho2. split; [done|]. split; [|done]. intros t id Hi. left. by apply Hin. }
    specialize (Hin2 eq_refl).
    (* every legacy entry is referenced by now *)
    assert (Hseen2 : n ∉ s_legacy s -> forall t g3, rely ∅ g2 g3 ->
      (forall id, protected g n t id -> in_refs g3 n t id) /\
      ((exists id, in_legacy g n t id) -> (match t with Directory => bt | File => bb end = true \/ refs_of g3 n !! legacy_references t = None))).
    { intros Hnl t g3 H3. assert (Hone : legacy_seen n t (match t with Directory => bt | File => bb end) o g g1).
      { destruct t; by apply Hseen. }
      destruct (Hone (proj2 Hf)) as [S1 S2]. assert (H13 : rely ∅ g1 g3) by (eapply rely_trans; [exact H2|exact H3]). split.
      - intros id Hp. destruct (S1 id Hp) as [Hi|Hi].
        + by apply (rely_in n ∅ g1 g3).
        + apply (rely_in n ∅ g2 g3); [done|done|by apply Hin2].
      - intros He. destruct (S2 He) as [Hb|Hb]; [by left|]. right.
        destruct (rely_legacy n ∅ t g1 g3 H13) as [E|E]; congruence. }
    assert (Hdel : forall t g3, match t with Directory => bt | File => bb end = true -> rely ∅ g2 g3 -> forall g4, rely X g3 g4 ->
              forall id, in_legacy g4 n t id -> in_refs g4 n t id).
    { intros t g3 Hb H3 g4 H4 id Hi. assert (Hlr : legacy_read n t o g1) by (destruct t; auto).
      assert (H24 : rely ∅ g2 g4). { eapply rely_trans; [exact H3|by apply Hweak]. }
      apply (rely_in n ∅ g2 g4); [done|done|]. apply Hin2. eapply legacy_read_in; [|exact Hi].
      eapply legacy_read_rely; [|exact Hlr]. exact (rely_trans _ _ _ _ _ H2 H24). }
    assert (Hend : forall g3 r, rely ∅ g2 g3 ->
      (r = Ok tt -> (bt = true -> refs_of g3 n !! legacy_references Directory = None) /\
                    (bb = true -> refs_of g3 n !! legacy_references File = None)) -> Q X r s2 g3).
    { intros g3 r H3 Hr. apply HQ. split; [by eapply rely_trans|]. split; [done|]. rewrite Ho2. split; [by constructor|].
      split.
      - intros t id Hi. right. apply (rely_in n ∅ g2 g3); [done|done|]. by apply Hin2, Hin.
      - intros ->. destruct (Hr eq_refl) as [Rt Rb]. split; [done|]. split.
        + intros Hnl t. by apply (Hseen2 Hnl t g3 H3).
        + intros Hnl t He. destruct (Hseen2 Hnl t g3 H3) as [_ S2]. destruct (S2 He) as [Hb|Hb]; [|done]. destruct t; auto. }
    apply mwp_bind. cbn [fst snd].
    assert (Hlast : forall g3, rely ∅ g2 g3 -> (bt = true -> refs_of g3 n !! legacy_references Directory = None) ->
      mwp X (if bb then git_delete_ref n LEGACY_BLOBS else mret tt) s2 Q g3).
    { intros g3 H3 Ht. destruct bb.
      - apply (delete_wp X n File); [by apply Hdel|]. intros g4 r H4 Hr. apply Hend; [by eapply rely_trans|].
        intros ->. split; [|by intros _; apply Hr]. intros Hb.
        destruct (rely_legacy n ∅ Directory g3 g4 H4) as [E|E]; [|exact E]. rewrite E. auto.
      - apply mwp_ret. intros g4 H4. apply Hend; [eapply rely_trans; [exact H3|by apply Hweak]|].
        intros _. split; [|done]. intros Hb.
        destruct (rely_legacy n X Directory g3 g4 H4) as [E|E]; [|exact E]. rewrite E. auto. }
    destruct bt.
    - apply (delete_wp X n Directory); [by apply Hdel; [|constructor]|]. intros g3 r H3 Hr. destruct r as [[]|e].
      + apply Hlast; [done|]. intros _. by apply Hr.
      + intros g4 H4. apply Hend; [|done]. eapply rely_trans; [exact H3|by apply Hweak].
    - apply mwp_ret. intros g3 H3. apply Hlast; [by apply Hweak|done].
  Qed.
End ObjRefFacts.
