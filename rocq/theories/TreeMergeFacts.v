(** From the structural description of a tree update to the one by paths. *)
From Verif Require Import Base BaseFacts Json Refs GitText Spec_Git GitTextFacts Git Spec_Store TreeTextFacts
  GitFacts Rely State Spec_Tree TreeUpd Spec_TreeUpd TreeUpdFacts.

Lemma related_sym p q : related p q -> related q p.
Proof. unfold related. tauto. Qed.
Lemma related_cons b p q : related (b :: p) (b :: q) <-> related p q.
Proof.
  unfold related. split.
  - intros [H|H]; apply prefix_cons_inv_2 in H; tauto.
  - intros [H|H]; [left|right]; by apply prefix_cons.
Qed.
Lemma related_head b c p q : related (b :: p) (c :: q) -> b = c.
Proof. intros [H|H]; by apply prefix_cons_inv_1 in H. Qed.

Definition pairs (infos : list pathinfo) : Prop :=
  ForallOrdPairs (fun p q => ~ related (pi_elements p) (pi_elements q)) infos.

Lemma pairs_filter f infos : pairs infos -> pairs (List.filter f infos).
Proof.
  induction 1 as [|p l Hp Hl IH]; [constructor|]. cbn. destruct (f p); [|done]. constructor; [|done].
  apply List.Forall_forall. intros q Hq. apply filter_In in Hq as [Hq _]. rewrite List.Forall_forall in Hp. auto.
Qed.
Lemma pairs_subs infos k : pairs infos -> pairs (subs_of infos k).
Proof.
  intros Hp. unfold subs_of.
  assert (Hq : pairs (List.filter (first_is k) (nonleafs infos))) by by apply pairs_filter, pairs_filter.
  assert (Hf : Forall (fun p => first_is k p = true) (List.filter (first_is k) (nonleafs infos))).
  { apply List.Forall_forall. intros p Hin. by apply filter_In in Hin as [_ ?]. }
  revert Hf. induction Hq as [|p l Hp1 Hl IH]; intros Hf; [constructor|].
  apply List.Forall_cons_iff in Hf as [Hf Hfl]. cbn [map]. constructor; [|by apply IH].
  apply Forall_map. rewrite List.Forall_forall in *. intros q Hq Hr. apply (Hp1 q Hq). specialize (Hfl q Hq).
  unfold first_is, strip1 in *. cbn in *. destruct (pi_elements p) as [|x r]; [done|].
  destruct (pi_elements q) as [|y r']; [done|]. apply bool_decide_eq_true in Hf, Hfl. subst.
  by apply related_cons.
Qed.
Lemma pairs_leafs infos : Forall info_ok infos -> pairs infos -> NoDup (map fst_el (leafs_of infos)).
Proof.
  intros Hi Hp. assert (Hq : pairs (leafs_of infos)) by by apply pairs_filter.
  assert (Hl : Forall (fun p => is_leaf p = true) (leafs_of infos)).
  { apply List.Forall_forall. intros p Hin. by apply filter_In in Hin as [_ ?]. }
  revert Hl. induction Hq as [|p l Hp1 Hl IH]; intros Hf; [constructor|].
  apply List.Forall_cons_iff in Hf as [Hf Hfl]. cbn [map]. constructor; [|by apply IH].
  rewrite elem_of_list_fmap. intros (q & E & Hq%elem_of_list_In). rewrite List.Forall_forall in *.
  apply (Hp1 q Hq). specialize (Hfl q Hq). unfold is_leaf, fst_el in *. apply Nat.eqb_eq in Hf, Hfl.
  destruct (pi_elements p) as [|x [|]]; try done. destruct (pi_elements q) as [|y [|]]; try done.
  subst. by left.
Qed.
Lemma pairs_In infos p q : pairs infos -> p ∈ infos -> q ∈ infos -> p <> q -> ~ related (pi_elements p) (pi_elements q).
Proof.
  induction 1 as [|x l Hp1 Hl IH]; [by intros ?%elem_of_nil|]. rewrite !elem_of_cons. rewrite List.Forall_forall in Hp1.
  intros [->|Hp] [->|Hq] Hne; [done| | |by apply IH].
  - apply Hp1. by apply elem_of_list_In.
  - intros Hr. apply (Hp1 p); [by apply elem_of_list_In|by apply related_sym].
Qed.

Lemma sub_path objs look b sub path : sub_dir objs look b sub -> path <> [] ->
  at_path objs look (b :: path) = at_path objs (entry_at sub) path.
Proof.
  intros Hs Hp. destruct path as [|c r]; [done|]. rewrite at_path_cons2.
  destruct Hs as [[-> ->]|(h & -> & ->)]; [by rewrite at_path_nil|done].
Qed.

Lemma conflict_compatible objs look infos : conflict objs look infos -> Forall info_ok infos ->
  ~ compatible objs look infos.
Proof.
  induction 1 as [look infos p q Hp Hq Hpl Hql E|look infos Hdup|look infos p t h' Hp Hpl El Hty|look infos p h' Hp Hpl El
    |look infos p sub Hp Hpl Hsd Hcs IH]; intros Hi (C1 & C2 & C3).
  - refine (pairs_In infos p q C1 Hp Hq _ _); [congruence|]. left.
    unfold is_leaf, fst_el in *. apply Nat.eqb_eq in Hpl. destruct (pi_elements p) as [|x [|]]; try done.
    rewrite List.Forall_forall in Hi. apply elem_of_list_In, Hi in Hq as (Hq & _).
    destruct (pi_elements q) as [|y r]; [done|]. subst. by exists r.
  - by apply Hdup, pairs_leafs.
  - apply Hty, (C2 p t h' Hp). unfold is_leaf, fst_el in *. apply Nat.eqb_eq in Hpl.
    destruct (pi_elements p) as [|x [|]]; done.
  - rewrite List.Forall_forall in Hi. pose proof Hp as Hpi. apply elem_of_list_In, Hi in Hpi as (Hne & _).
    refine (C3 p [fst_el p] h' Hp _ _ El); unfold is_leaf, fst_el in *; destruct (pi_elements p) as [|x [|y r]]; try done.
    by exists (y :: r).
  - apply IH; [by apply subs_of_ok|]. clear IH.
    assert (Hsi : forall q, q ∈ subs_of infos (fst_el p) -> exists p', p' ∈ infos /\ pi_elements p' = fst_el p :: pi_elements q /\
              pi_elements q <> [] /\ pi_hash p' = pi_hash q /\ pi_type p' = pi_type q).
    { intros q Hq. by apply subs_of_In in Hq. }
    split; [by apply pairs_subs|]. split.
    + intros q t h Hq Hat. apply Hsi in Hq as (p' & Hp' & E & Hne & _ & <-). apply (C2 p' t h Hp').
      rewrite E. by rewrite (sub_path objs look (fst_el p) sub).
    + intros q d h Hq Hd Hdn Hat. apply Hsi in Hq as (p' & Hp' & E & Hne & _).
      destruct d as [|c d]; [done|]. apply (C3 p' (fst_el p :: c :: d) h Hp').
      * rewrite E. by apply prefix_cons.
      * rewrite E. congruence.
      * by rewrite (sub_path objs look (fst_el p) sub).
Qed.

Lemma pairs_intro infos : Forall info_ok infos -> NoDup (map fst_el (leafs_of infos)) ->
  (forall p q, p ∈ infos -> q ∈ infos -> is_leaf p = true -> is_leaf q = false -> fst_el p <> fst_el q) ->
  (forall k, pairs (subs_of infos k)) -> pairs infos.
Proof.
  induction infos as [|p l IH]; intros Hi Hnd Hld Hsub; [constructor|].
  apply List.Forall_cons_iff in Hi as [Hp Hl]. constructor.
  - apply List.Forall_forall. intros q Hq%elem_of_list_In Hr.
    assert (Hqo : info_ok q). { rewrite List.Forall_forall in Hl. by apply Hl, elem_of_list_In. }
    assert (Ef : fst_el p = fst_el q).
    { destruct Hp as [Hp _], Hqo as [Hqo _]. unfold fst_el. destruct (pi_elements p), (pi_elements q); try done.
      by eapply related_head. }
    destruct (is_leaf p) eqn:Lp, (is_leaf q) eqn:Lq.
    + unfold leafs_of in Hnd. cbn in Hnd. rewrite Lp in Hnd. cbn in Hnd. apply NoDup_cons in Hnd as [Hni _].
      apply Hni. rewrite Ef. apply elem_of_list_fmap. exists q. split; [done|]. apply elem_of_list_In, filter_In.
      by rewrite <- elem_of_list_In.
    + apply (Hld p q); [by left|by right|done|done|done].
    + apply (Hld q p); [by right|by left|done|done|done].
    + specialize (Hsub (fst_el p)). unfold subs_of, nonleafs in Hsub. cbn in Hsub. rewrite Lp in Hsub. cbn in Hsub.
      assert (Hf : first_is (fst_el p) p = true).
      { unfold first_is, fst_el. destruct Hp as [Hp _]. destruct (pi_elements p); [done|]. by apply bool_decide_eq_true_2. }
      rewrite Hf in Hsub. cbn in Hsub. inversion Hsub as [|? ? Hfa _]; subst.
      rewrite List.Forall_forall in Hfa. apply (Hfa (strip1 q)).
      * apply in_map, filter_In. split.
        -- apply filter_In. rewrite Lq. split; [by apply elem_of_list_In|done].
        -- rewrite Ef. unfold first_is, fst_el. destruct Hqo as [Hqo _]. destruct (pi_elements q); [done|]. by apply bool_decide_eq_true_2.
      * unfold strip1, fst_el in *. cbn. destruct Hp as [Hp _], Hqo as [Hqo _].
        destruct (pi_elements p), (pi_elements q); try done. subst. by apply related_cons in Hr.
  - apply IH; [done| | |].
    + unfold leafs_of in *. cbn in Hnd. destruct (is_leaf p); [|done]. cbn in Hnd. by apply NoDup_cons in Hnd as [_ ?].
    + intros a b Ha Hb. apply Hld; by right.
    + intros k. specialize (Hsub k). unfold subs_of, nonleafs in *. cbn in Hsub. destruct (is_leaf p); [done|].
      cbn in Hsub. destruct (first_is k p); [|done]. cbn in Hsub. by inversion Hsub.
Qed.

Lemma not_conflict_compatible (m : nat) objs : forall look infos, Forall info_ok infos ->
  Forall (fun p => (length (pi_elements p) <= m)%nat) infos ->
  Forall (fun p => dirs_present objs look (pi_elements p)) infos ->
  ~ conflict objs look infos -> compatible objs look infos.
Proof.
  induction m as [|m IH]; intros look infos Hi Hlen Hdp Hnc.
  { destruct infos as [|p infos].
    - split; [constructor|]. split; by intros ? ? ? ?%elem_of_nil.
    - apply List.Forall_cons_iff in Hi as [(A & _) _].
      apply List.Forall_cons_iff in Hlen as [B _]. destruct (pi_elements p); [done|]. cbn in B. lia. }
  (* what the sub-directories are *)
  assert (Hsub : forall p, p ∈ infos -> is_leaf p = false ->
     exists sub, sub_dir objs look (fst_el p) sub /\ compatible objs (entry_at sub) (subs_of infos (fst_el p))).
  { intros p Hp Hpl.
    assert (Hex : exists sub, sub_dir objs look (fst_el p) sub /\
              Forall (fun q => dirs_present objs (entry_at sub) (pi_elements q)) (subs_of infos (fst_el p))).
    { rewrite List.Forall_forall in Hdp. rewrite List.Forall_forall in Hi.
      destruct (look (fst_el p)) as [[[] h]|] eqn:El.
      - assert (Ht : exists sub, tree_of objs h = Some sub).
        { pose proof Hp as Hd. apply elem_of_list_In in Hd. pose proof (Hi _ Hd) as (Hne & _). apply Hdp in Hd.
          unfold is_leaf, fst_el in *. destruct (pi_elements p) as [|x [|y r]]; try done. cbn in Hd, El.
          rewrite El in Hd. destruct Hd as (sub & ? & _). eauto. }
        destruct Ht as [sub Ht]. exists sub. split; [right; eauto|].
        apply List.Forall_forall. intros q Hq%elem_of_list_In. apply subs_of_In in Hq; [|by apply List.Forall_forall].
        destruct Hq as (p' & Hp' & E & Hne & _). apply elem_of_list_In, Hdp in Hp'. rewrite E in Hp'.
        destruct (pi_elements q) as [|c r]; [done|]. change (match look (fst_el p) with
          | Some (Directory, h) => exists es, tree_of objs h = Some es /\ dirs_present objs (entry_at es) (c :: r)
          | _ => True end) in Hp'. rewrite El in Hp'. destruct Hp' as (es & E1 & E2). rewrite E1 in Ht. by injection Ht as ->.
      - exfalso. by apply Hnc, (c_file _ _ _ p h).
      - exists []. split; [by left|]. apply List.Forall_forall. intros q Hq. by destruct (pi_elements q) as [|? [|]]. }
    destruct Hex as (sub & Hsd & Hsdp). exists sub. split; [done|]. apply IH.
    - by apply subs_of_ok.
    - apply List.Forall_forall. intros q Hq%elem_of_list_In. apply subs_of_In in Hq; [|done].
      destruct Hq as (p' & Hp' & E & _). rewrite List.Forall_forall in Hlen. apply elem_of_list_In, Hlen in Hp'.
      rewrite E in Hp'. cbn in Hp'. lia.
    - done.
    - intros Hc. by apply Hnc, (c_sub _ _ _ p sub). }
  assert (Hstrip : forall p, p ∈ infos -> is_leaf p = false -> pi_elements p = fst_el p :: pi_elements (strip1 p) /\
     pi_elements (strip1 p) <> [] /\ strip1 p ∈ subs_of infos (fst_el p)).
  { intros p Hp Hpl. pose proof Hi as Hi'. rewrite List.Forall_forall in Hi'. pose proof Hp as Hd.
    apply elem_of_list_In, Hi' in Hd as (Hne & _).
    assert (H1 : pi_elements p = fst_el p :: pi_elements (strip1 p) /\ pi_elements (strip1 p) <> []).
    { unfold is_leaf, fst_el, strip1 in *. destruct (pi_elements p) as [|x [|y r]]; done. }
    destruct H1 as [H1 H2]. split; [done|]. split; [done|]. apply subs_of_In; [done|]. exists p. done. }
  split; [|split].
  - apply pairs_intro; [done| | |].
    + destruct (decide (NoDup (map fst_el (leafs_of infos)))) as [|Hd]; [done|]. exfalso. by apply Hnc, c_dup.
    + intros p q Hp Hq Hpl Hql E. by apply Hnc, (c_leaf_dir _ _ _ p q).
    + intros k. destruct (subs_of infos k) as [|q l] eqn:E; [constructor|]. rewrite <- E.
      assert (Hq : q ∈ subs_of infos k) by (rewrite E; by left).
      apply subs_of_In in Hq; [|done]. destruct Hq as (p & Hp & Ep & Hne & _).
      assert (Hpl : is_leaf p = false) by (unfold is_leaf; rewrite Ep; by destruct (pi_elements q)).
      assert (Ef : fst_el p = k) by (unfold fst_el; by rewrite Ep).
      destruct (Hsub p Hp Hpl) as (sub & _ & Hc & _). by rewrite Ef in Hc.
  - intros p t h Hp Hat. destruct (is_leaf p) eqn:Hpl.
    + destruct (decide (t = pi_type p)) as [|Hne]; [done|]. exfalso. apply Hnc, (c_type _ _ _ p t h Hp Hpl); [|done].
      unfold is_leaf, fst_el in *. apply Nat.eqb_eq in Hpl. destruct (pi_elements p) as [|x [|]]; done.
    + destruct (Hsub p Hp Hpl) as (sub & Hsd & _ & Hc & _). destruct (Hstrip p Hp Hpl) as (E & Hne & Hin).
      apply (Hc (strip1 p) t h Hin). rewrite E, (sub_path objs look _ sub) in Hat by done. done.
  - intros p d h Hp Hd Hdn Hat.
    assert (Hpl : is_leaf p = false).
    { unfold is_leaf. destruct (Nat.eqb_spec (length (pi_elements p)) 1) as [El|]; [|done]. exfalso.
      destruct (pi_elements p) as [|x [|]]; try done. destruct d as [|y d]; [done|].
      destruct Hd as [k Hk]. cbn in Hk. injection Hk as -> Hk. symmetry in Hk. apply app_eq_nil in Hk as [-> _]. done. }
    destruct (Hsub p Hp Hpl) as (sub & Hsd & _ & _ & Hc). destruct (Hstrip p Hp Hpl) as (E & Hne & Hin).
    destruct d as [|b d]; [done|]. rewrite E in Hd. pose proof Hd as Hb. apply prefix_cons_inv_1 in Hb as ->.
    apply prefix_cons_inv_2 in Hd. destruct d as [|c d].
    + cbn in Hat. destruct Hsd as [[E1 _]|(h0 & E1 & _)]; congruence.
    + rewrite (sub_path objs look _ sub) in Hat by done. apply (Hc (strip1 p) (c :: d) h Hin Hd); [|done].
      rewrite E in Hdn. congruence.
Qed.

Lemma merged_updated objs look infos look' : Forall info_ok infos ->
  merged objs look infos look' -> updated objs look look' infos.
Proof.
  intros Hi Hm.
  assert (Hne : forall p, p ∈ infos -> pi_elements p <> []).
  { intros p Hp. rewrite List.Forall_forall in Hi. by apply elem_of_list_In, Hi in Hp as (? & _). }
  split; [|split].
  - intros p Hp. apply (merged_given _ _ _ _ Hm p Hp). by apply Hne.
  - intros p d Hp Hd Hn1 Hn2. by eapply merged_prefix.
  - intros path Hwf Hrel. by apply (merged_other _ _ _ _ Hm path).
Qed.

(** ** Running alone *)
Section Alone.
  Context `{Env} {S : Type}.
  Definition guar0 (_ : gset pystr) (g g' : gstate) : Prop :=
    grow g g' /\ (good g -> good g') /\ forall n, refs_of g' n = refs_of g n.
  Lemma guar0_ok : guar_ok guar0.
  Proof.
    split.
    - by intros ? ? ? [? _].
    - by intros ? ? ? (_ & ? & _).
    - intros X g c [Hr Hl]. split; [apply git_grow|]. split; [apply git_good|].
      intros n. apply map_eq. intros r. apply git_refs. by rewrite Hr.
  Qed.
  Lemma reach0 g g' : reach guar0 g g' -> grow g g' /\ forall n, refs_of g' n = refs_of g n.
  Proof.
    apply (reach_ind' guar0 (fun g g' => grow g g' /\ forall n, refs_of g' n = refs_of g n)).
    - intros a. split; [apply grow_refl|done].
    - intros a b c [G1 R1] [G2 R2]. split; [by eapply grow_trans|]. intros n. by rewrite R2.
    - intros Y a b (? & _ & ?). done.
  Qed.

  Lemma maxlen (infos : list pathinfo) : Forall (fun p => (length (pi_elements p) <=
    foldr (fun p n => Nat.max (length (pi_elements p)) n) 0%nat infos)%nat) infos.
  Proof.
    induction infos as [|p infos IH]; [constructor|]. cbn [foldr]. apply List.Forall_cons; [lia|].
    eapply Forall_impl; [exact IH|]. cbn. intros. lia.
  Qed.

  Lemma add_paths_lemma n infos es (s : S) g :
    is_remote n = false -> good g -> Forall wf_entry es -> names_ne es -> Forall info_ok infos ->
    Forall (fun p => dirs_present (objs_of g n) (entry_at es) (pi_elements p)) infos ->
    update_outcome n infos es s g (exec (add_paths n infos (map dirent_of es) s) g).
  Proof.
    intros Hn Hg He Hne Hi Hd.
    assert (Hw : mwp guar0 (g_locks g) (add_paths n infos (map dirent_of es)) s
      (fun _ r s' g' => s' = s /\ upd_post n (objs_of g n) es infos r g') g).
    { apply add_paths_wp; try done. apply guar0_ok. }
    destruct (wp_exec guar0 _ _ _ _ eq_refl Hw) as (X' & _ & [Hs Hu] & Hr). clear Hw.
    apply reach0 in Hr as [Hgr Hrf].
    destruct (exec (add_paths n infos (map dirent_of es) s) g) as [[r s'] g'] eqn:Ex. cbn [fst snd] in *.
    split; [done|]. split; [done|]. split; [done|]. destruct r as [h|e].
    - destruct Hu as (Hh & Hnc & es' & Ht & Hm). split; [eapply not_conflict_compatible; try done; apply maxlen|].
      exists es'. split; [done|]. by apply merged_updated.
    - destruct Hu as [->|[-> Hc]]; [by left|]. right. split; [done|]. by apply conflict_compatible.
  Qed.

  Lemma C36_lemma n infos h0 es (s : S) g :
    is_remote n = false -> good g -> tree_of (objs_of g n) h0 = Some es -> Forall info_ok infos ->
    Forall (fun p => dirs_present (objs_of g n) (entry_at es) (pi_elements p)) infos ->
    update_outcome n infos es s g (exec ((mlet root <- get_dir n h0; add_paths n infos root) s) g).
  Proof.
    intros Hn Hg Ht Hi Hd.
    pose proof (tree_of_inv _ _ _ Ht) as [Ho Hne]. pose proof (Hg n _ _ Ho) as [Eo Hwf].
    assert (Hw : mwp guar0 (g_locks g) (mlet root <- get_dir n h0; add_paths n infos root) s
      (fun _ r s' g' => s' = s /\ upd_post n (objs_of g n) es infos r g') g).
    { apply mwp_bind, get_dir_wp; [apply guar0_ok|done|]. intros g1 g2 H1 H2.
      assert (Hg1 : good g1) by (eapply rely_good; [apply guar0_ok|exact H1|done]).
      assert (Hgr1 : grow g g1) by (eapply rely_grow; [apply guar0_ok|exact H1]).
      destruct (dir_answer_tree n h0 g1 (h0, es) Hn Hg1) as (E1 & E2 & E3).
      { assert (Hid : object_id h0 = true) by (rewrite <- Eo; apply sha1_id). by rewrite Hid. }
      { eapply tree_of_mono; [apply Hgr1|done]. }
      rewrite E1. assert (H02 : rely guar0 (g_locks g) g g2) by by eapply rely_trans.
      eapply (mwp_stable _ _ _ _ _ g); [|done]. apply add_paths_wp; try done. apply guar0_ok. }
    destruct (wp_exec guar0 _ _ _ _ eq_refl Hw) as (X' & _ & [Hs Hu] & Hr). clear Hw.
    apply reach0 in Hr as [Hgr Hrf].
    destruct (exec _ g) as [[r s'] g'] eqn:Ex. cbn [fst snd] in *.
    split; [done|]. split; [done|]. split; [done|]. destruct r as [h|e].
    - destruct Hu as (Hh & Hnc & es' & Ht' & Hm). split; [eapply not_conflict_compatible; try done; apply maxlen|].
      exists es'. split; [done|]. by apply merged_updated.
    - destruct Hu as [->|[-> Hc]]; [by left|]. right. split; [done|]. by apply conflict_compatible.
  Qed.
  Lemma C36_new_lemma n infos (s : S) g :
    is_remote n = false -> good g -> Forall info_ok infos ->
    update_outcome n infos [] s g (exec (add_paths n infos [] s) g).
  Proof.
    intros Hn Hg Hi. apply (add_paths_lemma n infos [] s g); try done; [constructor|].
    apply List.Forall_forall. intros p _. by destruct (pi_elements p) as [|? [|]].
  Qed.
End Alone.
