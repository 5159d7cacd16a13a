(** Objects that are not loaded are saved, and objects are nested at most as deep
    as there are objects: proofs for C35. *)
From Verif Require Import Base BaseFacts Path Spec_Path PathFacts Json Refs RefsFacts Meta Spec_Meta MetaFacts GitText Spec_Git Git GitFacts Spec_Store State BlobCache ObjRef Objects Spec_Objects Spec_Look Spec_Heap Spec_Versions Spec_Write ExecFacts LoadFacts PeekFacts TreeFacts TreeEditFacts VersionFacts PartFacts LookFacts ReadFacts Spec_Content ContentFacts WriteFacts StoreFacts SaveFacts WriteBackFacts WriteAllFacts ReadBackFacts PurgeFacts EditFacts RealmFacts GraftFacts AddFacts ListFacts Spec_History AnyWriteFacts UseFacts FrameFacts SessionFacts DatasetFacts HistoryFacts Spec_Outcome Spec_Parts RunAllFacts Spec_Unget UngetFacts Spec_Settle.

Lemma depth_lemma (h : heap) (l : loc) : unshared h l -> shallow (S (size h)) h l.
Proof.
  intros Hu p x Hp.
  assert (HP : forall n, (n <= length p)%nat -> exists y, reach h l (take n p) = Some y).
  { intros n Hn. rewrite <- (take_drop n p), reach_app in Hp. destruct (reach h l (take n p)) as [y|]; [by exists y|done]. }
  assert (HD : forall n, (n < length p)%nat -> exists y, reach h l (take n p) = Some y /\ y ∈ dom h).
  { intros n Hn. destruct (HP n) as [y Hy]; [lia|]. exists y. split; [done|]. rewrite <- (take_drop n p), reach_app, Hy in Hp.
    destruct (drop n p) as [|k q] eqn:E; [apply (f_equal length) in E; rewrite drop_length in E; cbn in E; lia|]. cbn [reach] in Hp. destruct (h !! y) eqn:Ey; [|done]. apply elem_of_dom. by eexists. }
  set (f := fun n => default l (reach h l (take n p))).
  assert (HI : forall i j, (i < length p)%nat -> (j < length p)%nat -> f i = f j -> i = j).
  { intros i j Hi Hj E. destruct (HD i Hi) as (y & Hy & _). destruct (HD j Hj) as (z & Hz & _). unfold f in E. rewrite Hy, Hz in E. cbn in E. subst z.
    specialize (Hu _ _ _ Hy Hz). apply (f_equal length) in Hu. rewrite !take_length in Hu. lia. }
  assert (HN : NoDup (f <$> seq 0 (length p))).
  { apply NoDup_ListNoDup. assert (Hs : forall n m, (n + m <= length p)%nat -> List.NoDup (map f (seq n m))).
    { intros n m. revert n. induction m as [|m IH]; intros n Hm; [constructor|]. cbn [seq map]. constructor; [|apply IH; lia].
      intros (j & Ej & Hj)%in_map_iff. apply in_seq in Hj. specialize (HI j n). rewrite HI in Hj by (done || lia). lia. }
    apply Hs. lia. }
  assert (HL : list_to_set (f <$> seq 0 (length p)) ⊆ dom h).
  { intros y Hy. apply elem_of_list_to_set, elem_of_list_fmap in Hy as (n & -> & Hn). apply elem_of_seq in Hn. destruct (HD n) as (y & Hy & Hd); [lia|]. unfold f. by rewrite Hy. }
  apply subseteq_size in HL. rewrite size_list_to_set, fmap_length, seq_length in HL by done. change (size (dom h)) with (size (dom (h : gmap loc obj))) in HL. rewrite size_dom in HL. exact (le_n_S _ _ HL).
Qed.

Lemma home_settled (r : pystr) (h : heap) (l : loc) : at_home r h l -> referenced h l -> settled r h l.
Proof.
  intros Hh Hr p x o Hp Ho Hm. destruct (Hh p x o Hp Ho Hm) as (_ & _ & ref & E & [F|F]); [|done].
  by rewrite (Hr p x o ref Hp Ho Hm E) in F.
Qed.
Section Settle.
  Context `{Env}.
  Lemma C35_tidy_lemma (r : pystr) : r <> [] -> is_remote r = false ->
    forall (fuel : nat) (l : loc) (force : bool) (m : M pst reference) s g,
    fitting fuel l r force (look (objs_of g r) (s_heap s) l) m -> is_Some (local_repo g r) -> caches_ok s -> dget (s_caches s) r = None ->
    tidy (objs_of g r) r s l -> referenced (s_heap s) l -> dirs_filled (look (objs_of g r) (s_heap s) l) -> uuids_given (look (objs_of g r) (s_heap s) l) ->
    (size (s_heap s) < fuel)%nat -> (exists ref s' g', exec (m s) g = ((Ok ref, s'), g')) \/ collision r m s g.
  Proof.
    intros Hr Hl fuel l force m s g Hm Hg Hc Hu HT Hre Hd Huu Hf. eapply C35_written_lemma; try done.
    - apply home_settled; [exact (td_home _ _ _ _ HT)|done].
    - intros p x Hp. pose proof (depth_lemma _ _ (td_unshared _ _ _ _ HT) p x Hp). lia.
  Qed.
  Lemma C35_history_lemma (r : pystr) : is_remote r = false -> r <> [] ->
    forall (es : list event) (s : pst) (g : gstate) (R : gset loc), history r es s g R -> is_Some (local_repo g r) ->
    exists C, accounts es R C /\ (forall l fuel p, l ∈ R -> fst (fst (exec (visit fuel l p s) g)) = Ok (C l p)) /\
    forall l, l ∈ R -> referenced (s_heap s) l -> dirs_filled (C l) -> uuids_given (C l) ->
    forall (fuel : nat) (force : bool) (m : M pst reference), (size (s_heap s) < fuel)%nat -> fitting fuel l r force (C l) m ->
    (exists ref s' g', exec (m s) g = ((Ok ref, s'), g')) \/ collision r m s g.
  Proof.
    intros Hl Hr es s g R HH Hg. destruct (run_history r Hl Hr es s g R HH) as [HO HA]. exists (fun l => look (objs_of g r) (s_heap s) l). split; [exact HA|]. split.
    { intros l fuel p Hin. destruct (hd_able _ _ _ _ HO l Hin) as [HT _]. destruct (visit_quiet r g Hl Hr fuel p s l HT) as (s1 & Hx & _). by rewrite Hx. }
    intros l Hin Hre Hd Hu fuel force m Hf Hm. destruct HO as [(_ & Hc & Hu0) Ha _]. destruct (Ha l Hin) as [HT _]. by eapply C35_tidy_lemma.
  Qed.
  Lemma history_able (r : pystr) es s g R l p y : is_remote r = false -> r <> [] -> history r es s g R -> l ∈ R -> reach (s_heap s) l p = Some y ->
    fresh r s /\ tidy (objs_of g r) r s y /\ one_realm r (s_heap s) y.
  Proof.
    intros Hl Hr HH Hin Hp. destruct (run_history r Hl Hr es s g R HH) as [HO _]. split; [exact (hd_fresh _ _ _ _ HO)|].
    exact (able_reach _ _ _ _ _ _ (hd_able _ _ _ _ HO l Hin) Hp).
  Qed.
  Lemma tidy_shallow O r s l n : tidy O r s l -> (size (s_heap s) < n)%nat -> shallow n (s_heap s) l.
  Proof. intros HT Hn p x Hp. pose proof (depth_lemma _ _ (td_unshared _ _ _ _ HT) p x Hp). lia. Qed.
  Lemma C51_history_lemma (r : pystr) : is_remote r = false -> r <> [] ->
    forall (es : list event) (s : pst) (g : gstate) (R : gset loc), history r es s g R ->
    forall (l : loc) (p : list key) (y : loc) (k : kd), l ∈ R -> reach (s_heap s) l p = Some y -> is_kind (s_heap s) y k -> k <> KdVl true ->
    forall (fuel : nat) (force : bool) (m : M pst reference) (ref : reference) (s' : pst) (g' : gstate),
    Spec_Write.writes fuel y (Some r) force m -> exec (m s) g = ((Ok ref, s'), g') -> with_metadata (look (objs_of g r) (s_heap s) y) ->
    forall (fuel2 : nat), (size (s_heap s) < fuel2)%nat ->
    exists s2 o2, exec (purge fuel2 y s') g' = ((Ok tt, s2), g') /\ s_heap s2 !! y = Some o2 /\ h_mapped (o_hdr o2) = false /\
      forall fuel1 fuel3 q, exists sn, fst (fst (exec (visit fuel1 y q s) g)) = Ok sn /\ fst (fst (exec (visit fuel3 y q s2) g')) = Ok sn.
  Proof.
    intros Hl Hr es s g R HH l p y k Hin Hp (o & Ho & <-) Hk fuel force m ref s' g' Hw He Hm fuel2 Hf.
    destruct (history_able r es s g R l p y Hl Hr HH Hin Hp) as ((_ & Hc & Hu) & HT & H1).
    destruct (C51_lemma r Hr Hl fuel y force m s g ref s' g' o Hw Hc Hu HT H1 Ho Hk He fuel2 g' Hm (tidy_shallow _ _ _ _ _ HT Hf) (reflexivity _))
      as (s2 & o2 & E1 & E2 & E3 & _ & _ & E4). by exists s2, o2.
  Qed.
  Lemma history_removable (r : pystr) fuel x s g : tidy (objs_of g r) r s x -> releasable r x s g -> (size (s_heap s) < fuel)%nat -> removable r fuel x s g.
  Proof.
    intros HT (Hg & Hre & Hd & Hu & Hm) Hf. split_and!; [done|apply home_settled; [exact (td_home _ _ _ _ HT)|done]|done|done|done|by eapply tidy_shallow].
  Qed.
  Lemma C57_history_lemma (r : pystr) : is_remote r = false -> r <> [] ->
    forall (es : list event) (s : pst) (g : gstate) (R : gset loc), history r es s g R ->
    forall (l : loc) (p0 : list key) (y : loc) (fuel : nat), l ∈ R -> reach (s_heap s) l p0 = Some y -> (size (s_heap s) < fuel)%nat ->
    (forall hx k vs v p vr, s_heap s !! y = Some (Obj hx (BVlist k vs)) -> h_mapped hx = true -> record_of vs v p = Some vr ->
       (forall t, vr_elt vr = ETree t -> look (objs_of g r) (s_heap s) t [] = Seen (LbNode LMrr)) -> releasable r (elt_loc (vr_elt vr)) s g ->
       (exists s' g', exec (unget_versioned_element fuel y v p (Some r) s) g = ((Ok tt, s'), g') /\ let_go r y (elt_loc (vr_elt vr)) s g s' g') \/
       collision r (elt_write_out fuel (vr_elt vr) (Some r)) s g) /\
    (forall hx c d n x, s_heap s !! y = Some (Obj hx (BNode c d)) -> h_mapped hx = true -> dget d n = Some x -> releasable r x s g ->
       (exists s' g', exec (unget_metadata fuel x (Some r) s) g = ((Ok tt, s'), g') /\ let_go r y x s g s' g') \/ collision r (write_out fuel x (Some r) false) s g) /\
    (forall hx us u x ox, s_heap s !! y = Some (Obj hx (BUset us)) -> h_mapped hx = true -> dget us u = Some x -> s_heap s !! x = Some ox -> h_mapped (o_hdr ox) = true ->
       h_realm (o_hdr ox) = Some r -> releasable r x s g ->
       (exists s' g', exec (unget_version_list fuel y u s) g = ((Ok tt, s'), g') /\ let_go r y x s g s' g') \/ collision r (write_out fuel x (Some r) false) s g).
  Proof.
    intros Hl Hr es s g R HH l p0 y fuel Hin Hp Hf. destruct (history_able r es s g R l p0 y Hl Hr HH Hin Hp) as (Hfr & Ha). split; [|split].
    - intros hx k vs v p vr Hy Hm Hv Ht Hx. assert (HT : tidy (objs_of g r) r s (elt_loc (vr_elt vr))).
      { eapply (tidy_kid _ _ _ y _ (KVer v p)); [apply Ha|exact Hy|done|]. cbn [o_body].
        rewrite kids_vget; [unfold vget; unfold record_of in Hv; destruct (dget vs v); [by rewrite Hv|done]|]. apply keyed_ok. by apply (td_keyed _ _ _ _ (proj1 Ha) [] y hx k vs eq_refl). }
      destruct (element_returns r Hl Hr fuel y hx k vs v p vr s g Hfr Ha Hy Hm Hv Ht (history_removable _ _ _ _ _ HT Hx Hf)) as [(s' & g' & E)|Hc]; [left|by right].
      exists s', g'. split; [done|]. destruct (unget_element_lemma r Hl Hr fuel y hx k vs v p s g s' g' Hfr Ha Hy Hm E) as (vr' & Hv' & HL). by simplify_eq.
    - intros hx c d n x Hy Hm Hd Hx. assert (HT : tidy (objs_of g r) r s x).
      { eapply (tidy_kid _ _ _ y _ (KName n)); [apply Ha|exact Hy|done|]. cbn [o_body]. by rewrite kids_names. }
      destruct (metadata_returns r Hl Hr fuel y hx c d n x s g Hfr Ha Hy Hm Hd (history_removable _ _ _ _ _ HT Hx Hf)) as [(s' & g' & E)|Hc]; [left|by right].
      exists s', g'. split; [done|]. by eapply unget_metadata_lemma.
    - intros hx us u x ox Hy Hm Hd Hox Hmx Hrx Hx. assert (HT : tidy (objs_of g r) r s x).
      { eapply (tidy_kid _ _ _ y _ (KUuid u)); [apply Ha|exact Hy|done|]. cbn [o_body]. by rewrite kids_uuids. }
      destruct (list_returns r Hl Hr fuel y hx us u x ox s g Hfr Ha Hy Hm Hd Hox Hmx Hrx (history_removable _ _ _ _ _ HT Hx Hf)) as [(s' & g' & E)|Hc]; [left|by right].
      exists s', g'. split; [done|]. by eapply unget_list_lemma.
  Qed.
End Settle.
