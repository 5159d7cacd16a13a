(** Initial sets of runs and lengths of paths: proofs for C12 and C02. *)
From Verif Require Import Base BaseFacts Path Spec_Path PathFacts Json Spec_Json Refs Meta Spec_Meta MetaFacts Spec_Unget UngetFacts Spec_Init.

(** a run of the extractor with the empty name *)
Definition as_run (i : minst) : run := Run (mi_time i) [] (mi_author i) (mi_email i) (mi_conf i) (mi_content i).
Lemma as_run_inst i : run_inst (as_run i) = i.
Proof. by destruct i. Qed.
Lemma as_run_same i j : as_run i = as_run j -> i = j.
Proof. intros E. by rewrite <- (as_run_inst i), E, as_run_inst. Qed.
Lemma runs_set l : forall m s m', (m = [] /\ s = mis_empty) \/ m = [([], s)] -> add_runs m (map as_run l) = Ok m' ->
  exists s', mis_add_all s l = Ok s' /\ ((m' = [] /\ s' = mis_empty /\ l = []) \/ m' = [([], s')]).
Proof.
  induction l as [|i l IH]; intros m s m' Hm; cbn [map add_runs mis_add_all].
  - intros [= <-]. exists s. split; [done|]. destruct Hm as [[-> ->]| ->]; [by left|by right].
  - assert (E : add_extractor_run m (as_run i) = rlet s' <- add_metadata_instance s i; Ok [([], s')]).
    { unfold add_extractor_run. cbn [as_run ru_extractor]. fold (as_run i). rewrite as_run_inst. destruct Hm as [[-> ->]| ->]; cbn [dget]; [|rewrite decide_True by done];
        cbn [rbind]; destruct (add_metadata_instance _ i); cbn [rbind dset]; try done; by rewrite decide_True. }
    rewrite E. destruct (add_metadata_instance s i) as [s1|e]; cbn [rbind]; [|done]. intros Hr.
    destruct (IH [([], s1)] s1 m') as (s2 & E2 & H2); [by right|done|]. exists s2. split; [done|]. destruct H2 as [(-> & -> & ->)|H2]; [|by right].
    cbn [map add_runs] in Hr. discriminate Hr.
Qed.
Lemma map_as_run l pre r post : map as_run l = pre ++ r :: post -> exists p i q, l = p ++ i :: q /\ pre = map as_run p /\ r = as_run i /\ post = map as_run q.
Proof.
  intros E. apply map_eq_app in E as (p & q & -> & <- & E). apply map_eq_cons in E as (i & q' & -> & <- & <-). by exists p, i, q'.
Qed.
Lemma initial_lemma l : Forall inst_ok l -> exists s, mis_init l = Ok s /\
  first_uses conf_same (map mi_conf l) (configurations s) /\
  Forall2 (fun c i => get_instance_for_configuration s c = Ok i) (configurations s) (mis_iter s) /\
  forall c i, conf_ok c -> (get_instance_for_configuration s c = Ok i <-> last_instance l c i).
Proof.
  intros Hl. destruct (C12_lemma (map as_run l)) as (m & Hm & _ & He).
  { rewrite List.Forall_forall in Hl |- *. intros r (i & <- & Hi)%in_map_iff. destruct (Hl i Hi) as (H1 & H2 & H3 & H4 & H5 & H6). split_and!; try done. apply List.Forall_nil. }
  destruct (runs_set l [] mis_empty m) as (s & Hs & Hc); [by left|done|]. exists s. split; [exact Hs|].
  destruct (He []) as [_ Hin]. destruct Hc as [(-> & -> & ->)| ->].
  - split; [constructor|]. split; [constructor|]. intros c i _. split; [done|]. intros (pre & post & E & _). by destruct pre.
  - destruct Hin as (s' & Es & HF & H2 & HI).
    { destruct l as [|i l]; [discriminate Hm|]. cbn [map as_run ru_extractor]. by left. }
    assert (s' = s) as ->. { unfold extractor_runs_for_extractor in Es. cbn [dget] in Es. rewrite decide_True in Es by done. by injection Es. }
    split; [|split; [exact H2|]].
    + rewrite (List.filter_ext_in _ (fun _ => true)) in HF. 2: { intros r (i & <- & _)%in_map_iff. by apply bool_decide_eq_true. }
      assert (Ef : forall k : list run, List.filter (fun _ => true) k = k) by (induction k as [|x k IH]; [done|]; cbn; by rewrite IH).
      rewrite Ef, map_map in HF. exact HF.
    + intros c i Hc. rewrite (HI c i Hc). split.
      * intros (r & (pre & post & E & _ & Hs' & Hn) & ->). apply map_as_run in E as (p & j & q & -> & -> & -> & ->). rewrite as_run_inst. exists p, q. split; [done|]. split; [done|].
        rewrite List.Forall_forall in Hn |- *. intros x Hx Hy. apply (Hn (as_run x)); [by apply in_map|done].
      * intros (p & q & -> & Hs' & Hn). exists (as_run i). rewrite as_run_inst. split; [|done]. exists (map as_run p), (map as_run q). split; [by rewrite map_app|]. split; [done|]. split; [done|].
        rewrite List.Forall_forall in Hn |- *. intros x (y & <- & Hy)%in_map_iff [_ Hy2]. by apply (Hn y Hy).
Qed.

Lemma count_app a b : count_slash (a ++ b) = (count_slash a + count_slash b)%nat.
Proof. induction a as [|c a IH]; [done|]. cbn [app count_slash]. rewrite IH. by case_bool_decide. Qed.
Lemma count_none a : ~ In 47%N a -> count_slash a = 0%nat.
Proof. induction a as [|c a IH]; intros Ha; [done|]. cbn [count_slash]. rewrite bool_decide_eq_false_2 by (intros ->; apply Ha; by left). apply IH. intros Hi. apply Ha. by right. Qed.
Lemma count_join l : good_names l -> l <> [] -> List.length l = S (count_slash (join [slash] l)).
Proof.
  induction l as [|x l IH]; intros Hg Hn; [done|]. inversion Hg as [|? ? (_ & _ & Hx) Hl]; subst. destruct l as [|y l]; [cbn [join List.length]; by rewrite count_none|].
  change (join [slash] (x :: y :: l)) with (x ++ [slash] ++ join [slash] (y :: l)). rewrite !count_app, (count_none x Hx). change (List.length (x :: y :: l)) with (S (List.length (y :: l))). rewrite (IH Hl ltac:(discriminate)). reflexivity.
Qed.
Lemma length_lemma xs ys : let a := MetadataPath xs in let b := MetadataPath ys in
  mp_len (truediv a (APath b)) = (mp_len a + mp_len b)%nat /\ (mp_len a = 0%nat <-> mp_str a = []) /\
  (mp_str a <> [] -> mp_len a = S (count_slash (mp_str a))).
Proof.
  cbv zeta. destruct (C02_algebra_lemma xs ys ys) as (_ & _ & _ & _ & Hj & _). split; [unfold mp_len; by rewrite Hj, app_length|].
  pose proof (MetadataPath_wf xs) as Hw. unfold mp_len. rewrite (wfp_all _ Hw), (mp_str_wf _ Hw). destruct Hw as [_ Hg].
  destruct (p_parts (MetadataPath xs)) as [|x l] eqn:E; [split; done|]. split.
  - split; [done|]. intros Hs. inversion Hg as [|? ? (Hx & _) _]; subst. exfalso. apply Hx. destruct x; [done|]. by destruct l.
  - intros _. by apply count_join.
Qed.

Lemma local_lemma r : is_local r = true <-> ~ remote_realm r.
Proof. rewrite <- remote_realms_lemma. unfold is_local. destruct (is_remote r); cbn; split; done. Qed.
