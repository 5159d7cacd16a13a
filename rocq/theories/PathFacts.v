(** Proofs about [Path.v]. *)
From Verif Require Import Base BaseFacts Path Spec_Path.

Definition wfp (p : ppath) : Prop := p_root p = [] /\ good_names (p_parts p).

Lemma keep_kept x : keep_component x = kept x.
Proof. unfold keep_component, kept. destruct x as [|c x]; [done|].
  by rewrite (bool_decide_false (c :: x = [])). Qed.

Lemma components_pieces s : components s = pieces [s].
Proof. unfold components, pieces. simpl. rewrite app_nil_r.
  apply filter_ext. intros. apply keep_kept. Qed.

Lemma pieces_app a b : pieces (a ++ b) = pieces a ++ pieces b.
Proof. unfold pieces. by rewrite map_app, concat_app, List.filter_app. Qed.

Lemma components_lstrip s : components (lstrip_slash s) = components s.
Proof. induction s as [|c r IH]; simpl; [done|].
  destruct (N.eqb_spec c slash) as [->|]; [|done].
  rewrite IH. unfold components. done. Qed.

Lemma splitroot_spec part :
  components (snd (splitroot part)) = components part /\
  (fst (splitroot part) = [] <-> starts_with_slash part = false).
Proof. unfold splitroot. destruct part as [|c r]; [done|].
  unfold starts_with_slash. simpl. fold slash.
  destruct (N.eqb_spec c slash) as [->|Hn].
  - destruct (Nat.eqb _ 2); simpl; rewrite ?components_lstrip; (split; [done|]);
      split; intros; done.
  - simpl. split; [done|]. split; [|done]. intros _.
    rewrite (proj2 (N.eqb_neq _ _)); [done|]. auto. Qed.

Lemma effective_app l a :
  effective (l ++ [a]) = if starts_with_slash a then [a] else effective l ++ [a].
Proof. induction l as [|x l IH]; simpl.
  - by destruct (starts_with_slash a).
  - rewrite existsb_app, IH. simpl. rewrite orb_false_r.
    destruct (starts_with_slash a); [by rewrite orb_true_r|].
    rewrite orb_false_r. by destruct (existsb _ l). Qed.

Lemma parse_rev_parts args acc :
  p_parts (parse_rev (rev args) acc) = pieces (effective args) ++ acc /\
  (p_root (parse_rev (rev args) acc) = [] <-> existsb starts_with_slash args = false).
Proof. revert acc. induction args as [|a l IH] using rev_ind; intros acc.
  - done.
  - rewrite rev_app_distr. simpl. rewrite effective_app.
    rewrite existsb_app. simpl. rewrite orb_false_r.
    destruct a as [|c r].
    + unfold starts_with_slash at 1 2. simpl. rewrite orb_false_r. rewrite pieces_app.
      change (pieces [[]]) with (@nil pystr). rewrite app_nil_r. apply IH.
    + destruct (splitroot_spec (c :: r)) as [H1 H2].
      destruct (splitroot (c :: r)) as [root rel]. simpl in H1, H2.
      destruct root as [|x root].
      * rewrite (proj1 H2) by done. rewrite orb_false_r.
        destruct (IH (components rel ++ acc)) as [-> H]. split; [|done].
        rewrite pieces_app, H1, components_pieces. by rewrite app_assoc.
      * assert (starts_with_slash (c :: r) = true) as ->.
        { destruct (starts_with_slash (c :: r)); [done|]. by destruct H2 as [_ H2]; specialize (H2 eq_refl). }
        rewrite orb_true_r. simpl. rewrite H1, components_pieces. done. Qed.

Lemma parse_parts_spec args :
  p_parts (parse_parts args) = pieces (effective args) /\
  (p_root (parse_parts args) = [] <-> existsb starts_with_slash args = false).
Proof. unfold parse_parts. destruct (parse_rev_parts args []) as [-> ?].
  by rewrite app_nil_r. Qed.

Lemma pieces_good args : good_names (pieces args).
Proof. unfold pieces, good_names. apply Forall_forall. intros x Hx.
  apply elem_of_list_In, filter_In in Hx as [Hin Hk].
  apply in_concat in Hin as (l & Hl & Hx). apply in_map_iff in Hl as (s & <- & _).
  unfold kept in Hk. apply negb_true_iff, orb_false_iff in Hk as [Hk1 Hk2].
  apply bool_decide_eq_false in Hk1, Hk2. split; [done|]. split; [done|].
  pose proof (split_char_nochar 47 s) as H. rewrite Forall_forall in H.
  intros Hc. specialize (H x (proj2 (elem_of_list_In _ _) Hx)).
  unfold nochar in H. rewrite Forall_forall in H. apply (H 47%N); [|done].
  by apply elem_of_list_In. Qed.

Lemma good_kept x : good_name x -> kept x = true.
Proof. intros (H1 & H2 & _). unfold kept. by rewrite !bool_decide_false. Qed.

Lemma good_nochar x : good_name x -> nochar 47%N x.
Proof. intros (_ & _ & H). unfold nochar. apply Forall_forall. intros y Hy ->.
  apply H. by apply elem_of_list_In. Qed.

Lemma filter_kept_good l : good_names l -> List.filter kept l = l.
Proof. induction 1 as [|x l Hx Hl IH]; simpl; [done|]. rewrite good_kept by done. by rewrite IH. Qed.

Lemma pieces_join l : good_names l -> pieces [join [slash] l] = l.
Proof. intros Hl. unfold pieces. simpl. rewrite app_nil_r.
  destruct l as [|x l]; [done|].
  rewrite split_join; [by apply filter_kept_good|done|].
  eapply Forall_impl; [exact Hl|]. apply good_nochar. Qed.

Lemma join_good_noslash l : good_names l -> starts_with_slash (join [slash] l) = false.
Proof. intros Hl. destruct Hl as [|x l Hx Hl]; [done|].
  assert (exists c r, join [slash] (x :: l) = c :: r /\ c <> 47%N) as (c & r & -> & Hc).
  { destruct Hx as (H1 & _ & H3). destruct x as [|c x]; [done|].
    exists c. destruct l; eexists; (split; [reflexivity|]); intros ->; apply H3; by left. }
  unfold starts_with_slash. simpl. rewrite andb_true_r. apply N.eqb_neq. auto. Qed.

Lemma parse_single s :
  starts_with_slash s = false -> parse_parts [s] = PP [] (pieces [s]).
Proof. intros Hs. destruct (parse_parts_spec [s]) as [H1 H2].
  simpl in H1, H2. rewrite Hs in H2. destruct (parse_parts [s]) as [r ps]; simpl in *.
  rewrite (proj2 H2) by done. by rewrite H1. Qed.

Lemma parse_join l : good_names l -> parse_parts [join [slash] l] = PP [] l.
Proof. intros Hl. rewrite parse_single by by apply join_good_noslash. by rewrite pieces_join. Qed.

Lemma MetadataPath_eq args :
  MetadataPath args = PP [] (p_parts (PurePosixPath args)).
Proof. unfold MetadataPath, is_absolute. unfold PurePosixPath at 2 4. unfold flatten_args at 1 2. simpl.
  set (q := PurePosixPath args).
  assert (Hg : good_names (p_parts q)).
  { unfold q, PurePosixPath. destruct (parse_parts_spec (flatten_args args)) as [-> _]. apply pieces_good. }
  unfold all_parts. destruct (p_root q); simpl; by apply parse_join. Qed.

(** C01 *)
Lemma metadata_path_parts args :
  p_root (MetadataPath (map AStr args)) = [] /\
  p_parts (MetadataPath (map AStr args)) = pieces (effective args) /\
  good_names (p_parts (MetadataPath (map AStr args))).
Proof. rewrite MetadataPath_eq. simpl. unfold PurePosixPath.
  assert (flatten_args (map AStr args) = args) as ->.
  { unfold flatten_args. rewrite map_map. induction args; simpl; [done|]. by rewrite IHargs. }
  destruct (parse_parts_spec args) as [-> _]. split; [done|]. split; [done|]. apply pieces_good. Qed.

Lemma MetadataPath_wf args : wfp (MetadataPath args).
Proof. rewrite MetadataPath_eq. split; [done|]. simpl. unfold PurePosixPath.
  destruct (parse_parts_spec (flatten_args args)) as [-> _]. apply pieces_good. Qed.

Lemma good_effective l : good_names l -> effective l = l /\ existsb starts_with_slash l = false.
Proof. induction 1 as [|x l Hx Hl [IH1 IH2]]; simpl; [done|]. rewrite IH2. split; [done|].
  rewrite orb_false_r. destruct Hx as (H1 & _ & H3). destruct x as [|c x]; [done|].
  unfold starts_with_slash. simpl. rewrite andb_true_r. apply N.eqb_neq. intros <-. apply H3. by left. Qed.

Lemma pieces_good_id l : good_names l -> pieces l = l.
Proof. intros H. unfold pieces.
  assert (concat (map (split_char 47) l) = l) as ->.
  { induction H as [|x l Hx Hl IH]; simpl; [done|]. rewrite split_nochar by by apply good_nochar.
    simpl. by rewrite IH. }
  by apply filter_kept_good. Qed.

Lemma parse_good l : good_names l -> parse_parts l = PP [] l.
Proof. intros H. destruct (good_effective l H) as [He Hs].
  destruct (parse_parts_spec l) as [H1 H2]. destruct (parse_parts l) as [r ps]; simpl in *.
  rewrite (proj2 H2) by done. rewrite H1, He. by rewrite pieces_good_id. Qed.

Lemma MetadataPath_of_path p : wfp p -> MetadataPath [APath p] = p.
Proof. intros [Hr Hg]. rewrite MetadataPath_eq. unfold PurePosixPath, flatten_args. simpl.
  unfold all_parts. rewrite Hr, app_nil_r, parse_good by done. simpl. destruct p; simpl in *; congruence. Qed.

Lemma mp_str_wf p : wfp p -> mp_str p = join [slash] (p_parts p).
Proof. intros [Hr Hg]. unfold mp_str, PurePath_str, format_parts. rewrite Hr.
  destruct (join [slash] (p_parts p)) as [|c s] eqn:E.
  - by rewrite decide_True.
  - rewrite decide_False; [done|]. intros Heq. rewrite Heq in E.
    destruct (p_parts p) as [|x [|y l]]; simpl in E; [done| |].
    + inversion Hg as [|? ? (_ & H & _)]; subst. done.
    + inversion Hg as [|? ? (H & _ & _)]; subst.
      destruct x as [|c' [|]]; [done| |]; simpl in E; discriminate E. Qed.

Lemma mp_roundtrip_str p : wfp p -> MetadataPath [AStr (mp_str p)] = p.
Proof. intros H. rewrite mp_str_wf by done. rewrite MetadataPath_eq.
  unfold PurePosixPath, flatten_args. simpl. destruct H as [Hr Hg].
  rewrite parse_join by done. destruct p; simpl in *; congruence. Qed.

Lemma mp_roundtrip_parts p :
  wfp p -> MetadataPath [AStr (join [slash] (all_parts p))] = p.
Proof. intros H. rewrite <- (mp_roundtrip_str p) at 2 by done. rewrite mp_str_wf by done.
  unfold all_parts. by rewrite (proj1 H). Qed.

Lemma truediv_path p q : wfp p -> wfp q -> truediv p (APath q) = PP [] (p_parts p ++ p_parts q).
Proof. intros [Hp Gp] [Hq Gq]. unfold truediv, flatten_args. simpl. unfold all_parts. rewrite Hq, app_nil_r.
  rewrite parse_good by done. simpl. by rewrite Hp. Qed.

Lemma truediv_str p s :
  wfp p -> starts_with_slash s = false -> truediv p (AStr s) = PP [] (p_parts p ++ pieces [s]).
Proof. intros [Hp Gp] Hs. unfold truediv, flatten_args. simpl.
  rewrite parse_single by done. simpl. by rewrite Hp. Qed.

Lemma truediv_wf p q : wfp p -> wfp q -> wfp (truediv p (APath q)).
Proof. intros Hp Hq. rewrite truediv_path by done. split; [done|]. apply Forall_app. split; [apply Hp|apply Hq]. Qed.

Lemma truediv_str_wf p s : wfp p -> starts_with_slash s = false -> wfp (truediv p (AStr s)).
Proof. intros Hp Hs. rewrite truediv_str by done. split; [done|]. apply Forall_app. split; [apply Hp|apply pieces_good]. Qed.

Lemma wfp_eq p q : wfp p -> wfp q -> p_parts p = p_parts q -> p = q.
Proof. destruct p, q; intros [? _] [? _]; simpl in *; congruence. Qed.

Lemma wfp_all p : wfp p -> all_parts p = p_parts p.
Proof. intros [H _]. unfold all_parts. by rewrite H. Qed.
Lemma wfp_rel p : wfp p -> is_absolute p = false.
Proof. intros [H _]. unfold is_absolute. by rewrite H. Qed.

Lemma C01_lemma (args : list pystr) :
  is_absolute (MetadataPath (map AStr args)) = false /\
  all_parts (MetadataPath (map AStr args)) = pieces (effective args) /\
  good_names (all_parts (MetadataPath (map AStr args))).
Proof. destruct (metadata_path_parts args) as (H1 & H2 & H3).
  pose proof (MetadataPath_wf (map AStr args)) as Hw. rewrite (wfp_all _ Hw).
  split; [by apply wfp_rel|]. done. Qed.

Lemma C02_roundtrip_lemma (args : list parg) :
  let p := MetadataPath args in
  MetadataPath [AStr (mp_str p)] = p /\
  MetadataPath [AStr (mp_as_posix p)] = p /\
  MetadataPath [AStr (join (ps "/") (all_parts p))] = p /\
  MetadataPath [APath p] = p.
Proof. intros p. pose proof (MetadataPath_wf args) as Hw. fold p in Hw.
  split; [by apply mp_roundtrip_str|]. split; [by apply mp_roundtrip_str|].
  split; [by apply mp_roundtrip_parts|by apply MetadataPath_of_path]. Qed.

Lemma C02_algebra_lemma (xs ys zs : list parg) :
  let a := MetadataPath xs in let b := MetadataPath ys in let c := MetadataPath zs in
  let empty := MetadataPath [AStr []] in
  let div p q := truediv p (APath q) in
  div (div a b) c = div a (div b c) /\
  div a empty = a /\ div empty a = a /\
  (div a b = div a c -> b = c) /\
  all_parts (div a b) = all_parts a ++ all_parts b /\
  MetadataPath [APath (div a b)] = div a b.
Proof. intros a b c e div.
  assert (Ha : wfp a) by apply MetadataPath_wf. assert (Hb : wfp b) by apply MetadataPath_wf.
  assert (Hc : wfp c) by apply MetadataPath_wf. assert (He : wfp e) by apply MetadataPath_wf.
  pose proof (truediv_wf a b Ha Hb) as Hab. pose proof (truediv_wf b c Hb Hc) as Hbc.
  assert (Hpe : p_parts e = []) by done.
  subst div; cbv beta.
  split; [|split; [|split; [|split; [|split]]]].
  - rewrite (truediv_path _ c Hab Hc), (truediv_path a _ Ha Hbc).
    rewrite (truediv_path a b Ha Hb), (truediv_path b c Hb Hc). simpl. by rewrite app_assoc.
  - rewrite (truediv_path a e Ha He), Hpe, app_nil_r. destruct Ha, a; simpl in *; congruence.
  - rewrite (truediv_path e a He Ha), Hpe. destruct Ha, a; simpl in *; congruence.
  - rewrite (truediv_path a b Ha Hb), (truediv_path a c Ha Hc). intros [= H].
    apply app_inv_head in H. by apply wfp_eq.
  - rewrite (wfp_all _ Hab), (wfp_all _ Ha), (wfp_all _ Hb), (truediv_path a b Ha Hb). done.
  - by apply MetadataPath_of_path. Qed.

Lemma C02_injective_lemma (xs ys : list parg) :
  mp_str (MetadataPath xs) = mp_str (MetadataPath ys) -> MetadataPath xs = MetadataPath ys.
Proof. intros H. rewrite <- (mp_roundtrip_str _ (MetadataPath_wf xs)), H.
  apply mp_roundtrip_str, MetadataPath_wf. Qed.

Lemma C03_partial_lemma (xs : list parg) (s : pystr) (ys : list parg) :
  (starts_with_slash s = false ->
     is_absolute (truediv (MetadataPath xs) (AStr s)) = false /\
     all_parts (truediv (MetadataPath xs) (AStr s)) = all_parts (MetadataPath xs) ++ pieces [s]) /\
  is_absolute (truediv (MetadataPath xs) (APath (MetadataPath ys))) = false.
Proof. pose proof (MetadataPath_wf xs) as Hx. split.
  - intros Hs. pose proof (truediv_str_wf _ _ Hx Hs) as Hw. split; [by apply wfp_rel|].
    rewrite (wfp_all _ Hw), (wfp_all _ Hx), truediv_str by done. done.
  - apply wfp_rel, truediv_wf; [done|]. apply MetadataPath_wf. Qed.

Lemma C03_iff_lemma (xs : list parg) (s : pystr) :
  is_absolute (truediv (MetadataPath xs) (AStr s)) = starts_with_slash s.
Proof. destruct (starts_with_slash s) eqn:E.
  - unfold truediv, flatten_args. simpl. destruct (parse_parts_spec [s]) as [_ H2].
    simpl in H2. rewrite E in H2. unfold is_absolute.
    destruct (p_root (parse_parts [s])) eqn:Er.
    + by destruct H2 as [H2 _]; specialize (H2 eq_refl).
    + by rewrite Er.
  - by apply (C03_partial_lemma xs s []). Qed.
