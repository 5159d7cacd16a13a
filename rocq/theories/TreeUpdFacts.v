(** Proofs about treeupdater.py. *)
From Verif Require Import Base BaseFacts Json Refs GitText Spec_Git GitTextFacts Git Spec_Store TreeTextFacts
  GitFacts Rely State Spec_Tree TreeUpd Spec_TreeUpd.

(** ** Trees and tables *)
Lemma rev_find_dget (l : list direntry) k :
  dget (dof (map (fun e => (d_name e, e)) l)) k = List.find (fun e => bool_decide (d_name e = k)) (rev l).
Proof.
  induction l as [|x l IH] using rev_ind; [done|].
  rewrite map_app. unfold dof. rewrite fold_left_app. cbn [map fold_left fst snd].
  fold (dof (map (fun e => (d_name e, e)) l)). rewrite dget_dset. rewrite rev_app_distr. cbn.
  destruct (decide (d_name x = k)) as [E|E].
  - by rewrite bool_decide_eq_true_2.
  - by rewrite bool_decide_eq_false_2.
Qed.

Definition dirent_of (e : tentry) : direntry := DirE (entry_kind e) (te_id e) (quote_c (te_name e)).
Definition table_of (l : list direntry) : pydict pystr direntry := dof (map (fun e => (d_name e, e)) l).
Definition kh (d : direntry) : etype * pystr := (d_type d, d_hash d).
Definition tlook (t : pydict pystr direntry) (b : bytes) : option (etype * pystr) :=
  option_map kh (dget t (quote_c b)).

Definition names_ne (es : list tentry) : Prop := Forall (fun e => te_name e <> []) es.

Lemma table_look es b : Forall wf_entry es -> wf_name b ->
  tlook (table_of (map dirent_of es)) b = entry_at es b.
Proof.
  intros Hes Hb. unfold tlook, table_of, entry_at. rewrite rev_find_dget, <- map_rev.
  assert (Hr : Forall wf_entry (rev es)) by (apply List.Forall_rev; done).
  induction Hr as [|e l He Hl IH]; [done|]. cbn [map List.find]. cbn [dirent_of d_name].
  destruct (decide (te_name e = b)) as [->|Hne].
  - rewrite !bool_decide_eq_true_2 by done. done.
  - rewrite !bool_decide_eq_false_2; [exact IH|done|].
    intros E. apply Hne. eapply quote_c_inj; [apply He|done|done].
Qed.

(** tables: keys are quoted names *)
Definition drow (kd : pystr * direntry) : Prop :=
  d_name (snd kd) = fst kd /\ hex40 (d_hash (snd kd)) /\
  exists b, wf_name b /\ b <> [] /\ fst kd = quote_c b.
Definition tbl_ok (t : pydict pystr direntry) : Prop := NoDup (dkeys t) /\ Forall drow t.

Lemma dset_Forall {K V} `{EqDecision K} (P : K * V -> Prop) (d : pydict K V) k v :
  Forall P d -> P (k, v) -> Forall P (dset d k v).
Proof.
  intros Hd Hp. induction Hd as [|[k' v'] d Hx Hd IH]; cbn; [by apply List.Forall_cons|].
  destruct (decide (k' = k)) as [->|]; by apply List.Forall_cons.
Qed.
Lemma tbl_dset t k d : tbl_ok t -> drow (k, d) -> tbl_ok (dset t k d).
Proof. intros [H1 H2] Hd. split; [by apply dset_nodup|by apply dset_Forall]. Qed.
Lemma tbl_nil : tbl_ok [].
Proof. split; [constructor|constructor]. Qed.
Lemma tbl_table es : Forall wf_entry es -> names_ne es -> tbl_ok (table_of (map dirent_of es)).
Proof.
  intros He Hn. unfold table_of. rewrite map_map.
  assert (Hr : Forall drow (map (fun e => (d_name (dirent_of e), dirent_of e)) es)).
  { apply Forall_map. unfold names_ne in Hn. rewrite List.Forall_forall in *. intros e Hin.
    specialize (He e Hin). specialize (Hn e Hin). split; [done|]. split; [apply He|].
    exists (te_name e). split; [apply He|]. done. }
  revert Hr. generalize (map (fun e => (d_name (dirent_of e), dirent_of e)) es). intros l Hl.
  unfold dof. assert (Hgen : forall acc, tbl_ok acc ->
    tbl_ok (fold_left (fun d kv => dset d (fst kv) (snd kv)) l acc)).
  { induction Hl as [|[k d] l Hx Hl IH]; intros acc Ha; cbn [fold_left]; [done|].
    apply IH. by apply tbl_dset. }
  apply Hgen, tbl_nil.
Qed.

(** the entries written for a table *)
Definition fent_of (kd : pystr * direntry) : fent :=
  FE (if decide (d_type (snd kd) = Directory) then true else false) (d_hash (snd kd))
     (match name_field (fst kd) with Some b => b | None => [] end).
Lemma fent_of_row kd : drow kd -> fent_ok (fent_of kd) /\ ffields (fent_of kd) = get_git_tree_entry_elements (snd kd)
  /\ fe_name (fent_of kd) <> [] /\ fst kd = quote_c (fe_name (fent_of kd)).
Proof.
  destruct kd as [k d]. intros (Hn & Hh & b & Hb & Hne & Hk). cbn [fst snd] in *. subst k.
  unfold fent_of. cbn [fst snd]. rewrite Hk, name_field_quote by done.
  split; [by split|]. split; [|done]. unfold ffields, get_git_tree_entry_elements. cbn [fe_dir fe_id fe_name].
  rewrite Hk. by destruct (d_type d).
Qed.
Lemma fenc_kind kd : entry_kind (fenc (fent_of kd)) = d_type (snd kd).
Proof. unfold entry_kind, fenc, fent_of. cbn. by destruct (d_type (snd kd)). Qed.

Lemma find_rev_unique {A} (f : A -> bool) (l : list A) x :
  In x l -> f x = true -> (forall y, In y l -> f y = true -> y = x) -> List.find f (rev l) = Some x.
Proof.
  intros Hin Hf Hu. destruct (List.find f (rev l)) as [y|] eqn:E.
  - apply find_some in E as [Hy Hfy]. apply in_rev in Hy. f_equal. by apply Hu.
  - eapply find_none in E; [|by apply in_rev in Hin; apply in_rev; rewrite rev_involutive; apply in_rev]. congruence.
Qed.

Lemma written_look t b : tbl_ok t -> wf_name b ->
  entry_at (sort_entries (map fenc (map fent_of t))) b = tlook t b.
Proof.
  intros [Hnd Hr] Hb. unfold entry_at, tlook.
  assert (Hp := sort_perm (map fenc (map fent_of t))).
  set (es := sort_entries (map fenc (map fent_of t))) in *.
  assert (Hin : forall e, In e es <-> exists kd, In kd t /\ e = fenc (fent_of kd)).
  { intros e. rewrite <- !elem_of_list_In, Hp, !elem_of_list_fmap. setoid_rewrite elem_of_list_fmap.
    split.
    - intros (f & -> & kd & -> & Hk). exists kd. by rewrite <- elem_of_list_In.
    - intros (kd & Hk & ->). exists (fent_of kd). split; [done|]. exists kd. by rewrite elem_of_list_In. }
  rewrite List.Forall_forall in Hr.
  destruct (dget t (quote_c b)) as [d|] eqn:E.
  - cbn. apply dget_Some_In in E. destruct (fent_of_row _ (Hr _ E)) as (_ & _ & _ & Hk). cbn [fst] in Hk.
    assert (Hnm : te_name (fenc (fent_of (quote_c b, d))) = b).
    { cbn. unfold fent_of. cbn. by rewrite name_field_quote. }
    rewrite (find_rev_unique _ _ (fenc (fent_of (quote_c b, d)))).
    + f_equal. unfold kh. f_equal. apply fenc_kind.
    + apply Hin. eauto.
    + by apply bool_decide_eq_true_2.
    + intros y Hy Hyb. apply bool_decide_eq_true in Hyb. apply Hin in Hy as ([k' d'] & Hk' & ->).
      destruct (fent_of_row _ (Hr _ Hk')) as (_ & _ & _ & Hkk). cbn [fst] in Hkk.
      change (fe_name (fent_of (k', d')) = b) in Hyb. rewrite Hyb in Hkk. subst k'.
      apply In_dget in Hk', E; [|done|done]. assert (d' = d) as -> by congruence. done.
  - destruct (List.find _ _) as [e|] eqn:F; [|done].
    apply find_some in F as [Hy Hyb]. apply in_rev in Hy. apply bool_decide_eq_true in Hyb.
    apply Hin in Hy as ([k' d'] & Hk' & ->).
    destruct (fent_of_row _ (Hr _ Hk')) as (_ & _ & _ & Hkk). cbn [fst] in Hkk.
    change (fe_name (fent_of (k', d')) = b) in Hyb. rewrite Hyb in Hkk. subst k'.
    apply In_dget in Hk'; [|done]. congruence.
Qed.

Lemma table_hex es : Forall wf_entry es -> Forall (fun kd => hex40 (d_hash (snd kd))) (table_of (map dirent_of es)).
Proof.
  intros He. unfold table_of. rewrite map_map. unfold dof.
  assert (Hgen : forall acc, Forall (fun kd : pystr * direntry => hex40 (d_hash (snd kd))) acc ->
    Forall (fun kd => hex40 (d_hash (snd kd)))
      (fold_left (fun d kv => dset d (fst kv) (snd kv)) (map (fun e => (d_name (dirent_of e), dirent_of e)) es) acc)).
  { induction He as [|e es Hx He IH]; intros acc Ha; [done|]. cbn [map fold_left fst snd]. apply IH.
    apply dset_Forall; [done|]. apply Hx. }
  apply Hgen. constructor.
Qed.

(** ** The merge, structurally *)
Definition sub_info (infos : list pathinfo) (b : bytes) (q : pathinfo) : Prop :=
  exists p, p ∈ infos /\ pi_elements p = b :: pi_elements q /\ pi_elements q <> [] /\
    pi_hash p = pi_hash q /\ pi_type p = pi_type q.

Inductive merged (objs : gmap pystr gobj) : (bytes -> option (etype * pystr)) -> list pathinfo ->
    (bytes -> option (etype * pystr)) -> Prop :=
| Merged look infos look' :
    (forall b, wf_name b -> (forall p, p ∈ infos -> head (pi_elements p) <> Some b) -> look' b = look b) ->
    (forall p b, p ∈ infos -> pi_elements p = [b] -> look' b = Some (pi_type p, pi_hash p)) ->
    (forall b q, sub_info infos b q -> exists h es subs sub,
        look' b = Some (Directory, h) /\ tree_of objs h = Some es /\
        (look b = None /\ sub = entry_at [] \/
         exists h0 es0, look b = Some (Directory, h0) /\ tree_of objs h0 = Some es0 /\ sub = entry_at es0) /\
        (forall q, q ∈ subs <-> sub_info infos b q) /\
        merged objs sub subs (entry_at es)) ->
    merged objs look infos look'.

Lemma tree_of_mono objs objs' h es : objs ⊆ objs' -> tree_of objs h = Some es -> tree_of objs' h = Some es.
Proof.
  intros Hs. unfold tree_of. destruct (objs !! h) eqn:E; [|done]. erewrite lookup_weaken; eauto.
Qed.
Lemma merged_mono objs objs' : objs ⊆ objs' -> forall look infos look',
  merged objs look infos look' -> merged objs' look infos look'.
Proof.
  intros Hs. fix IH 4. intros look infos look' Hm. destruct Hm as [look infos look' H1 H2 H3].
  constructor; [done|done|]. intros b q Hq. destruct (H3 b q Hq) as (h & es & subs & sub & E1 & E2 & E3 & E4 & E5).
  exists h, es, subs, sub. split; [done|]. split; [by eapply tree_of_mono|]. split; [|split; [done|by apply IH]].
  destruct E3 as [E3|(h0 & es0 & F1 & F2 & F3)]; [by left|]. right. exists h0, es0. split; [done|]. split; [by eapply tree_of_mono|done].
Qed.

Lemma at_path_cons2 objs look b c r : at_path objs look (b :: c :: r) =
  match look b with
  | Some (Directory, h) => match tree_of objs h with Some es => at_path objs (entry_at es) (c :: r) | None => None end
  | _ => None end.
Proof. done. Qed.
Lemma at_path_nil objs path : at_path objs (entry_at []) path = None.
Proof. destruct path as [|b [|c r]]; done. Qed.

(** given paths *)
Lemma merged_given objs look infos look' : merged objs look infos look' ->
  forall p, p ∈ infos -> pi_elements p <> [] -> at_path objs look' (pi_elements p) = Some (pi_type p, pi_hash p).
Proof.
  intros Hm p Hp Hne. remember (pi_elements p) as path eqn:E. revert look infos look' Hm p Hp E.
  induction path as [|b [|c r] IH]; intros look infos look' Hm p Hp E; [done| |].
  - destruct Hm as [? ? ? _ H2 _]. cbn. by apply H2.
  - destruct Hm as [? ? ? _ _ H3].
    assert (Hq : sub_info infos b (PathI (c :: r) (pi_hash p) (pi_type p))).
    { exists p. split; [done|]. by rewrite <- E. }
    destruct (H3 _ _ Hq) as (h & es & subs & sub & E1 & E2 & E3 & E4 & E5).
    rewrite at_path_cons2, E1, E2.
    apply (IH ltac:(done) _ _ _ E5 (PathI (c :: r) (pi_hash p) (pi_type p))); [by apply E4|done].
Qed.
(** paths not related to a given path *)
Lemma merged_other objs look infos look' : merged objs look infos look' ->
  forall path, Forall wf_name path -> (forall p, p ∈ infos -> pi_elements p <> []) ->
  (forall p, p ∈ infos -> ~ related (pi_elements p) path) ->
  at_path objs look' path = at_path objs look path.
Proof.
  intros Hm path. revert look infos look' Hm.
  induction path as [|b r IH]; intros look infos look' Hm Hwf Hne Hrel; [done|].
  apply List.Forall_cons_iff in Hwf as [Hb Hr].
  destruct Hm as [look infos look' H1 H2 H3].
  destruct (decide (Exists (fun p => head (pi_elements p) = Some b) infos)) as [Hex|Hno].
  - apply Exists_exists in Hex as (p & Hp & Hh).
    pose proof (Hrel p Hp) as Hnr. destruct (pi_elements p) as [|b' rest] eqn:Ep; [done|].
    cbn in Hh. injection Hh as ->.
    destruct rest as [|c rest]; [exfalso; apply Hnr; left; exists r; done|].
    destruct r as [|c' r]; [exfalso; apply Hnr; right; exists (c :: rest); done|].
    assert (Hq : sub_info infos b (PathI (c :: rest) (pi_hash p) (pi_type p))).
    { exists p. split; [done|]. by rewrite Ep. }
    destruct (H3 _ _ Hq) as (h & es & subs & sub & E1 & E2 & E3 & E4 & E5).
    rewrite !at_path_cons2, E1, E2. rewrite (IH _ _ _ E5).
    + destruct E3 as [[-> ->]|(h0 & es0 & -> & -> & ->)]; [by rewrite at_path_nil|done].
    + done.
    + intros q Hqq. apply E4 in Hqq as (? & _ & _ & ? & _). done.
    + intros q Hqq. apply E4 in Hqq as (p' & Hp' & Ep' & _). intros Hrl. apply (Hrel p' Hp').
      rewrite Ep'. destruct Hrl as [Hl|Hl]; [left|right]; by apply prefix_cons.
  - assert (Eb : look' b = look b).
    { apply H1; [done|]. intros p Hp E. apply Hno, Exists_exists. eauto. }
    destruct r as [|c r]; [cbn; done|]. by rewrite !at_path_cons2, Eb.
Qed.
(** proper prefixes of a given path are directories *)
Lemma merged_prefix objs look infos look' : merged objs look infos look' ->
  forall p path, p ∈ infos -> path <> [] -> path `prefix_of` pi_elements p -> path <> pi_elements p ->
  exists h, at_path objs look' path = Some (Directory, h) /\ is_Some (tree_of objs h).
Proof.
  intros Hm p path. revert look infos look' Hm p.
  induction path as [|b r IH]; intros look infos look' Hm p Hp Hne [k Hk] Hneq; [done|].
  destruct Hm as [look infos look' H1 H2 H3]. cbn in Hk.
  destruct r as [|c r].
  - cbn in Hk. destruct k as [|c k]; [done|].
    destruct (H3 b (PathI (c :: k) (pi_hash p) (pi_type p))) as (h & es & subs & sub & E1 & E2 & _).
    { exists p. split; [done|]. by rewrite Hk. }
    exists h. cbn. rewrite E2. eauto.
  - destruct (H3 b (PathI (c :: r ++ k) (pi_hash p) (pi_type p))) as (h & es & subs & sub & E1 & E2 & _ & E4 & E5).
    { exists p. split; [done|]. by rewrite Hk. }
    rewrite at_path_cons2, E1, E2.
    apply (IH _ _ _ E5 (PathI (c :: r ++ k) (pi_hash p) (pi_type p))); [|done|by exists k|].
    + apply E4. exists p. split; [done|]. by rewrite Hk.
    + cbn. intros E. apply Hneq. rewrite Hk. cbn. congruence.
Qed.

(** ** The pure parts of add_paths *)

Lemma hex_len h : hex40 h -> check_hash_len h = Ok tt.
Proof. intros [Hl _]. unfold check_hash_len. by rewrite Hl. Qed.

Lemma rmap_inv {A B} (f : A -> res B) l l' : rmap f l = Ok l' -> Forall2 (fun x y => f x = Ok y) l l'.
Proof.
  revert l'. induction l as [|x l IH]; intros l'; cbn [rmap].
  - intros [= <-]. constructor.
  - unfold rbind. destruct (f x) eqn:E; [|done]. destruct (rmap f l) eqn:E2; [|done].
    intros [= <-]. constructor; [done|]. by apply IH.
Qed.
Lemma rmap_okF {A B} (f : A -> res B) (l : list A) (g : A -> B) :
  Forall (fun x => f x = Ok (g x)) l -> rmap f l = Ok (map g l).
Proof. intros Hl. apply rmap_ok. by apply List.Forall_forall. Qed.
Lemma rfilter_ok {A} (f : A -> res bool) (g : A -> bool) l :
  Forall (fun x => f x = Ok (g x)) l -> rfilter f l = Ok (List.filter g l).
Proof. induction 1 as [|x l Hx Hl IH]; [done|]. cbn. rewrite Hx, IH. cbn. by destruct (g x). Qed.

Definition first_is (k : pystr) (p : pathinfo) : bool :=
  match pi_elements p with x :: _ => bool_decide (x = k) | [] => false end.
Definition strip1 (p : pathinfo) : pathinfo := PathI (tail (pi_elements p)) (pi_hash p) (pi_type p).
Definition nonleafs (infos : list pathinfo) : list pathinfo := List.filter (fun p => negb (is_leaf p)) infos.
Definition subs_of (infos : list pathinfo) (k : pystr) : list pathinfo :=
  map strip1 (List.filter (first_is k) (nonleafs infos)).

Lemma dirs_filter infos : List.filter (fun p => negb (bool_decide (p ∈ List.filter is_leaf infos))) infos = nonleafs infos.
Proof.
  unfold nonleafs. apply filter_ext_in. intros p Hp. f_equal.
  destruct (is_leaf p) eqn:E.
  - apply bool_decide_eq_true_2. rewrite elem_of_list_In, filter_In. done.
  - apply bool_decide_eq_false_2. rewrite elem_of_list_In, filter_In. intros [_ ?]. congruence.
Qed.

Lemma dof_get {K V} `{EqDecision K} (l : list (K * V)) (f : K -> V) :
  Forall (fun kv => snd kv = f (fst kv)) l ->
  NoDup (dkeys (dof l)) /\ (forall k v, In (k, v) (dof l) <-> In k (map fst l) /\ v = f k).
Proof.
  intros Hl. split; [apply dof_keys_nodup|].
  assert (Hgen : forall acc, Forall (fun kv => snd kv = f (fst kv)) acc -> NoDup (dkeys acc) ->
    let d := fold_left (fun d kv => dset d (fst kv) (snd kv)) l acc in
    forall k v, In (k, v) d <-> (In k (map fst l) \/ k ∈ dkeys acc) /\ v = f k).
  { induction Hl as [|[k0 v0] l Hx Hl IH]; intros acc Ha Hnd; cbn [fold_left map fst snd].
    - intros k v. split.
      + intros Hin. split; [right; apply elem_of_list_In, in_map_iff; exists (k, v); done|].
        rewrite List.Forall_forall in Ha. by apply Ha in Hin.
      + intros [[[]|Hk] ->]. apply elem_of_list_In, in_map_iff in Hk as ([k' v'] & <- & Hin). cbn.
        rewrite List.Forall_forall in Ha. pose proof (Ha _ Hin) as E. cbn in E. by rewrite <- E.
    - cbn in Hx. intros k v. rewrite IH.
      + rewrite dkeys_dset. cbn [In].
        assert (E : k ∈ (if decide (k0 ∈ dkeys acc) then dkeys acc else dkeys acc ++ [k0]) <-> k = k0 \/ k ∈ dkeys acc).
        { destruct (decide (k0 ∈ dkeys acc)); [|set_solver]. split; [by right|]. by intros [->|?]. }
        split; [|naive_solver]. intros [Hk ->]. split; [|done].
        destruct Hk as [?|Hk]; [naive_solver|]. apply E in Hk. naive_solver.
      + by apply dset_Forall.
      + by apply dset_nodup. }
  intros k v. specialize (Hgen [] (List.Forall_nil _) (NoDup_nil_2) k v). cbn in Hgen. unfold dof. rewrite Hgen. set_solver.
Qed.

Lemma pi_first_ok p : info_ok p -> exists x, pi_first p = Ok x /\ head (pi_elements p) = Some x.
Proof. intros [H _]. unfold pi_first. destruct (pi_elements p) as [|x r]; [done|]. eauto. Qed.
Definition fst_el (p : pathinfo) : pystr := match pi_elements p with x :: _ => x | [] => [] end.
Lemma pi_first_el p : info_ok p -> pi_first p = Ok (fst_el p).
Proof. intros [H _]. unfold pi_first, fst_el. by destruct (pi_elements p). Qed.

Lemma directory_infos_ok infos : Forall info_ok infos ->
  exists dirs, directory_infos infos (List.filter is_leaf infos) = Ok dirs /\ NoDup (dkeys dirs) /\
    forall k subs, In (k, subs) dirs <-> In k (map fst_el (nonleafs infos)) /\ subs = subs_of infos k.
Proof.
  intros Hi. unfold directory_infos. rewrite dirs_filter.
  set (dirs := nonleafs infos).
  assert (Hd : Forall info_ok dirs).
  { unfold dirs, nonleafs. apply List.Forall_forall. intros p Hp. apply filter_In in Hp as [Hp _].
    rewrite List.Forall_forall in Hi. auto. }
  set (f := fun p => (fst_el p, subs_of infos (fst_el p))).
  assert (E : rmap (fun p => rlet k <- pi_first p;
             rlet ms <- rfilter (fun q => rlet k' <- pi_first q; Ok (bool_decide (k' = k))) dirs;
             rlet subs <- rmap (stripped_by 1) ms; Ok (k, subs)) dirs = Ok (map f dirs)).
  { apply rmap_okF. eapply Forall_impl; [exact Hd|]. intros p Hp. cbv beta.
    rewrite pi_first_el by done. cbn [rbind].
    rewrite (rfilter_ok _ (first_is (fst_el p))).
    2: { eapply Forall_impl; [exact Hd|]. intros q Hq. rewrite pi_first_el by done. cbn.
         unfold first_is, fst_el. destruct Hq as [Hq _]. by destruct (pi_elements q). }
    cbn [rbind]. rewrite (rmap_okF _ _ strip1); [done|].
    apply List.Forall_forall. intros q Hq. apply filter_In in Hq as [Hq _].
    rewrite List.Forall_forall in Hd. destruct (Hd q Hq) as (Hne & _ & Hh).
    unfold stripped_by, mk_pathinfo. rewrite hex_len by done. cbn. unfold strip1.
    destruct (pi_elements q); [done|]. cbn. by rewrite drop_0. }
  cbv zeta. fold dirs. rewrite E. cbn [rbind]. exists (dof (map f dirs)). split; [done|].
  destruct (dof_get (map f dirs) (subs_of infos)) as [H1 H2].
  { apply Forall_map, List.Forall_forall. done. }
  split; [done|]. intros k subs. rewrite H2, map_map. done.
Qed.

Lemma leaf_shape p : is_leaf p = true -> pi_elements p = [fst_el p].
Proof.
  unfold is_leaf, fst_el. intros H%Nat.eqb_eq. destruct (pi_elements p) as [|x [|y r]]; cbn in H; lia || done.
Qed.
Definition leafs_of (infos : list pathinfo) : list pathinfo := List.filter is_leaf infos.

Lemma leafs_ok infos : Forall info_ok infos -> Forall info_ok (leafs_of infos).
Proof.
  intros Hi. apply List.Forall_forall. intros p Hp. apply filter_In in Hp as [Hp _].
  rewrite List.Forall_forall in Hi. auto.
Qed.
Lemma check_leaf_or_directory_spec leafs dirs : Forall info_ok leafs ->
  match check_leaf_or_directory leafs dirs with
  | Ok _ => forall p, p ∈ leafs -> fst_el p ∉ dkeys dirs
  | Err e => e = ValueError /\ exists p, p ∈ leafs /\ fst_el p ∈ dkeys dirs
  end.
Proof.
  intros Hl. unfold check_leaf_or_directory.
  rewrite (rmap_okF _ _ fst_el). 2: { eapply Forall_impl; [exact Hl|]. apply pi_first_el. }
  cbn [rbind]. destruct existsb eqn:E.
  - split; [done|]. apply existsb_exists in E as (k & Hin & Hm).
    apply in_map_iff in Hin as (p & <- & Hp). exists p. split; [by apply elem_of_list_In|].
    unfold dmem in Hm. apply dget_is_Some. destruct dget; [eauto|done].
  - intros p Hp Hk. apply dget_is_Some in Hk as [v Hv].
    rewrite <- not_true_iff_false in E. apply E, existsb_exists. exists (fst_el p).
    split; [apply in_map, elem_of_list_In, Hp|]. unfold dmem. by rewrite Hv.
Qed.
Lemma filter_eq_one (n : pystr) l : In n l -> (length (List.filter (fun m => bool_decide (m = n)) l) <= 1)%nat ->
  forall l1 l2, l = l1 ++ n :: l2 -> n ∉ l1 /\ n ∉ l2.
Proof.
  intros _ Hlen l1 l2 ->. rewrite List.filter_app in Hlen. cbn in Hlen. rewrite bool_decide_eq_true_2 in Hlen by done.
  rewrite app_length in Hlen. cbn in Hlen.
  assert (H : forall l, length (List.filter (fun m => bool_decide (m = n)) l) = 0%nat -> n ∉ l).
  { intros l Hl Hin. apply elem_of_list_In in Hin.
    assert (Hf : In n (List.filter (fun m => bool_decide (m = n)) l)).
    { apply filter_In. split; [done|]. by apply bool_decide_eq_true_2. }
    destruct (List.filter _ l); [done|]. cbn in Hl. lia. }
  split; apply H; lia.
Qed.
Lemma nodup_counts (l : list pystr) :
  existsb (fun n => (1 <? length (List.filter (fun m => bool_decide (m = n)) l))%nat) l = false -> NoDup l.
Proof.
  intros E. assert (Hc : forall n, In n l -> (length (List.filter (fun m => bool_decide (m = n)) l) <= 1)%nat).
  { intros n Hn. destruct (decide (length (List.filter (fun m => bool_decide (m = n)) l) <= 1)%nat) as [|Hgt]; [done|].
    rewrite <- not_true_iff_false in E. exfalso. apply E, existsb_exists. exists n. split; [done|].
    apply Nat.ltb_lt. lia. }
  clear E. assert (Hd : forall l1 l2 n, l = l1 ++ n :: l2 -> n ∉ l2).
  { intros l1 l2 n ->. eapply filter_eq_one; [|apply Hc|done]; apply in_app_iff; right; by left. }
  clear Hc. induction l as [|x l IH]; [constructor|]. apply NoDup_cons. split.
  - apply (Hd []). done.
  - apply IH. intros l1 l2 n ->. apply (Hd (x :: l1)). done.
Qed.
Lemma dup_counts (l : list pystr) : existsb (fun n => (1 <? length (List.filter (fun m => bool_decide (m = n)) l))%nat) l = true -> ~ NoDup l.
Proof.
  intros E Hnd. apply existsb_exists in E as (n & Hn & Hc). apply Nat.ltb_lt in Hc.
  apply elem_of_list_In, elem_of_list_split in Hn as (l1 & l2 & ->).
  apply NoDup_app in Hnd as (_ & H1 & H2). apply NoDup_cons in H2 as [H2 _].
  assert (H : forall l, n ∉ l -> List.filter (fun m => bool_decide (m = n)) l = []).
  { intros l Hl. destruct (List.filter _ l) as [|y ys] eqn:F; [done|].
    assert (Hy : In y (List.filter (fun m => bool_decide (m = n)) l)) by (rewrite F; by left).
    apply filter_In in Hy as [Hy Hb]. apply bool_decide_eq_true in Hb. subst. exfalso. by apply Hl, elem_of_list_In. }
  rewrite List.filter_app in Hc. cbn in Hc. rewrite bool_decide_eq_true_2 in Hc by done.
  rewrite (H l1), (H l2) in Hc; [cbn in Hc; lia|done|]. intros Hin. apply (H1 n Hin). by left.
Qed.
Lemma check_leaf_uniqueness_spec leafs : Forall info_ok leafs ->
  match check_leaf_uniqueness leafs with
  | Ok _ => NoDup (map fst_el leafs)
  | Err e => e = ValueError /\ ~ NoDup (map fst_el leafs)
  end.
Proof.
  intros Hl. unfold check_leaf_uniqueness.
  rewrite (rmap_okF _ _ fst_el). 2: { eapply Forall_impl; [exact Hl|]. apply pi_first_el. }
  cbn [rbind]. destruct existsb eqn:E.
  - split; [done|]. by apply dup_counts.
  - by apply nodup_counts.
Qed.

Lemma add_leafs_spec table leafs acc : Forall info_ok leafs -> NoDup (map fst_el leafs) ->
  Forall (fun p => is_leaf p = true) leafs -> tbl_ok acc ->
  match add_leafs table leafs acc with
  | Ok r => tbl_ok r /\
      (forall p, p ∈ leafs -> dget r (fst_el p) = Some (DirE (pi_type p) (pi_hash p) (fst_el p))) /\
      (forall k, k ∉ map fst_el leafs -> dget r k = dget acc k) /\
      (forall p d, p ∈ leafs -> dget table (fst_el p) = Some d -> d_type d = pi_type p)
  | Err e => e = ValueError /\ exists p d, p ∈ leafs /\ dget table (fst_el p) = Some d /\ d_type d <> pi_type p
  end.
Proof.
  intros Hl. revert acc. induction Hl as [|p leafs Hp Hl IH]; intros acc Hnd Hlf Hacc; cbn [add_leafs].
  - split; [done|]. split; [by intros p ?%elem_of_nil|]. split; [done|]. by intros p d ?%elem_of_nil.
  - apply List.Forall_cons_iff in Hlf as [Hp1 Hlf]. cbn [map] in Hnd. apply NoDup_cons in Hnd as [Hni Hnd].
    rewrite pi_first_el by done. cbn [rbind].
    set (chk := match dget table (fst_el p) with
                | Some e => if decide (d_type e = pi_type p) then Ok tt else Err ValueError
                | None => Ok tt end).
    assert (Hc : (chk = Ok tt /\ forall d, dget table (fst_el p) = Some d -> d_type d = pi_type p)
              \/ (chk = Err ValueError /\ exists d, dget table (fst_el p) = Some d /\ d_type d <> pi_type p)).
    { unfold chk. destruct (dget table (fst_el p)) as [e|]; [|by left].
      destruct (decide (d_type e = pi_type p)); [left|right]; [|eauto]. split; [done|]. by intros d [= <-]. }
    destruct Hc as [[-> Hc]|[-> (d & Hd & Hty)]]; cbn [rbind].
    2: { split; [done|]. exists p, d. split; [left|done]. }
    unfold mk_direntry. destruct Hp as (Hne & Hpl & Hh). rewrite hex_len by done. cbn [rbind].
    set (row := DirE (pi_type p) (pi_hash p) (fst_el p)).
    assert (Hrow : tbl_ok (dset acc (fst_el p) row)).
    { apply tbl_dset; [done|]. split; [done|]. split; [done|]. exists (fst_el p). cbn [fst].
      rewrite leaf_shape in Hpl by done. apply List.Forall_cons_iff in Hpl as [Hpl _].
      split; [by apply plain_wf|]. split; [apply Hpl|]. by rewrite plain_quote. }
    specialize (IH _ Hnd Hlf Hrow).
    destruct (add_leafs table leafs (dset acc (fst_el p) row)) as [r|e].
    + destruct IH as (I1 & I2 & I3 & I4). split; [done|]. split; [|split].
      * intros q [->|Hq]%elem_of_cons; [|auto]. rewrite I3 by done. by rewrite dget_dset_eq.
      * intros k Hk. rewrite I3 by set_solver. rewrite dget_dset_ne; [done|]. set_solver.
      * intros q d [->|Hq]%elem_of_cons; [auto|]. by apply I4.
    + destruct IH as (-> & q & d & Hq & ?). split; [done|]. exists q, d. split; [by right|done].
Qed.

(** ** Conflicts, structurally *)
Definition sub_dir (objs : gmap pystr gobj) (look : bytes -> option (etype * pystr)) (b : bytes)
    (sub : list tentry) : Prop :=
  look b = None /\ sub = [] \/
  exists h0, look b = Some (Directory, h0) /\ tree_of objs h0 = Some sub.
Inductive conflict (objs : gmap pystr gobj) : (bytes -> option (etype * pystr)) -> list pathinfo -> Prop :=
| c_leaf_dir look infos p q : p ∈ infos -> q ∈ infos -> is_leaf p = true -> is_leaf q = false ->
    fst_el p = fst_el q -> conflict objs look infos
| c_dup look infos : ~ NoDup (map fst_el (leafs_of infos)) -> conflict objs look infos
| c_type look infos p t h : p ∈ infos -> is_leaf p = true -> look (fst_el p) = Some (t, h) -> t <> pi_type p ->
    conflict objs look infos
| c_file look infos p h : p ∈ infos -> is_leaf p = false -> look (fst_el p) = Some (File, h) -> conflict objs look infos
| c_sub look infos p sub : p ∈ infos -> is_leaf p = false -> sub_dir objs look (fst_el p) sub ->
    conflict objs (entry_at sub) (subs_of infos (fst_el p)) -> conflict objs look infos.

Lemma subs_of_In infos k q : Forall info_ok infos -> q ∈ subs_of infos k <-> sub_info infos k q.
Proof.
  intros Hi. unfold subs_of. rewrite elem_of_list_fmap. split.
  - intros (p & -> & Hp). apply elem_of_list_In, filter_In in Hp as [Hp Hf]. apply filter_In in Hp as [Hp Hl].
    exists p. split; [by apply elem_of_list_In|]. unfold first_is, is_leaf, strip1 in *. cbn.
    destruct (pi_elements p) as [|x [|y r]]; [done|done|]. apply bool_decide_eq_true in Hf. by subst.
  - intros (p & Hp & E & Hne & Eh & Et). exists p. split.
    + unfold strip1. rewrite E, Eh, Et. by destruct q.
    + apply elem_of_list_In, filter_In. split.
      * apply filter_In. split; [by apply elem_of_list_In|]. unfold is_leaf. rewrite E.
        destruct (pi_elements q); done.
      * unfold first_is. rewrite E. by apply bool_decide_eq_true_2.
Qed.
Lemma subs_of_ok infos k : Forall info_ok infos -> Forall info_ok (subs_of infos k).
Proof.
  intros Hi. apply List.Forall_forall. intros q Hq%elem_of_list_In. apply subs_of_In in Hq; [|done].
  destruct Hq as (p & Hp & E & Hne & Eh & Et). rewrite List.Forall_forall in Hi.
  apply elem_of_list_In, Hi in Hp as (_ & Hf & Hh). rewrite E in Hf. apply List.Forall_cons_iff in Hf as [_ Hf].
  split; [done|]. split; [done|]. by rewrite <- Eh.
Qed.

(** ** The git steps *)
Definition dirent_line (entry : pystr) : res direntry :=
  rlet x <- split_git_lstree_line entry;
  let '(_, object_type, h, name) := x in
  mk_direntry (if decide (object_type = ps "blob") then File else Directory) h name.
Lemma dirent_line_ok e : wf_entry e -> dirent_line (eline e) = Ok (dirent_of e).
Proof.
  intros He. unfold dirent_line. rewrite split_eline by done. cbn [rbind]. unfold mk_direntry.
  rewrite hex_len by apply He. cbn [rbind]. unfold dirent_of, entry_kind, etypen.
  by destruct (canon_type (te_mode e)).
Qed.
Lemma rmap_map {A B C} (f : B -> res C) (g : A -> B) l : rmap f (map g l) = rmap (fun x => f (g x)) l.
Proof. induction l as [|x l IH]; [done|]. cbn. by rewrite IH. Qed.
Lemma dirent_lines_ok es : Forall wf_entry es -> rmap dirent_line (map eline es) = Ok (map dirent_of es).
Proof.
  intros He. rewrite rmap_map. apply rmap_okF. eapply Forall_impl; [exact He|]. apply dirent_line_ok.
Qed.
Definition dir_answer (a : answer) : res (list direntry) :=
  match a with
  | None => Err RuntimeError
  | Some out => rlet ls <- stdout_lines out; rmap dirent_line ls
  end.

Lemma tree_of_inv objs h es : tree_of objs h = Some es -> objs !! h = Some (Tree es) /\ names_ne es.
Proof.
  unfold tree_of. destruct (objs !! h) as [[|es']|]; [done| |done].
  destruct existsb eqn:E; [done|]. intros [= <-]. split; [done|]. apply List.Forall_forall. intros e He Hn.
  rewrite <- not_true_iff_false in E. apply E, existsb_exists. exists e. split; [done|]. by apply bool_decide_eq_true_2.
Qed.
Lemma tree_of_intro (objs : gmap pystr gobj) h es : objs !! h = Some (Tree es) -> names_ne es -> tree_of objs h = Some es.
Proof.
  intros E Hn. unfold tree_of. rewrite E. destruct existsb eqn:F; [|done].
  apply existsb_exists in F as (e & He & Hb). apply bool_decide_eq_true in Hb.
  eapply List.Forall_forall in Hn; [|exact He]. done.
Qed.
Lemma listing_of objs h es : tree_of objs h = Some es -> tree_listing es = Some (concat (map tree_line es)).
Proof.
  intros E. apply tree_of_inv in E as [_ Hn]. unfold tree_listing. destruct existsb eqn:F; [|done].
  apply existsb_exists in F as (e & He & Hb). apply bool_decide_eq_true in Hb.
  eapply List.Forall_forall in Hn; [|exact He]. done.
Qed.

Section Upd.
  Context `{Env} {S : Type} (guar : gset pystr -> gstate -> gstate -> Prop).
  Definition simple (c : cmd) : Prop := ref_written c = None /\ lock_free c = true.
  Record guar_ok := {
    guar_grow : forall X g g', guar X g g' -> grow g g';
    guar_good : forall X g g', guar X g g' -> good g -> good g';
    guar_simple : forall X g c, simple c -> guar X g (snd (git c g));
  }.
  Context (GO : guar_ok).
  Notation rely := (rely guar).
  Notation mwp := (mwp guar).
  Implicit Types (X : gset pystr) (s : S) (g : gstate) (n x h : pystr) (t : pydict pystr direntry) (es : list tentry).

  Lemma rely_grow X g g' : rely X g g' -> grow g g'.
  Proof using GO.
    apply (rely_ind' guar X grow); [apply grow_refl|apply grow_trans|]. intros Y a b _. apply (guar_grow GO).
  Qed.
  Lemma rely_good X g g' : rely X g g' -> good g -> good g'.
  Proof using GO.
    apply (rely_ind' guar X (fun a b => good a -> good b)); [auto|auto|]. intros Y a b _. apply (guar_good GO).
  Qed.

  Lemma get_dir_wp X n x s (Q : gset pystr -> res (list direntry) -> S -> gstate -> Prop) g : is_remote n = false ->
    (forall g1 g2, rely X g g1 -> rely X g1 g2 -> Q X (dir_answer (fst (git (CatFileP n x) g1))) s g2) ->
    mwp X (get_dir n x) s Q g.
  Proof using GO.
    intros Hn HQ. unfold get_dir, git_read_tree_node, adapt_for_remote. rewrite Hn.
    apply mwp_bind, mwp_bind, mwp_ret. intros g0 H0. apply mwp_checked; [done|]. intros g1 H1.
    split; [by apply (guar_simple GO)|]. intros g2 H2.
    assert (Es : snd (git (CatFileP n x) g1) = g1) by (cbn; repeat case_match; done). rewrite Es in H2.
    assert (H01 : rely X g g1) by (eapply rely_trans; eauto).
    unfold dir_answer in HQ. specialize (HQ g1).
    destruct (fst (git (CatFileP n x) g1)) as [out|].
    - destruct (stdout_lines out) as [ls|e].
      + apply mwp_res. intros g3 H3. apply HQ; [done|]. eapply rely_trans; eauto.
      + intros g3 H3. apply HQ; [done|]. eapply rely_trans; eauto.
    - intros g3 H3. apply HQ; [done|]. eapply rely_trans; eauto.
  Qed.

  Lemma dir_answer_tree n x g (es : pystr * list tentry) : is_remote n = false -> good g ->
    (if object_id x then Some x else refs_of g n !! x) = Some es.1 ->
    tree_of (objs_of g n) es.1 = Some es.2 ->
    dir_answer (fst (git (CatFileP n x) g)) = Ok (map dirent_of es.2) /\ Forall wf_entry es.2 /\ names_ne es.2.
  Proof.
    intros Hn Hg Hx Ht. destruct es as [h es]. cbn [fst snd] in *.
    pose proof (tree_of_inv _ _ _ Ht) as [Ho Hne].
    assert (Hwf : Forall wf_entry es) by (by apply Hg in Ho as [_ Ho]).
    split; [|done]. cbn [git]. unfold local_repo. rewrite Hn. unfold objs_of in Ho. unfold refs_of in Hx.
    destruct (g_repos g !! n) as [r|]; [|done]. unfold read_obj, resolve. rewrite Hx, Ho.
    rewrite (listing_of _ _ _ Ht). cbn [fst dir_answer]. rewrite listing_lines by done. cbn [rbind].
    by apply dirent_lines_ok.
  Qed.

  Lemma write_dir_wp X n t s (Q : gset pystr -> res pystr -> S -> gstate -> Prop) g : tbl_ok t ->
    (forall g2 r, rely X g g2 -> match r with
       | Ok h => hex40 h /\ exists es', tree_of (objs_of g2 n) h = Some es' /\ Forall wf_entry es' /\
                   (forall b, wf_name b -> entry_at es' b = tlook t b)
       | Err e => e = RuntimeError end -> Q X r s g2) ->
    mwp X (write_dir n (dvals t)) s Q g.
  Proof using GO.
    intros Ht HQ. pose proof Ht as [Hnd Hr]. unfold write_dir, git_save_tree_node.
    assert (Ef : map get_git_tree_entry_elements (dvals t) = map ffields (map fent_of t)).
    { unfold dvals. rewrite !map_map. apply map_ext_in. intros kd Hin. rewrite List.Forall_forall in Hr.
      symmetry. by apply fent_of_row, Hr. }
    rewrite Ef.
    assert (Hfo : Forall fent_ok (map fent_of t)).
    { apply Forall_map. eapply Forall_impl; [exact Hr|]. intros kd Hk. by apply fent_of_row. }
    assert (Hne : names_ne (map fenc (map fent_of t))).
    { unfold names_ne. rewrite map_map. apply Forall_map. eapply Forall_impl; [exact Hr|]. intros kd Hk.
      by apply fent_of_row in Hk as (_ & _ & ? & _). }
    set (inp := tree_spec (map ffields (map fent_of t))) in *.
    assert (Hin : encode inp = Ok inp /\ (t = [] /\ mktree_input inp = None \/
              Forall ascii inp /\ mktree_input inp = Some (sort_entries (map fenc (map fent_of t))))).
    { destruct t as [|x t]; [split; [done|by left]|].
      destruct (mktree_of_fents (map fent_of (x :: t))) as (H1 & H2 & H3); [done|done|].
      split; [done|]. by right. }
    destruct Hin as [He Hin]. rewrite He. cbn [mres]. apply mwp_bind, mwp_ret. intros g0 H0.
    apply mwp_bind, mwp_checked; [done|]. intros g1 H1. split; [by apply (guar_simple GO)|]. intros g2 H2.
    assert (Hgrow : forall g3, rely X g2 g3 -> rely X g g3).
    { intros g3 H3. eapply rely_trans; [exact H0|]. eapply rely_trans; [exact H1|]. 
      eapply rely_trans; [|exact H3]. eapply rely_trans; [|exact H2].
      apply (rely_one guar X ∅); [set_solver|]. by apply (guar_simple GO). }
    assert (Hres : fst (git (MkTree n inp) g1) = None \/
       exists es, es = sort_entries (map fenc (map fent_of t)) /\ fst (git (MkTree n inp) g1) = Some (line (oid (Tree es)))
        /\ objs_of (snd (git (MkTree n inp) g1)) n !! oid (Tree es) = Some (Tree es)).
    { cbn [git]. destruct (local_repo g1 n) as [r|]; [|by left].
      destruct Hin as [[_ ->]|[_ ->]]; [by left|]. destruct (_ && _); [|by left].
      destruct (put_obj _ r) as [r'|] eqn:Ep; [|by left]. right. eexists. split; [done|]. split; [done|]. cbn [snd].
      rewrite objs_set, decide_True by done. apply put_obj_inv in Ep. apply Ep. }
    destruct Hres as [->|(es & Ees & -> & Ho)].
    - intros g3 H3. apply HQ; [by apply Hgrow|done].
    - assert (Hstd : stdout_lines (line (oid (Tree es))) = Ok [oid (Tree es)]).
      { apply line_lines, oid_hex. }
      rewrite Hstd. cbn [first_line]. apply mwp_ret. intros g3 H3. apply HQ; [by apply Hgrow|].
      split; [apply oid_hex|]. exists es.
      assert (Hp : es ≡ₚ map fenc (map fent_of t)) by (rewrite Ees; apply sort_perm).
      split; [|split].
      + apply tree_of_intro.
        * eapply grow_objs; [|exact Ho]. apply (rely_grow X). eapply rely_trans; [exact H2|exact H3].
        * unfold names_ne. by rewrite Hp.
      + rewrite Hp. apply Forall_map. eapply Forall_impl; [exact Hfo|]. intros f [? ?]. by split.
      + intros b Hb. rewrite Ees. by apply written_look.
  Qed.

  (** the loop over the sub-directories *)
  Definition dir_loop (rec : list pathinfo -> list direntry -> M S pystr) (repo : pystr) (table : pydict pystr direntry) :=
    fix dir_loop (l : list (pystr * list pathinfo)) (acc : pydict pystr direntry) : M S (pydict pystr direntry) :=
    match l with
    | [] => mret acc
    | (name, subs) :: r =>
        mlet sub_entries <-
          match dget table name with
          | Some e => if decide (d_type e = Directory) then get_dir repo (d_hash e)
                      else mraise ValueError
          | None => mret []
          end;
        mlet h <- rec subs sub_entries;
        mlet d <- mres (mk_direntry Directory h name);
        dir_loop r (dset acc name d)
    end.
  Lemma add_paths_f_S f n infos root : add_paths_f (S := S) (Datatypes.S f) n infos root =
    (mlet dirs <- mres (directory_infos infos (leafs_of infos));
     mlet _ <- mres (check_leaf_or_directory (leafs_of infos) dirs);
     mlet _ <- mres (check_leaf_uniqueness (leafs_of infos));
     mlet acc <- mres (add_leafs (table_of root) (leafs_of infos) (table_of root));
     mlet result <- dir_loop (add_paths_f f n) n (table_of root) dirs acc;
     write_dir n (dvals result)).
  Proof. reflexivity. Qed.

  Definition upd_post n (objs0 : gmap pystr gobj) es infos (r : res pystr) g : Prop :=
    match r with
    | Ok h => hex40 h /\ ~ conflict objs0 (entry_at es) infos /\
        exists es', tree_of (objs_of g n) h = Some es' /\ merged (objs_of g n) (entry_at es) infos (entry_at es')
    | Err e => e = RuntimeError \/ e = ValueError /\ conflict objs0 (entry_at es) infos
    end.

  Section Loop.
    Context (n : pystr) (objs0 : gmap pystr gobj) (es : list tentry) (f : nat).
    Context (rec : list pathinfo -> list direntry -> M S pystr).
    Context (Hlocal : is_remote n = false) (Hes : Forall wf_entry es).
    Context (Hrec : forall X infos es1 s (Q : gset pystr -> res pystr -> S -> gstate -> Prop) g,
      good g -> objs0 ⊆ objs_of g n -> Forall wf_entry es1 -> names_ne es1 -> Forall info_ok infos ->
      Forall (fun p => (length (pi_elements p) <= f)%nat) infos ->
      infos <> [] ->
      Forall (fun p => dirs_present objs0 (entry_at es1) (pi_elements p)) infos ->
      (forall g' r, rely X g g' -> upd_post n objs0 es1 infos r g' -> Q X r s g') ->
      mwp X (rec infos (map dirent_of es1)) s Q g).

    (** one sub-directory as it has to be *)
    Definition row_done (objs : gmap pystr gobj) (acc : pydict pystr direntry) (k : pystr) (subs : list pathinfo) : Prop :=
      exists h es' sub, dget acc k = Some (DirE Directory h k) /\ tree_of objs h = Some es' /\
        sub_dir objs0 (entry_at es) k sub /\ merged objs (entry_at sub) subs (entry_at es') /\
        ~ conflict objs0 (entry_at sub) subs.
    Definition row_ok (kp : pystr * list pathinfo) : Prop :=
      plain_name (fst kp) /\ Forall info_ok (snd kp) /\ snd kp <> [] /\
      Forall (fun p => (length (pi_elements p) <= f)%nat) (snd kp) /\
      Forall (fun p => dirs_present objs0 (entry_at es) (fst kp :: pi_elements p)) (snd kp).
    Definition row_bad (kp : pystr * list pathinfo) : Prop :=
      (exists h, entry_at es (fst kp) = Some (File, h)) \/
      exists sub, sub_dir objs0 (entry_at es) (fst kp) sub /\ conflict objs0 (entry_at sub) (snd kp).

    Lemma dir_loop_wp X l : forall acc s (Q : gset pystr -> res (pydict pystr direntry) -> S -> gstate -> Prop) g,
      good g -> objs0 ⊆ objs_of g n -> Forall row_ok l -> NoDup (map fst l) -> tbl_ok acc ->
      (forall g' r, rely X g g' -> match r with
         | Ok acc' => tbl_ok acc' /\ (forall k, k ∉ map fst l -> dget acc' k = dget acc k) /\
                      Forall (fun kp => row_done (objs_of g' n) acc' (fst kp) (snd kp) /\ ~ row_bad kp) l
         | Err e => e = RuntimeError \/ e = ValueError /\ Exists row_bad l
         end -> Q X r s g') ->
      mwp X (dir_loop rec n (table_of (map dirent_of es)) l acc) s Q g.
    Proof using GO Hlocal Hes Hrec.
      induction l as [|[k subs] l IH]; intros acc s Q g Hgood Hsub Hrows Hnd Hacc HQ.
      { apply mwp_ret. intros g1 H1. apply HQ; [done|]. split; [done|]. split; [done|]. constructor. }
      apply List.Forall_cons_iff in Hrows as [(Hk & Hso & Hsne & Hsl & Hsp) Hrows]. cbn [fst snd] in *.
      cbn [map fst] in Hnd. apply NoDup_cons in Hnd as [Hni Hnd]. cbn [dir_loop].
      pose proof (table_look es k Hes (plain_wf _ Hk)) as Hlook. unfold tlook in Hlook. rewrite plain_quote in Hlook by done.
      (* the continuation after the directory has been read *)
      assert (Hcont : forall sub g1, rely X g g1 -> sub_dir objs0 (entry_at es) k sub ->
                Forall wf_entry sub -> names_ne sub ->
                Forall (fun p => dirs_present objs0 (entry_at sub) (pi_elements p)) subs ->
                mwp X (mlet h <- rec subs (map dirent_of sub); mlet d <- mres (mk_direntry Directory h k);
                       dir_loop rec n (table_of (map dirent_of es)) l (dset acc k d)) s Q g1).
      { intros sub g1 Hg1 Hsd Hwf Hne Hdp.
        assert (Huniq : forall sub', sub_dir objs0 (entry_at es) k sub' -> sub' = sub).
        { intros sub' Hs'. destruct Hsd as [[E1 E2]|(h0 & E1 & E2)], Hs' as [[F1 F2]|(h1 & F1 & F2)]; congruence. }
        apply mwp_bind. apply Hrec; try done.
        { by eapply rely_good. }
        { etrans; [exact Hsub|]. by eapply rely_grow. }
        intros g2 r Hg2 Hpost. unfold upd_post in Hpost. destruct r as [h|e].
        - destruct Hpost as (Hh & Hnc & es' & Ht & Hm). unfold mk_direntry. rewrite hex_len by done. cbn [rbind mres].
          apply mwp_bind, mwp_ret. intros g3 H3. set (d := DirE Directory h k).
          assert (Hgg3 : rely X g g3) by (eapply rely_trans; [exact Hg1|]; eapply rely_trans; [exact Hg2|exact H3]).
          apply IH; [| |done|done| |].
          + by eapply rely_good.
          + etrans; [exact Hsub|]. by eapply rely_grow.
          + apply tbl_dset; [done|]. split; [done|]. split; [done|]. exists k. cbn [fst].
            split; [by apply plain_wf|]. split; [apply Hk|]. by rewrite plain_quote.
          + intros g4 r Hg4 Hr. apply HQ; [eapply rely_trans; [exact Hgg3|done]|].
            destruct r as [acc'|e].
            * destruct Hr as (R1 & R2 & R3). split; [done|]. split.
              -- intros k' Hk'. rewrite R2 by set_solver. rewrite dget_dset_ne; [done|]. set_solver.
              -- apply List.Forall_cons; [|done]. cbn [fst snd]. split.
                 ++ exists h, es', sub. split; [rewrite R2 by done; by rewrite dget_dset_eq|].
                    assert (Hs24 : objs_of g2 n ⊆ objs_of g4 n).
                    { apply (rely_grow X). by eapply rely_trans. }
                    split; [by eapply tree_of_mono|]. split; [done|]. split; [by eapply merged_mono|done].
                 ++ intros [[h1 Hf]|(sub' & Hs' & Hc)]; cbn [fst snd] in *.
                    ** destruct Hsd as [[E1 E2]|(h0 & E1 & E2)]; congruence.
                    ** by rewrite (Huniq _ Hs') in Hc.
            * destruct Hr as [->|[-> Hr]]; [by left|]. right. split; [done|]. by apply Exists_cons_tl.
        - intros g3 H3. apply HQ.
          + eapply rely_trans; [exact Hg1|]. by eapply rely_trans.
          + destruct Hpost as [->|[-> Hc]]; [by left|]. right. split; [done|]. apply Exists_cons_hd. right.
            exists sub. done. }
      destruct (dget (table_of (map dirent_of es)) k) as [e|] eqn:Eg; cbn in Hlook.
      - destruct (decide (d_type e = Directory)) as [Ed|Ed].
        + assert (Hdir : exists h0, entry_at es k = Some (Directory, h0) /\ d_hash e = h0).
          { exists (d_hash e). rewrite <- Hlook. unfold kh. by rewrite Ed. }
          destruct Hdir as (h0 & El & Eh).
          assert (Hpres : exists sub, tree_of objs0 h0 = Some sub /\
                     Forall (fun p => dirs_present objs0 (entry_at sub) (pi_elements p)) subs).
          { destruct subs as [|q subs]; [done|].
            assert (Hq : exists sub, tree_of objs0 h0 = Some sub).
            { apply List.Forall_cons_iff in Hsp as [Hq _]. apply List.Forall_cons_iff in Hso as [(Hqn & _) _].
              cbn [dirs_present] in Hq. destruct (pi_elements q); [done|]. rewrite El in Hq. destruct Hq as (sub & ? & _). eauto. }
            destruct Hq as [sub Hs]. exists sub. split; [done|].
            apply List.Forall_forall. intros p Hp. rewrite List.Forall_forall in Hsp, Hso.
            specialize (Hsp p Hp). destruct (Hso p Hp) as (Hpn & _). cbn [dirs_present] in Hsp.
            destruct (pi_elements p) as [|b r]; [done|]. rewrite El in Hsp. destruct Hsp as (sub' & Hs' & ?). congruence. }
          destruct Hpres as (sub & Hts & Hdp).
          apply mwp_bind, get_dir_wp; [done|]. intros g1 g2 H1 H2.
          assert (Hgd1 : good g1) by (by eapply (rely_good X)).
          assert (Hhex : object_id (d_hash e) = true).
          { apply object_id_hex40. apply dget_Some_In in Eg.
            assert (Hw : Forall (fun kd => hex40 (d_hash (snd kd))) (table_of (map dirent_of es))) by by apply table_hex.
            eapply List.Forall_forall in Hw; [|exact Eg]. done. }
          destruct (dir_answer_tree n (d_hash e) g1 (d_hash e, sub) Hlocal Hgd1) as (E1 & E2 & E3).
          { by rewrite Hhex. }
          { cbn [fst snd]. rewrite Eh. eapply tree_of_mono; [|exact Hts]. etrans; [exact Hsub|]. by apply (rely_grow X). }
          rewrite E1. cbn [snd] in *. apply Hcont; try done.
          * by eapply rely_trans.
          * right. exists h0. done.
        + apply mwp_bind, mwp_raise. intros g1 H1 g2 H2. apply HQ.
          * by eapply rely_trans.
          * right. split; [done|]. apply Exists_cons_hd. left. exists (d_hash e). cbn [fst]. rewrite <- Hlook.
            unfold kh. destruct (d_type e); [done|done].
      - apply mwp_bind, mwp_ret. intros g1 H1. apply (Hcont [] g1); try done.
        + by left.
        + constructor.
        + apply List.Forall_forall. intros p Hp. destruct (pi_elements p) as [|b [|c r]]; done.
    Qed.
  End Loop.

  Lemma add_paths_S_wp n (objs0 : gmap pystr gobj) (f : nat) X (infos : list pathinfo) es s (Q : gset pystr -> res pystr -> S -> gstate -> Prop) g :
    is_remote n = false ->
    (forall X (infos : list pathinfo) (es1 : list tentry) s (Q : gset pystr -> res pystr -> S -> gstate -> Prop) g,
      good g -> objs0 ⊆ objs_of g n -> Forall wf_entry es1 -> names_ne es1 -> Forall info_ok infos ->
      Forall (fun p => (length (pi_elements p) <= f)%nat) infos ->
      infos <> [] ->
      Forall (fun p => dirs_present objs0 (entry_at es1) (pi_elements p)) infos ->
      (forall g' r, rely X g g' -> upd_post n objs0 es1 infos r g' -> Q X r s g') ->
      mwp X (add_paths_f f n infos (map dirent_of es1)) s Q g) ->
    good g -> objs0 ⊆ objs_of g n -> Forall wf_entry es -> names_ne es -> Forall info_ok infos ->
    Forall (fun p => (length (pi_elements p) <= Datatypes.S f)%nat) infos ->
    Forall (fun p => dirs_present objs0 (entry_at es) (pi_elements p)) infos ->
    (forall g' r, rely X g g' -> upd_post n objs0 es infos r g' -> Q X r s g') ->
    mwp X (add_paths_f (Datatypes.S f) n infos (map dirent_of es)) s Q g.
  Proof using GO.
    intros Hlocal Hrec Hgood Hsub Hes Hne Hi Hlen Hdp HQ. rewrite add_paths_f_S.
    destruct (directory_infos_ok infos Hi) as (dirs & Ed & Hnd & Hdirs). unfold leafs_of at 1. rewrite Ed.
    cbn [mres]. apply mwp_bind, mwp_ret. intros g1 H1.
    pose proof (leafs_ok infos Hi) as Hlo.
    assert (Hleaf : forall p, p ∈ leafs_of infos <-> p ∈ infos /\ is_leaf p = true).
    { intros p. unfold leafs_of; rewrite !elem_of_list_In, filter_In. done. }
    assert (Hnl : forall p, In p (nonleafs infos) <-> p ∈ infos /\ is_leaf p = false).
    { intros p. unfold nonleafs. rewrite filter_In, elem_of_list_In, negb_true_iff. done. }
    assert (Hkey : forall k, k ∈ dkeys dirs <-> exists p, p ∈ infos /\ is_leaf p = false /\ fst_el p = k).
    { intros k. unfold dkeys. rewrite elem_of_list_fmap. split.
      - intros ([k' subs] & -> & Hin). apply elem_of_list_In, Hdirs in Hin as [Hin _].
        apply in_map_iff in Hin as (p & <- & Hp%Hnl). exists p. tauto.
      - intros (p & Hp & Hl & <-). exists (fst_el p, subs_of infos (fst_el p)). split; [done|].
        apply elem_of_list_In, Hdirs. split; [|done]. apply in_map, Hnl. done. }
    assert (Hleafs : Forall (fun p => is_leaf p = true) (leafs_of infos)).
    { apply List.Forall_forall. intros p Hp%elem_of_list_In. apply Hleaf in Hp as [_ Hp]. exact Hp. }
    assert (Hplain : forall p, p ∈ infos -> plain_name (fst_el p)).
    { intros p Hp. rewrite List.Forall_forall in Hi. apply elem_of_list_In, Hi in Hp as (A & B & _).
      unfold fst_el. destruct (pi_elements p); [done|]. by apply List.Forall_cons_iff in B as [B _]. }
    assert (Hent : forall p, p ∈ infos -> option_map kh (dget (table_of (map dirent_of es)) (fst_el p)) = entry_at es (fst_el p)).
    { intros p Hp. apply Hplain in Hp. pose proof (table_look es _ Hes (plain_wf _ Hp)) as Hl. unfold tlook in Hl.
      by rewrite plain_quote in Hl by done. }
    (* leaf or directory *)
    pose proof (check_leaf_or_directory_spec (leafs_of infos) dirs Hlo) as Hc1.
    destruct (check_leaf_or_directory (leafs_of infos) dirs) as [[]|e].
    2: { destruct Hc1 as (-> & p & Hp & Hk). cbn [mres]. apply mwp_bind, mwp_raise. intros g2 H2 g3 H3. apply HQ.
         - eapply rely_trans; [exact H1|]. by eapply rely_trans.
         - right. split; [done|]. apply Hkey in Hk as (q & Hq & Hql & E). apply Hleaf in Hp as [Hp Hpl].
           by apply (c_leaf_dir _ _ _ p q). }
    cbn [mres]. apply mwp_bind, mwp_ret. intros g2 H2.
    (* uniqueness *)
    pose proof (check_leaf_uniqueness_spec (leafs_of infos) Hlo) as Hc2.
    destruct (check_leaf_uniqueness (leafs_of infos)) as [[]|e].
    2: { destruct Hc2 as (-> & Hdup). cbn [mres]. apply mwp_bind, mwp_raise. intros g3 H3 g4 H4. apply HQ.
         - eapply rely_trans; [exact H1|]. eapply rely_trans; [exact H2|]. by eapply rely_trans.
         - right. split; [done|]. by apply c_dup. }
    cbn [mres]. apply mwp_bind, mwp_ret. intros g3 H3.
    (* leafs *)
    pose proof (add_leafs_spec (table_of (map dirent_of es)) (leafs_of infos) _ Hlo Hc2 Hleafs (tbl_table es Hes Hne)) as Hc3.
    destruct add_leafs as [acc|e].
    2: { destruct Hc3 as (-> & p & d & Hp & Hd & Ht). cbn [mres]. apply mwp_bind, mwp_raise. intros g4 H4 g5 H5. apply HQ.
         - eapply rely_trans; [exact H1|]. eapply rely_trans; [exact H2|]. eapply rely_trans; [exact H3|]. by eapply rely_trans.
         - right. split; [done|]. apply Hleaf in Hp as [Hp Hpl]. apply (c_type _ _ _ p (d_type d) (d_hash d)); try done.
           rewrite <- Hent by done. by rewrite Hd. }
    destruct Hc3 as (Hacc & Hacc1 & Hacc2 & Hacc3).
    cbn [mres]. apply mwp_bind, mwp_ret. intros g4 H4.
    assert (H04 : rely X g g4).
    { eapply rely_trans; [exact H1|]. eapply rely_trans; [exact H2|]. by eapply rely_trans. }
    (* directories *)
    assert (Hrows : Forall (row_ok objs0 es f) dirs).
    { apply List.Forall_forall. intros [k subs] Hin. apply Hdirs in Hin as [Hk ->].
      apply in_map_iff in Hk as (p & <- & Hp%Hnl). destruct Hp as [Hp Hpl].
      split; [by apply Hplain|]. cbn [fst snd]. split; [by apply subs_of_ok|].
      assert (Hin : forall q, q ∈ subs_of infos (fst_el p) -> sub_info infos (fst_el p) q) by (intros q; by apply subs_of_In).
      split.
      { intros E. assert (Hs : strip1 p ∈ subs_of infos (fst_el p)).
        { apply subs_of_In; [done|]. exists p. split; [done|].
          rewrite List.Forall_forall in Hi. apply elem_of_list_In, Hi in Hp as (A & _).
          unfold fst_el, strip1, is_leaf in *. cbn.
          destruct (pi_elements p) as [|b [|c r]]; done. }
        rewrite E in Hs. by apply elem_of_nil in Hs. }
      rewrite List.Forall_forall in Hlen, Hdp.
      split; apply List.Forall_forall; intros q Hq%elem_of_list_In; apply Hin in Hq as (p' & Hp' & E & _).
      - apply elem_of_list_In, Hlen in Hp'. rewrite E in Hp'. cbn in Hp'. lia.
      - apply elem_of_list_In, Hdp in Hp'. by rewrite E in Hp'. }
    apply mwp_bind. eapply (dir_loop_wp n objs0 es f); try done.
    { by eapply rely_good. }
    { etrans; [exact Hsub|]. by eapply rely_grow. }
    intros g5 r H5 Hr. assert (H05 : rely X g g5) by by eapply rely_trans.
    destruct r as [acc'|e].
    2: { intros g6 H6. apply HQ; [by eapply rely_trans|].
         destruct Hr as [->|[-> Hr]]; [by left|]. right. split; [done|].
         apply Exists_exists in Hr as ([k subs] & Hin & Hb). apply elem_of_list_In, Hdirs in Hin as [Hk ->].
         apply in_map_iff in Hk as (p & <- & Hp%Hnl). destruct Hp as [Hp Hpl].
         destruct Hb as [[h Hb]|(sub & Hsd & Hc)]; cbn [fst snd] in *.
         - by apply (c_file _ _ _ p h).
         - by apply (c_sub _ _ _ p sub). }
    destruct Hr as (Hacc' & Hother & Hdone).
    apply write_dir_wp; [done|]. intros g6 r H6 Hr. apply HQ; [by eapply rely_trans|].
    destruct r as [h|e]; [|by left]. destruct Hr as (Hh & es' & Ht & Hwf' & Hl'). split; [done|].
    assert (Hrow : forall p, p ∈ infos -> is_leaf p = false ->
       row_done objs0 es (objs_of g5 n) acc' (fst_el p) (subs_of infos (fst_el p)) /\
       ~ row_bad objs0 es (fst_el p, subs_of infos (fst_el p))).
    { intros p Hp Hpl. rewrite List.Forall_forall in Hdone. apply (Hdone (fst_el p, subs_of infos (fst_el p))).
      apply Hdirs. split; [|done]. apply in_map, Hnl. done. }
    assert (Htl : forall p, p ∈ infos -> entry_at es' (fst_el p) = option_map kh (dget acc' (fst_el p))).
    { intros p Hp. rewrite Hl' by (by apply plain_wf, Hplain). unfold tlook. by rewrite plain_quote by by apply Hplain. }
    split.
    - (* no conflict *)
      intros Hc. inversion Hc as [? ? p q Hp Hq Hpl Hql E|? ? Hdup|? ? p t h' Hp Hpl El Hty|? ? p h' Hp Hpl El|? ? p sub Hp Hpl Hsd Hcs]; subst.
      + apply (Hc1 p); [by apply Hleaf|]. apply Hkey. exists q. done.
      + done.
      + rewrite <- Hent in El by done. destruct (dget (table_of (map dirent_of es)) (fst_el p)) as [d|] eqn:Eg; [|done].
        cbn in El. injection El as <- <-. apply Hty. eapply Hacc3; [|exact Eg]. by apply Hleaf.
      + apply Hrow in Hpl as [_ Hb]; [|done]. apply Hb. left. by exists h'.
      + apply Hrow in Hpl as [_ Hb]; [|done]. apply Hb. right. by exists sub.
    - exists es'. split; [done|]. constructor.
      + (* other names *)
        intros b Hb Hno. rewrite Hl' by done. rewrite <- (table_look es b Hes Hb). unfold tlook. f_equal.
        assert (Hq : forall p, p ∈ infos -> fst_el p <> quote_c b).
        { intros p Hp E. pose proof (Hplain p Hp) as Hpp. rewrite <- (plain_quote _ Hpp) in E.
          apply quote_c_inj in E; [|by apply plain_wf|done]. apply (Hno p Hp).
          rewrite List.Forall_forall in Hi. apply elem_of_list_In, Hi in Hp as (A & _). unfold fst_el in E.
          destruct (pi_elements p); [done|]. cbn. by rewrite E. }
        rewrite Hother, Hacc2; [done| |].
        * rewrite elem_of_list_fmap. intros (p & E & Hp%Hleaf). apply (Hq p); [apply Hp|done].
        * intros (p & Hp & _ & E)%Hkey. by apply (Hq p).
      + (* leafs *)
        intros p b Hp E. assert (Hpl : is_leaf p = true) by (unfold is_leaf; by rewrite E).
        assert (Ef : fst_el p = b) by (unfold fst_el; by rewrite E). rewrite <- Ef, Htl by done.
        rewrite Hother. 2: { apply Hc1. by apply Hleaf. }
        rewrite Hacc1 by by apply Hleaf. done.
      + (* directories *)
        intros b q Hq. pose proof Hq as (p & Hp & E & Hqn & _).
        assert (Hpl : is_leaf p = false) by (unfold is_leaf; rewrite E; by destruct (pi_elements q)).
        assert (Ef : fst_el p = b) by (unfold fst_el; by rewrite E).
        destruct (Hrow p Hp Hpl) as [(h' & es1 & sub & R1 & R2 & R3 & R4 & _) _]. rewrite Ef in *.
        assert (Hs56 : objs_of g5 n ⊆ objs_of g6 n) by by eapply rely_grow.
        exists h', es1, (subs_of infos b), (entry_at sub).
        split. { rewrite <- Ef, Htl by done. rewrite Ef, R1. done. }
        split; [by eapply tree_of_mono|]. split.
        { destruct R3 as [[R3 ->]|(h0 & R3 & R3')]; [by left|]. right. exists h0, sub. split; [done|]. split; [|done].
          eapply tree_of_mono; [|exact R3']. etrans; [exact Hsub|]. apply (rely_grow X). by eapply rely_trans. }
        split; [intros q'; by apply subs_of_In|]. by eapply merged_mono.
  Qed.

  Lemma add_paths_f_wp n (objs0 : gmap pystr gobj) (f : nat) : is_remote n = false -> forall X (infos : list pathinfo) es s (Q : gset pystr -> res pystr -> S -> gstate -> Prop) g,
    good g -> objs0 ⊆ objs_of g n -> Forall wf_entry es -> names_ne es -> Forall info_ok infos ->
    Forall (fun p => (length (pi_elements p) <= f)%nat) infos -> infos <> [] ->
    Forall (fun p => dirs_present objs0 (entry_at es) (pi_elements p)) infos ->
    (forall g' r, rely X g g' -> upd_post n objs0 es infos r g' -> Q X r s g') ->
    mwp X (add_paths_f f n infos (map dirent_of es)) s Q g.
  Proof using GO.
    intros Hlocal. induction f as [|f IH]; intros X infos es s Q g Hgood Hsub Hes Hne Hi Hlen Hin Hdp HQ.
    - destruct infos as [|p infos]; [done|]. apply List.Forall_cons_iff in Hi as [(A & _) _].
      apply List.Forall_cons_iff in Hlen as [B _]. destruct (pi_elements p); [done|]. cbn in B. lia.
    - by eapply add_paths_S_wp.
  Qed.
  Lemma add_paths_wp n X (infos : list pathinfo) es s (Q : gset pystr -> res pystr -> S -> gstate -> Prop) g :
    is_remote n = false -> good g -> Forall wf_entry es -> names_ne es -> Forall info_ok infos ->
    Forall (fun p => dirs_present (objs_of g n) (entry_at es) (pi_elements p)) infos ->
    (forall g' r, rely X g g' -> upd_post n (objs_of g n) es infos r g' -> Q X r s g') ->
    mwp X (add_paths n infos (map dirent_of es)) s Q g.
  Proof using GO.
    intros Hlocal Hgood Hes Hne Hi Hdp HQ. eapply add_paths_S_wp; try done.
    - intros. eapply add_paths_f_wp; eauto.
    - clear. induction infos as [|p infos IH]; [constructor|]. cbn [foldr]. apply List.Forall_cons; [lia|].
      eapply Forall_impl; [exact IH|]. cbn. intros. lia.
  Qed.
End Upd.
