(** Reading an object that is stored. *)
From Verif Require Import Base BaseFacts Path Json Refs Meta GitText Spec_Git Git GitFacts Spec_Store State BlobCache ObjRef Objects Spec_Look Spec_Heap ExecFacts WriteFacts LoadFacts PeekFacts TreeFacts LookFacts.

Definition kid_hdr (r : pystr) (ref : reference) : hdr :=
  Hdr (Some r) (Some ref) false (if is_none_reference ref then ∅ else match r with [] => ∅ | _ => {[ r ]} end).
Definition kid_obj (r : pystr) (kr : kd * reference) : obj := Obj (kid_hdr r (snd kr)) (empty_body (fst kr)).
(** New objects for [ks], and [o] at [l]. *)
Record grown (r : pystr) (s : pst) (l : loc) (o : obj) (ks : list (kd * reference)) (s' : pst) : Prop := {
  gr_rest : rest_same s s';
  gr_next : s_next s' = (s_next s + N.of_nat (length ks))%N;
  gr_self : s_heap s' !! l = Some o;
  gr_kids : forall i kr, ks !! i = Some kr -> s_heap s' !! (s_next s + N.of_nat i)%N = Some (kid_obj r kr);
  gr_old : forall x : loc, x <> l -> (x < s_next s)%N -> s_heap s' !! x = s_heap s !! x;
}.
Section Read.
  Context `{Env}.
  Context (r : pystr) (g : gstate) (Hrem : is_remote r = false).
  Notation O := (objs_of g r).

  Lemma local_objs x o : O !! x = Some o -> exists rp, local_repo g r = Some rp /\ r_objs rp = O.
  Proof. unfold local_repo, objs_of. rewrite Hrem. destruct (g_repos g !! r) as [rp|]; [intros _; exists rp; done|]. rewrite lookup_empty. intros HH. discriminate HH. Qed.
  Lemma x_load_str {S : Type} (s : S) x t : load_text O x = Ok t -> exec (git_load_str r x s) g = ((Ok t, s), g).
  Proof.
    unfold load_text, store. destruct (object_id x) eqn:Ex; [|done]. destruct (O !! x) as [[b|es]|] eqn:E; [|done..]. intros Ht.
    destruct (local_objs _ _ E) as (rp & Hrp & Ho). unfold git_load_str, adapt_for_remote. rewrite Hrem, x_bind, x_ret, x_bind, x_checked.
    cbn [git]. rewrite Hrp. unfold read_obj, resolve. rewrite Ex, Ho, E. cbn [fst snd]. unfold text_result in Ht.
    destruct (stdout_lines b); [|done]. cbn in Ht. rewrite x_ret. congruence.
  Qed.
  Lemma x_load_json {S : Type} (s : S) x t j : load_text O x = Ok t -> jloads t = Ok j -> exec (git_load_json r x s) g = ((Ok j, s), g).
  Proof.
    intros Ht Hj. unfold git_load_json, adapt_for_remote. rewrite Hrem, x_bind, x_ret, x_bind, (x_load_str s x t Ht). cbn beta iota. by rewrite x_res, Hj.
  Qed.
  Lemma x_read_tree {S : Type} (s : S) x ls : load_lines O x = Ok ls -> exec (git_read_tree_node r x s) g = ((Ok ls, s), g).
  Proof.
    unfold load_lines, store. destruct (object_id x) eqn:Ex; [|done]. destruct (O !! x) as [[b|es]|] eqn:E; [done| |done]. intros Ht.
    destruct (local_objs _ _ E) as (rp & Hrp & Ho). unfold git_read_tree_node, adapt_for_remote. rewrite Hrem, x_bind, x_ret, x_checked.
    cbn [git]. rewrite Hrp. unfold read_obj, resolve. rewrite Ex, Ho, E. cbn [fst snd]. by destruct (tree_listing es); rewrite ?Ht.
  Qed.
  Lemma x_ls_tree {S : Type} (s : S) x ls : load_lines O x = Ok ls -> exec (git_ls_tree r x s) g = ((Ok ls, s), g).
  Proof.
    unfold load_lines, store. destruct (object_id x) eqn:Ex; [|done]. destruct (O !! x) as [[b|es]|] eqn:E; [done| |done]. intros Ht.
    destruct (local_objs _ _ E) as (rp & Hrp & Ho). unfold git_ls_tree, adapt_for_remote. rewrite Hrem, x_bind, x_ret, x_checked.
    cbn [git]. rewrite Hrp. unfold read_obj, resolve. rewrite Ex, Ho, E. cbn [fst snd]. by destruct (tree_listing es); rewrite ?Ht.
  Qed.
  Lemma x_loc_of ref x (s : pst) : ref_loc ref = Ok x -> exec (loc_of ref s) g = ((Ok x, s), g).
  Proof. unfold ref_loc, loc_of. destruct (r_loc ref); [|done]. by intros [= ->]. Qed.

  Lemma x_new k ref s : exec (new_obj (empty_body k) (Some r) (Some ref) s) g =
    ((Ok (s_next s), PSt (<[s_next s := kid_obj r (k, ref)]> (s_heap s)) (N.succ (s_next s)) (s_caches s) (s_orefs s) (s_legacy s) (s_locks s)), g).
  Proof.
    unfold new_obj. rewrite x_bind, x_res. unfold init_hdr. cbn [is_some negb orb rassert rbind]. unfold alloc, kid_obj, kid_hdr. cbn.
    destruct (is_none_reference ref); [done|]. by destruct r.
  Qed.
  Lemma grown_none s l o : s_heap s !! l = Some o -> grown r s l o [] s.
  Proof. intros Ho. split; try done; cbn; lia. Qed.
  Lemma grown_new s (l : loc) o ks s1 k ref : (l < s_next s)%N -> grown r s l o ks s1 ->
    grown r s l o (ks ++ [(k, ref)]) (PSt (<[s_next s1 := kid_obj r (k, ref)]> (s_heap s1)) (N.succ (s_next s1)) (s_caches s1) (s_orefs s1) (s_legacy s1) (s_locks s1)).
  Proof.
    intros Hl [H1 H2 H3 H4 H5]. split; cbn; [done|rewrite app_length; cbn; lia| | |].
    - rewrite heap_insert, decide_False; [done|lia].
    - intros i kr Hi. rewrite heap_insert. apply lookup_app_Some in Hi as [Hi|[Hge Hi]].
      + rewrite decide_False; [by apply H4|]. apply lookup_lt_Some in Hi. lia.
      + rewrite H2. destruct (i - length ks)%nat as [|n] eqn:Ei; [|done]. injection Hi as <-. rewrite decide_True; [done|]. lia.
    - intros x Hx Hlt. rewrite heap_insert, decide_False; [by apply H5|]. lia.
  Qed.
  Lemma grown_set s (l : loc) o o' ks s1 : (l < s_next s)%N -> grown r s l o ks s1 -> grown r s l o' ks (with_heap s1 (<[l := o']> (s_heap s1))).
  Proof.
    intros Hl [H1 H2 H3 H4 H5]. split; cbn; try done.
    - by rewrite heap_insert, decide_True.
    - intros i kr Hi. rewrite heap_insert, decide_False; [by apply H4|lia].
    - intros x Hx Hlt. rewrite heap_insert, decide_False; [by apply H5|done].
  Qed.
  Lemma x_set_body s l o ks s1 b : grown r s l o ks s1 -> exec (set_body l b s1) g = ((Ok tt, with_heap s1 (<[l := Obj (o_hdr o) b]> (s_heap s1))), g).
  Proof. intros Hg. unfold set_body. rewrite x_bind, x_getobj, (gr_self _ _ _ _ _ _ Hg). done. Qed.

  (** lines of a tree *)
  Lemma x_map_in_line s (l : loc) x c d ks s1 line e d' ks' : (l < s_next s)%N ->
    grown r s l (Obj x (BNode c (map (fun nl => (fst nl, (s_next s + snd nl)%N)) d))) ks s1 ->
    read_tree_line line = Ok e -> add_line c (d, ks) e = Ok (d', ks') ->
    exists s2, exec (map_in_line l c r line s1) g = ((Ok tt, s2), g) /\ grown r s l (Obj x (BNode c (map (fun nl => (fst nl, (s_next s + snd nl)%N)) d'))) ks' s2.
  Proof.
    intros Hl Hg Hline Ha. unfold map_in_line. rewrite x_bind, x_res, Hline. cbn beta iota. destruct e as [[ty h] name].
    unfold add_line in Ha. cbn [fst snd] in Ha.
    assert (HN : forall k ref, Ok (dset d name (N.of_nat (length ks)), ks ++ [(k, ref)]) = Ok (d', ks') ->
      exists s2, exec ((mlet child <- new_obj (empty_body k) (Some r) (Some ref);
        mlet o <- getobj l; match o_body o with BNode c' d0 => set_body l (BNode c' (dset d0 name child)) | _ => mraise Unmodelled end) s1) g = ((Ok tt, s2), g) /\
        grown r s l (Obj x (BNode c (map (fun nl => (fst nl, (s_next s + snd nl)%N)) d'))) ks' s2).
    { intros k ref [= <- <-]. rewrite x_bind, x_new. cbn beta iota. pose proof (grown_new _ _ _ _ _ k ref Hl Hg) as Hg2.
      rewrite x_bind, x_getobj, (gr_self _ _ _ _ _ _ Hg2). cbn beta iota. cbn [o_body]. rewrite (x_set_body _ _ _ _ _ _ Hg2).
      eexists. split; [reflexivity|]. cbn [o_hdr]. rewrite dset_shift, <- (gr_next _ _ _ _ _ _ Hg). by eapply grown_set. }
    revert Ha. destruct (bool_decide (ty = ps "tree")); cbn [rbind]; [by apply (HN (KdNode c))|].
    destruct (bool_decide (ty = ps "blob")); cbn [rbind]; [|done]. intros Ha.
    specialize (HN (leaf_kd c) (ref_of (leaf_name c) h)). assert (empty_leaf c = empty_body (leaf_kd c)) as -> by by destruct c. by apply HN.
  Qed.
  Lemma x_lines s (l : loc) x c ls : forall es d ks d' ks' s1, (l < s_next s)%N ->
    grown r s l (Obj x (BNode c (map (fun nl => (fst nl, (s_next s + snd nl)%N)) d))) ks s1 ->
    rmap read_tree_line ls = Ok es -> rfold (add_line c) es (d, ks) = Ok (d', ks') ->
    exists s2, exec (miter (map_in_line l c r) ls s1) g = ((Ok tt, s2), g) /\ grown r s l (Obj x (BNode c (map (fun nl => (fst nl, (s_next s + snd nl)%N)) d'))) ks' s2.
  Proof.
    induction ls as [|line ls IH]; intros es d ks d' ks' s1 Hl Hg Hls Hf.
    - cbn in Hls. injection Hls as <-. cbn in Hf. injection Hf as <- <-. by exists s1.
    - cbn [rmap] in Hls. rstep Hls. rstep Hls. injection Hls as <-. cbn [rfold] in Hf. rstep Hf. destruct a1 as [d1 ks1].
      destruct (x_map_in_line _ _ _ _ _ _ _ _ _ _ _ Hl Hg E E1) as (s2 & Hx & Hg2). cbn [miter]. rewrite x_bind, Hx. cbn beta iota.
      by eapply IH.
  Qed.
  (** lines of a UUID set *)
  Lemma x_uuid_line s (l : loc) x d ks s1 line e d' ks' : (l < s_next s)%N ->
    grown r s l (Obj x (BUset (map (fun nl => (fst nl, (s_next s + snd nl)%N)) d))) ks s1 ->
    split_git_lstree_line line = Ok e -> add_uuid (d, ks) e = Ok (d', ks') ->
    exists s2, exec (map_in_uuid_line l r line s1) g = ((Ok tt, s2), g) /\ grown r s l (Obj x (BUset (map (fun nl => (fst nl, (s_next s + snd nl)%N)) d'))) ks' s2.
  Proof.
    intros Hl Hg Hline Ha. unfold map_in_uuid_line. rewrite x_bind, x_res, Hline. cbn beta iota. destruct e as [[[mo ty] h] name].
    unfold add_uuid in Ha. cbn [fst snd] in Ha. rstep Ha. injection Ha as <- <-.
    rewrite x_bind, (x_new (KdVl false)). cbn beta iota. pose proof (grown_new _ _ _ _ _ (KdVl false) (ref_of (ps "VersionList") h) Hl Hg) as Hg2.
    rewrite x_bind, x_res, E. cbn beta iota. rewrite x_bind, x_getobj, (gr_self _ _ _ _ _ _ Hg2). cbn beta iota. cbn [o_body]. rewrite (x_set_body _ _ _ _ _ _ Hg2).
    eexists. split; [reflexivity|]. cbn [o_hdr]. rewrite dset_shift, <- (gr_next _ _ _ _ _ _ Hg). by eapply grown_set.
  Qed.
  Lemma x_uuid_lines s (l : loc) x ls : forall es d ks d' ks' s1, (l < s_next s)%N ->
    grown r s l (Obj x (BUset (map (fun nl => (fst nl, (s_next s + snd nl)%N)) d))) ks s1 ->
    rmap split_git_lstree_line ls = Ok es -> rfold add_uuid es (d, ks) = Ok (d', ks') ->
    exists s2, exec (miter (map_in_uuid_line l r) ls s1) g = ((Ok tt, s2), g) /\ grown r s l (Obj x (BUset (map (fun nl => (fst nl, (s_next s + snd nl)%N)) d'))) ks' s2.
  Proof.
    induction ls as [|line ls IH]; intros es d ks d' ks' s1 Hl Hg Hls Hf.
    - cbn in Hls. injection Hls as <-. cbn in Hf. injection Hf as <- <-. by exists s1.
    - cbn [rmap] in Hls. rstep Hls. rstep Hls. injection Hls as <-. cbn [rfold] in Hf. rstep Hf. destruct a1 as [d1 ks1].
      destruct (x_uuid_line _ _ _ _ _ _ _ _ _ _ Hl Hg E E1) as (s2 & Hx & Hg2). cbn [miter]. rewrite x_bind, Hx. cbn beta iota.
      by eapply IH.
  Qed.
  (** associations *)
  Definition assoc_rec (n : loc) (i : nat) (a : pystr * pystr * ppath * bool * reference) : pystr * vrec :=
    let '(v, ts, p, tree, _) := a in (v, VRec ts p (if tree : bool then ETree (n + N.of_nat i)%N else EMrr (n + N.of_nat i)%N)).
  Definition assoc_kid (a : pystr * pystr * ppath * bool * reference) : kd * reference :=
    let '(_, _, _, tree, ref) := a in (if tree : bool then KdNode LMrr else KdMrr, ref).
  Lemma x_assoc s (l : loc) o ks s1 j a : (l < s_next s)%N -> grown r s l o ks s1 -> read_assoc j = Ok a ->
    exists s2, exec (map_in_assoc r j s1) g = ((Ok (assoc_rec (s_next s) (length ks) a), s2), g) /\ grown r s l o (ks ++ [assoc_kid a]) s2.
  Proof.
    intros Hl Hg Ha. unfold read_assoc in Ha. rstep Ha. rstep Ha. rstep Ha. rstep Ha. rstep Ha. rstep Ha.
    unfold map_in_assoc. rewrite x_bind, x_res, E. cbn beta iota. rewrite x_bind, x_res, E0. cbn beta iota. rewrite x_bind.
    destruct a3 as [| | | | | |v| |]; try done. destruct a4 as [| | | | | |p| |]; try done. destruct a5 as [| | | | | |t| |]; try done. injection Ha as <-.
    pose proof (gr_next _ _ _ _ _ _ Hg) as Hn.
    destruct (_ || _).
    - injection E1 as <-. rewrite x_bind, (x_new (KdNode LMrr)). cbn beta iota. rewrite x_ret. rewrite x_bind, x_res, E2. cbn beta iota. rewrite x_bind, x_res, E3. cbn beta iota. rewrite x_bind, x_res, E4. cbn beta iota. rewrite x_ret.
      eexists. split; [cbn [assoc_rec]; rewrite <- Hn; reflexivity|]. by apply grown_new.
    - destruct (jis_str _ _); [|done]. injection E1 as <-. rewrite x_bind, (x_new KdMrr). cbn beta iota. rewrite x_ret. rewrite x_bind, x_res, E2. cbn beta iota. rewrite x_bind, x_res, E3. cbn beta iota. rewrite x_bind, x_res, E4. cbn beta iota. rewrite x_ret.
      eexists. split; [cbn [assoc_rec]; rewrite <- Hn; reflexivity|]. by apply grown_new.
  Qed.
  Lemma x_assocs s (l : loc) o js : forall as_ ks s1, (l < s_next s)%N -> grown r s l o ks s1 -> rmap read_assoc js = Ok as_ ->
    exists s2, exec (mmap (map_in_assoc r) js s1) g = ((Ok (imap (fun i => assoc_rec (s_next s) (length ks + i)) as_), s2), g) /\ grown r s l o (ks ++ map assoc_kid as_) s2.
  Proof.
    induction js as [|j js IH]; intros as_ ks s1 Hl Hg Ha.
    - cbn in Ha. injection Ha as <-. exists s1. by rewrite app_nil_r.
    - cbn [rmap] in Ha. rstep Ha. rstep Ha. injection Ha as <-. destruct (x_assoc _ _ _ _ _ _ _ Hl Hg E) as (s2 & Hx & Hg2).
      cbn [mmap]. rewrite x_bind, Hx. cbn beta iota. destruct (IH _ _ _ Hl Hg2 E0) as (s3 & Hx3 & Hg3). rewrite x_bind, Hx3. cbn beta iota.
      rewrite x_ret. exists s3. cbn [map imap]. split; [|by rewrite <- app_assoc in Hg3]. rewrite Nat.add_0_r.
      do 4 f_equal. apply imap_ext. intros i x _. cbn. f_equal. rewrite app_length. cbn. lia.
  Qed.
  Lemma fold_assocs n as_ : forall vs ks,
    let t := fold_left add_assoc as_ (vs, ks) in
    fold_left (fun vs r => vs_set vs (fst r) (vr_path (snd r)) (snd r)) (imap (fun i => assoc_rec n (length ks + i)) as_) (shift_vs n vs) = shift_vs n (fst t)
    /\ snd t = ks ++ map assoc_kid as_.
  Proof.
    induction as_ as [|a as_ IH]; intros vs ks; cbn [fold_left imap map]; [by rewrite app_nil_r|].
    destruct a as [[[[v ts] p] tree] ref]. cbn [add_assoc fst snd].
    specialize (IH (vs_set vs v p (VRec ts p (if tree then ETree (N.of_nat (length ks)) else EMrr (N.of_nat (length ks))))) (ks ++ [(if tree then KdNode LMrr else KdMrr, ref)])) as [IH1 IH2].
    cbn zeta in *. split.
    - rewrite <- IH1. rewrite shift_vs_set. f_equal.
      + apply imap_ext. intros i x _. cbn. f_equal. rewrite app_length. cbn. lia.
      + cbn [assoc_rec fst snd vr_path]. f_equal. unfold shift_rec. cbn. rewrite Nat.add_0_r. by destruct tree.
    - rewrite IH2. by rewrite <- app_assoc.
  Qed.
  Definition blank (b : body) : Prop := sub_objects b = [] /\ forall m, b = BMeta m -> m = [].
  Lemma blank_empty k : blank (empty_body k).
  Proof. split; [apply empty_sub|]. destruct k; cbn; by intros m [= <-]. Qed.
  Lemma xb {A B : Type} (m : M pst A) (f : A -> M pst B) s g0 a s1 g1 : exec (m s) g0 = ((Ok a, s1), g1) -> exec (mbind m f s) g0 = exec (f a s1) g1.
  Proof. intros E. by rewrite x_bind, E. Qed.

  Lemma x_map_in_impl s (l : loc) x b0 ref k b ks : s_heap s !! l = Some (Obj x b0) -> (l < s_next s)%N -> kind_of b0 = k -> blank b0 ->
    is_none_reference ref = false -> stored_body O k ref = Ok (b, ks) ->
    exists s', exec (map_in_impl l r ref s) g = ((Ok tt, s'), g) /\
      grown r s l (Obj (if decide (k = KdMrr) then kid_hdr r ref else x) (shift (s_next s) b)) ks s'.
  Proof.
    intros Ho Hl Hk [Hb Hm] Hn Hs. pose proof (grown_none s l _ Ho) as Hg. unfold stored_body in Hs. apply rbind_inv in Hs as (y & Ey & Hs).
    unfold map_in_impl. rewrite x_bind, x_getobj, Ho. cbn beta iota. cbn [o_body].
    destruct b0 as [m|t0|c d|i v m t|kk vs|us]; cbn [kind_of] in Hk; subst k.
    - specialize (Hm m eq_refl) as ->. rstep Hs. rstep Hs. rstep Hs. rstep Hs. rstep Hs. injection Hs as <- <-.
      erewrite xb by by apply x_loc_of. erewrite xb by by apply x_load_str. rewrite x_bind, x_res, E0. cbn beta iota. erewrite xb by by apply x_loc_of.
      erewrite xb by by apply x_load_str. rewrite x_bind, x_res, E3. cbn beta iota. rewrite (x_set_body _ _ _ _ _ _ Hg). eexists. split; [reflexivity|].
      rewrite decide_False by done. by eapply grown_set.
    - rstep Hs. injection Hs as <- <-.
      erewrite xb by by apply x_loc_of. erewrite xb by by apply x_load_str. rewrite (x_set_body _ _ _ _ _ _ Hg). eexists. split; [reflexivity|].
      rewrite decide_False by done. by eapply grown_set.
    - cbn [sub_objects] in Hb. assert (d = []) as -> by by destruct d. rstep Hs. rstep Hs. rstep Hs. injection Hs as <- <-. rewrite Hn.
      erewrite xb by by apply x_loc_of. erewrite xb by by apply x_read_tree. destruct a1 as [d' ks']. rewrite decide_False by done.
      cbn [fst snd shift]. by eapply (x_lines s l x c a a0 [] []).
    - rstep Hs. rstep Hs. rstep Hs. rstep Hs. rstep Hs. rstep Hs. rstep Hs. rstep Hs. rstep Hs. cbv zeta in Hs. rstep Hs. injection Hs as <- <-.
      erewrite xb by by apply x_loc_of. erewrite xb by by eapply x_load_json. rewrite x_bind, x_res, E1. cbn beta iota. rewrite x_bind, x_res, E2. cbn beta iota.
      set (ks1 := if is_none_reference a2 then [] else [(KdMeta, a2)]). set (ks2 := if is_none_reference a4 then [] else [(KdNode LMeta, a4)]).
      assert (H1 : exists s1, exec ((if is_none_reference a2 then mret None else mlet a <- new_obj (BMeta []) (Some r) (Some a2); mret (Some a)) s) g =
         ((Ok (option_map (N.add (s_next s)) (if is_none_reference a2 then None else Some 0%N)), s1), g) /\ grown r s l (Obj x (BMrr i v m t)) ks1 s1).
      { unfold ks1. destruct (is_none_reference a2); [by exists s|]. erewrite xb by apply (x_new KdMeta). rewrite x_ret. cbn [option_map]. rewrite N.add_0_r.
        eexists. split; [reflexivity|]. by apply (grown_new s l _ [] s). }
      destruct H1 as (s1 & H1 & Hg1). erewrite xb by exact H1. rewrite x_bind, x_res, E3. cbn beta iota. rewrite x_bind, x_res, E4. cbn beta iota.
      assert (H2 : exists s2, exec ((if is_none_reference a4 then mret None else mlet a <- new_obj (BNode LMeta []) (Some r) (Some a4); mret (Some a)) s1) g =
         ((Ok (option_map (N.add (s_next s)) (if is_none_reference a4 then None else Some (N.of_nat (length ks1)))), s2), g) /\ grown r s l (Obj x (BMrr i v m t)) (ks1 ++ ks2) s2).
      { unfold ks2. destruct (is_none_reference a4); [exists s1; by rewrite app_nil_r|]. erewrite xb by apply (x_new (KdNode LMeta)). rewrite x_ret. cbn [option_map].
        rewrite <- (gr_next _ _ _ _ _ _ Hg1). eexists. split; [reflexivity|]. by apply grown_new. }
      destruct H2 as (s2 & H2 & Hg2). erewrite xb by exact H2. rewrite x_bind, x_res, E5. cbn beta iota. rewrite x_bind, x_res, E6. cbn beta iota. rewrite x_bind, x_res, E7. cbn beta iota.
      assert (init_hdr (Some r) (Some ref) = Ok (kid_hdr r ref)) as Hi.
      { unfold init_hdr, kid_hdr. cbn. rewrite Hn. by destruct r. }
      rewrite decide_True by done. cbn [shift].
      destruct a7; try done; injection E8 as <-.
      all: rewrite x_bind, x_res, Hi; cbn beta iota; unfold setobj; cbn [exec]; eexists; (split; [reflexivity|]); by eapply grown_set.
    - rstep Hs. rstep Hs. rstep Hs. rstep Hs. cbv zeta in Hs. injection Hs as <- <-. rewrite decide_False by done.
      erewrite xb by by apply x_loc_of. erewrite xb by by eapply x_load_json. rewrite x_bind, x_res, E1. cbn beta iota.
      destruct (x_assocs s l _ a1 a2 [] s Hl Hg E2) as (s2 & Hx & Hg2). erewrite xb by exact Hx. rewrite (x_set_body _ _ _ _ _ _ Hg2).
      eexists. split; [reflexivity|]. destruct (fold_assocs (s_next s) a2 [] []) as [Hf1 Hf2]. cbn zeta in Hf1, Hf2. cbn [shift].
      refine (eq_ind_r (fun z => grown r s l _ z _) _ Hf2). refine (eq_ind _ (fun z => grown r s l (Obj x (BVlist kk z)) _ _) _ _ Hf1). by eapply grown_set.
    - rstep Hs. rstep Hs. rstep Hs. injection Hs as <- <-. rewrite decide_False by done. erewrite xb by by eapply x_set_body.
      erewrite xb by by apply x_loc_of. erewrite xb by by apply x_ls_tree. destruct a1 as [d' ks'].
      cbn [fst snd shift o_hdr]. eapply (x_uuid_lines s l x a a0 [] []); try done. by eapply grown_set.
  Qed.

  (** what reading changes in the header *)
  Definition fresh_hdr (k : kd) (ref : reference) (x x' : hdr) : Prop :=
    h_realm x' = Some r /\ (h_ref x' = Some ref \/ h_ref x' = Some (conv_ref ref) /\ is_none_reference ref = false) /\
    (is_none_reference ref = false -> r ∈ h_saved x') /\ h_saved x' ⊆ h_saved x /\ (is_none_reference ref = true -> h_saved x' = h_saved x).
  Lemma x_read_in fuel s (l : loc) x b0 ref b ks : s_heap s !! l = Some (Obj x b0) -> (l < s_next s)%N -> blank b0 -> r <> [] ->
    h_mapped x = false -> h_realm x = Some r -> h_ref x = Some ref -> (is_none_reference ref = false -> r ∈ h_saved x) ->
    stored O (kind_of b0) ref = Ok (b, ks) ->
    exists s' x', exec (read_in fuel l s) g = ((Ok tt, s'), g) /\ grown r s l (Obj x' (shift (s_next s) b)) ks s' /\
      h_mapped x' = negb (is_none_reference ref) /\ fresh_hdr (kind_of b0) ref x x'.
  Proof.
    intros Ho Hl Hb Hr Hm Hrl Hrf Hsv Hs. unfold read_in. rewrite x_bind, x_getobj, Ho. cbn beta iota. cbn [o_hdr o_body]. rewrite Hm, Hrl, Hrf.
    unfold stored in Hs. destruct (is_none_reference ref) eqn:En.
    - destruct b0 as [m|t0|c d|i v m t|kk vs|us]; cbn [kind_of] in Hs; try done. destruct Hb as [Hb _]. cbn [sub_objects] in Hb.
      assert (d = []) as -> by by destruct d. cbn [type_name_of]. destruct (jis_str (r_class ref) (ps "MTreeNode")) eqn:Ec; [|done]. injection Hs as <- <-.
      rewrite x_bind, x_assert. cbn beta iota. unfold purge_impl. rewrite x_bind, x_getobj, Ho. cbn beta iota. cbn [o_body dvals map miter]. rewrite x_bind, x_ret. cbn beta iota.
      pose proof (grown_none s l _ Ho) as Hg. rewrite (x_set_body _ _ _ _ _ _ Hg). eexists _, x. split; [reflexivity|].
      split; [by eapply grown_set|]. split; [done|]. unfold fresh_hdr. rewrite En. split_and!; try done. by left.
    - specialize (Hsv eq_refl). unfold in_saved. cbn [o_hdr]. rewrite bool_decide_eq_true_2 by done.
      destruct (jis_str (r_class (conv_ref ref)) (type_name_of (empty_body (kind_of b0)))) eqn:Ec; [|done].
      rewrite x_bind. unfold map_in. rewrite x_bind, x_getobj, Ho. cbn beta iota. cbn [o_body]. rewrite x_bind. unfold set_hdr. rewrite x_bind, x_getobj, Ho. cbn beta iota.
      unfold setobj at 1. cbn [exec]. cbn beta iota.
      assert ((if jis_str (r_class ref) (ps "FileTree") || jis_str (r_class ref) (ps "DatasetTree") then Ref (JStr (ps "MTreeNode")) (r_loc ref) else ref) = conv_ref ref) as -> by done.
      set (s1 := with_heap s _). assert (Ho1 : s_heap s1 !! l = Some (Obj (hd_ref (Some (conv_ref ref)) x) b0)) by (unfold s1; cbn; by rewrite heap_insert, decide_True).
      rewrite x_bind, x_assert.
      assert (type_name_of b0 = type_name_of (empty_body (kind_of b0))) as -> by (destruct b0 as [| | | |[]|]; done). rewrite Ec. cbn beta iota.
      assert (Hn' : is_none_reference (conv_ref ref) = false) by (unfold conv_ref; by destruct (_ || _)).
      assert (Hs' : stored_body O (kind_of b0) (conv_ref ref) = Ok (b, ks)).
      { rewrite <- Hs. unfold stored_body, ref_loc. assert (r_loc (conv_ref ref) = r_loc ref) as -> by (unfold conv_ref; by destruct (_ || _)). done. }
      destruct (x_map_in_impl s1 l _ b0 _ _ b ks Ho1 Hl eq_refl Hb Hn' Hs') as (s2 & Hx & Hg2). rewrite Hx. cbn beta iota.
      assert (Hg2' : forall o, grown r s1 l o ks s2 -> grown r s l o ks s2).
      { intros o [H1 H2 H3 H4 H5]. split; try done. intros y Hy Hlt. rewrite H5 by done. unfold s1. cbn. by rewrite heap_insert, decide_False. }
      apply Hg2' in Hg2. rewrite x_bind, x_getobj, (gr_self _ _ _ _ _ _ Hg2). cbn beta iota. unfold setobj. cbn [exec].
      eexists _, _. split; [reflexivity|]. split; [by eapply grown_set|]. cbn [o_hdr hd_mapped h_mapped]. split; [done|].
      unfold fresh_hdr. rewrite En. case_decide; cbn.
      + rewrite Hn'. split_and!; [done|by right| | |done]; destruct r; try done; set_solver.
      + split_and!; try done. by right.
  Qed.
  Lemma x_load fuel s (l : loc) x b0 ref b ks : s_heap s !! l = Some (Obj x b0) -> (l < s_next s)%N -> blank b0 -> r <> [] ->
    h_mapped x = false -> h_realm x = Some r -> h_ref x = Some ref -> (is_none_reference ref = false -> r ∈ h_saved x) ->
    stored O (kind_of b0) ref = Ok (b, ks) ->
    exists s' x', exec (ensure_mapped fuel l s) g = ((Ok true, s'), g) /\ grown r s l (Obj x' (shift (s_next s) b)) ks s' /\
      h_mapped x' = true /\ fresh_hdr (kind_of b0) ref x x'.
  Proof.
    intros Ho Hl Hb Hr Hm Hrl Hrf Hsv Hs. destruct (x_read_in fuel s l x b0 ref b ks Ho Hl Hb Hr Hm Hrl Hrf Hsv Hs) as (s1 & x1 & Hx & Hg & Hm1 & Hf).
    unfold ensure_mapped. rewrite x_bind, x_getobj, Ho. cbn beta iota. cbn [o_hdr]. rewrite Hm. rewrite x_bind, Hx. cbn beta iota.
    unfold set_hdr. rewrite x_bind, x_bind, x_getobj, (gr_self _ _ _ _ _ _ Hg). cbn beta iota. unfold setobj. cbn [exec]. cbn beta iota. rewrite x_ret.
    eexists _, _. split; [reflexivity|]. split; [by eapply grown_set|]. done.
  Qed.
End Read.
