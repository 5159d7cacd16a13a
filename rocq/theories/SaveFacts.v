(** What a successful write leaves in a repository, possibly by way of a blob cache. *)
From Verif Require Import Base BaseFacts Path Json Refs Meta GitText Spec_Git GitTextFacts Git GitFacts Spec_Store State BlobCache ObjRef Objects Spec_Look Spec_Heap Spec_Write ExecFacts Spec_Cache CacheFacts WriteFacts TreeFacts.

Section Save.
  Context `{Env}.
  Context (r : pystr).
  Implicit Types (s : pst) (g : gstate) (O : store).

  (** What is in the cache of [r] is valid. *)
  Definition cok s : Prop := caches_ok s /\ forall c, dget (s_caches s) r = Some c -> cache_ok r c.
  (** [O] has the objects of [r], and those that wait in the cache of [r]. *)
  Definition completes O s g : Prop := objs_of g r ⊆ O /\
    forall c b, dget (s_caches s) r = Some c -> b ∈ pending c -> O !! blob_id b = Some (Blob (utf8_bytes b)).
  Definition later s g s' g' : Prop := cok s' /\ forall O, completes O s' g' -> completes O s g.
  Definition uncached s : Prop := dget (s_caches s) r = None.
  Definition svm {A : Type} (m : M pst A) : Prop := forall s g a s' g', cok s -> exec (m s) g = ((Ok a, s'), g') ->
    later s g s' g' /\ (uncached s <-> uncached s').

  Lemma later_trans s1 g1 s2 g2 s3 g3 : later s1 g1 s2 g2 -> later s2 g2 s3 g3 -> later s1 g1 s3 g3.
  Proof. intros [_ H1] [H2 H3]. split; [done|]. intros O HO. by apply H1, H3. Qed.
  Lemma later_grow s g s' g' : cok s -> s_caches s' = s_caches s -> objs_of g r ⊆ objs_of g' r -> later s g s' g'.
  Proof. intros Hc Hs Hg. unfold later, cok, caches_ok, completes in *. rewrite Hs. split; [done|]. intros O [H1 H2]. split; [by etrans|done]. Qed.

  Definition keep {A : Type} (m : M pst A) : Prop := forall s g a s' g', exec (m s) g = ((Ok a, s'), g') -> s_caches s' = s_caches s.
  Lemma keep_svm {A : Type} (m : M pst A) : keep m -> svm m.
  Proof.
    intros Hk s g a s' g' Hc He. pose proof (Hk _ _ _ _ _ He) as Hs. split.
    - apply later_grow; [done|done|]. pose proof (exec_grow (m s) g) as Hg. rewrite He in Hg. by apply Hg.
    - unfold uncached. by rewrite Hs.
  Qed.
  Lemma keep_ret {A : Type} (a : A) : keep (mret a).
  Proof. intros s g b s' g' He. apply xi_ret in He as (_ & <- & _). done. Qed.
  Lemma keep_raise {A : Type} e : keep (mraise (A := A) e).
  Proof. intros s g b s' g' He. done. Qed.
  Lemma keep_res {A : Type} (x : res A) : keep (mres x).
  Proof. intros s g b s' g' He. apply xi_res in He as (_ & <- & _). done. Qed.
  Lemma keep_assert b : keep (massert b).
  Proof. intros s g u s' g' He. apply xi_assert in He as (_ & <- & _). done. Qed.
  Lemma keep_get {A : Type} (f : pst -> A) : keep (mget f).
  Proof. intros s g b s' g' He. apply xi_get in He as (_ & <- & _). done. Qed.
  Lemma keep_getobj l : keep (getobj l).
  Proof. intros s g b s' g' He. apply xi_getobj in He as (_ & <- & _). done. Qed.
  Lemma keep_setobj l o : keep (setobj l o).
  Proof. intros s g b s' g' He. apply xi_setobj in He as (-> & _). done. Qed.
  Lemma keep_bind {A B : Type} (m : M pst A) (f : A -> M pst B) : keep m -> (forall a, keep (f a)) -> keep (mbind m f).
  Proof. intros H1 H2 s g b s' g' He. apply xi_bind in He as (a & s1 & g1 & E1 & E2). apply H1 in E1. apply H2 in E2. congruence. Qed.
  Lemma keep_execute c : keep (execute c).
  Proof. intros s g b s' g' He. rewrite x_execute in He. by injection He as _ <- _. Qed.
  Lemma keep_checked c : keep (checked_execute c).
  Proof. apply keep_bind; [apply keep_execute|]. intros [out|]; [apply keep_res|apply keep_raise]. Qed.
  Lemma keep_first_line ls : keep (first_line ls).
  Proof. destruct ls; [apply keep_raise|apply keep_ret]. Qed.
  Lemma keep_save_str x b : keep (git_save_str x b).
  Proof. apply keep_bind; [apply keep_res|intros ?]. apply keep_bind; [apply keep_checked|intros ?]. apply keep_first_line. Qed.
  Lemma keep_save_tree x es : keep (git_save_tree_node x es).
  Proof. apply keep_bind; [apply keep_res|intros ?]. apply keep_bind; [apply keep_checked|intros ?]. apply keep_first_line. Qed.
  Lemma keep_update x y z : keep (git_update_ref x y z).
  Proof. apply keep_bind; [apply keep_checked|intros ?; apply keep_ret]. Qed.
  Lemma keep_set_hdr l f : keep (set_hdr l f).
  Proof. apply keep_bind; [apply keep_getobj|intros ?; apply keep_setobj]. Qed.
  Lemma keep_is_saved fuel l x : keep (is_saved_on fuel l x).
  Proof. intros s g b s' g' He. rewrite x_is_saved in He. by injection He as _ <- _. Qed.
  Lemma keep_own l : keep (own_reference l).
  Proof. apply keep_bind; [apply keep_getobj|intros o]. destruct (h_ref _); [apply keep_ret|apply keep_raise]. Qed.
  Lemma keep_loc_of x : keep (loc_of x).
  Proof. unfold loc_of. destruct (r_loc x); [apply keep_ret|apply keep_raise]. Qed.
  Lemma keep_oref t x : keep (add_object_reference t x).
  Proof.
    unfold add_object_reference. destruct (decide _); [apply keep_ret|]. intros s g b s' g' He. unfold add_ref in He. apply xi_mod in He as [-> _]. done.
  Qed.
  Lemma keep_dir_entry nl : keep (dir_entry nl).
  Proof. apply keep_bind; [apply keep_getobj|intros o]. destruct (h_ref _); [apply keep_ret|apply keep_raise]. Qed.

  Lemma svm_bind {A B : Type} (m : M pst A) (f : A -> M pst B) : svm m -> (forall a, svm (f a)) -> svm (mbind m f).
  Proof.
    intros H1 H2 s g b s' g' Hc He. apply xi_bind in He as (a & s1 & g1 & E1 & E2). apply H1 in E1 as [L1 U1]; [|done]. apply H2 in E2 as [L2 U2]; [|apply L1].
    split; [by eapply later_trans|by rewrite U1].
  Qed.
  Lemma svm_mmap {A B : Type} (F : A -> M pst B) ls : (forall x, In x ls -> svm (F x)) -> svm (mmap F ls).
  Proof.
    induction ls as [|x ls IH]; intros HF; cbn [mmap]; [apply keep_svm, keep_ret|]. apply svm_bind; [apply HF; by left|]. intros y.
    apply svm_bind; [|intros ys; apply keep_svm, keep_ret]. apply IH. intros z Hz. apply HF. by right.
  Qed.
  Lemma svm_miter {A : Type} (F : A -> M pst unit) ls : (forall x, In x ls -> svm (F x)) -> svm (miter F ls).
  Proof.
    induction ls as [|x ls IH]; intros HF; cbn [miter]; [apply keep_svm, keep_ret|]. apply svm_bind; [apply HF; by left|]. intros y.
    apply IH. intros z Hz. apply HF. by right.
  Qed.

  (** ** Blobs *)
  Lemma put_all_grow (blobs : list pystr) g g' : put_all r blobs g = Some g' -> objs_of g r ⊆ objs_of g' r.
  Proof.
    unfold put_all. destruct (local_repo g r) as [x|] eqn:E; [|done]. destruct (put_objs _ x) as [x'|] eqn:Ep; [|done]. intros [= <-].
    apply put_objs_inv in Ep as (_ & Hs & _). rewrite objs_set, decide_True by done. apply local_repo_inv in E as [_ E]. by rewrite (objs_repo _ _ _ E).
  Qed.
  Lemma saved_str b s g x s' g' : exec (git_save_str r b s) g = ((Ok x, s'), g') ->
    s' = s /\ x = blob_id b /\ scalar_str b /\ objs_of g' r !! x = Some (Blob (utf8_bytes b)).
  Proof.
    rewrite save_str_run. destruct (scalar_dec b); [|done]. destruct (put_all r [b] g) as [g1|] eqn:Ep; [|done]. intros [= <- <- <-].
    split_and!; try done. eapply put_all_stored; [done|by left].
  Qed.
  Lemma saved_tree es s g x s' g' : exec (git_save_tree_node r es s) g = ((Ok x, s'), g') ->
    s' = s /\ hex40 x /\ exists input ts, encode (tree_spec es) = Ok input /\ mktree_input input = Some ts /\ objs_of g' r !! x = Some (Tree ts).
  Proof.
    unfold git_save_tree_node. intros He. apply xi_bind in He as (input & s1 & g1 & E1 & He). apply xi_res in E1 as (E1 & <- & <-).
    apply xi_bind in He as (ls & s1 & g1 & E2 & He). rewrite x_checked in E2. cbn [git] in E2.
    destruct (local_repo g r) as [rp|] eqn:El; [|by injection E2]. destruct (mktree_input input) as [ts|] eqn:Em; [|by injection E2].
    destruct (_ && _) eqn:Ef; [|by injection E2]. destruct (put_obj (Tree ts) rp) as [rp'|] eqn:Ep; [|by injection E2].
    cbn [fst snd] in E2. rewrite line_lines in E2 by apply oid_hex. injection E2 as <- <- <-. cbn [first_line] in He. apply xi_ret in He as (<- & <- & <-).
    split; [done|]. split; [apply oid_hex|]. exists input, ts. split_and!; [done|done|]. rewrite objs_set, decide_True by done. by apply put_obj_inv in Ep as (_ & _ & ? & _).
  Qed.

  Lemma x_with_cache {A : Type} (m : M bcache A) none s g c : dget (s_caches s) r = Some c ->
    exec (with_cache r m none s) g = let '(a, c', g') := exec (m c) g in ((a, with_caches s (dset (s_caches s) r c')), g').
  Proof. intros Hc. unfold with_cache. rewrite Hc, exec_bind. by destruct (exec (m c) g) as [[a c'] g']. Qed.
  Lemma cache_blob_inv b s g x s' g' none : cok s -> exec (with_cache r (cache_blob r b) none s) g = ((Ok x, s'), g') -> ~ uncached s ->
    later s g s' g' /\ ~ uncached s' /\ x = blob_id b /\ scalar_str b /\ s_heap s' = s_heap s /\ s_next s' = s_next s /\
    forall O, completes O s' g' -> O !! x = Some (Blob (utf8_bytes b)).
  Proof.
    intros Hok He Hu. unfold uncached in Hu. destruct (dget (s_caches s) r) as [c|] eqn:Ec; [|done]. clear Hu.
    rewrite (x_with_cache _ _ _ _ c Ec) in He. destruct (exec (cache_blob r b c) g) as [[a c'] g1] eqn:Eb. injection He as -> <- ->.
    pose proof (proj2 Hok c Ec) as Hc.
    assert (HB : exec (mmap (cache_blob r) [b] c) g = ((Ok [x], c'), g')).
    { cbn [mmap]. rewrite x_bind, Eb, x_bind, x_ret. done. }
    assert (Hl : is_Some (local_repo g r) \/ exec (cache_blob r b c) g = ((Ok (blob_id b), cached r c b), g) /\ scalar_str b).
    { unfold cache_blob in Eb |- *. rewrite x_bind, x_get, x_bind, x_assert in Eb |- *. destruct Hc as [En Hc]. rewrite bool_decide_eq_true_2 in Eb |- * by done.
      rewrite x_bind in Eb |- *. destruct (_ =? _)%N.
      - left. rewrite (flush_run r) in Eb by done. destruct (put_all r (pending c) g) as [g2|] eqn:Ep; [|done]. unfold put_all in Ep. by destruct (local_repo g r).
      - right. rewrite x_ret in Eb |- *. rewrite x_bind, x_res, hash_blob_run in Eb |- *. destruct (scalar_dec b); [|done]. rewrite x_bind, x_mod, x_ret, En. done. }
    assert (HR : cache_ok r c' /\ x = blob_id b /\ scalar_str b /\ exists d, pending c ++ [b] = d ++ pending c' /\ objs_of g r ⊆ objs_of g' r /\
      forall b', b' ∈ d -> objs_of g' r !! blob_id b' = Some (Blob (utf8_bytes b'))).
    { destruct Hl as [Hl|[Hl Hs]].
      - pose proof (cache_blobs_run r [b] c g Hc Hl) as HC. rewrite HB in HC. destruct HC as (H1 & _ & _ & Hf & [= ->] & d & Hd & Hp).
        split_and!; [done|done|by inversion Hf|]. exists d. split_and!; [done|by eapply put_all_grow|]. intros b' Hb'. by eapply put_all_stored.
      - rewrite Hl in Eb. injection Eb as <- <- <-. split_and!; [by apply cached_ok|done|done|]. exists []. split_and!; [|done|].
        + unfold pending. cbn. by rewrite map_app.
        + intros b' Hb'. by apply elem_of_nil in Hb'. }
    destruct HR as (H1 & H2 & H3 & d & Hd & Hg & Hst).
    assert (Hdg : dget (dset (s_caches s) r c') r = Some c') by by rewrite dget_dset_eq.
    assert (Hall : forall O, completes O (with_caches s (dset (s_caches s) r c')) g' -> forall b', b' ∈ pending c ++ [b] -> O !! blob_id b' = Some (Blob (utf8_bytes b'))).
    { intros O [Ho1 Ho2] b' Hb'. rewrite Hd in Hb'. apply elem_of_app in Hb' as [Hb'|Hb'].
      - eapply lookup_weaken; [by apply Hst|done].
      - eapply Ho2; [|exact Hb']. cbn. done. }
    split_and!; try done.
    - split.
      + split; [apply dset_ok; [apply Hok|apply H1]|]. intros c0 Hc0. cbn in Hc0. rewrite Hdg in Hc0. by injection Hc0 as <-.
      + intros O HO. split; [etrans; [exact Hg|apply HO]|]. intros c0 b' Hc0 Hb'. rewrite Ec in Hc0. injection Hc0 as <-. eapply Hall; [done|]. apply elem_of_app. by left.
    - unfold uncached. cbn. by rewrite Hdg.
    - intros O HO. rewrite H2. eapply Hall; [done|]. apply elem_of_app. right. by left.
  Qed.
  Lemma cache_realm_inv s g u s' g' : cok s -> exec (cache_realm (Some r) s) g = ((Ok u, s'), g') ->
    uncached s /\ ~ uncached s' /\ g' = g /\ s_heap s' = s_heap s /\ s_next s' = s_next s /\ later s g s' g'.
  Proof.
    unfold cache_realm. intros Hok He. apply xi_bind in He as (cs & s1 & g1 & E & He). apply xi_get in E as (-> & <- & <-). unfold dmem in He. unfold uncached.
    destruct (dget (s_caches s) r) as [c|] eqn:Ec; [done|]. cbn [is_some] in He.
    apply xi_mod in He as [-> ->]. cbn.
    assert (Hd : dget (dset (s_caches s) r (new_cache r 2000)) r = Some (new_cache r 2000)) by by rewrite dget_dset_eq.
    split_and!; try done; [by rewrite Hd|]. split.
    - split; [by apply dset_ok; [apply Hok|]|]. intros c Hc. cbn in Hc. rewrite Hd in Hc. injection Hc as <-. apply new_cache_ok.
    - intros O [H1 H2]. split; [done|]. intros c b Hc. congruence.
  Qed.
  Lemma dget_ddel {V : Type} (d : pydict pystr V) k : NoDup (dkeys d) -> dget (ddel d k) k = None.
  Proof.
    intros Hn. induction d as [|[k' v] d IH]; [done|]. unfold dkeys in Hn. cbn in Hn. apply NoDup_cons in Hn as [H1 H2]. cbn. destruct (decide (k' = k)) as [->|Hne].
    - cbn. by apply dget_None.
    - cbn. rewrite decide_False by done. by apply IH.
  Qed.
  Lemma flush_realm_inv s g u s' g' : cok s -> exec (flush_realm r s) g = ((Ok u, s'), g') ->
    ~ uncached s /\ uncached s' /\ s_heap s' = s_heap s /\ s_next s' = s_next s /\ later s g s' g'.
  Proof.
    intros Hok. pose proof Hok as [[Hn Hw] Hok']. unfold flush_realm. intros He. apply xi_bind in He as (u1 & s1 & g1 & E & He). apply xi_mod in He as [-> ->].
    unfold uncached. destruct (dget (s_caches s) r) as [c|] eqn:Ec.
    2: { unfold with_cache in E. rewrite Ec in E. done. }
    rewrite (x_with_cache _ _ _ _ c Ec) in E. rewrite (flush_run r) in E by by apply Hok'. destruct (put_all r (pending c) g) as [g2|] eqn:Ep; [|done].
    injection E as _ <- <-. cbn. assert (Hd : dget (ddel (dset (s_caches s) r (BCache r (bc_max c) [])) r) r = None).
    { apply dget_ddel. by apply dset_nodup. }
    split_and!; try done. split.
    - split; [apply ddel_ok, dset_ok; [apply Hok|done]|]. intros c0 Hc0. cbn in Hc0. congruence.
    - intros O [H1 H2]. split; [etrans; [by eapply put_all_grow|done]|]. intros c0 b Hc0 Hb. rewrite Ec in Hc0. injection Hc0 as <-.
      eapply lookup_weaken; [by eapply put_all_stored|done].
  Qed.

  (** ** All programs that write *)
  Context (Hr : r <> []).
  Lemma svm_cache_blob b : svm (with_cache r (cache_blob r b) (mraise Unmodelled)).
  Proof.
    intros s g x s' g' Hok He. destruct (dget (s_caches s) r) as [c|] eqn:Ec.
    - apply cache_blob_inv in He as (H1 & H2 & _); [|done|unfold uncached; by rewrite Ec]. split; [done|]. split; [|done]. unfold uncached at 1. by rewrite Ec.
    - unfold with_cache in He. rewrite Ec in He. done.
  Qed.
  Lemma svm_map_out_meta m : svm (map_out_meta m r).
  Proof.
    apply svm_bind; [apply keep_svm, keep_get|]. intros cs. destruct (dmem cs r).
    - apply svm_bind; [apply svm_cache_blob|]. intros x. apply svm_bind; [apply keep_svm, keep_oref|]. intros _. apply svm_bind; [apply svm_cache_blob|]. intros y. apply keep_svm, keep_ret.
    - apply keep_svm. apply keep_bind; [apply keep_save_str|]. intros x. apply keep_bind; [apply keep_oref|]. intros _. apply keep_bind; [apply keep_save_str|]. intros y. apply keep_ret.
  Qed.
  Lemma svm_ref_step (ref : reference) : svm (if is_none_reference ref then mret tt else mlet x <- loc_of ref; add_tree_reference x).
  Proof. apply keep_svm. destruct (is_none_reference ref); [apply keep_ret|]. apply keep_bind; [apply keep_loc_of|]. intros x. apply keep_oref. Qed.
  Lemma svm_proxy rec ft l force : (forall x b, svm (rec x (Some r) b)) -> svm (proxy_write_out rec ft l (Some r) force).
  Proof.
    intros Hrec s g ref s' g' Hok He. unfold proxy_write_out in He. apply xi_bind in He as (o & s1 & g1 & E & He). apply xi_getobj in E as (Ho & <- & <-).
    assert (or_else (Some r) (h_realm (o_hdr o)) = Some r) as Hd by (unfold or_else; by destruct r). rewrite Hd in He.
    assert (HT : svm (mlet ref <- rec l (Some r) force; (if is_none_reference ref then mret tt else mlet x <- loc_of ref; add_tree_reference x) ;;; mret ref)).
    { apply svm_bind; [apply Hrec|]. intros x. apply svm_bind; [apply svm_ref_step|]. intros _. apply keep_svm, keep_ret. }
    destruct ft.
    - apply xi_bind in He as (u1 & s2 & g2 & E1 & He). apply cache_realm_inv in E1 as (U1 & U2 & -> & _ & _ & L1); [|done].
      apply xi_bind in He as (x & s3 & g3 & E2 & He). apply Hrec in E2 as [L2 U3]; [|apply L1].
      apply xi_bind in He as (u2 & s4 & g4 & E3 & He). apply flush_realm_inv in E3 as (U4 & U5 & _ & _ & L3); [|apply L2].
      assert (HX : svm ((if is_none_reference x then mret tt else mlet y <- loc_of x; add_tree_reference y) ;;; mret x)) by (apply svm_bind; [apply svm_ref_step|intros _; apply keep_svm, keep_ret]).
      apply HX in He as [L4 U6]; [|apply L3]. split; [|by rewrite <- U6]. eapply later_trans; [exact L1|]. eapply later_trans; [exact L2|]. by eapply later_trans.
    - apply xi_bind in He as (u1 & s2 & g2 & E1 & He). apply xi_ret in E1 as (_ & <- & <-).
      apply xi_bind in He as (x & s3 & g3 & E2 & He). apply Hrec in E2 as [L2 U3]; [|done].
      apply xi_bind in He as (u2 & s4 & g4 & E3 & He). apply xi_ret in E3 as (_ & <- & <-).
      assert (HX : svm ((if is_none_reference x then mret tt else mlet y <- loc_of x; add_tree_reference y) ;;; mret x)) by (apply svm_bind; [apply svm_ref_step|intros _; apply keep_svm, keep_ret]).
      apply HX in He as [L4 U6]; [|apply L2]. split; [by eapply later_trans|]. by rewrite U3.
  Qed.
  Lemma svm_map_out rec l force : (forall x b, svm (rec x (Some r) b)) -> svm (map_out rec l r force).
  Proof.
    intros Hrec. apply svm_bind; [apply keep_svm, keep_getobj|]. intros o. destruct (o_body o) as [m|t|c d|i v m t|k vs|us].
    - apply svm_map_out_meta.
    - destruct t; [|apply keep_svm, keep_raise]. apply keep_svm. apply keep_bind; [apply keep_save_str|]. intros ?. apply keep_ret.
    - destruct d as [|nl d]; [apply keep_svm, keep_ret|]. apply svm_bind.
      { apply svm_miter. intros x _. apply svm_bind; [apply Hrec|]. intros _. apply keep_svm, keep_ret. }
      intros _. apply svm_bind; [apply svm_mmap; intros x _; apply keep_svm, keep_dir_entry|]. intros es. apply keep_svm.
      apply keep_bind; [apply keep_save_tree|]. intros ?. apply keep_ret.
    - apply svm_bind.
      { destruct t; [|apply keep_svm, keep_ret]. apply svm_bind; [by apply svm_proxy|]. intros x. apply svm_bind; [apply svm_ref_step|]. intros _. apply keep_svm, keep_ret. }
      intros fref. apply svm_bind.
      { destruct m; [|apply keep_svm, keep_ret]. apply svm_bind; [apply Hrec|]. intros x. apply keep_svm. apply keep_bind; [apply keep_loc_of|]. intros y. apply keep_bind; [apply keep_oref|]. intros _. apply keep_ret. }
      intros mref. apply keep_svm. apply keep_bind; [apply keep_save_str|]. intros ?. apply keep_ret.
    - apply svm_bind.
      { apply svm_mmap. intros q _. apply svm_bind; [destruct (vr_elt (snd q)); [by apply svm_proxy|apply Hrec]|]. intros ?. apply keep_svm, keep_ret. }
      intros js. apply keep_svm. apply keep_bind; [apply keep_save_str|]. intros x. apply keep_bind; [destruct k; [apply keep_update|apply keep_ret]|]. intros _. apply keep_ret.
    - apply svm_bind.
      { apply svm_mmap. intros q _. apply svm_bind; [apply Hrec|]. intros ?. apply keep_svm. apply keep_bind; [apply keep_loc_of|]. intros ?. apply keep_ret. }
      intros es. apply keep_svm. apply keep_bind; [apply keep_save_tree|]. intros x. apply keep_bind; [apply keep_update|]. intros _. apply keep_ret.
  Qed.
  Lemma svm_write_out fuel : forall l force, svm (write_out fuel l (Some r) force).
  Proof.
    induction fuel as [|f IH]; intros l force; cbn [write_out]; [apply keep_svm, keep_raise|]. apply svm_bind; [apply keep_svm, keep_getobj|]. intros o.
    destruct (negb _).
    - apply keep_svm. apply keep_bind; [apply keep_assert|]. intros _. apply keep_bind; [apply keep_assert|]. intros _. apply keep_bind; [apply keep_is_saved|].
      intros b. destruct b; [apply keep_own|apply keep_raise].
    - assert ((if truthy (h_realm (o_hdr o)) then or_else (Some r) (h_realm (o_hdr o)) else Some r) = Some r) as -> by (destruct (truthy _); [unfold or_else|]; by destruct r).
      destruct (is_remote r); [apply keep_svm, keep_raise|]. apply svm_bind; [apply keep_svm, keep_set_hdr|]. intros _. apply svm_bind; [apply keep_svm, keep_is_saved|]. intros b.
      destruct (_ && _); [apply keep_svm, keep_own|]. apply svm_bind; [by apply svm_map_out|]. intros ref. apply keep_svm.
      apply keep_bind; [apply keep_set_hdr|]. intros _. apply keep_bind; [apply keep_set_hdr|]. intros _. apply keep_ret.
  Qed.
End Save.
