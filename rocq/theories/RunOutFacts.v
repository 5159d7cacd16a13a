(** Writing fails only for a reason. *)
From Verif Require Import Base BaseFacts Path Json Refs Meta Spec_Meta MetaFacts GitText Spec_Git GitTextFacts Git GitFacts Spec_Store State BlobCache ObjRef Objects Spec_Look Spec_Heap Spec_Versions Spec_Write ExecFacts Spec_Cache CacheFacts WriteFacts LoadFacts PeekFacts TreeFacts VersionFacts LookFacts Spec_Content ContentFacts StoreFacts SaveFacts WriteBackFacts WriteAllFacts ReadBackFacts PurgeFacts Spec_Outcome.

Section Handed.
  Context `{Env}.
  Lemma handed_bind {A B : Type} (p : prog A) (f : A -> prog B) : forall g, handed (pbind p f) g = handed p g ++ handed (f (fst (exec p g))) (snd (exec p g)).
  Proof.
    induction p as [a|c k IH]; intros g; cbn [pbind handed exec]; [done|]. destruct (git c g) as [x g']. cbn [fst snd]. by rewrite IH, app_assoc.
  Qed.
  Lemma handed_mbind {S A B : Type} (m : M S A) (f : A -> M S B) s g : handed (mbind m f s) g =
    handed (m s) g ++ match exec (m s) g with ((Ok a, s1), g1) => handed (f a s1) g1 | _ => [] end.
  Proof. unfold mbind. rewrite handed_bind. by destruct (exec (m s) g) as [[[a|e] s1] g1]. Qed.
End Handed.

Section Held.
  Context `{Env}.
  Context (r : pystr).
  Implicit Types (s : pst) (g : gstate) (U : store).

  (** ** What waits in the cache goes on waiting or is given to git *)
  Definition held {A : Type} (m : M pst A) : Prop := forall s g res s' g', cok r s -> exec (m s) g = ((res, s'), g') ->
    cok r s' /\ forall b, In b (waiting r s) -> In b (waiting r s') \/ In (Blob (utf8_bytes b)) (handed (m s) g).
  Definition calm {A : Type} (m : M pst A) : Prop := forall s g res s' g', exec (m s) g = ((res, s'), g') -> s_caches s' = s_caches s.
  Lemma calm_held {A : Type} (m : M pst A) : calm m -> held m.
  Proof.
    intros Hk s g a s' g' Hc He. apply Hk in He. unfold cok, caches_ok, waiting in *. rewrite He. split; [done|]. auto.
  Qed.
  Lemma calm_ret {A : Type} (a : A) : calm (mret a).
  Proof. intros s g b s' g' He. by injection He as _ <- _. Qed.
  Lemma calm_raise {A : Type} e : calm (mraise (A := A) e).
  Proof. intros s g b s' g' He. by injection He as _ <- _. Qed.
  Lemma calm_res {A : Type} (x : res A) : calm (mres x).
  Proof. destruct x; [apply calm_ret|apply calm_raise]. Qed.
  Lemma calm_assert b : calm (massert b).
  Proof. destruct b; [apply calm_ret|apply calm_raise]. Qed.
  Lemma calm_get {A : Type} (f : pst -> A) : calm (mget f).
  Proof. intros s g b s' g' He. by injection He as _ <- _. Qed.
  Lemma calm_getobj l : calm (getobj l).
  Proof. intros s g b s' g' He. rewrite x_getobj in He. by injection He as _ <- _. Qed.
  Lemma calm_setobj l o : calm (setobj l o).
  Proof. intros s g b s' g' He. by injection He as _ <- _. Qed.
  Lemma calm_bind {A B : Type} (m : M pst A) (f : A -> M pst B) : calm m -> (forall a, calm (f a)) -> calm (mbind m f).
  Proof.
    intros H1 H2 s g b s' g' He. rewrite x_bind in He. destruct (exec (m s) g) as [[[a|e] s1] g1] eqn:E1; apply H1 in E1.
    - apply H2 in He. congruence.
    - injection He as _ <- _. done.
  Qed.
  Lemma calm_execute c : calm (execute c).
  Proof. intros s g b s' g' He. rewrite x_execute in He. by injection He as _ <- _. Qed.
  Lemma calm_checked c : calm (checked_execute c).
  Proof. apply calm_bind; [apply calm_execute|]. intros [out|]; [apply calm_res|apply calm_raise]. Qed.
  Lemma calm_first_line ls : calm (first_line ls).
  Proof. destruct ls; [apply calm_raise|apply calm_ret]. Qed.
  Lemma calm_save_str x b : calm (git_save_str x b).
  Proof. apply calm_bind; [apply calm_res|intros ?]. apply calm_bind; [apply calm_checked|intros ?]. apply calm_first_line. Qed.
  Lemma calm_save_tree x es : calm (git_save_tree_node x es).
  Proof. apply calm_bind; [apply calm_res|intros ?]. apply calm_bind; [apply calm_checked|intros ?]. apply calm_first_line. Qed.
  Lemma calm_update x y z : calm (git_update_ref x y z).
  Proof. apply calm_bind; [apply calm_checked|intros ?; apply calm_ret]. Qed.
  Lemma calm_set_hdr l f : calm (set_hdr l f).
  Proof. apply calm_bind; [apply calm_getobj|intros ?; apply calm_setobj]. Qed.
  Lemma calm_is_saved fuel l x : calm (is_saved_on fuel l x).
  Proof. intros s g b s' g' He. rewrite x_is_saved in He. by injection He as _ <- _. Qed.
  Lemma calm_own l : calm (own_reference l).
  Proof. apply calm_bind; [apply calm_getobj|intros o]. destruct (h_ref _); [apply calm_ret|apply calm_raise]. Qed.
  Lemma calm_loc_of x : calm (loc_of x).
  Proof. unfold loc_of. destruct (r_loc x); [apply calm_ret|apply calm_raise]. Qed.
  Lemma calm_oref t x : calm (add_object_reference t x).
  Proof. unfold add_object_reference. destruct (decide _); [apply calm_ret|]. intros s g b s' g' He. by injection He as _ <- _. Qed.
  Lemma calm_dir_entry nl : calm (dir_entry nl).
  Proof. apply calm_bind; [apply calm_getobj|intros o]. destruct (h_ref _); [apply calm_ret|apply calm_raise]. Qed.

  Lemma held_bind {A B : Type} (m : M pst A) (f : A -> M pst B) : held m -> (forall a, held (f a)) -> held (mbind m f).
  Proof.
    intros H1 H2 s g b s' g' Hc He. rewrite x_bind in He. rewrite handed_mbind. destruct (exec (m s) g) as [[[a|e] s1] g1] eqn:E1; apply H1 in E1 as [C1 W1]; try done.
    - apply H2 in He as [C2 W2]; [|done]. split; [done|]. intros b' Hb. destruct (W1 b' Hb) as [Hb1|Hb1]; [|right; apply in_or_app; by left].
      destruct (W2 b' Hb1); [by left|right; apply in_or_app; by right].
    - injection He as _ <- _. split; [done|]. rewrite app_nil_r. done.
  Qed.
  Lemma held_mmap {A B : Type} (F : A -> M pst B) ls : (forall x, In x ls -> held (F x)) -> held (mmap F ls).
  Proof.
    induction ls as [|x ls IH]; intros HF; cbn [mmap]; [apply calm_held, calm_ret|]. apply held_bind; [apply HF; by left|]. intros y.
    apply held_bind; [|intros ys; apply calm_held, calm_ret]. apply IH. intros z Hz. apply HF. by right.
  Qed.
  Lemma held_miter {A : Type} (F : A -> M pst unit) ls : (forall x, In x ls -> held (F x)) -> held (miter F ls).
  Proof.
    induction ls as [|x ls IH]; intros HF; cbn [miter]; [apply calm_held, calm_ret|]. apply held_bind; [apply HF; by left|]. intros y.
    apply IH. intros z Hz. apply HF. by right.
  Qed.
  Lemma handed_flush c g : cache_ok r c -> handed (cache_flush c) g = map (fun b => Blob (utf8_bytes b)) (pending c).
  Proof.
    intros [En Hc]. unfold cache_flush. rewrite handed_mbind, x_get, handed_mbind, x_res.
    assert (E : rmap (fun bh : pystr * pystr => encode (fst bh)) (bc_objs c) = Ok (map utf8_bytes (pending c))).
    { unfold pending. clear -Hc. induction Hc as [|bh l [Hb _] _ IH]; [done|]. cbn. by rewrite encode_ok, IH by done. }
    rewrite E, handed_mbind. unfold git_save_file_list. rewrite x_checked. cbn [handed mget mres mret]. unfold checked_execute. rewrite handed_mbind, x_execute.
    unfold execute. cbn [handed given app fst snd]. rewrite map_map, !app_nil_r, <- app_assoc.
    match goal with |- _ ++ ?l = _ => assert (l = []) as -> end; [|by rewrite app_nil_r].
    assert (HR : forall (A : Type) (x : res A) (s : bcache) g, handed (mres x s) g = []) by (intros A [] ? ?; done).
    assert (HA : forall b (s : bcache) g, handed (massert b s) g = []) by (intros [] ? ?; done).
    destruct (git _ g) as [[out|] g1]; cbn [fst snd]; rewrite ?HR; [|done]. destruct (stdout_lines out) as [ls|]; [|done]. cbn [app]. rewrite handed_mbind, HA, x_assert. cbn [app]. destruct (Nat.eqb _ _); [|done].
    rewrite handed_mbind, HA, x_assert. by destruct (forallb _ _).
  Qed.
  Lemma full_run (b : bool) c g : cache_ok r c ->
    exec ((if b then cache_flush else mret tt) c) g = (if b then match put_all r (pending c) g with Some g' => ((Ok tt, BCache r (bc_max c) []), g') | None => ((Err RuntimeError, c), g) end else ((Ok tt, c), g)) /\
    handed ((if b then cache_flush else mret tt) c) g = if b then map (fun x => Blob (utf8_bytes x)) (pending c) else [].
  Proof. intros Hc. destruct b; [|done]. split; [by apply flush_run|by apply handed_flush]. Qed.
  Lemma cache_blob_full c b g : cache_ok r c -> let fl := (N.of_nat (length (bc_objs c)) =? bc_max c)%N in
    exec (cache_blob r b c) g =
      (if fl then match put_all r (pending c) g with
                  | Some g' => (if scalar_dec b then (Ok (blob_id b), cached r (BCache r (bc_max c) []) b) else (Err UnicodeError, BCache r (bc_max c) []), g')
                  | None => ((Err RuntimeError, c), g)
                  end
       else (if scalar_dec b then (Ok (blob_id b), cached r c b) else (Err UnicodeError, c), g)) /\
    handed (cache_blob r b c) g = if fl then map (fun x => Blob (utf8_bytes x)) (pending c) else [].
  Proof.
    intros Hok. pose proof Hok as [En _]. cbv zeta. unfold cache_blob. rewrite x_bind, x_get, x_bind, x_assert, bool_decide_eq_true_2 by done. rewrite x_bind.
    destruct (full_run (N.of_nat (length (bc_objs c)) =? bc_max c)%N c g Hok) as [-> Hh].
    rewrite handed_mbind, x_get. cbn [handed mget app]. rewrite handed_mbind, x_assert, bool_decide_eq_true_2 by done. cbn [handed massert mret app]. rewrite handed_mbind, Hh.
    destruct (full_run (N.of_nat (length (bc_objs c)) =? bc_max c)%N c g Hok) as [-> _]. rewrite hash_blob_run.
    destruct (N.eqb _ _); [destruct (put_all r (pending c) g) as [g'|]; [|by rewrite app_nil_r]|].
    - rewrite x_bind, x_res. destruct (scalar_dec b); rewrite ?x_bind, ?x_mod, ?x_ret; cbn; by rewrite ?app_nil_r.
    - rewrite x_bind, x_res. destruct (scalar_dec b); rewrite ?x_bind, ?x_mod, ?x_ret; cbn; rewrite ?En; done.
  Qed.
  Lemma handed_with_cache {A : Type} (m : M bcache A) none s g c : dget (s_caches s) r = Some c -> handed (with_cache r m none s) g = handed (m c) g.
  Proof. intros Hc. unfold with_cache. rewrite Hc, handed_bind. cbn [handed]. by rewrite app_nil_r. Qed.
  Lemma waiting_set s c : waiting r (with_caches s (dset (s_caches s) r c)) = pending c.
  Proof. unfold waiting. cbn. rewrite dget_dset_eq. done. Qed.
  Lemma cok_set s c : cok r s -> cache_ok r c -> cok r (with_caches s (dset (s_caches s) r c)).
  Proof.
    intros Hok Hc. split; [apply dset_ok; [apply Hok|apply Hc]|]. intros c0 Hc0. cbn in Hc0. rewrite dget_dset_eq in Hc0. by injection Hc0 as <-.
  Qed.
  Lemma empty_ok max : cache_ok r (BCache r max []).
  Proof. split; [done|constructor]. Qed.
  Local Hint Resolve empty_ok : core.
  Lemma held_cache_blob b : held (with_cache r (cache_blob r b) (mraise Unmodelled)).
  Proof.
    intros s g res s' g' Hok He. destruct (dget (s_caches s) r) as [c|] eqn:Ec.
    - rewrite (handed_with_cache _ _ _ _ c Ec). rewrite (x_with_cache r _ _ _ _ c Ec) in He. assert (Hc : cache_ok r c) by by apply Hok.
      assert (Hw : waiting r s = pending c) by (unfold waiting; by rewrite Ec). rewrite Hw.
      destruct (cache_blob_full c b g Hc) as [Hx Hh]. rewrite Hh. rewrite Hx in He. destruct (N.eqb _ _); [destruct (put_all r (pending c) g) as [g1|]|].
      + destruct (scalar_dec b).
        * injection He as _ <- _. split; [apply cok_set; [done|by apply cached_ok]|]. intros x Hx'. right. apply in_map_iff. by exists x.
        * injection He as _ <- _. split; [apply cok_set; auto|]. intros x Hx'. right. apply in_map_iff. by exists x.
      + injection He as _ <- _. split; [apply cok_set; auto|]. intros x Hx'. right. apply in_map_iff. by exists x.
      + destruct (scalar_dec b); injection He as _ <- _; rewrite waiting_set; (split; [apply cok_set; [done|]; first [by apply cached_ok|done]|]); intros x Hx'; left; [|done].
        unfold pending, cached. cbn. rewrite map_app. apply in_or_app. by left.
    - unfold with_cache in *. rewrite Ec in *. injection He as _ <- _. split; [done|]. auto.
  Qed.
  Lemma held_cache_realm : held (cache_realm (Some r)).
  Proof.
    intros s g res s' g' Hok He. unfold cache_realm in *. rewrite x_bind, x_get in He. unfold dmem in He. destruct (dget (s_caches s) r) as [c|] eqn:Ec; cbn [is_some] in He.
    - injection He as _ <- _. split; [done|]. auto.
    - rewrite x_mod in He. injection He as _ <- _. split; [apply cok_set; [done|apply new_cache_ok]|]. unfold waiting at 1. rewrite Ec. done.
  Qed.
  Lemma held_flush_realm : held (flush_realm r).
  Proof.
    intros s g res s' g' Hok He. pose proof Hok as [[Hn Hw] Hok']. unfold flush_realm in *. rewrite x_bind in He. rewrite handed_mbind.
    destruct (dget (s_caches s) r) as [c|] eqn:Ec.
    2: { unfold with_cache in *. rewrite Ec in *. injection He as _ <- _. split; [done|]. auto. }
    assert (Hc : cache_ok r c) by by apply Hok'. rewrite (handed_with_cache _ _ _ _ c Ec), (handed_flush c g Hc). rewrite (x_with_cache r _ _ _ _ c Ec) in *. rewrite (flush_run r) in * by done.
    unfold waiting at 1. rewrite Ec. destruct (put_all r (pending c) g) as [g2|] eqn:Ep.
    - rewrite x_mod in He. injection He as _ <- _. split.
      + split; [apply ddel_ok, dset_ok; [done|done]|]. intros c0 Hc0. cbn in Hc0. rewrite dget_ddel in Hc0; [done|]. by apply dset_nodup.
      + intros b Hb. right. apply in_or_app. left. apply in_map_iff. by exists b.
    - injection He as _ <- _. split; [by apply cok_set|]. rewrite waiting_set. intros b Hb. by left.
  Qed.
  Context (Hr : r <> []).
  Lemma held_map_out_meta m : held (map_out_meta m r).
  Proof.
    apply held_bind; [apply calm_held, calm_get|]. intros cs. destruct (dmem cs r).
    - apply held_bind; [apply held_cache_blob|]. intros x. apply held_bind; [apply calm_held, calm_oref|]. intros _. apply held_bind; [apply held_cache_blob|]. intros y. apply calm_held, calm_ret.
    - apply calm_held. apply calm_bind; [apply calm_save_str|]. intros x. apply calm_bind; [apply calm_oref|]. intros _. apply calm_bind; [apply calm_save_str|]. intros y. apply calm_ret.
  Qed.
  Lemma held_ref_step (ref : reference) : held (if is_none_reference ref then mret tt else mlet x <- loc_of ref; add_tree_reference x).
  Proof. apply calm_held. destruct (is_none_reference ref); [apply calm_ret|]. apply calm_bind; [apply calm_loc_of|]. intros x. apply calm_oref. Qed.
  Lemma held_proxy rec ft l force : (forall x b, held (rec x (Some r) b)) -> held (proxy_write_out rec ft l (Some r) force).
  Proof.
    intros Hrec. unfold proxy_write_out. apply held_bind; [apply calm_held, calm_getobj|]. intros o.
    assert (or_else (Some r) (h_realm (o_hdr o)) = Some r) as -> by (unfold or_else; by destruct r).
    apply held_bind; [destruct ft; [apply held_cache_realm|apply calm_held, calm_ret]|]. intros _. apply held_bind; [apply Hrec|]. intros ref.
    apply held_bind; [destruct ft; [apply held_flush_realm|apply calm_held, calm_ret]|]. intros _. apply held_bind; [apply held_ref_step|]. intros _. apply calm_held, calm_ret.
  Qed.
  Lemma held_map_out rec l force : (forall x b, held (rec x (Some r) b)) -> held (map_out rec l r force).
  Proof.
    intros Hrec. apply held_bind; [apply calm_held, calm_getobj|]. intros o. destruct (o_body o) as [m|t|c d|i v m t|k vs|us].
    - apply held_map_out_meta.
    - destruct t; [|apply calm_held, calm_raise]. apply calm_held. apply calm_bind; [apply calm_save_str|]. intros ?. apply calm_ret.
    - destruct d as [|nl d]; [apply calm_held, calm_ret|]. apply held_bind.
      { apply held_miter. intros x _. apply held_bind; [apply Hrec|]. intros _. apply calm_held, calm_ret. }
      intros _. apply held_bind; [apply held_mmap; intros x _; apply calm_held, calm_dir_entry|]. intros es. apply calm_held.
      apply calm_bind; [apply calm_save_tree|]. intros ?. apply calm_ret.
    - apply held_bind.
      { destruct t; [|apply calm_held, calm_ret]. apply held_bind; [by apply held_proxy|]. intros x. apply held_bind; [apply held_ref_step|]. intros _. apply calm_held, calm_ret. }
      intros fref. apply held_bind.
      { destruct m; [|apply calm_held, calm_ret]. apply held_bind; [apply Hrec|]. intros x. apply calm_held. apply calm_bind; [apply calm_loc_of|]. intros y. apply calm_bind; [apply calm_oref|]. intros _. apply calm_ret. }
      intros mref. apply calm_held. apply calm_bind; [apply calm_save_str|]. intros ?. apply calm_ret.
    - apply held_bind.
      { apply held_mmap. intros q _. apply held_bind; [destruct (vr_elt (snd q)); [by apply held_proxy|apply Hrec]|]. intros ?. apply calm_held, calm_ret. }
      intros js. apply calm_held. apply calm_bind; [apply calm_save_str|]. intros x. apply calm_bind; [destruct k; [apply calm_update|apply calm_ret]|]. intros _. apply calm_ret.
    - apply held_bind.
      { apply held_mmap. intros q _. apply held_bind; [apply Hrec|]. intros ?. apply calm_held. apply calm_bind; [apply calm_loc_of|]. intros ?. apply calm_ret. }
      intros es. apply calm_held. apply calm_bind; [apply calm_save_tree|]. intros x. apply calm_bind; [apply calm_update|]. intros _. apply calm_ret.
  Qed.
  Lemma held_write_out fuel : forall l force, held (write_out fuel l (Some r) force).
  Proof.
    induction fuel as [|f IH]; intros l force; cbn [write_out]; [apply calm_held, calm_raise|]. apply held_bind; [apply calm_held, calm_getobj|]. intros o.
    destruct (negb _).
    - apply calm_held. apply calm_bind; [apply calm_assert|]. intros _. apply calm_bind; [apply calm_assert|]. intros _. apply calm_bind; [apply calm_is_saved|].
      intros b. destruct b; [apply calm_own|apply calm_raise].
    - assert ((if truthy (h_realm (o_hdr o)) then or_else (Some r) (h_realm (o_hdr o)) else Some r) = Some r) as -> by (destruct (truthy _); [unfold or_else|]; by destruct r).
      destruct (is_remote r); [apply calm_held, calm_raise|]. apply held_bind; [apply calm_held, calm_set_hdr|]. intros _. apply held_bind; [apply calm_held, calm_is_saved|]. intros b.
      destruct (_ && _); [apply calm_held, calm_own|]. apply held_bind; [by apply held_map_out|]. intros ref. apply calm_held.
      apply calm_bind; [apply calm_set_hdr|]. intros _. apply calm_bind; [apply calm_set_hdr|]. intros _. apply calm_ret.
  Qed.
End Held.

Section Fits.
  Context `{Env}.
  Context (r : pystr) (U : store) (Hloc : is_remote r = false).
  Implicit Types (s : pst) (g : gstate).

  (** All objects of the run are in [U], each under its id. *)
  Definition fits {A : Type} (m : M pst A) s g : Prop := forall res s' g', exec (m s) g = ((res, s'), g') ->
    completes r U s' g' /\ forall o, In o (handed (m s) g) -> U !! oid o = Some o.
  Definition wins {A : Type} (m : M pst A) s g : Prop := exists a s' g', exec (m s) g = ((Ok a, s'), g').
  Definition here g : Prop := is_Some (local_repo g r).

  Lemma exec_sub {A : Type} (p : prog A) g x g' : exec p g = (x, g') -> objs_of g r ⊆ objs_of g' r.
  Proof. intros He. pose proof (exec_grow p g) as Hg. rewrite He in Hg. apply Hg. Qed.
  Lemma exec_here {A : Type} (p : prog A) g x g' : exec p g = (x, g') -> here g -> here g'.
  Proof.
    intros He [rp Hl]. apply local_repo_inv in Hl as [_ Hl]. pose proof (exec_grow p g) as Hg. rewrite He in Hg. destruct (proj2 (Hg r)) as [rp' Hrp]; [by exists rp|].
    exists rp'. unfold local_repo. rewrite Hloc. done.
  Qed.
  Lemma waits s g c b : completes r U s g -> dget (s_caches s) r = Some c -> b ∈ pending c -> U !! blob_id b = Some (Blob (utf8_bytes b)).
  Proof. intros [_ HO]. by apply HO. Qed.
  Lemma completes_waiting s g : completes r U s g <-> objs_of g r ⊆ U /\ forall b, In b (waiting r s) -> U !! blob_id b = Some (Blob (utf8_bytes b)).
  Proof.
    unfold completes, waiting. split; intros [H1 H2]; (split; [done|]).
    - intros b Hb. destruct (dget (s_caches s) r) as [c|]; [|done]. eapply H2; [done|]. by apply elem_of_list_In.
    - intros c b Hc Hb. apply H2. rewrite Hc. by apply elem_of_list_In.
  Qed.
  Lemma fits_fst {A B : Type} (m : M pst A) (f : A -> M pst B) s g : held r m -> (forall a, held r (f a)) -> cok r s -> fits (mbind m f) s g -> fits m s g.
  Proof.
    intros Hm Hf Hc HF res s1 g1 He. destruct (exec (mbind m f s) g) as [[res' s'] g'] eqn:E. destruct (HF _ _ _ E) as [HO HI]. rewrite handed_mbind, He in HI. rewrite x_bind, He in E.
    split; [|intros o Ho; apply HI, in_or_app; by left]. destruct res as [a|e].
    - pose proof (exec_sub _ _ _ _ E) as Hs. destruct (Hm _ _ _ _ _ Hc He) as [C1 _]. destruct (Hf a _ _ _ _ _ C1 E) as [_ HW]. rewrite completes_waiting in HO |- *. destruct HO as [HO1 HO2].
      split; [by etrans|]. intros b Hb. destruct (HW b Hb) as [Hb'|Hb']; [by apply HO2|]. apply (HI (Blob (utf8_bytes b))), in_or_app. by right.
    - injection E as _ <- <-. done.
  Qed.
  Lemma fits_snd {A B : Type} (m : M pst A) (f : A -> M pst B) s g a s1 g1 : exec (m s) g = ((Ok a, s1), g1) -> fits (mbind m f) s g -> fits (f a) s1 g1.
  Proof.
    intros He HF res s' g' E. assert (E' : exec (mbind m f s) g = ((res, s'), g')) by by rewrite x_bind, He. destruct (HF _ _ _ E') as [HO HI]. split; [done|].
    intros o Ho. apply HI. rewrite handed_mbind, He. apply in_or_app. by right.
  Qed.
  Lemma wins_bind {A B : Type} (m : M pst A) (f : A -> M pst B) s g : held r m -> (forall a, held r (f a)) -> cok r s -> here g -> fits (mbind m f) s g ->
    (fits m s g -> wins m s g) ->
    (forall a s1 g1, exec (m s) g = ((Ok a, s1), g1) -> cok r s1 -> here g1 -> completes r U s1 g1 -> fits (f a) s1 g1 -> wins (f a) s1 g1) -> wins (mbind m f) s g.
  Proof.
    intros Hm Hf Hc Hh HF H1 H2. pose proof (fits_fst m f s g Hm Hf Hc HF) as HF1. destruct (H1 HF1) as (a & s1 & g1 & E).
    destruct (H2 a s1 g1) as (b & s' & g' & E'); [done|by apply (Hm _ _ _ _ _ Hc E)|by eapply exec_here|by apply (HF1 _ _ _ E)|by eapply fits_snd|].
    exists b, s', g'. by rewrite x_bind, E.
  Qed.
  Lemma fits_sub {A : Type} (m : M pst A) s g : fits m s g -> objs_of g r ⊆ U.
  Proof. intros HF. destruct (exec (m s) g) as [[res s'] g'] eqn:E. destruct (HF _ _ _ E) as [[HO _] _]. etrans; [by eapply exec_sub|done]. Qed.
  Lemma fits_handed {A : Type} (m : M pst A) s g o : fits m s g -> In o (handed (m s) g) -> U !! oid o = Some o.
  Proof. intros HF. destruct (exec (m s) g) as [[res s'] g'] eqn:E. destruct (HF _ _ _ E) as [_ HI]. apply HI. Qed.

  Lemma put_obj_fit o (x : repo) : U !! oid o = Some o -> r_objs x ⊆ U -> exists x', put_obj o x = Some x' /\ r_objs x' ⊆ U.
  Proof.
    intros Ho Hx. unfold put_obj. destruct (r_objs x !! oid o) as [o'|] eqn:E.
    - assert (o' = o) as ->. { pose proof (lookup_weaken _ _ _ _ E Hx) as E'. unfold store in *. congruence. }
      rewrite decide_True by done. eauto.
    - eexists. split; [done|]. cbn. unfold store in *. by apply insert_subseteq_l.
  Qed.
  Lemma put_objs_fit os : forall x : repo, (forall o, In o os -> U !! oid o = Some o) -> r_objs x ⊆ U -> exists x', put_objs os x = Some x'.
  Proof.
    induction os as [|o os IH]; intros x Ho Hx; cbn [put_objs]; [eauto|]. destruct (put_obj_fit o x) as (x' & -> & Hx'); [apply Ho; by left|done|].
    apply IH; [|done]. intros o' Ho'. apply Ho. by right.
  Qed.
  Lemma put_all_fit bs g : here g -> objs_of g r ⊆ U -> (forall b, In b bs -> U !! blob_id b = Some (Blob (utf8_bytes b))) -> is_Some (put_all r bs g).
  Proof.
    intros [x Hl] Hs Hb. unfold put_all. rewrite Hl. apply local_repo_inv in Hl as [_ Hl]. rewrite (objs_repo _ _ _ Hl) in Hs.
    destruct (put_objs_fit (blob_objs bs) x) as (x' & ->); [|done|by eexists]. intros o Ho. unfold blob_objs in Ho. apply in_map_iff in Ho as (b & <- & Hin). by apply Hb.
  Qed.
  Lemma handed_checked {S : Type} c (s : S) g : handed (checked_execute c s) g = given c.
  Proof.
    unfold checked_execute. rewrite handed_mbind, x_execute. unfold execute. cbn [handed fst snd]. rewrite app_nil_r.
    destruct (git c g) as [[out|] g']; cbn [fst snd]; [|by rewrite app_nil_r]. assert (handed (mres (stdout_lines out) s) g' = []) as -> by (by destruct (stdout_lines out)). by rewrite app_nil_r.
  Qed.
  Lemma wins_ret {A : Type} (a : A) s g : wins (mret a) s g.
  Proof. by exists a, s, g. Qed.
  Lemma wins_save_str b s g : here g -> scalar_str b -> fits (git_save_str r b) s g -> wins (git_save_str r b) s g.
  Proof.
    intros Hh Hb HF. pose proof (fits_sub _ _ _ HF) as Hs. assert (Ho : U !! blob_id b = Some (Blob (utf8_bytes b))).
    { apply (fits_handed _ _ _ (Blob (utf8_bytes b)) HF). unfold git_save_str. rewrite handed_mbind, x_res, encode_ok by done. apply in_or_app. right. rewrite handed_mbind, handed_checked. apply in_or_app. left. by left. }
    unfold wins. setoid_rewrite save_str_run. destruct (scalar_dec b); [|done]. destruct (put_all_fit [b] g) as [g' ->]; [done|done| |by eexists _, _, _].
    by intros b' [<-|[]].
  Qed.
  Lemma wins_save_tree es input ts s g : here g -> encode (tree_spec es) = Ok input -> mktree_input input = Some ts ->
    (forall e o, In e ts -> U !! te_id e = Some o -> obj_type o = mode_type (te_mode e)) -> fits (git_save_tree_node r es) s g -> wins (git_save_tree_node r es) s g.
  Proof.
    intros [x Hl] Hi Hm Ht HF. pose proof (fits_sub _ _ _ HF) as Hs. pose proof Hl as Hl'. apply local_repo_inv in Hl' as [_ Hl']. rewrite (objs_repo _ _ _ Hl') in Hs.
    assert (Ho : U !! oid (Tree ts) = Some (Tree ts)).
    { apply (fits_handed _ _ _ (Tree ts) HF). unfold git_save_tree_node. rewrite handed_mbind, x_res, Hi. apply in_or_app. right. rewrite handed_mbind, handed_checked. apply in_or_app. left. cbn [given]. rewrite Hm. by left. }
    unfold wins, git_save_tree_node. setoid_rewrite x_bind. setoid_rewrite x_res. rewrite Hi. setoid_rewrite x_bind. setoid_rewrite x_checked. cbn [git]. rewrite Hl, Hm.
    assert (forallb (fun c => c <? 256)%N input = true) as ->.
    { apply encode_inv in Hi as [Hsc ->]. apply forallb_forall. intros c Hc. apply N.ltb_lt. pose proof (utf8_bytes_lt _ Hsc) as HL. rewrite List.Forall_forall in HL. by apply HL. }
    assert (types_ok x ts = true) as ->.
    { unfold types_ok. apply forallb_forall. intros e He. destruct (r_objs x !! te_id e) as [o|] eqn:E; [|done]. apply bool_decide_eq_true. apply (Ht e o He). by eapply lookup_weaken. }
    cbn [andb]. destruct (put_obj_fit (Tree ts) x Ho Hs) as (x' & -> & _). cbn [fst snd]. rewrite line_lines by apply oid_hex. cbn [first_line]. eexists _, _, _. by rewrite x_ret.
  Qed.
  Lemma wins_update name x o s g : here g -> hex40 x -> objs_of g r !! x = Some o -> wins (git_update_ref r name x) s g.
  Proof.
    intros [rp Hl] Hx Ho. unfold wins, git_update_ref. setoid_rewrite x_bind. setoid_rewrite x_checked. cbn [git]. rewrite Hl. unfold resolve. apply object_id_hex40 in Hx. rewrite Hx.
    apply local_repo_inv in Hl as [_ Hl]. rewrite (objs_repo _ _ _ Hl) in Ho. rewrite Ho. cbn [fst snd]. eexists _, _, _. done.
  Qed.
  Lemma wins_cache_realm s g : uncached r s -> wins (cache_realm (Some r)) s g.
  Proof. intros Hu. unfold wins, cache_realm. setoid_rewrite x_bind. setoid_rewrite x_get. unfold dmem. unfold uncached in Hu. rewrite Hu. cbn [is_some]. eexists _, _, _. by rewrite x_mod. Qed.
  Lemma wins_flush s g : here g -> cok r s -> ~ uncached r s -> completes r U s g -> wins (flush_realm r) s g.
  Proof.
    intros Hh Hc Hu HO. unfold uncached in Hu. destruct (dget (s_caches s) r) as [c|] eqn:Ec; [|done]. unfold wins, flush_realm. setoid_rewrite x_bind. setoid_rewrite (x_with_cache r _ _ s g c Ec).
    rewrite (flush_run r) by by apply Hc. destruct (put_all_fit (pending c) g) as [g' ->]; [done|apply HO| |by eexists _, _, _].
    intros b Hb. eapply waits; [done|done|by apply elem_of_list_In].
  Qed.
  Lemma wins_cache_blob b s g : here g -> cok r s -> ~ uncached r s -> completes r U s g -> scalar_str b -> wins (with_cache r (cache_blob r b) (mraise Unmodelled)) s g.
  Proof.
    intros Hh Hc Hu HO Hb. unfold uncached in Hu. destruct (dget (s_caches s) r) as [c|] eqn:Ec; [|done]. unfold wins. setoid_rewrite (x_with_cache r _ _ s g c Ec).
    destruct (cache_blob_full r c b g) as [-> _]; [by apply Hc|]. destruct (scalar_dec b); [|done]. destruct (N.eqb _ _); [|by eexists _, _, _].
    destruct (put_all_fit (pending c) g) as [g' ->]; [done|apply HO| |by eexists _, _, _]. intros b' Hb'. eapply waits; [done|done|by apply elem_of_list_In].
  Qed.
End Fits.

(** ** Objects that can be written *)
Section Fit.
  Context (U : store) (r : pystr).
  Implicit Types (h : heap) (s : pst).
  Record fit (n : nat) h (l : loc) : Prop := {
    fit_settled : settled r h l;
    fit_dirs : dirs_filled (look U h l);
    fit_depth : shallow n h l;
  }.
  Lemma look_kid h l o k x q : h !! l = Some o -> h_mapped (o_hdr o) = true -> dget (kids_of (o_body o)) k = Some x ->
    look U h l (k :: q) = if is_ktree k && hollow_at U h x then Absent else look U h x q.
  Proof. intros Ho Hm Hd. cbn [look]. by rewrite Ho, Hm, Hd. Qed.
  Lemma look_hollow h x k q : hollow_at U h x = true -> look U h x (k :: q) = Absent.
  Proof.
    unfold hollow_at. cbn [look]. destruct (h !! x) as [o|]; [|done]. destruct (h_mapped (o_hdr o)).
    - destruct (o_body o) as [| |c d| | |]; try done. by destruct d.
    - destruct (h_ref (o_hdr o)) as [ref|]; [|done]. unfold hollow. cbn [look_stored]. destruct (stored U _ ref) as [[b ks]|]; [|done]. destruct b as [| |c d| | |]; try done. by destruct d.
  Qed.
  Lemma fit_frame n h h' l : frame h h' -> fit n h l -> fit n h' l.
  Proof.
    intros Hf [F1 F2 F3]. assert (HR : forall p, reach h' l p = reach h l p) by (intros p; by apply fo_reach, fr_on).
    assert (HL : forall p, look U h' l p = look U h l p) by (intros p; by apply fo_look, fr_on). split.
    - intros p x o Hp Ho Hm. rewrite HR in Hp. pose proof (Hf x) as Hx. rewrite Ho in Hx. destruct (h !! x) as [o'|] eqn:Eo; [|done]. destruct Hx as (_ & Hm' & Hs & _).
      apply Hs. eapply F1; [done|done|congruence].
    - intros p n' cl. rewrite HL. intros Hs. destruct (F2 p n' cl Hs) as (k & lb & Hk). exists k, lb. by rewrite HL.
    - intros p x. rewrite HR. apply F3.
  Qed.
  Lemma fit_kid n h l o k x : fit (S n) h l -> h !! l = Some o -> h_mapped (o_hdr o) = true -> dget (kids_of (o_body o)) k = Some x -> fit n h x.
  Proof.
    intros [F1 F2 F3] Ho Hm Hd. assert (HR : forall p, reach h l (k :: p) = reach h x p) by (intros p; cbn [reach]; by rewrite Ho, Hm, Hd). split.
    - intros p y oy Hp. rewrite <- HR in Hp. by eapply F1.
    - intros p n' cl Hs. destruct (is_ktree k && hollow_at U h x) eqn:E.
      + apply andb_true_iff in E as [_ E]. exfalso. destruct p; cbn [app] in Hs; by rewrite look_hollow in Hs.
      + pose proof (look_kid h l o k x (p ++ [KName n']) Ho Hm Hd) as H1. rewrite E in H1. destruct (F2 (k :: p) n' cl) as (k' & lb & Hk); [cbn [app]; congruence|]. exists k', lb.
        cbn [app] in Hk. pose proof (look_kid h l o k x (p ++ [KName n'; k']) Ho Hm Hd) as H2. rewrite E in H2. congruence.
    - intros p y Hp. rewrite <- HR in Hp. apply F3 in Hp. cbn in Hp. lia.
  Qed.
  (** Entries of a tree are not empty. *)
  Lemma fit_entry n h l o nm x : fit n h l -> h !! l = Some o -> h_mapped (o_hdr o) = true -> dget (kids_of (o_body o)) (KName nm) = Some x ->
    hollow_at U h x = true -> forall cl, look U h x [] <> Seen (LbNode cl).
  Proof.
    intros [_ F2 _] Ho Hm Hd Hh cl Hs. pose proof (look_kid h l o _ x [] Ho Hm Hd) as H1. cbn [is_ktree andb] in H1. destruct (F2 [] nm cl) as (k & lb & Hk); [cbn [app]; congruence|].
    cbn [app] in Hk. pose proof (look_kid h l o _ x [k] Ho Hm Hd) as H2. cbn [is_ktree andb] in H2. rewrite (look_hollow h x k []) in H2 by done. congruence.
  Qed.
  Lemma all_saved_runs (f : loc -> res bool) ls : (forall x, In x ls -> exists b, f x = Ok b) -> exists b, Objects.all_saved f ls = Ok b.
  Proof.
    induction ls as [|x ls IH]; intros Hf; cbn [Objects.all_saved]; [eauto|]. destruct (Hf x (or_introl eq_refl)) as [b ->]. cbn [rbind]. destruct b; [|eauto]. apply IH. intros y Hy. apply Hf. by right.
  Qed.
  Lemma saved_runs n s : heap_ok s -> forall l, is_Some (s_heap s !! l) -> shallow n (s_heap s) l -> exists b, saved_on n (s_heap s) l (Some r) = Ok b.
  Proof.
    intros Hok. induction n as [|n IH]; intros l [o Ho] Hd.
    - specialize (Hd [] l eq_refl). cbn in Hd. lia.
    - cbn [saved_on]. rewrite Ho. destruct (negb _); [eauto|]. destruct (h_mapped (o_hdr o)) eqn:Em; [|eauto]. apply all_saved_runs. intros x Hx.
      destruct (Hok l o Ho) as (_ & Hs & _ & Hn). apply IH; [by apply Hs|]. rewrite <- sub_kids in Hx. apply in_map_iff in Hx as ([k x'] & <- & Hin).
      intros p y Hp. cbn [snd] in Hp. specialize (Hd (k :: p) y). cbn [reach length] in Hd. rewrite Ho, Em, (TreeFacts.In_dget _ _ _ Hn Hin) in Hd. specialize (Hd Hp). lia.
  Qed.
  Lemma stored_type k t id o tm : hex40 id -> stored U k (ref_of t id) = Ok tm -> U !! id = Some o -> obj_type o = match k with KdNode _ | KdUs => TTree | _ => TBlob end.
  Proof.
    intros Hx Hs Ho. unfold stored in Hs. rewrite hex40_not_none in Hs by done. destruct (jis_str _ _); [|done]. unfold stored_body in Hs. cbn [ref_loc ref_of r_loc rbind] in Hs.
    unfold load_text, load_lines in Hs. destruct (object_id id); [|by destruct k]. destruct o as [b|es]; rewrite Ho in Hs; by destruct k.
  Qed.
End Fit.
