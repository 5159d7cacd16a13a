(** What a write changes, whether it returns or not. *)
From Verif Require Import Base BaseFacts Path Json Refs Meta GitText Git Spec_Store GitFacts State BlobCache ObjRef Objects ExecFacts Spec_Look Spec_Heap Spec_Write Spec_Content WriteFacts LoadFacts PeekFacts TreeFacts VersionFacts LookFacts ContentFacts StoreFacts SaveFacts WriteBackFacts PurgeFacts.

Section AnyWrite.
  Context `{Env}.
  Context (d : pystr) (Hd : d <> []).
  Context (h0 : heap) (n0 : N) (cs0 : pydict pystr bcache) (S : loc -> Prop).
  Context (Hcl : forall x o z, S x -> h0 !! x = Some o -> h_mapped (o_hdr o) = true -> In z (sub_objects (o_body o)) -> S z).
  Notation any := (fun _ : cmd => True).
  Implicit Types (s : pst).
  (** Only headers of loaded objects in [S] differ, and only the cache of [d]. *)
  Definition inside s : Prop :=
    frame h0 (s_heap s) /\ s_next s = n0 /\ (forall y : loc, ~ S y -> s_heap s !! y = h0 !! y) /\
    caches_ok s /\ forall n, n <> d -> dget (s_caches s) n = dget cs0 n.

  Lemma in_get l : mall any inside (getobj l).
  Proof. intros s Hs. unfold getobj. by destruct (s_heap s !! l). Qed.
  Lemma in_hdr l f o0 : S l -> h0 !! l = Some o0 -> h_mapped (o_hdr o0) = true -> (forall x, h_mapped (f x) = h_mapped x /\ h_saved x ⊆ h_saved (f x)) -> mall any inside (set_hdr l f).
  Proof.
    intros HS H0 Hm Hf s (H1 & H2 & H3 & H4 & H5). unfold set_hdr, getobj, mbind. cbn. destruct (s_heap s !! l) as [o|] eqn:E; cbn; [|by split_and!].
    destruct (Hf (o_hdr o)) as [F1 F2]. destruct (fr_get _ _ _ _ H1 H0) as (o' & Ho' & (B1 & B2 & B3 & B4)). assert (o' = o) as -> by congruence.
    split_and!; try done.
    - intros y. cbn [s_heap with_heap]. rewrite heap_insert. destruct (decide (l = y)) as [<-|Hne]; [|apply H1]. rewrite H0. cbn. split_and!; [done|cbn; congruence|cbn; by etrans|]. cbn. congruence.
    - intros y Hy. cbn [s_heap with_heap]. rewrite heap_insert, decide_False; [by apply H3|]. by intros <-.
  Qed.
  Lemma in_is_saved fuel l x : mall any inside (is_saved_on fuel l x).
  Proof. apply mall_bind; [apply mall_get|]. intros. apply mall_res. Qed.
  Lemma in_own l : mall any inside (own_reference l).
  Proof. apply mall_bind; [apply in_get|]. intros o. destruct (h_ref (o_hdr o)); [apply mall_ret|apply mall_raise]. Qed.
  Lemma in_loc_of r : mall any inside (loc_of r).
  Proof. unfold loc_of. destruct (r_loc r); [apply mall_ret|apply mall_raise]. Qed.
  Lemma in_orefs t h : mall any inside (add_object_reference t h).
  Proof. unfold add_object_reference. destruct (decide _); [apply mall_ret|]. apply mall_mod. intros s Hs. exact Hs. Qed.
  Lemma in_save_str x b : mall any inside (git_save_str x b).
  Proof. apply mall_bind; [apply mall_res|]. intros y. apply mall_bind; [by apply mall_checked|]. intros [|z zs]; [apply mall_raise|apply mall_ret]. Qed.
  Lemma in_save_tree x es : mall any inside (git_save_tree_node x es).
  Proof. apply mall_bind; [apply mall_res|]. intros y. apply mall_bind; [by apply mall_checked|]. intros [|z zs]; [apply mall_raise|apply mall_ret]. Qed.
  Lemma in_update x y z : mall any inside (git_update_ref x y z).
  Proof. apply mall_bind; [by apply mall_checked|]. intros. apply mall_ret. Qed.
  Lemma in_with_cache {A : Type} (m : M bcache A) none : mall (store_cmd d) (of_realm d) m -> mall any inside none -> mall any inside (with_cache d m none).
  Proof.
    intros Hm Hn s Hs. unfold with_cache. destruct (dget (s_caches s) d) as [c|] eqn:E; [|by apply Hn].
    destruct Hs as (H1 & H2 & H3 & H4 & H5).
    apply pall_bind. eapply pall_mono; [| |apply (Hm c)]; [done| |apply H4; by apply dget_Some_In].
    intros [r c'] Hc'. cbn in *. split_and!; try done; [unfold caches_ok; cbn; by apply dset_ok|]. intros n Hn'. cbn [s_caches with_caches]. rewrite dget_dset_ne by congruence. by apply H5.
  Qed.
  Lemma in_flush_realm : mall any inside (flush_realm d).
  Proof.
    apply mall_bind; [apply in_with_cache; [apply kb_flush|apply mall_raise]|]. intros _. apply mall_mod. intros s (H1 & H2 & H3 & H4 & H5).
    split_and!; try done; [by apply ddel_ok|]. intros n Hn'. cbn [s_caches with_caches]. rewrite dget_ddel_ne by congruence. by apply H5.
  Qed.
  Lemma in_cache_realm : mall any inside (cache_realm (Some d)).
  Proof.
    apply mall_bind; [apply mall_get|]. intros cs.
    destruct (dmem cs d); [apply mall_raise|]. apply mall_mod. intros s (H1 & H2 & H3 & H4 & H5). split_and!; try done; [unfold caches_ok; cbn; by apply dset_ok|].
    intros n Hn'. cbn [s_caches with_caches]. rewrite dget_dset_ne by congruence. by apply H5.
  Qed.
  Lemma in_map_out_meta m : mall any inside (map_out_meta m d).
  Proof.
    unfold map_out_meta. apply mall_bind; [apply mall_get|]. intros cs. destruct (dmem cs d).
    - apply mall_bind; [apply in_with_cache; [apply kb_cache_blob|apply mall_raise]|]. intros y. apply mall_bind; [apply in_orefs|]. intros _.
      apply mall_bind; [apply in_with_cache; [apply kb_cache_blob|apply mall_raise]|]. intros z. apply mall_ret.
    - apply mall_bind; [apply in_save_str|]. intros y. apply mall_bind; [apply in_orefs|]. intros _.
      apply mall_bind; [apply in_save_str|]. intros z. apply mall_ret.
  Qed.
  Lemma in_proxy rec ft l force : (forall f, mall any inside (rec l (Some d) f)) ->
    mall any inside (proxy_write_out rec ft l (Some d) force).
  Proof using Hd.
    intros Hrec. unfold proxy_write_out. apply mall_bind; [apply in_get|]. intros o. cbv zeta.
    assert (or_else (Some d) (h_realm (o_hdr o)) = Some d) as -> by (unfold or_else; cbn; by destruct d).
    apply mall_bind; [destruct ft; [apply in_cache_realm|apply mall_ret]|]. intros _.
    apply mall_bind; [apply Hrec|]. intros ref.
    apply mall_bind; [destruct ft; [apply in_flush_realm|apply mall_ret]|]. intros _.
    apply mall_bind; [destruct (is_none_reference ref); [apply mall_ret|]|intros; apply mall_ret].
    apply mall_bind; [apply in_loc_of|]. intros. apply in_orefs.
  Qed.
  Lemma in_map_out rec l force o0 : h0 !! l = Some o0 -> (forall x f, In x (sub_objects (o_body o0)) -> mall any inside (rec x (Some d) f)) ->
    mall any inside (map_out rec l d force).
  Proof using Hd.
    intros H0 Hrec. pose proof (fun ft x f Hx => in_proxy rec ft x f (fun f' => Hrec x f' Hx)) as Hp. unfold map_out. intros s Hs. unfold mbind at 1. apply pall_bind. unfold getobj.
    destruct (s_heap s !! l) as [o|] eqn:E; [|done]. cbn [pall fst snd]. assert (Hb : o_body o = o_body o0).
    { destruct Hs as (H1 & _). destruct (fr_get _ _ _ _ H1 H0) as (o' & Ho' & (B1 & _)). congruence. }
    rewrite Hb. match goal with |- pall _ _ (?m s) => refine ((_ : mall _ inside m) s Hs) end. clear s Hs E Hb o.
    destruct (o_body o0) as [m|t|c dd|i v m t|k vs|us]; cbn [sub_objects] in Hrec, Hp.
    - apply in_map_out_meta.
    - destruct t; [|apply mall_raise]. apply mall_bind; [apply in_save_str|]. intros. apply mall_ret.
    - destruct dd as [|x dd]; [apply mall_ret|]. apply mall_bind.
      { apply mall_iter. intros y Hy. apply mall_bind; [by apply Hrec|]. intros. apply mall_ret. }
      intros _. apply mall_bind.
      { apply mall_map. intros y _. apply mall_bind; [apply in_get|]. intros oy. destruct (h_ref _); [apply mall_ret|apply mall_raise]. }
      intros es. apply mall_bind; [apply in_save_tree|]. intros. apply mall_ret.
    - apply mall_bind.
      { destruct t as [y|]; [|apply mall_ret]. apply mall_bind; [apply Hp; apply in_app_iff; right; by left|]. intros r.
        apply mall_bind; [|intros; apply mall_ret]. destruct (is_none_reference r); [apply mall_ret|].
        apply mall_bind; [apply in_loc_of|]. intros. apply in_orefs. }
      intros fref. apply mall_bind.
      { destruct m as [y|]; [|apply mall_ret]. apply mall_bind; [apply Hrec; by left|]. intros r.
        apply mall_bind; [apply in_loc_of|]. intros. apply mall_bind; [apply in_orefs|intros; apply mall_ret]. }
      intros mref. apply mall_bind; [apply in_save_str|]. intros. apply mall_ret.
    - apply mall_bind.
      { apply mall_map. intros [v0 r] Hin. apply mall_bind; [|intros; apply mall_ret]. cbn [fst snd].
        assert (Hx : In (elt_loc (vr_elt r)) (map (fun r => elt_loc (vr_elt (snd r))) (vs_records vs))) by (apply in_map_iff; by exists (v0, r)).
        destruct (vr_elt r); [by apply Hp|by apply Hrec]. }
      intros js. apply mall_bind; [apply in_save_str|]. intros x.
      apply mall_bind; [|intros; apply mall_ret]. destruct k; [|apply mall_ret]. apply in_update.
    - apply mall_bind.
      { apply mall_map. intros [u y] Hin. apply mall_bind; [apply Hrec; unfold dvals; apply in_map_iff; by exists (u, y)|].
        intros r. apply mall_bind; [apply in_loc_of|]. intros. apply mall_ret. }
      intros es. apply mall_bind; [apply in_save_tree|]. intros x.
      apply mall_bind; [|intros; apply mall_ret]. apply in_update.
  Qed.
  Lemma in_write_out fuel : forall l force, S l -> mall any inside (write_out fuel l (Some d) force).
  Proof using Hd Hcl.
    induction fuel as [|f IH]; intros l force HS; [apply mall_raise|]. cbn [write_out]. intros s Hs.
    unfold mbind at 1. apply pall_bind. unfold getobj at 1. destruct (s_heap s !! l) as [o|] eqn:E; [|done]. cbn [pall fst snd].
    assert (H0 : exists o0, h0 !! l = Some o0 /\ same_obj o0 o) by by eapply fr_back; [apply Hs|]. destruct H0 as (o0 & H0 & (B1 & B2 & _)).
    match goal with |- pall _ _ (?m s) => refine ((_ : mall _ inside m) s Hs) end. clear s Hs E.
    destruct (h_mapped (o_hdr o)) eqn:Em; cbn [negb].
    2:{ apply mall_bind; [apply mall_assert|]. intros _. apply mall_bind; [apply mall_assert|]. intros _.
        apply mall_bind; [apply in_is_saved|]. intros []; [apply in_own|apply mall_raise]. }
    assert ((if truthy (h_realm (o_hdr o)) then or_else (Some d) (h_realm (o_hdr o)) else Some d) = Some d) as ->.
    { unfold or_else. cbn. destruct d; [done|]. by destruct (truthy _). }
    destruct (is_remote d); [apply mall_raise|].
    apply mall_bind; [by eapply in_hdr|]. intros _. apply mall_bind; [apply in_is_saved|]. intros b.
    destruct (b && negb force); [by apply in_own|].
    apply mall_bind; [eapply in_map_out; [exact H0|]; intros x fo Hx; apply IH; by eapply Hcl|]. intros ref.
    apply mall_bind; [by eapply in_hdr|]. intros _. apply mall_bind; [eapply in_hdr; try done; intros x; split; [done|cbn; set_solver]|]. intros _. apply mall_ret.
  Qed.
End AnyWrite.

Lemma reach_closed s l : heap_ok s -> forall x o z, (exists p, reach (s_heap s) l p = Some x) -> s_heap s !! x = Some o -> h_mapped (o_hdr o) = true -> In z (sub_objects (o_body o)) ->
  exists p, reach (s_heap s) l p = Some z.
Proof.
  intros Hok x o z (p & Hp) Ho Hm Hz. destruct (Hok x o Ho) as (_ & _ & _ & Hn). rewrite <- sub_kids in Hz. apply in_map_iff in Hz as ([k y'] & <- & Hin).
  exists (p ++ [k]). rewrite reach_app, Hp. cbn [reach]. rewrite Ho, Hm. by rewrite (TreeFacts.In_dget _ _ _ Hn Hin).
Qed.
Lemma any_write `{Env} d fuel l force m s g a s' g' : d <> [] -> Spec_Write.writes fuel l (Some d) force m -> heap_ok s -> caches_ok s -> exec (m s) g = ((a, s'), g') ->
  wfr s s' l /\ caches_ok s' /\ forall n, n <> d -> dget (s_caches s') n = dget (s_caches s) n.
Proof.
  intros Hd Hw Hok Hc He. set (S := fun y => exists p, reach (s_heap s) l p = Some y).
  assert (Hm : mall (fun _ => True) (inside d (s_heap s) (s_next s) (s_caches s) S) m).
  { assert (HS : S l) by by exists []. destruct Hw as [| |]; [apply in_write_out; [done|by apply reach_closed|done]| |];
      (apply in_proxy; [done|]; intros f; apply in_write_out; [done|by apply reach_closed|done]). }
  assert (H0 : inside d (s_heap s) (s_next s) (s_caches s) S s) by (split; [apply fr_refl|by split_and!]).
  pose proof (pall_exec _ _ _ g (Hm s H0)) as HH. rewrite He in HH. cbn [fst snd] in HH. destruct HH as (H1 & H2 & H3 & H4 & H5).
  split; [|by split]. split; [done|]. split; [done|]. intros y Hy. apply H3. intros [p Hp]. by apply (Hy p).
Qed.
