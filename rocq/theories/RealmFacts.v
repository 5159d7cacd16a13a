(** Writing to one repository: marks name that repository only. *)
From Verif Require Import Base BaseFacts Path Json Refs Meta GitText Git Spec_Store GitFacts State BlobCache ObjRef Objects Lock Spec_Lock ExecFacts BlockFacts Spec_Look Spec_Heap Spec_Write Spec_Content WriteFacts LoadFacts.

Definition marked_in (r : pystr) (o : obj) : Prop :=
  h_saved (o_hdr o) <> ∅ -> r ∈ h_saved (o_hdr o) /\ h_realm (o_hdr o) = Some r.
(** What writing to [r] keeps of every object. *)
Definition realm_step (r : pystr) (o o' : obj) : Prop :=
  o_body o' = o_body o /\ h_mapped (o_hdr o') = h_mapped (o_hdr o) /\ (marked_in r o -> marked_in r o') /\
  (h_realm (o_hdr o) = Some r -> h_realm (o_hdr o') = Some r).
Definition realms (r : pystr) (h h' : heap) : Prop := forall x, option_Forall2 (realm_step r) (h !! x) (h' !! x).
Lemma re_refl r h : realms r h h.
Proof. intros x. by destruct (h !! x); constructor. Qed.
Lemma re_trans r h1 h2 h3 : realms r h1 h2 -> realms r h2 h3 -> realms r h1 h3.
Proof.
  intros H1 H2 x. specialize (H1 x). specialize (H2 x). destruct H1 as [o1 o2 H1|]; inversion H2 as [o2' o3 H3|]; subst; constructor.
  destruct H1 as (A & B & C & D), H3 as (A' & B' & C' & D'). split_and!; auto; congruence.
Qed.
Lemma re_set r h l o f : h !! l = Some o -> h_mapped (f (o_hdr o)) = h_mapped (o_hdr o) ->
  (marked_in r o -> marked_in r (Obj (f (o_hdr o)) (o_body o))) ->
  (h_realm (o_hdr o) = Some r -> h_realm (f (o_hdr o)) = Some r) -> realms r h (<[l := Obj (f (o_hdr o)) (o_body o)]> h).
Proof.
  intros Hl H0 H1 H2 x. rewrite heap_insert. destruct (decide (l = x)) as [<-|Hne]; [|apply re_refl].
  rewrite Hl. by constructor.
Qed.
Lemma re_later r h h' x o' : realms r h h' -> h' !! x = Some o' -> exists o, h !! x = Some o /\ realm_step r o o'.
Proof. intros Hr Hx. specialize (Hr x). rewrite Hx in Hr. inversion Hr as [o o'' Ho E1 E2|]; subst. by exists o. Qed.
Lemma re_reach r h h' : realms r h h' -> forall p x, reach h' x p = reach h x p.
Proof.
  intros Hr. induction p as [|k p IH]; intros x; [done|]. cbn [reach]. pose proof (Hr x) as Hx.
  destruct Hx as [o o' (H1 & H2 & _)|]; [|done]. rewrite H1, H2. destruct (h_mapped (o_hdr o)); [|done]. destruct (dget _ k); [apply IH|done].
Qed.

Section Realm.
  Context `{Env}.
  Context (d : pystr) (Hd : d <> []).
  Definition rel_to (h0 : heap) (s : pst) : Prop := realms d h0 (s_heap s).
  Notation any := (fun _ : cmd => True).
  Implicit Types (s : pst).

  Lemma re_get h0 l : mall any (rel_to h0) (getobj l).
  Proof. intros s Hs. unfold getobj. by destruct (s_heap s !! l). Qed.
  Lemma re_hdr h0 l f s : rel_to h0 s -> (forall o, s_heap s !! l = Some o ->
      h_mapped (f (o_hdr o)) = h_mapped (o_hdr o) /\ (marked_in d o -> marked_in d (Obj (f (o_hdr o)) (o_body o))) /\ (h_realm (o_hdr o) = Some d -> h_realm (f (o_hdr o)) = Some d)) ->
    pall any (fun rs => rel_to h0 (snd rs)) (set_hdr l f s).
  Proof.
    intros Hs Hf. unfold set_hdr, getobj, mbind. cbn. destruct (s_heap s !! l) as [o|] eqn:E; cbn; [|done].
    destruct (Hf o eq_refl) as (H0 & H1 & H2). unfold rel_to. eapply re_trans; [exact Hs|]. by apply re_set.
  Qed.
  Lemma re_is_saved h0 fuel l x : mall any (rel_to h0) (is_saved_on fuel l x).
  Proof. apply mall_bind; [apply mall_get|]. intros. apply mall_res. Qed.
  Lemma re_own h0 l : mall any (rel_to h0) (own_reference l).
  Proof. apply mall_bind; [apply re_get|]. intros o. destruct (h_ref (o_hdr o)); [apply mall_ret|apply mall_raise]. Qed.
  Lemma re_loc_of h0 r : mall any (rel_to h0) (loc_of r).
  Proof. unfold loc_of. destruct (r_loc r); [apply mall_ret|apply mall_raise]. Qed.
  Lemma re_orefs h0 t h : mall any (rel_to h0) (add_object_reference t h).
  Proof. unfold add_object_reference. destruct (decide _); [apply mall_ret|]. apply mall_mod. intros s Hs. exact Hs. Qed.
  Lemma re_save_str h0 x b : mall any (rel_to h0) (git_save_str x b).
  Proof. apply mall_bind; [apply mall_res|]. intros y. apply mall_bind; [by apply mall_checked|]. intros [|z zs]; [apply mall_raise|apply mall_ret]. Qed.
  Lemma re_save_tree h0 x es : mall any (rel_to h0) (git_save_tree_node x es).
  Proof. apply mall_bind; [apply mall_res|]. intros y. apply mall_bind; [by apply mall_checked|]. intros [|z zs]; [apply mall_raise|apply mall_ret]. Qed.
  Lemma re_update h0 x y z : mall any (rel_to h0) (git_update_ref x y z).
  Proof. apply mall_bind; [by apply mall_checked|]. intros. apply mall_ret. Qed.
  Lemma pall_any {A : Type} (m : prog A) : pall any (fun _ => True) m.
  Proof. induction m; cbn; auto. Qed.
  Lemma re_with_cache h0 {A : Type} x (m : M bcache A) none : mall any (rel_to h0) none -> mall any (rel_to h0) (with_cache x m none).
  Proof.
    intros Hn s Hs. unfold with_cache. destruct (dget (s_caches s) x) as [c|] eqn:E; [|by apply Hn].
    apply pall_bind. eapply pall_mono; [same| |apply pall_any]. intros [r c'] _. exact Hs.
  Qed.
  Lemma re_flush_realm h0 x : mall any (rel_to h0) (flush_realm x).
  Proof. apply mall_bind; [apply re_with_cache, mall_raise|]. intros _. apply mall_mod. intros s Hs. exact Hs. Qed.
  Lemma re_cache_realm h0 r : mall any (rel_to h0) (cache_realm r).
  Proof.
    destruct r as [r|]; [|apply mall_raise]. apply mall_bind; [apply mall_get|]. intros cs.
    destruct (dmem cs r); [apply mall_raise|]. apply mall_mod. intros s Hs. exact Hs.
  Qed.
  Lemma re_map_out_meta h0 m x : mall any (rel_to h0) (map_out_meta m x).
  Proof.
    unfold map_out_meta. apply mall_bind; [apply mall_get|]. intros cs. destruct (dmem cs x).
    - apply mall_bind; [apply re_with_cache, mall_raise|]. intros y. apply mall_bind; [apply re_orefs|]. intros _.
      apply mall_bind; [apply re_with_cache, mall_raise|]. intros z. apply mall_ret.
    - apply mall_bind; [apply re_save_str|]. intros y. apply mall_bind; [apply re_orefs|]. intros _.
      apply mall_bind; [apply re_save_str|]. intros z. apply mall_ret.
  Qed.
  Lemma re_proxy rec h0 ft l force : (forall f, mall any (rel_to h0) (rec l (Some d) f)) ->
    mall any (rel_to h0) (proxy_write_out rec ft l (Some d) force).
  Proof.
    intros Hrec. unfold proxy_write_out. apply mall_bind; [apply re_get|]. intros o. cbv zeta.
    apply mall_bind; [destruct ft; [apply re_cache_realm|apply mall_ret]|]. intros _.
    apply mall_bind; [apply Hrec|]. intros ref.
    apply mall_bind; [destruct ft; [destruct (or_else _ _); [apply re_flush_realm|apply mall_raise]|apply mall_ret]|]. intros _.
    apply mall_bind; [destruct (is_none_reference ref); [apply mall_ret|]|intros; apply mall_ret].
    apply mall_bind; [apply re_loc_of|]. intros. apply re_orefs.
  Qed.
  Lemma re_map_out rec h0 l force : (forall x f, mall any (rel_to h0) (rec x (Some d) f)) ->
    mall any (rel_to h0) (map_out rec l d force).
  Proof.
    intros Hrec. pose proof (fun ft x f => re_proxy rec h0 ft x f (Hrec x)) as Hp. unfold map_out. apply mall_bind; [apply re_get|]. intros o.
    destruct (o_body o) as [m|t|c dd|i v m t|k vs|us].
    - apply re_map_out_meta.
    - destruct t; [|apply mall_raise]. apply mall_bind; [apply re_save_str|]. intros. apply mall_ret.
    - destruct dd as [|x dd]; [apply mall_ret|]. apply mall_bind.
      { apply mall_iter. intros y Hy. apply mall_bind; [by apply Hrec|]. intros. apply mall_ret. }
      intros _. apply mall_bind.
      { apply mall_map. intros y _. apply mall_bind; [apply re_get|]. intros oy. destruct (h_ref _); [apply mall_ret|apply mall_raise]. }
      intros es. apply mall_bind; [apply re_save_tree|]. intros. apply mall_ret.
    - apply mall_bind.
      { destruct t as [y|]; [|apply mall_ret]. apply mall_bind; [apply Hp|]. intros r.
        apply mall_bind; [|intros; apply mall_ret]. destruct (is_none_reference r); [apply mall_ret|].
        apply mall_bind; [apply re_loc_of|]. intros. apply re_orefs. }
      intros fref. apply mall_bind.
      { destruct m as [y|]; [|apply mall_ret]. apply mall_bind; [apply Hrec|]. intros r.
        apply mall_bind; [apply re_loc_of|]. intros. apply mall_bind; [apply re_orefs|intros; apply mall_ret]. }
      intros mref. apply mall_bind; [apply re_save_str|]. intros. apply mall_ret.
    - apply mall_bind.
      { apply mall_map. intros [v0 r] Hin. apply mall_bind; [|intros; apply mall_ret]. cbn [fst snd].
        destruct (vr_elt r); [by apply Hp|by apply Hrec]. }
      intros js. apply mall_bind; [apply re_save_str|]. intros x.
      apply mall_bind; [|intros; apply mall_ret]. destruct k; [|apply mall_ret]. apply re_update.
    - apply mall_bind.
      { apply mall_map. intros [u y] Hin. apply mall_bind; [apply Hrec|].
        intros r. apply mall_bind; [apply re_loc_of|]. intros. apply mall_ret. }
      intros es. apply mall_bind; [apply re_save_tree|]. intros x.
      apply mall_bind; [|intros; apply mall_ret]. apply re_update.
  Qed.
  Lemma re_write_out fuel : forall h0 l force, mall any (rel_to h0) (write_out fuel l (Some d) force).
  Proof using Hd.
    induction fuel as [|f IH]; intros h0 l force; [apply mall_raise|]. cbn [write_out]. intros s Hs.
    unfold mbind at 1. apply pall_bind. unfold getobj at 1. destruct (s_heap s !! l) as [o|] eqn:E; [|done]. cbn [pall fst snd].
    destruct (h_mapped (o_hdr o)); cbn [negb].
    2:{ match goal with |- pall _ _ (?m s) => refine ((_ : mall _ (rel_to h0) m) s Hs) end.
        apply mall_bind; [apply mall_assert|]. intros _. apply mall_bind; [apply mall_assert|]. intros _.
        apply mall_bind; [apply re_is_saved|]. intros []; [apply re_own|apply mall_raise]. }
    assert ((if truthy (h_realm (o_hdr o)) then or_else (Some d) (h_realm (o_hdr o)) else Some d) = Some d) as ->.
    { unfold or_else. cbn. destruct d; [done|]. by destruct (truthy _). }
    destruct (is_remote d); [done|].
    unfold mbind at 1. apply pall_bind.
    eapply (pall_mono any any (fun rs => rel_to h0 (snd rs) /\ exists o1, s_heap (snd rs) !! l = Some o1 /\ h_realm (o_hdr o1) = Some d)); [same| |].
    2:{ unfold set_hdr, getobj, mbind. cbn. rewrite E. cbn. split.
      - eapply re_trans; [exact Hs|]. apply (re_set d _ _ _ (hd_realm (Some d))); [done|done| |done]. intros Hm Hsv. cbn in *. by destruct (Hm Hsv) as [? ?].
      - eexists. split; [rewrite heap_insert; by rewrite decide_True by done|done]. }
    intros [[[]|e] s1] [Hs1 (o1 & E1 & Hr1)]; cbn in Hs1, E1; [|done]. cbn [fst snd].
    unfold mbind at 1. apply pall_bind. eapply (pall_mono any any (fun rs => snd rs = s1)); [same| |].
    2:{ assert (Hst : forall s0, mall any (eq s0) (is_saved_on (S f) l (Some d))) by (intros s0; apply mall_bind; [apply mall_get|intros ?; apply mall_res]). eapply pall_mono; [same| |exact (Hst s1 s1 eq_refl)]. by intros [r0 s2] <-. }
    intros [[b|e] s2] Hs2; cbn [fst snd] in Hs2 |- *; subst s2; [|done].
    destruct (b && negb force); [by apply re_own|].
    unfold mbind at 1. apply pall_bind. eapply pall_mono; [same| |apply (re_map_out (write_out f) (s_heap s1) l force (IH (s_heap s1))), re_refl].
    intros [[ref|e] s3] Hs3; cbn in Hs3; [|eapply re_trans; [exact Hs1|exact Hs3]]. cbn [fst snd].
    assert (Hr3 : forall o3, s_heap s3 !! l = Some o3 -> h_realm (o_hdr o3) = Some d).
    { intros o3 E3. destruct (re_later _ _ _ _ _ Hs3 E3) as (o1' & E1' & _ & _ & _ & HH). apply HH. rewrite E1 in E1'. by injection E1' as <-. }
    assert (Hs30 : rel_to h0 s3) by (eapply re_trans; [exact Hs1|exact Hs3]). clear Hs3.
    unfold mbind at 1. apply pall_bind.
    eapply (pall_mono any any (fun rs => rel_to h0 (snd rs) /\ forall o3, s_heap (snd rs) !! l = Some o3 -> h_realm (o_hdr o3) = Some d)); [same| |].
    2:{ unfold set_hdr, getobj, mbind. cbn. destruct (s_heap s3 !! l) as [o3|] eqn:E3; cbn; [|by rewrite E3]. split.
      - eapply re_trans; [exact Hs30|]. by apply (re_set d _ _ _ (hd_ref (Some ref))).
      - intros o4. rewrite heap_insert. rewrite decide_True by done. intros [= <-]. exact (Hr3 o3 eq_refl). }
    intros [[[]|e] s4] [Hs4 Hr4]; cbn in Hs4, Hr4; [|done]. cbn [fst snd].
    unfold mbind at 1. apply pall_bind. eapply pall_mono; [same| |apply re_hdr; [exact Hs4|]].
    - intros [[[]|e] s5] Hs5; exact Hs5.
    - intros o4 E4. specialize (Hr4 _ E4). split; [done|]. split; [|done]. intros _ _. cbn. split; [set_solver|done].
  Qed.
  Lemma re_filetree fuel h0 l force : mall any (rel_to h0) (filetree_write_out fuel l (Some d) force).
  Proof using Hd. apply re_proxy. intros f. apply re_write_out. Qed.
  Lemma re_datasettree fuel h0 l force : mall any (rel_to h0) (datasettree_write_out fuel l (Some d) force).
  Proof using Hd. apply re_proxy. intros f. apply re_write_out. Qed.
  Lemma write_one_realm fuel l force m s g a s' g' x : Spec_Write.writes fuel l (Some d) force m -> exec (m s) g = ((a, s'), g') ->
    one_realm d (s_heap s) x -> one_realm d (s_heap s') x.
  Proof using Hd.
    intros Hw He Ho.
    assert (Hre : realms d (s_heap s) (s_heap s')).
    { assert (Hm : mall any (rel_to (s_heap s)) m) by (destruct Hw; [apply re_write_out|apply re_filetree|apply re_datasettree]).
      pose proof (pall_exec _ _ _ g (Hm s (re_refl _ _))) as HH. by rewrite He in HH. }
    intros p y o' Hp Hy. rewrite (re_reach _ _ _ Hre) in Hp. destruct (re_later _ _ _ _ _ Hre Hy) as (o & Hyo & _ & _ & HH & _).
    apply HH. exact (Ho p y o Hp Hyo).
  Qed.
End Realm.
