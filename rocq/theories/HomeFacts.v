(** Writing runs commands in the destination only. *)
From Verif Require Import Base BaseFacts Path Json Refs Meta GitText Git Spec_Store GitFacts State BlobCache ObjRef Objects Lock Spec_Lock ExecFacts BlockFacts Spec_Write WriteFacts.

Section Home.
  Context `{Env}.
  Context (h0 : heap) (d : pystr) (Hd : d <> []).
  Local Notation kb := (keeps_bodies h0).
  Definition home_cmd (c : cmd) : Prop := store_cmd d c \/ exists n x, c = UpdateRef d n x.
  Lemma home_hdr l f : (forall x, h_mapped (f x) = h_mapped x /\ h_saved x ⊆ h_saved (f x)) -> mall (fun _ => False) kb (set_hdr l f).
  Proof using Hd.
    intros Hf s [Hc Hb]. unfold set_hdr, getobj, mbind. cbn. destruct (s_heap s !! l) as [o|] eqn:E; cbn; [|by split].
    split; [done|]. intros l'. specialize (Hb l'). cbn [s_heap with_heap]. rewrite heap_insert. destruct (decide (l = l')) as [<-|Hne]; [|done].
    rewrite E in Hb. destruct (h0 !! l); [|done]. cbn. destruct (Hf (o_hdr o)) as [H1 H2], Hb as (? & ? & ?). split_and!; [done|congruence|set_solver].
  Qed.
  Lemma home_map_out rec l force : (forall x f, mall home_cmd kb (rec x (Some d) f)) -> mall home_cmd kb (map_out rec l d force).
  Proof using Hd.
    intros Hrec. assert (HS : forall A (m : M pst A), mall (store_cmd d) kb m -> mall home_cmd kb m) by (intros A m; apply mall_weak; by left).
    assert (Hp : forall ft x f, mall home_cmd kb (proxy_write_out rec ft x (Some d) f)).
    { intros ft x f s Hs. eapply kb_proxy; [by left|done|intros; by apply dest_some|]. intros s2 Hs2 _. by apply Hrec. }
    assert (HU : forall n x, mall home_cmd kb (git_update_ref d n x)).
    { intros n x. apply mall_bind; [apply mall_checked; right; eauto|]. intros. apply mall_ret. }
    unfold map_out. apply mall_bind; [apply kb_getobj|]. intros o. destruct (o_body o) as [m|t|c dd|i v m t|k vs|us].
    - apply HS, kb_map_out_meta.
    - destruct t; [|apply mall_raise]. apply mall_bind; [apply HS, kb_save_str|]. intros. apply mall_ret.
    - destruct dd as [|x dd]; [apply mall_ret|]. apply mall_bind.
      { apply mall_iter. intros y Hy. apply mall_bind; [by apply Hrec|]. intros. apply mall_ret. }
      intros _. apply mall_bind.
      { apply mall_map. intros y _. apply mall_bind; [apply kb_getobj|]. intros oy. destruct (h_ref _); [apply mall_ret|apply mall_raise]. }
      intros es. apply mall_bind; [apply HS, kb_save_tree|]. intros. apply mall_ret.
    - apply mall_bind.
      { destruct t as [y|]; [|apply mall_ret]. apply mall_bind; [apply Hp|]. intros r.
        apply mall_bind; [|intros; apply mall_ret]. destruct (is_none_reference r); [apply mall_ret|].
        apply mall_bind; [apply kb_loc_of|]. intros. apply kb_orefs. }
      intros fref. apply mall_bind.
      { destruct m as [y|]; [|apply mall_ret]. apply mall_bind; [apply Hrec|]. intros r.
        apply mall_bind; [apply kb_loc_of|]. intros. apply mall_bind; [apply kb_orefs|intros; apply mall_ret]. }
      intros mref. apply mall_bind; [apply HS, kb_save_str|]. intros. apply mall_ret.
    - apply mall_bind.
      { apply mall_map. intros [v0 r] Hin. apply mall_bind; [|intros; apply mall_ret]. cbn [fst snd]. destruct (vr_elt r); [apply Hp|apply Hrec]. }
      intros js. apply mall_bind; [apply HS, kb_save_str|]. intros x.
      apply mall_bind; [|intros; apply mall_ret]. destruct k; [apply HU|apply mall_ret].
    - apply mall_bind.
      { apply mall_map. intros [u y] Hin. apply mall_bind; [apply Hrec|]. intros r. apply mall_bind; [apply kb_loc_of|]. intros. apply mall_ret. }
      intros es. apply mall_bind; [apply HS, kb_save_tree|]. intros x. apply mall_bind; [|intros; apply mall_ret]. apply HU.
  Qed.
  Lemma home_write_out fuel : forall l force, mall home_cmd kb (write_out fuel l (Some d) force).
  Proof using Hd.
    induction fuel as [|f IH]; intros l force; [apply mall_raise|]. cbn [write_out].
    apply mall_bind; [apply kb_getobj|]. intros o. destruct (h_mapped (o_hdr o)); cbn [negb].
    2:{ apply mall_bind; [apply mall_assert|]. intros _. apply mall_bind; [apply mall_assert|]. intros _.
        apply mall_bind; [apply kb_is_saved|]. intros []; [apply kb_own|apply mall_raise]. }
    assert ((if truthy (h_realm (o_hdr o)) then or_else (Some d) (h_realm (o_hdr o)) else Some d) = Some d) as ->.
    { unfold or_else. cbn. destruct d; [done|]. by destruct (truthy _). }
    destruct (is_remote d); [apply mall_raise|].
    assert (HW : forall A (m : M pst A), mall (fun _ => False) kb m -> mall home_cmd kb m) by (intros A m; apply mall_weak; by intros ? []).
    apply mall_bind; [by apply HW, home_hdr|]. intros _. apply mall_bind; [apply kb_is_saved|]. intros b. destruct (b && negb force); [apply kb_own|].
    apply mall_bind; [by apply home_map_out|]. intros ref. apply mall_bind; [by apply HW, home_hdr|]. intros _.
    apply mall_bind; [apply HW, home_hdr|intros; apply mall_ret]. intros x. cbn. split; [done|]. set_solver.
  Qed.
End Home.
Section Others.
  Context `{Env}.
  Lemma home_writes (d : pystr) fuel l force m s : d <> [] -> Spec_Write.writes fuel l (Some d) force m -> caches_ok s ->
    pall (home_cmd d) (fun _ => True) (m s).
  Proof.
    intros Hd Hw Hc. assert (Hk : keeps_bodies (s_heap s) s) by (split; [done|apply mg_refl]).
    eapply pall_mono; [same|done|]. destruct Hw; [by apply home_write_out| |]; (eapply kb_proxy; [by left|done|intros; by apply dest_some|]; intros s2 Hs2 _; by apply home_write_out).
  Qed.
  (** Only the destination changes. *)
  Lemma writes_others (d : pystr) fuel l force m s g n : d <> [] -> Spec_Write.writes fuel l (Some d) force m -> caches_ok s -> n <> d ->
    g_repos (snd (exec (m s) g)) !! n = g_repos g !! n.
  Proof.
    intros Hd Hw Hc Hn. refine (pall_trace _ _ (fun g g' => g_repos g' !! n = g_repos g !! n) _ g _ _ _ _ (home_writes d fuel l force m s Hd Hw Hc) (or_intror eq_refl)).
    - intros c g0 Hcm. apply git_repos. intros ->. apply Hn. destruct Hcm as [[[b ->]|[[bs ->]|[b ->]]]|(r & x & ->)]; done.
    - done.
    - intros a b c Hab Hbc. by rewrite Hbc, Hab.
  Qed.
End Others.
