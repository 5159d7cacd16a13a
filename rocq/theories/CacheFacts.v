(** C33: the blob cache. *)
From Verif Require Import Base BaseFacts Json Refs GitText Spec_Git GitTextFacts Git Spec_Store GitFacts State BlobCache Spec_Cache ExecFacts.

Section Cache.
  Context `{Env}.
  Context (n : pystr).
  Implicit Types (blobs d : list pystr) (c : bcache).

  Definition blob_objs blobs : list gobj := map (fun b => Blob (utf8_bytes b)) blobs.
  Definition put_all blobs (g : gstate) : option gstate :=
    match local_repo g n with
    | Some r => match put_objs (blob_objs blobs) r with Some r' => Some (set_repo g n r') | None => None end
    | None => None
    end.
  Lemma put_objs_app a b r : put_objs (a ++ b) r = match put_objs a r with Some r' => put_objs b r' | None => None end.
  Proof. revert r. induction a as [|o a IH]; intros r; cbn; [done|]. destruct (put_obj o r); [apply IH|done]. Qed.
  Lemma local_set g r r' : local_repo g n = Some r -> local_repo (set_repo g n r') n = Some r'.
  Proof. unfold local_repo. destruct (is_remote n); [done|]. intros _. cbn. by rewrite lookup_insert. Qed.
  Lemma put_all_app a b g : put_all (a ++ b) g = match put_all a g with Some g' => put_all b g' | None => None end.
  Proof.
    unfold put_all. destruct (local_repo g n) as [r|] eqn:E; [|done]. unfold blob_objs. rewrite map_app, put_objs_app.
    destruct (put_objs (map _ a) r) as [r1|]; [|done]. erewrite local_set by done.
    destruct (put_objs (map _ b) r1) as [r2|]; [|done]. unfold set_repo. cbn. by rewrite insert_insert.
  Qed.
  Lemma put_all_nil g : is_Some (local_repo g n) -> put_all [] g = Some g.
  Proof.
    intros [r E]. unfold put_all. rewrite E. cbn. f_equal. unfold local_repo in E. destruct (is_remote n); [done|].
    unfold set_repo. rewrite insert_id by done. by destruct g.
  Qed.
  Lemma put_all_local blobs g g' : put_all blobs g = Some g' -> is_Some (local_repo g' n).
  Proof.
    unfold put_all. destruct (local_repo g n) as [r|] eqn:E; [|done]. destruct (put_objs _ r); [|done]. intros [= <-].
    erewrite local_set by done. done.
  Qed.
  Lemma put_all_stored blobs g g' b : put_all blobs g = Some g' -> b ∈ blobs ->
    objs_of g' n !! blob_id b = Some (Blob (utf8_bytes b)).
  Proof.
    unfold put_all. destruct (local_repo g n) as [r|] eqn:E; [|done]. destruct (put_objs _ r) as [r'|] eqn:Ep; [|done].
    intros [= <-] Hb. apply put_objs_inv in Ep as (_ & _ & Hs & _). unfold objs_of, set_repo. cbn. rewrite lookup_insert.
    rewrite List.Forall_forall in Hs. unfold blob_id. apply (Hs (Blob (utf8_bytes b))). unfold blob_objs.
    apply in_map_iff. exists b. split; [done|by apply elem_of_list_In].
  Qed.

  Lemma encode_err s : ~ scalar_str s -> encode s = Err UnicodeError.
  Proof. intros Hs. unfold encode. destruct (forallb scalarb s) eqn:E; [|done]. by apply scalar_forallb in E. Qed.
  Lemma scalar_dec s : {scalar_str s} + {~ scalar_str s}.
  Proof. destruct (forallb scalarb s) eqn:E; [left; by apply scalar_forallb|right; intros ?%scalar_forallb; congruence]. Qed.

  (** ** Immediate writing *)
  Lemma save_str_run {S : Type} b (s : S) g : exec (git_save_str n b s) g =
    if scalar_dec b then match put_all [b] g with
                         | Some g' => ((Ok (blob_id b), s), g')
                         | None => ((Err RuntimeError, s), g)
                         end
    else ((Err UnicodeError, s), g).
  Proof.
    unfold git_save_str. rewrite x_bind, x_res. destruct (scalar_dec b) as [Hb|Hb]; [|by rewrite encode_err].
    rewrite encode_ok by done. rewrite x_bind, x_checked. cbn [git]. unfold put_all. cbn.
    destruct (local_repo g n) as [r|]; [|done]. destruct (put_obj _ r); [|done]. cbn.
    by rewrite line_lines by apply oid_hex.
  Qed.
  Lemma each_run {S : Type} blobs (s : S) g hs g' : is_Some (local_repo g n) ->
    (exists s', exec (write_each n blobs s) g = ((Ok hs, s'), g')) <->
    Forall scalar_str blobs /\ hs = map blob_id blobs /\ put_all blobs g = Some g'.
  Proof.
    unfold write_each. revert g hs. induction blobs as [|b blobs IH]; intros g hs Hg; cbn [mmap].
    - rewrite x_ret, put_all_nil by done. cbn. split; [intros [s' [= <- <- <-]]; done|]. intros (_ & -> & [= ->]). by exists s.
    - change (b :: blobs) with ([b] ++ blobs) at 3. rewrite x_bind, save_str_run, put_all_app.
      destruct (scalar_dec b) as [Hb|Hb]; [|split; [by intros [s' ?]|intros [Hf _]; by inversion Hf]].
      destruct (put_all [b] g) as [g1|] eqn:E1; [|split; [by intros [s' ?]|by intros (_ & _ & ?)]].
      rewrite x_bind. specialize (IH g1). assert (Hg1 := put_all_local _ _ _ E1).
      split.
      + intros [s' Hx]. destruct (exec (mmap _ blobs s) g1) as [[[hs1|e] s1] g2] eqn:E2; [|done].
        rewrite x_ret in Hx. injection Hx as <- <- <-.
        destruct (IH hs1 Hg1) as [[Ha [-> Hb1]] _]; [by exists s1|]. cbn. split; [by constructor|done].
      + intros (Hf & -> & Hp). inversion Hf; subst. destruct (IH (map blob_id blobs) Hg1) as [_ [s' Hx]]; [done|].
        rewrite Hx, x_ret. by exists s'.
  Qed.

  Lemma each_fails {S : Type} blobs (s : S) g : is_Some (local_repo g n) -> Forall scalar_str blobs ->
    put_all blobs g = None -> exists s' g', exec (write_each n blobs s) g = ((Err RuntimeError, s'), g').
  Proof.
    unfold write_each. revert g. induction blobs as [|b blobs IH]; intros g Hg Hs; cbn [mmap].
    - by rewrite put_all_nil.
    - change (b :: blobs) with ([b] ++ blobs) at 1. rewrite x_bind, save_str_run, put_all_app. inversion Hs; subst.
      destruct (scalar_dec b); [|done]. destruct (put_all [b] g) as [g1|] eqn:E1; [|eauto].
      intros Hn. destruct (IH g1) as (s' & g' & Hx); [by eapply put_all_local|done|done|]. rewrite x_bind, Hx. eauto.
  Qed.

  (** ** The cache *)
  Definition cache_ok c : Prop :=
    bc_realm c = n /\ Forall (fun bh => scalar_str (fst bh) /\ snd bh = blob_id (fst bh)) (bc_objs c).
  Definition pending c : list pystr := map fst (bc_objs c).

  Lemma stdout_ids blobs :
    stdout_lines (concat (map (fun b => line (oid (Blob b))) (map utf8_bytes blobs))) = Ok (map blob_id blobs).
  Proof.
    assert (Hx : Forall (fun h => Forall (fun x => (x = 9 \/ (32 <= x /\ x < 127))%N) h) (map blob_id blobs)).
    { apply Forall_map, List.Forall_forall. intros b _. destruct (oid_hex (Blob (utf8_bytes b))) as [_ Hh].
      eapply Forall_impl; [exact Hh|]. unfold lower_hex_digit. simpl. lia. }
    assert (E : concat (map (fun b => line (oid (Blob b))) (map utf8_bytes blobs)) =
                concat (map (fun s => s ++ [10%N]) (map blob_id blobs))) by by rewrite !map_map.
    rewrite E. unfold stdout_lines. rewrite decode_ascii.
    - cbn [rbind]. f_equal. apply splitlines_concat. eapply Forall_impl; [exact Hx|]. intros h Hh.
      eapply Forall_impl; [exact Hh|]. intros x. apply not_linesep.
    - clear E. induction Hx as [|d l Hd Hl IH]; cbn [map concat]; [constructor|].
      apply Forall_app. split; [|done]. apply Forall_app. split; [|repeat constructor].
      eapply Forall_impl; [exact Hd|]. unfold ascii. simpl. lia.
  Qed.

  Lemma hash_blob_run b : hash_blob b = if scalar_dec b then Ok (blob_id b) else Err UnicodeError.
  Proof.
    unfold hash_blob. destruct (scalar_dec b) as [Hb|Hb].
    - destruct (hash_blob_bytes_ok b Hb) as [-> E]. cbn. unfold blob_id, oid. by rewrite E.
    - unfold hash_blob_bytes. by rewrite encode_err.
  Qed.
  Lemma flush_run c g : cache_ok c -> exec (cache_flush c) g =
    match put_all (pending c) g with
    | Some g' => ((Ok tt, BCache n (bc_max c) []), g')
    | None => ((Err RuntimeError, c), g)
    end.
  Proof.
    intros [En Hc]. unfold cache_flush. rewrite x_bind, x_get, x_bind, x_res.
    assert (E : rmap (fun bh : pystr * pystr => encode (fst bh)) (bc_objs c) = Ok (map utf8_bytes (pending c))).
    { unfold pending. clear -Hc. induction Hc as [|bh l [Hb _] _ IH]; [done|]. cbn. by rewrite encode_ok, IH by done. }
    rewrite E. rewrite En. unfold git_save_file_list. rewrite x_bind, x_checked. cbn [git]. unfold put_all, blob_objs. rewrite map_map.
    destruct (local_repo g n) as [r|]; [|done]. destruct (put_objs _ r) as [r'|]; [|done]. cbn [fst snd].
    rewrite stdout_ids. rewrite x_bind, x_assert, !map_length, Nat.eqb_refl, x_bind, x_assert.
    assert (E2 : forallb (fun hh : pystr * (pystr * pystr) => bool_decide (fst hh = snd (snd hh)))
                   (combine (map blob_id (pending c)) (bc_objs c)) = true).
    { unfold pending. clear -Hc. induction Hc as [|bh l [_ Hb] _ IH]; [done|]. cbn. rewrite IH, andb_true_r.
      apply bool_decide_eq_true. by rewrite Hb. }
    rewrite E2. by rewrite x_mod, En.
  Qed.

  Lemma pending_scalar c : Forall (fun bh => scalar_str (fst bh) /\ snd bh = blob_id (fst bh)) (bc_objs c) ->
    Forall scalar_str (pending c).
  Proof. intros Hc. apply Forall_map. eapply Forall_impl; [exact Hc|]. by intros ? [? _]. Qed.
  (** one call of [cache_blob] *)
  Definition cached c b : bcache := BCache n (bc_max c) (bc_objs c ++ [(b, blob_id b)]).
  Lemma cached_ok c b : cache_ok c -> scalar_str b -> cache_ok (cached c b).
  Proof. intros [? Hc] Hb. split; [done|]. cbn. apply Forall_app. split; [done|]. by repeat constructor. Qed.
  Lemma cache_blobs_run blobs : forall c g, cache_ok c -> is_Some (local_repo g n) ->
    let '(r, c', g') := exec (mmap (cache_blob n) blobs c) g in
    cache_ok c' /\ bc_max c' = bc_max c /\
    ((0 < bc_max c)%N -> (N.of_nat (length (bc_objs c)) <= bc_max c)%N -> (N.of_nat (length (bc_objs c')) <= bc_max c)%N) /\
    match r with
    | Ok hs => Forall scalar_str blobs /\ hs = map blob_id blobs /\
               exists d, pending c ++ blobs = d ++ pending c' /\ put_all d g = Some g'
    | Err e => (e = UnicodeError /\ ~ Forall scalar_str blobs) \/
               (e = RuntimeError /\ exists d d', pending c ++ blobs = d ++ d' /\ Forall scalar_str d /\ put_all d g = None)
    end.
  Proof.
    induction blobs as [|b blobs IH]; intros c g Hc Hg; cbn [mmap].
    - rewrite x_ret. split_and!; [done|done|done|constructor|done|]. exists []. rewrite put_all_nil by done. by rewrite app_nil_r.
    - rewrite x_bind. unfold cache_blob at 1. rewrite x_bind, x_get, x_bind, x_assert.
      destruct Hc as [En Hc]. rewrite bool_decide_eq_true_2 by done. rewrite x_bind.
      set (m := if (N.of_nat (length (bc_objs c)) =? bc_max c)%N then cache_flush else mret tt).
      assert (Hm : (exists d c1 g1, exec (m c) g = ((Ok tt, c1), g1) /\ cache_ok c1 /\ bc_max c1 = bc_max c /\
                      pending c = d ++ pending c1 /\ put_all d g = Some g1 /\
                      ((0 < bc_max c)%N -> (N.of_nat (length (bc_objs c)) <= bc_max c)%N -> (N.of_nat (length (bc_objs c1)) < bc_max c)%N)) \/
                   (exec (m c) g = ((Err RuntimeError, c), g) /\ put_all (pending c) g = None)).
      { subst m. destruct (N.eqb_spec (N.of_nat (length (bc_objs c))) (bc_max c)) as [E|E].
        - rewrite flush_run by done. destruct (put_all (pending c) g) as [g1|] eqn:Ep; [left|by right].
          exists (pending c), (BCache n (bc_max c) []), g1. split_and!; try done. + split; [done|constructor]. + by rewrite app_nil_r.
        - left. exists [], c, g. rewrite x_ret, put_all_nil by done. split_and!; try done. lia. }
      destruct Hm as [(d & c1 & g1 & -> & [En1 Hc1] & Em1 & Ed & Ep & Hb1)|[-> Ep]].
      + rewrite x_bind, x_res, hash_blob_run. destruct (scalar_dec b) as [Hb|Hb].
        * rewrite x_bind, x_mod, x_ret. rewrite En1.
          change (BCache n (bc_max c1) (bc_objs c1 ++ [(b, blob_id b)])) with (cached c1 b).
          rewrite x_bind. specialize (IH (cached c1 b) g1).
          feed specialize IH; [by apply cached_ok|by eapply put_all_local|].
          destruct (exec (mmap (cache_blob n) blobs (cached c1 b)) g1) as [[r c2] g2].
          destruct IH as (Hc2 & Em2 & Hb2 & Hr). cbn [cached bc_max] in Em2, Hb2.
          assert (Ep2 : pending (cached c1 b) = pending c1 ++ [b]). { unfold pending. cbn. by rewrite map_app. }
          destruct r as [hs|e].
          -- rewrite x_ret. destruct Hr as (Hf & -> & d2 & Ed2 & Ep2'). split_and!.
             ++ done. ++ congruence.
             ++ intros H1 H2. rewrite <- Em1 in *. apply Hb2; [done|]. cbn. rewrite app_length. cbn. specialize (Hb1 H1 H2). lia.
             ++ by constructor. ++ done.
             ++ exists (d ++ d2). rewrite put_all_app, Ep. split; [|done]. rewrite Ed, <- !app_assoc, <- Ed2, Ep2. by rewrite <- app_assoc.
          -- split_and!; [done|congruence| |].
             ++ intros H1 H2. rewrite <- Em1 in *. apply Hb2; [done|]. cbn. rewrite app_length. cbn. specialize (Hb1 H1 H2). lia.
             ++ destruct Hr as [[-> Hn]|(-> & d2 & d3 & Ed2 & Hs2 & Ep2')].
                ** left. split; [done|]. intros Hf. by inversion Hf.
                ** right. split; [done|]. exists (d ++ d2), d3. rewrite put_all_app, Ep. split; [|split; [|done]].
                   2: { apply Forall_app. split; [|done]. apply pending_scalar in Hc. rewrite Ed in Hc. by apply Forall_app in Hc as [? _]. }
                   rewrite Ed, <- !app_assoc, <- Ed2, Ep2. by rewrite <- app_assoc.
        * split_and!; [by split|done| |left; split; [done|intros Hf; by inversion Hf]].
          intros H1 H2. specialize (Hb1 H1 H2). lia.
      + split_and!; [by split|done|done|]. right. split; [done|]. exists (pending c), (b :: blobs).
        split; [done|]. split; [by apply pending_scalar|done].
  Qed.

  Lemma new_cache_ok max : cache_ok (new_cache n max).
  Proof. split; [done|constructor]. Qed.

  Lemma C33_equivalent_lemma (max : N) blobs g hs g' : is_Some (local_repo g n) ->
    (exists c', exec (write_batched n blobs (new_cache n max)) g = ((Ok hs, c'), g')) <->
    (exists s', exec (write_each n blobs tt) g = ((Ok hs, s'), g')).
  Proof.
    intros Hg. rewrite each_run by done. unfold write_batched. rewrite x_bind.
    pose proof (cache_blobs_run blobs (new_cache n max) g (new_cache_ok max) Hg) as Hr.
    destruct (exec (mmap (cache_blob n) blobs (new_cache n max)) g) as [[r c1] g1].
    destruct Hr as (Hc & _ & _ & Hr). destruct r as [hs1|e].
    - destruct Hr as (Hf & -> & d & Ed & Ep). cbn in Ed. rewrite x_bind, flush_run by done. rewrite Ed, put_all_app, Ep.
      destruct (put_all (pending c1) g1) as [g2|].
      + rewrite x_ret, <- Ed. split; [intros [c' [= <- <- <-]]; done|]. intros (_ & -> & [= <-]). by eexists.
      + split; [by intros [c' ?]|by intros (_ & _ & ?)].
    - split; [by intros [c' ?]|]. intros (Hf & _ & Hp). exfalso. destruct Hr as [[_ Hn]|(_ & d & d' & Ed & _ & En)]; [done|].
      cbn in Ed. by rewrite Ed, put_all_app, En in Hp.
  Qed.
  Lemma C33_batched_lemma (max : N) blobs g : is_Some (local_repo g n) ->
    let '(r, c', g') := exec (write_batched n blobs (new_cache n max)) g in
    match r with
    | Ok hs => hs = map blob_id blobs /\ bc_objs c' = [] /\
               forall b, b ∈ blobs -> objs_of g' n !! blob_id b = Some (Blob (utf8_bytes b))
    | Err e => (e = UnicodeError /\ ~ Forall scalar_str blobs) \/
               (e = RuntimeError /\ exists d s' g'', d `prefix_of` blobs /\ exec (write_each n d tt) g = ((Err RuntimeError, s'), g''))
    end.
  Proof.
    intros Hg. unfold write_batched. rewrite x_bind.
    pose proof (cache_blobs_run blobs (new_cache n max) g (new_cache_ok max) Hg) as Hr.
    destruct (exec (mmap (cache_blob n) blobs (new_cache n max)) g) as [[r c1] g1].
    destruct Hr as (Hc & _ & _ & Hr). destruct r as [hs1|e].
    - destruct Hr as (Hf & -> & d & Ed & Ep). cbn in Ed. rewrite x_bind, flush_run by done.
      destruct (put_all (pending c1) g1) as [g2|] eqn:E2.
      + rewrite x_ret. split_and!; [done|done|]. intros b Hb. eapply put_all_stored; [|exact Hb].
        instantiate (1 := g). by rewrite Ed, put_all_app, Ep.
      + right. split; [done|]. edestruct (each_fails (d ++ pending c1) tt g) as (s' & g'' & Hx); [done|by rewrite <- Ed| |].
        { by rewrite put_all_app, Ep. }
        exists blobs, s', g''. split; [done|]. by rewrite Ed.
    - destruct Hr as [?|(-> & d & d' & Ed & Hs & En)]; [by left|right]. split; [done|]. cbn in Ed.
      edestruct (each_fails d tt g) as (s' & g'' & Hx); [done|done|done|].
      exists d, s', g''. split; [|done]. by exists d'.
  Qed.
  Lemma C33_bound_lemma (max : N) blobs g : is_Some (local_repo g n) -> (0 < max)%N ->
    let '(_, c', _) := exec (mmap (cache_blob n) blobs (new_cache n max)) g in
    (N.of_nat (length (bc_objs c')) <= max)%N.
  Proof.
    intros Hg Hm. pose proof (cache_blobs_run blobs (new_cache n max) g (new_cache_ok max) Hg) as Hr.
    destruct (exec (mmap (cache_blob n) blobs (new_cache n max)) g) as [[r c1] g1].
    destruct Hr as (_ & _ & Hb & _). apply Hb; cbn; lia.
  Qed.
End Cache.
