(** Proofs about the calls that modify objects: C22. *)
From Verif Require Import Base BaseFacts Path Json Refs Meta GitText Git Spec_Store State BlobCache ObjRef Objects ExecFacts Common Spec_Objects Spec_Look Spec_Heap Spec_Write Spec_Content Spec_History
  WriteFacts LoadFacts PeekFacts Spec_Marks MarkFacts CommonFacts.

(** ** Directories are loaded without AttributeError *)
Definition nae {A : Type} (x : res A) : Prop := x <> Err AttributeError.
Lemma nae_bind {A B : Type} (x : res A) (f : A -> res B) : nae x -> (forall a, nae (f a)) -> nae (rbind x f).
Proof. destruct x as [a|e]; cbn; intros H1 H2; [apply H2|]. unfold nae in *. congruence. Qed.
Lemma nae_encode x : nae (encode x).
Proof. unfold encode. by destruct (forallb _ _). Qed.
Lemma nae_decode x : nae (decode x).
Proof. unfold decode. by destruct (utf8_decode x). Qed.
Lemma nae_rcons {A : Type} (x : A) r : nae r -> nae (rcons x r).
Proof. unfold rcons, nae. by destruct r. Qed.
Lemma nae_escape b : nae (escape_decode_bytes b).
Proof.
  enough (HE : forall n b, (length b < n)%nat -> nae (escape_decode_bytes b)) by (by apply (HE (S (length b))); lia). clear b.
  induction n as [|n IH]; intros b Hb; [lia|]. destruct b as [|c r]; [done|]. cbn in Hb. cbn [escape_decode_bytes].
  repeat (match goal with |- nae (rcons _ _) => apply nae_rcons | |- nae (escape_decode_bytes _) => apply IH; cbn in *; lia | |- nae (match ?x with _ => _ end) => destruct x end; try done).
Qed.
Lemma nae_line x : nae (read_tree_line x).
Proof.
  unfold read_tree_line, split_git_lstree_line. apply nae_bind.
  - destruct (split_char _ x) as [|f [|n [|]]]; try done. destruct (split_char _ f) as [|a [|b [|c [|]]]]; done.
  - intros [[[a b] c] d]. apply nae_bind; [|done]. unfold unquote_name. destruct (startswith _ _); [|done].
    apply nae_bind; [apply nae_encode|]. intros. apply nae_bind; [apply nae_escape|]. intros. apply nae_decode.
Qed.

(** ** Loading and what is below *)
Lemma lb_loads s s' x y : loads s s' -> loaded_below (s_heap s) x y -> loaded_below (s_heap s') x y.
Proof.
  intros [_ _ Ho]. induction 1 as [x o Hx|x o z y Hx Hm Hz _ IH]; destruct (Ho x o Hx) as (o' & Hx' & _ & Hs); [by eapply below_self|].
  specialize (Hs Hm). subst o'. by eapply below_sub.
Qed.
Lemma lb_trans h x y z : loaded_below h x y -> loaded_below h y z -> loaded_below h x z.
Proof. induction 1; [done|]. intros. eapply below_sub; eauto. Qed.
Lemma lb_some h x y : loaded_below h x y -> is_Some (h !! y).
Proof. induction 1; [by eexists|done]. Qed.
Lemma lb_peek s l p x : heap_ok s -> is_Some (s_heap s !! l) -> peek (s_heap s) l p = Some (Some x) -> loaded_below (s_heap s) l x.
Proof.
  intros Hok. revert l. induction p as [|e p IH]; intros l [o Hl]; cbn [peek]; [intros [= <-]; by eapply below_self|]. rewrite Hl.
  destruct (o_body o) as [| |c d| | |] eqn:Eb; try done. destruct (h_mapped (o_hdr o)) eqn:Em; [|done]. destruct (dget d e) as [y|] eqn:Ed; [|done]. intros Hp.
  assert (Hy : In y (sub_objects (o_body o))) by (rewrite Eb; cbn; apply in_map_iff; exists (e, y); split; [done|by apply dget_Some_In]).
  eapply below_sub; [exact Hl|done|exact Hy|]. apply IH; [|done]. by apply (Hok l o Hl).
Qed.
Lemma lb_bad h h' x y : only_at y h h' -> (exists o, h' !! y = Some o /\ h_mapped (o_hdr o) = true) -> loaded_below h x y -> bad h' x.
Proof.
  intros Ho (o & Hy & Hm) Hb. pose proof (below_only_at _ _ _ _ Ho Hb) as Hb'. apply bad_unsaved. destruct Ho as [_ (o' & Hy' & Hs)].
  assert (o' = o) as -> by congruence. by exists y, o.
Qed.
Lemma alloc_loads s o : heap_ok s -> loads s (PSt (<[s_next s := o]> (s_heap s)) (N.succ (s_next s)) (s_caches s) (s_orefs s) (s_legacy s) (s_locks s)).
Proof.
  intros Hok. split; [done|cbn; lia|]. intros x ox Hx. exists ox. cbn. rewrite heap_insert, decide_False; [done|]. apply Hok in Hx as [Hx _]. lia.
Qed.

Section Calls.
  Context `{Env}.
  Notation P := (fun _ : cmd => True).
  Definition nx {A : Type} (J : pst -> Prop) (m : M pst A) : Prop := forall s, J s -> pall P (fun rs => nae (fst rs) /\ J (snd rs)) (m s).
  Section Rules.
    Context (J : pst -> Prop).
    Lemma nx_ret {A : Type} (a : A) : nx J (mret a).
    Proof. by intros s Hs. Qed.
    Lemma nx_raise {A : Type} e : e <> AttributeError -> nx J (mraise (A := A) e).
    Proof. intros He s Hs. split; [|done]. unfold nae. cbn. congruence. Qed.
    Lemma nx_res {A : Type} (x : res A) : nae x -> nx J (mres x).
    Proof. intros Hx s Hs. by destruct x. Qed.
    Lemma nx_bind {A B : Type} (m : M pst A) (f : A -> M pst B) : nx J m -> (forall a, nx J (f a)) -> nx J (mbind m f).
    Proof.
      intros Hm Hf s Hs. unfold mbind. apply pall_bind. eapply pall_mono; [|clear Hm|by apply Hm]; [done|]. intros [[a|e] s1] [H1 H2]; [by apply Hf|].
      cbn in *. split; [|done]. unfold nae in *. cbn. congruence.
    Qed.
    Lemma nx_execute c : nx J (execute c).
    Proof. by intros s Hs. Qed.
    Lemma nx_checked c : nx J (checked_execute c).
    Proof. apply nx_bind; [apply nx_execute|]. intros [out|]; [apply nx_res|by apply nx_raise]. apply nae_bind; [apply nae_decode|done]. Qed.
    Lemma nx_iter {A : Type} (f : A -> M pst unit) (l : list A) : (forall x, nx J (f x)) -> nx J (miter f l).
    Proof. intros Hf. induction l as [|x l IH]; [by intros s Hs|]. cbn. by apply nx_bind. Qed.
    Lemma nx_path x : nx J (mres (get_repo_cache_path x)).
    Proof. apply nx_res. unfold get_repo_cache_path. apply nae_bind; [apply nae_encode|done]. Qed.
    Lemma nx_read x y : nx J (git_read_tree_node x y).
    Proof.
      unfold git_read_tree_node, adapt_for_remote. apply nx_bind; [|intros; apply nx_checked]. destruct (is_remote x); [|apply nx_ret].
      apply nx_bind; [|intros; apply nx_path]. unfold cache_object, ensure_cache_exists. apply nx_bind; [apply nx_bind; [apply nx_path|]|].
      - intros p. apply nx_bind; [apply nx_execute|]. intros [|]; [apply nx_ret|]. unfold git_init. apply nx_bind; [apply nx_checked|]. intros. apply nx_ret.
      - intros _. apply nx_bind; [apply nx_path|]. intros p.
        destruct (startswith _ y); [apply nx_bind; [apply nx_checked|]; intros; apply nx_ret|]. apply nx_bind; [apply nx_bind; [apply nx_execute|]; intros; apply nx_ret|].
        intros []; [apply nx_ret|]. apply nx_bind; [apply nx_checked|]. intros. apply nx_ret.
    Qed.
  End Rules.
  Definition nd (l : loc) (s : pst) : Prop := fresh_next s /\ node_at (s_heap s) l.
  Lemma nx_new l b x y : nx (nd l) (new_obj b x y).
  Proof.
    apply nx_bind; [apply nx_res; unfold init_hdr; apply nae_bind; [by destruct (_ || _)|done]|]. intros a s (Hf & hx & c & d & Hl). cbn. split; [done|]. split.
    - intros z oz. cbn. rewrite heap_insert. case_decide; [lia|]. intros Hz. apply Hf in Hz. lia.
    - exists hx, c, d. cbn. rewrite heap_insert, decide_False; [done|]. apply Hf in Hl. lia.
  Qed.
  Lemma nx_get {A : Type} l (k : obj -> M pst A) : (forall hx c d, nx (nd l) (k (Obj hx (BNode c d)))) -> nx (nd l) (mbind (getobj l) k).
  Proof. intros Hk s Hs. pose proof Hs as (Hf & hx & c & d & Hl). unfold mbind, getobj. rewrite Hl. cbn. by apply Hk. Qed.
  Lemma nx_set_body l c d : nx (nd l) (set_body l (BNode c d)).
  Proof.
    apply nx_get. intros hx c0 d0 s [Hf Hn]. cbn. split; [done|]. split; [apply fresh_set; [done|]; destruct Hn as (? & ? & ? & ->); by eexists|].
    exists hx, c, d. cbn. by rewrite heap_insert, decide_True.
  Qed.
  Lemma nx_set_hdr l f : nx (nd l) (set_hdr l f).
  Proof.
    apply nx_get. intros hx c d s [Hf Hn]. cbn. split; [done|]. split; [apply fresh_set; [done|]; destruct Hn as (? & ? & ? & ->); by eexists|].
    exists (f hx), c, d. cbn. by rewrite heap_insert, decide_True.
  Qed.
  Lemma nx_line l c realm line : nx (nd l) (map_in_line l c realm line).
  Proof.
    unfold map_in_line. apply nx_bind; [apply nx_res, nae_line|]. intros [[t x] n]. apply nx_bind.
    - repeat case_bool_decide; [apply nx_new|apply nx_new|by apply nx_raise].
    - intros child. apply nx_get. intros hx c' d. cbn. apply nx_set_body.
  Qed.
  Lemma nx_map_in l realm ref : nx (nd l) (map_in l realm ref).
  Proof.
    unfold map_in. apply nx_get. intros hx c d. cbv zeta. apply nx_bind; [apply nx_set_hdr|]. intros _. apply nx_bind; [unfold massert; destruct (jis_str _ _); [apply nx_ret|by apply nx_raise]|]. intros _.
    unfold map_in_impl. apply nx_get. intros hx2 c2 d2. cbn [o_body]. destruct (is_none_reference _); [apply nx_set_body|].
    apply nx_bind; [unfold loc_of; destruct (r_loc _); [apply nx_ret|by apply nx_raise]|]. intros x. apply nx_bind; [apply nx_read|]. intros ls. apply nx_iter. intros. apply nx_line.
  Qed.
  Lemma pall_got {A : Type} (Q : res A * pst -> Prop) (l : loc) o (k : obj -> M pst A) s : s_heap s !! l = Some o -> pall P Q (k o s) -> pall P Q (mbind (getobj l) k s).
  Proof. intros Hl. unfold mbind, getobj. by rewrite Hl. Qed.
  Lemma nae_ensure fuel l s g r s' g' : heap_ok s -> node_at (s_heap s) l -> exec (ensure_mapped fuel l s) g = ((r, s'), g') -> nae r.
  Proof.
    intros Hok Hn He. pose proof Hn as (hx & c & d & Hl).
    assert (HJ : nd l s) by (split; [intros x ox Hx; apply (Hok x ox Hx)|done]).
    destruct (h_mapped hx) eqn:Em; [rewrite (x_mapped_noop _ _ _ _ _ Hl Em) in He; by injection He as <- <- <-|].
    destruct (Hok l _ Hl) as (_ & _ & Hsub & _). specialize (Hsub Em). cbn in Hsub. assert (d = []) as -> by (by destruct d as [|[]]).
    unfold ensure_mapped in He. rewrite x_bind, x_getobj, Hl in He. cbn beta iota in He. cbn [o_hdr] in He. rewrite Em in He.
    assert (HR : pall P (fun rs => nae (fst rs) /\ nd l (snd rs)) (read_in fuel l s)).
    { unfold read_in. eapply pall_got; [exact Hl|]. cbn [o_hdr]. rewrite Em. destruct (h_realm hx) as [realm|]; [|done]. destruct (h_ref hx) as [ref|]; [|done].
      destruct (is_none_reference ref).
      - unfold massert, mbind. destruct (jis_str _ _); [|done]. cbn [pbind mret]. unfold purge_impl. eapply pall_got; [exact Hl|]. cbn [o_body].
        refine (nx_bind (nd l) _ _ _ _ s HJ); [apply nx_ret|]. intros _. apply nx_set_body.
      - destruct (in_saved _ _); [|done]. refine (nx_bind (nd l) _ _ _ _ s HJ); [apply nx_map_in|]. intros _. apply nx_set_hdr. }
    assert (HE : pall P (fun rs => nae (fst rs)) ((read_in fuel l ;;; set_hdr l (hd_mapped true) ;;; mret true) s)).
    { unfold mbind at 1. apply pall_bind. eapply pall_mono; [|clear HR|exact HR]; [done|]. intros [[a|e] s1] [H1 H2]; [|cbn in *; unfold nae in *; congruence].
      eapply pall_mono; [| |refine (nx_bind (nd l) _ _ _ _ s1 H2); [apply nx_set_hdr|intros; apply nx_ret]]; [done|]. by intros a0 [? _]. }
    apply (pall_exec _ _ _ g) in HE. by rewrite He in HE.
  Qed.

  Lemma ensure_step fuel l s g b s1 g1 : heap_ok s -> exec (ensure_mapped fuel l s) g = ((Ok b, s1), g1) ->
    good_step s s1 /\ (exists o, s_heap s1 !! l = Some o /\ h_mapped (o_hdr o) = true) /\ exec (ensure_mapped fuel l s1) g1 = ((Ok false, s1), g1).
  Proof.
    intros Hok He. destruct (s_heap s !! l) as [o|] eqn:Hl; [|unfold ensure_mapped in He; by rewrite x_bind, x_getobj, Hl in He].
    pose proof (ld_ensure s l o fuel g _ s1 g1 Hok Hl He) as [Hy Hn]. destruct (h_mapped (o_hdr o)) eqn:Em.
    - destruct (Hy eq_refl) as (-> & -> & _). split; [by apply gs_refl|]. split; [by exists o|]. by apply (x_mapped_noop _ _ o).
    - destruct (Hn eq_refl) as [_ HD]. split; [by eapply ld_good|]. destruct HD as [_ (o1 & Ho1 & Hm1 & _)]. split; [by exists o1|]. by apply (x_mapped_noop _ _ o1).
  Qed.
  Definition mapped_at (l : loc) (s : pst) : Prop := exists o, s_heap s !! l = Some o /\ h_mapped (o_hdr o) = true.
  Lemma ma_get {A : Type} l x (f : obj -> M pst A) : (forall o, mall P (mapped_at l) (f o)) -> mall P (mapped_at l) (mbind (getobj x) f).
  Proof. intros Hf s Hs. unfold mbind, getobj. destruct (s_heap s !! x) as [o|]; cbn; [by apply Hf|done]. Qed.
  Lemma ma_body l b : mall P (mapped_at l) (set_body l b).
  Proof.
    intros s (o & Hl & Hm). unfold set_body, mbind, getobj. rewrite Hl. cbn. eexists. cbn. by rewrite heap_insert, decide_True.
  Qed.
  Lemma ma_touch l : mall P (mapped_at l) (touch l).
  Proof.
    intros s (o & Hl & Hm). unfold touch, set_hdr, mbind, getobj. rewrite Hl. cbn. eexists. cbn. by rewrite heap_insert, decide_True.
  Qed.
  Lemma ma_ensure l fuel : mall P (mapped_at l) (ensure_mapped fuel l).
  Proof. intros s Hs. pose proof Hs as (o & Hl & Hm). unfold ensure_mapped, mbind at 1, getobj. rewrite Hl. cbn. by rewrite Hm. Qed.
  Lemma ma_modifies fuel y m : modifies fuel y m -> mall P (mapped_at y) m.
  Proof.
    destruct 1; unfold add_child, remove_child, metadata_add_run, set_file_tree, set_dataset_level_metadata, set_versioned_element, set_version_list, children, mrr_parts, versions, uuid_entries.
    all: repeat (match goal with
      | |- mall _ _ (mbind (massert _) _) => apply mall_bind; [apply mall_assert|intros ?]
      | |- mall _ _ (mbind (mbind (getobj _) _) _) => apply mall_bind
      | |- mall _ _ (mbind (getobj _) _) => apply ma_get; intros ?
      | |- mall _ _ (mbind _ _) => apply mall_bind; [|intros ?]
      | |- mall _ _ (touch _) => apply ma_touch
      | |- mall _ _ (ensure_mapped _ _) => apply ma_ensure
      | |- mall _ _ (set_body _ _) => apply ma_body
      | |- mall _ _ (mres _) => apply mall_res
      | |- mall _ _ (mret _) => apply mall_ret
      | |- mall _ _ (mraise _) => apply mall_raise
      | |- mall _ _ (match ?x with _ => _ end) => destruct x
      | |- forall _, mall _ _ _ => intros ?
      end).
  Qed.
  Lemma modify_mapped fuel y m a s g u s' g' : modifies fuel y m -> mapped_at y s -> loaded_below (s_heap s) a y -> exec (m s) g = ((Ok u, s'), g') -> bad (s_heap s') a.
  Proof.
    intros Hm Hy Hb He. pose proof (pall_exec _ _ _ g (ma_modifies fuel y m Hm s Hy)) as Hp. rewrite He in Hp. destruct Hy as (o & Hy & Hmp).
    destruct (modifies_only_at fuel y m o s g u s' g' Hm Hy Hmp He) as [Ho _]. by eapply lb_bad.
  Qed.
  Lemma modify_loads fuel y m s g u s' g' : modifies fuel y m -> (is_uuid_set (s_heap s) y -> mapped_at y s) -> heap_ok s -> exec (m s) g = ((Ok u, s'), g') ->
    exists s1 g1, loads s s1 /\ mapped_at y s1 /\ exec (m s1) g1 = ((Ok u, s'), g').
  Proof.
    intros Hm Hv Hok He.
    assert (HE : forall (k : bool -> M pst unit), exec (mbind (ensure_mapped fuel y) k s) g = ((Ok u, s'), g') -> (forall b b', k b = k b') ->
      exists s1 g1, loads s s1 /\ mapped_at y s1 /\ exec (mbind (ensure_mapped fuel y) k s1) g1 = ((Ok u, s'), g')).
    { intros k Hk HK. apply xi_bind in Hk as (b & s1 & g1 & E1 & E2). destruct (ensure_step _ _ _ _ _ _ _ Hok E1) as (Hg & Hma & E3).
      exists s1, g1. split; [apply Hg|]. split; [done|]. rewrite x_bind, E3. cbn beta iota. by rewrite (HK false b). }
    destruct Hm; [|by apply HE|by apply HE|by apply HE|by apply HE|by apply HE|].
    - unfold add_child in *. rewrite x_bind, x_assert in He. destruct (negb _) eqn:E1; [|done]. rewrite x_bind, x_assert in He. destruct (negb (existsb _ _)) eqn:E2; [|done].
      cbn beta iota in He. destruct (HE _ He) as (s1 & g1 & ? & ? & ?); [done|]. exists s1, g1. split; [done|]. split; [done|]. rewrite x_bind, x_assert. cbn beta iota. rewrite x_bind, x_assert. done.
    - exists s, g. split; [apply lo_refl|]. split; [|done]. apply Hv. unfold set_version_list, uuid_entries in He.
      destruct (s_heap s !! y) as [[hy by']|] eqn:Hy; [|unfold touch, set_hdr in He; by rewrite !x_bind, x_getobj, Hy in He]. rewrite x_bind, (x_set_hdr _ _ _ _ _ Hy : exec (touch y s) g = _) in He. cbn beta iota in He.
      rewrite !x_bind, x_getobj in He. cbn [s_heap with_heap] in He. rewrite heap_insert, decide_True in He by done. cbn beta iota in He. cbn [o_body] in He. destruct by' as [| | | | |us]; try done. by eexists _, _.
  Qed.
  Lemma modify_bad fuel y m a s g u s' g' : modifies fuel y m -> (is_uuid_set (s_heap s) y -> mapped_at y s) -> heap_ok s ->
    loaded_below (s_heap s) a y -> exec (m s) g = ((Ok u, s'), g') -> bad (s_heap s') a.
  Proof.
    intros Hm Hv Hok Hb He. destruct (modify_loads _ _ _ _ _ _ _ _ Hm Hv Hok He) as (s1 & g1 & Hl & Hma & He1).
    eapply modify_mapped; [exact Hm|exact Hma| |exact He1]. by eapply lb_loads.
  Qed.
  Lemma get_child_step fuel l e s g y s1 g1 : heap_ok s -> exec (get_child fuel l e s) g = ((Ok y, s1), g1) ->
    good_step s s1 /\ exists x c d, s_heap s1 !! l = Some (Obj x (BNode c d)) /\ h_mapped x = true /\ y = dget d e.
  Proof.
    intros Hok He. unfold get_child in He. apply xi_bind in He as (b & s2 & g2 & E1 & He). destruct (ensure_step _ _ _ _ _ _ _ Hok E1) as (Hg & (o & Hl & Hm) & _).
    unfold children in He. rewrite !x_bind, x_getobj, Hl in He. cbn beta iota in He. destruct o as [x b0]. cbn in *. destruct b0 as [| |c d| | |]; try done. cbn in He. injection He as <- <- <-.
    split; [done|]. by exists x, c, d.
  Qed.
  Lemma kp_exec {A : Type} h0 (m : M pst A) s g r s' g' : mall P (kp h0) m -> kp h0 s -> exec (m s) g = ((r, s'), g') -> kp h0 s'.
  Proof. intros Hm Hs He. pose proof (pall_exec _ _ _ g (Hm s Hs)) as Hp. by rewrite He in Hp. Qed.
  Lemma kp_start s : fresh_next s -> kp (s_heap s) s.
  Proof. by split. Qed.
  Lemma ok_fresh_next s : heap_ok s -> fresh_next s.
  Proof. intros Hok x o Hx. apply (Hok x o Hx). Qed.
  Lemma x_node_inv x s g b s' g' : exec (is_mtreenode x s) g = ((Ok b, s'), g') -> s' = s.
  Proof. unfold is_mtreenode. rewrite x_bind, x_getobj. destruct (s_heap s !! x); [|done]. cbn. by intros [= _ <- _]. Qed.
  Lemma x_node_true x s g s' g' : exec (is_mtreenode x s) g = ((Ok true, s'), g') -> ~ is_uuid_set (s_heap s) x.
  Proof. unfold is_mtreenode. rewrite x_bind, x_getobj. intros He (hx & us & Hx). by rewrite Hx in He. Qed.
  Lemma add_at_bad fuel child a n : forall l path s g u s' g', heap_ok s -> loaded_below (s_heap s) a l -> exec (add_child_at_n n fuel l child path s) g = ((Ok u, s'), g') ->
    bad (s_heap s') a.
  Proof.
    induction n as [|n IH]; intros l path s g u s' g' Hok Hb He.
    all: cbn [add_child_at_n] in He; destruct (all_parts path) as [|e rest]; [done|].
    all: apply xi_bind in He as (ex & s1 & g1 & E1 & He); destruct (get_child_step _ _ _ _ _ _ _ _ Hok E1) as (Hg & hx & c & d & Hl1 & Hm1 & ->).
    all: pose proof (lb_loads _ _ _ _ (gs_loads _ _ Hg) Hb) as Hb1; pose proof (gs_ok _ _ Hg) as Hok1.
    all: assert (Hma : mapped_at l s1) by (by eexists).
    all: destruct rest as [|e2 rest].
    1, 3: apply xi_bind in He as (nd0 & s2 & g2 & E2 & He); destruct nd0; [done|].
    1, 2: (assert (s2 = s1) as -> by (destruct (dget d e) as [x|]; [unfold is_mtreenode in E2; rewrite x_bind, x_getobj in E2; destruct (s_heap s1 !! x); [|done]; by injection E2|by injection E2])).
    1, 2: eapply modify_mapped; [apply mod_add_child|exact Hma|exact Hb1|exact He].
    all: apply xi_bind in He as (x & s2 & g2 & E2 & He).
    all: apply xi_bind in He as (nd0 & s5 & g5 & E5 & He); destruct nd0; [|done]; apply x_node_inv in E5 as ->.
    { done. }
    destruct (dget d e) as [y|] eqn:Ed.
    - injection E2 as <- <- _. eapply IH; [exact Hok1| |exact He]. eapply lb_trans; [exact Hb1|].
      assert (Hy : In y (sub_objects (BNode c d))) by (cbn; apply in_map_iff; exists (e, y); split; [done|by apply dget_Some_In]).
      eapply below_sub; [exact Hl1|done|exact Hy|]. destruct (Hok1 l _ Hl1) as (_ & Hs1 & _). destruct (Hs1 y Hy) as [oy Hoy]. by eapply below_self.
    - apply xi_bind in E2 as (cd & s6 & g6 & E6 & E2). rewrite (x_children _ _ _ _ _ _ Hl1) in E6. injection E6 as <- <- <-.
      apply xi_bind in E2 as (y & s3 & g3 & E3 & E2). apply xi_bind in E2 as ([] & s4 & g4 & E4 & E2). cbn in E3. injection E3 as <- <- <-. cbn in E2. injection E2 as <- <- <-.
      assert (Hb4 : bad (s_heap s4) a).
      { eapply modify_mapped; [apply mod_add_child| | |exact E4]; [|eapply lb_loads; [by apply alloc_loads|exact Hb1]].
        exists (Obj hx (BNode c d)). split; [|done]. cbn. rewrite heap_insert, decide_False; [done|]. apply Hok1 in Hl1 as [Hl1 _]. lia. }
      assert (Hf4 : fresh_next s4).
      { apply (kp_exec (s_heap s1) _ _ _ _ _ _ (kp_add_child _ _ _ _ _) (kp_new_state _ s1 _ (kp_start _ (ok_fresh_next _ Hok1))) E4). }
      by apply (kp_exec (s_heap s4) _ _ _ _ _ _ (kp_add _ _ _ _ _ _) (kp_start _ Hf4) He).
  Qed.
  Lemma add_bad fuel l child path a s g u s' g' : heap_ok s -> loaded_below (s_heap s) a l -> exec (add_child_at fuel l child path s) g = ((Ok u, s'), g') -> bad (s_heap s') a.
  Proof. intros Hok Hb He. by eapply add_at_bad. Qed.
  Lemma walk_below fuel parts l a s g x s1 g1 : heap_ok s -> loaded_below (s_heap s) a l -> exec (walk fuel l parts s) g = ((Ok (Some x), s1), g1) ->
    good_step s s1 /\ loaded_below (s_heap s1) a x.
  Proof.
    intros Hok Hb He. pose proof (lb_some _ _ _ Hb) as Hl. apply gs_walk in He as [_ [Hg Hp]]; [|done|done]. split; [done|].
    eapply lb_trans; [by eapply lb_loads; [apply Hg|]|]. eapply lb_peek; [apply Hg|by eapply loads_some; [apply Hg|]|exact Hp].
  Qed.
  Lemma remove_bad fuel l path a s g u s' g' : heap_ok s -> loaded_below (s_heap s) a l -> exec (remove_child_at fuel l path s) g = ((Ok u, s'), g') -> bad (s_heap s') a.
  Proof.
    intros Hok Hb He. unfold remove_child_at, get_object_at_path in He. apply xi_bind in He as (c & s1 & g1 & E1 & He). destruct c as [x|]; [|done].
    destruct (walk_below _ _ _ _ _ _ _ _ _ Hok Hb E1) as [Hg Hx]. apply xi_bind in He as (b & s2 & g2 & E2 & He). destruct b; [|done]. pose proof (x_node_true _ _ _ _ _ E2) as Hnu. apply x_node_inv in E2 as ->.
    destruct (last _) as [e|]; [|done]. eapply modify_bad; [apply mod_remove_child|done|apply Hg|exact Hx|exact He].
  Qed.
  Lemma nae_walk fuel parts : forall l s g r s1 g1, heap_ok s -> is_Some (s_heap s !! l) -> exec (walk fuel l parts s) g = ((r, s1), g1) -> nae r.
  Proof.
    induction parts as [|e rest IH]; intros l s g r s1 g1 Hok [o Hl] He; cbn [walk] in He; [by injection He as <- _ _|].
    rewrite x_bind, (x_is_node _ _ _ _ Hl) in He. cbn beta iota in He. destruct (is_node o) eqn:En; [|by injection He as <- _ _].
    rewrite x_bind in He. destruct (exec (get_child fuel l e s) g) as [[r1 s2] g2] eqn:E1. destruct r1 as [y|err].
    - destruct (get_child_step _ _ _ _ _ _ _ _ Hok E1) as (Hg & hx & c & d & Hl1 & Hm1 & ->). destruct (dget d e) as [y|] eqn:Ed; [|by injection He as <- _ _].
      eapply IH; [apply Hg| |exact He]. destruct (gs_ok _ _ Hg l _ Hl1) as (_ & Hs1 & _). apply Hs1. cbn. apply in_map_iff. exists (e, y). split; [done|by apply dget_Some_In].
    - injection He as <- _ _. unfold get_child in E1. rewrite x_bind in E1. destruct (exec (ensure_mapped fuel l s) g) as [[r2 s3] g3] eqn:E2. destruct r2 as [b|err2].
      + destruct (ensure_step _ _ _ _ _ _ _ Hok E2) as (Hg & (o3 & Hl3 & _) & _). destruct (lo_obj _ _ (gs_loads _ _ Hg) l o Hl) as (o3' & Hl3' & Hk & _).
        assert (o3' = o3) as -> by congruence. unfold children in E1. rewrite !x_bind, x_getobj, Hl3 in E1. cbn beta iota in E1. unfold is_node in En.
        destruct o3 as [h3 b3], o as [h0 b0]. cbn in *. destruct b0; try done. destruct b3; try done.
      + injection E1 as <- _ _. pose proof (nae_ensure _ _ _ _ _ _ _ Hok (proj1 (node_iff _ _ _ Hl) En) E2) as Hn. unfold nae in *. congruence.
  Qed.
  Lemma get_metadata_bad fuel l path a s g r s1 g1 : heap_ok s -> loaded_below (s_heap s) a l -> exec (get_metadata fuel l path s) g = ((r, s1), g1) ->
    match r with
    | Ok (Some x) => mapped_at x s1 /\ loaded_below (s_heap s1) a x
    | Err AttributeError => heap_ok s1 /\ loads s s1
    | _ => True
    end.
  Proof.
    intros Hok Hb He. unfold get_metadata, get_object_at_path in He. rewrite x_bind in He. destruct (exec (walk fuel l (all_parts path) s) g) as [[r1 s2] g2] eqn:E1.
    destruct r1 as [[x|]|err]; [|by injection He as <- _ _|pose proof (nae_walk _ _ _ _ _ _ _ _ Hok (lb_some _ _ _ Hb) E1) as Hn; injection He as <- _ _; destruct err; try done; unfold nae in Hn; congruence].
    destruct (walk_below _ _ _ _ _ _ _ _ _ Hok Hb E1) as [Hg Hx]. cbn beta iota in He. destruct (lb_some _ _ _ Hx) as [o Ho]. rewrite x_bind, x_getobj, Ho in He. cbn beta iota in He.
    destruct (o_body o) as [m| | | | |] eqn:Eb; try (by injection He as <- _ _).
    rewrite x_bind in He. destruct (exec (ensure_mapped fuel x s2) g2) as [[r3 s3] g3] eqn:E3. destruct r3 as [b|err].
    - injection He as <- <- _. destruct (ensure_step _ _ _ _ _ _ _ (gs_ok _ _ Hg) E3) as (Hg3 & Hm3 & _). split; [exact Hm3|]. by eapply lb_loads; [apply Hg3|].
    - injection He as <- <- _. destruct err; try done. pose proof (ld_ensure s2 x o fuel g2 _ s3 g3 (gs_ok _ _ Hg) Ho E3) as [Hy Hn]. destruct (h_mapped (o_hdr o)) eqn:Em; [by destruct (Hy eq_refl) as (_ & _ & ?)|].
      specialize (Hn eq_refl). cbn beta iota in Hn. destruct Hn as [Hrd Hown].
      assert (Hlo : loads s2 s3) by (eapply rd_own_loads; [apply ok_fresh_next, Hg|exact Ho|exact Em|exact Hrd|exact Hown]).
      split; [|eapply lo_trans; [apply Hg|exact Hlo]]. pose proof (gs_ok _ _ Hg) as Hok2. pose proof Hrd as [R1 R2 R3 R4 R5].
      destruct Hown as (o3 & Ho3 & Hm3 & _ & Hk3). rewrite Ho in Hk3. cbn in Hk3. rewrite Eb in Hk3.
      intros y oy Hoy. destruct (decide (y = x)) as [->|Hne].
      + assert (oy = o3) as -> by congruence. split; [destruct (Hok2 x o Ho); lia|]. destruct o3 as [h3 b3]. cbn in Hk3. destruct b3; try done. split_and!; [done|done|apply NoDup_nil_2].
      + destruct (N.lt_ge_cases y (s_next s2)) as [Hlt|Hge].
        * rewrite R3 in Hoy by done. destruct (Hok2 y oy Hoy) as (H1 & H2 & H3 & H4). split_and!; [lia| |done|done]. intros z Hz. eapply loads_some; [exact Hlo|]. by apply H2.
        * destruct (N.lt_ge_cases y (s_next s3)) as [Hlt2|Hge2]; [|rewrite R5 in Hoy by done; done].
          destruct (R4 y) as (oy' & Hy' & Hmy & ky & Hby); [done|done|]. assert (oy' = oy) as -> by congruence. rewrite Hby, empty_sub, empty_kids. split_and!; try done. apply NoDup_nil_2.
  Qed.
  Lemma heap_ok_alloc s m : heap_ok s -> heap_ok (PSt (<[s_next s := Obj (Hdr None None true ∅) (BMeta m)]> (s_heap s)) (N.succ (s_next s)) (s_caches s) (s_orefs s) (s_legacy s) (s_locks s)).
  Proof.
    intros Hok x o. cbn. rewrite heap_insert. case_decide as E.
    - intros [= <-]. subst x. split_and!; [lia|done|done|apply NoDup_nil_2].
    - intros Hx. destruct (Hok x o Hx) as (H1 & H2 & H3 & H4). split_and!; [lia| |done|done]. intros y Hy. destruct (H2 y Hy) as [oy Hoy]. rewrite heap_insert. case_decide; by eexists.
  Qed.
  Lemma run_bad fuel l path ru a s g u s' g' : heap_ok s -> loaded_below (s_heap s) a l -> exec (filetree_add_run fuel l path ru s) g = ((Ok u, s'), g') -> bad (s_heap s') a.
  Proof.
    intros Hok Hb He. unfold filetree_add_run in He. apply xi_bind in He as (m & s1 & g1 & E1 & He). destruct m as [m|]; [|done].
    rewrite x_try in E1. destruct (exec (get_metadata fuel l path s) g) as [[r2 s2] g2] eqn:E2. pose proof (get_metadata_bad _ _ _ _ _ _ _ _ _ Hok Hb E2) as H2.
    destruct r2 as [[x|]|err].
    - cbn in E1. injection E1 as -> -> ->. destruct H2 as [Hm2 Hx]. eapply modify_mapped; [apply mod_add_run|exact Hm2|exact Hx|exact He].
    - done.
    - destruct err; try done. destruct H2 as [Hok2 Hlo2]. cbn beta iota in E1.
      apply xi_bind in E1 as (y & s3 & g3 & E3 & E1). cbn in E3. injection E3 as <- <- <-. apply xi_bind in E1 as ([] & s4 & g4 & E4 & E1).
      cbn in E1. injection E1 as <- <- <-.
      assert (Hb4 : bad (s_heap s4) a).
      { eapply add_bad; [by apply heap_ok_alloc| |exact E4]. eapply lb_loads; [|exact Hb]. eapply lo_trans; [exact Hlo2|]. by apply alloc_loads. }
      assert (Hf4 : fresh_next s4).
      { apply (kp_exec (s_heap s2) _ _ _ _ _ _ (kp_add_at _ _ _ _ _) (kp_new_state _ s2 _ (kp_start _ (ok_fresh_next _ Hok2))) E4). }
      by apply (kp_exec (s_heap s4) _ _ _ _ _ _ (kp_add_run _ _ _ _) (kp_start _ Hf4) He).
  Qed.
  Lemma C22_altered_lemma fuel x y m s g u s' g' : heap_ok s -> alters fuel y m ->
    (is_uuid_set (s_heap s) y -> exists o, s_heap s !! y = Some o /\ h_mapped (o_hdr o) = true) ->
    loaded_below (s_heap s) x y -> exec (m s) g = ((Ok u, s'), g') -> unsaved_below (s_heap s') x.
  Proof.
    intros Hok Ha Hv Hb He. apply bad_unsaved. destruct Ha as [m Hm| | | | | | |].
    - by eapply modify_bad.
    - by eapply add_bad.
    - by eapply add_bad.
    - by eapply add_bad.
    - by eapply add_bad.
    - by eapply remove_bad.
    - by eapply remove_bad.
    - by eapply run_bad.
  Qed.
  Lemma C22_until_lemma fuel fuel2 x y m s g u s1 g1 s' r : heap_ok s -> alters fuel y m ->
    (is_uuid_set (s_heap s) y -> exists o, s_heap s !! y = Some o /\ h_mapped (o_hdr o) = true) ->
    loaded_below (s_heap s) x y -> exec (m s) g = ((Ok u, s1), g1) -> without_write s1 s' -> saved_on fuel2 (s_heap s') x (Some r) <> Ok true.
  Proof.
    intros Hok Ha Hv Hb He Hw. pose proof (C22_altered_lemma _ _ _ _ _ _ _ _ _ Hok Ha Hv Hb He) as H1.
    assert (Hf1 : fresh_next s1) by apply (kp_exec (s_heap s) m _ _ _ _ _ (kp_alters _ _ _ _ Ha) (kp_start _ (ok_fresh_next _ Hok)) He).
    destruct (C22_kept_lemma s1 s' x Hf1 Hw H1) as (z & o & Hz & Ho & Hm & Hs). intros Ht.
    destruct (C22_marks_lemma _ _ _ _ _ Ht Hz) as (o' & Ho' & Hr). assert (o' = o) as -> by congruence. rewrite Hs in Hr. set_solver.
  Qed.
End Calls.
