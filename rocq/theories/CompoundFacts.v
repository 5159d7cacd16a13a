(** Calls that are made of several calls of histories: proofs for C18, C27, C32
    and C46. *)
From Verif Require Import Base BaseFacts Path Spec_Path PathFacts Json Refs RefsFacts Meta Spec_Meta MetaFacts GitText Spec_Git Git GitFacts Spec_Store State BlobCache ObjRef Objects Spec_Objects Spec_Look Spec_Heap Spec_Versions Spec_Write ExecFacts LoadFacts PeekFacts TreeFacts TreeEditFacts VersionFacts PartFacts LookFacts ReadFacts Spec_Content ContentFacts WriteFacts StoreFacts SaveFacts WriteBackFacts WriteAllFacts ReadBackFacts PurgeFacts EditFacts RealmFacts GraftFacts AddFacts ListFacts Spec_History AnyWriteFacts UseFacts FrameFacts SessionFacts DatasetFacts HistoryFacts Spec_Outcome Spec_Parts RunAllFacts Spec_Unget UngetFacts SettleFacts Spec_Copy CopyAllFacts.

Section Compound.
  Context `{Env} (r : pystr) (Hrem : is_remote r = false) (Hr : r <> []).
  Lemma roots_none R l p o b : roots (EOp l p o None b) R = R.
  Proof. cbn [roots given]. destruct b; [|done]. apply leibniz_equiv. set_solver. Qed.
  Lemma snoc2 {A : Type} (es : list A) a b : es ++ [a; b] = (es ++ [a]) ++ [b].
  Proof. by rewrite <- app_assoc. Qed.
  (** the object at a path of a part *)
  Lemma walk_history es s g R l p y fuel path : history r es s g R -> l ∈ R -> reach (s_heap s) l p = Some y ->
    exists s1 x, exec (get_object_at_path fuel y path s) g = ((Ok x, s1), g) /\ history r (es ++ [EUse]) s1 g R /\
    match x with Some x => reach (s_heap s1) l (p ++ map KName (all_parts path)) = Some x | None => True end.
  Proof using Hrem Hr.
    intros HH Hl Hp. destruct (history_able r es s g R l p y Hrem Hr HH Hl Hp) as (_ & HT & _).
    destruct (walk_quiet r g Hrem Hr fuel (all_parts path) s y HT) as (s1 & x & E & HQ & Hx). exists s1, x. split; [exact E|].
    split; [exact (hist_step _ _ _ _ _ _ _ _ HH (do_use _ _ _ _ fuel l p y _ _ _ _ _ Hl Hp (use_path _ _ path) E))|].
    destruct x as [x|]; [|done]. rewrite reach_app, (qu_reach _ _ _ _ _ HQ _ _ Hp). by destruct Hx.
  Qed.
  Lemma remove_at_lemma es s g R l p y fuel path a s' g' : history r es s g R -> l ∈ R -> reach (s_heap s) l p = Some y -> is_metadata_path path ->
    exec (remove_child_at fuel y path s) g = ((a, s'), g') ->
    (is_ok a = false /\ history r (es ++ [EUse]) s' g' R) \/
    exists ns n, all_parts path = ns ++ [n] /\ history r (es ++ [EUse; EOp l (p ++ map KName ns) (ORemove n) None (is_ok a)]) s' g' R.
  Proof using Hrem Hr.
    intros HH Hl Hp [args ->] He. pose proof (MetadataPath_wf args) as Hw. unfold remove_child_at in He. rewrite x_bind in He.
    set (q := MetadataPath [AStr (join [slash] (removelast (all_parts (MetadataPath args))))]) in He.
    assert (Hq : all_parts q = removelast (all_parts (MetadataPath args))).
    { apply parts_again. rewrite wfp_all by done. destruct Hw as [_ Hg]. destruct (p_parts (MetadataPath args)) as [|e rest] using rev_ind; [done|]. rewrite List.removelast_last. by apply Forall_app in Hg as [? _]. }
    destruct (walk_history es s g R l p y fuel q HH Hl Hp) as (s1 & x & E & H1 & Hx). rewrite E in He.
    destruct x as [x|]; [|rewrite x_raise in He; injection He as <- <- <-; by left].
    rewrite x_bind, is_node_exec in He. destruct (s_heap s1 !! x) as [ox|] eqn:Ex; [|injection He as <- <- <-; by left].
    destruct (is_node ox) eqn:Hn; [|rewrite x_raise in He; injection He as <- <- <-; by left].
    destruct (last (all_parts (MetadataPath args))) as [e|] eqn:El; [|rewrite x_raise in He; injection He as <- <- <-; by left].
    right. exists (all_parts q), e. split.
    { rewrite Hq. destruct (all_parts (MetadataPath args)) as [|z rest _] using rev_ind; [done|]. rewrite List.removelast_last. destruct (removelast_last rest z) as [_ H2]. rewrite H2 in El. by injection El as ->. }
    rewrite snoc2. rewrite <- (roots_none R l (p ++ map KName (all_parts q)) (ORemove e) (is_ok a)) at 1.
    eapply hist_step; [exact H1|]. eapply (do_op _ _ _ _ fuel l _ x); [done|exact Hx|cbn [given]; set_solver| |apply call_remove|exact He].
    destruct ox as [hx []]; try discriminate Hn. cbn [op_ok]. eexists. eexists. split; [exact Ex|reflexivity].
  Qed.
  Lemma add_run_at_lemma es s g R l p y fuel path ru a s' g' : history r es s g R -> l ∈ R -> reach (s_heap s) l p = Some y -> run_ok ru ->
    exec (filetree_add_run fuel y path ru s) g = ((a, s'), g') ->
    (is_ok a = false /\ history r (es ++ [EUse]) s' g' R) \/
    history r (es ++ [EUse; EOp l (p ++ map KName (all_parts path)) (ORun ru) None (is_ok a)]) s' g' R.
  Proof using Hrem Hr.
    intros HH Hl Hp Hru He. unfold filetree_add_run in He. rewrite x_bind in He.
    destruct (exec (get_metadata fuel y path s) g) as [[b s1] g1] eqn:Eg.
    assert (H1 : history r (es ++ [EUse]) s1 g1 R) by exact (hist_step _ _ _ _ _ _ _ _ HH (do_use _ _ _ _ fuel l p y _ _ _ _ _ Hl Hp (use_metadata _ _ path) Eg)).
    rewrite x_try, Eg in He. unfold get_metadata in Eg. rewrite x_bind in Eg.
    destruct (walk_history es s g R l p y fuel path HH Hl Hp) as (s0 & x & E & H0 & Hx). rewrite E in Eg.
    destruct x as [x|]; [|rewrite x_ret in Eg; injection Eg as <- <- <-; rewrite x_raise in He; injection He as <- <- <-; by left].
    rewrite x_bind, x_getobj in Eg. destruct (s_heap s0 !! x) as [ox|] eqn:Ex; [|injection Eg as <- <- <-; rewrite x_raise in He; injection He as <- <- <-; by left].
    destruct (history_able r _ s0 g R l _ x Hrem Hr H0 Hl Hx) as (_ & HT & _). destruct (tidy_root _ _ _ _ HT) as (o & Ho & Hh & Hb).
    assert (o = ox) as -> by congruence. destruct (ensure_quiet r g Hrem Hr fuel s0 x ox (td_heap _ _ _ _ HT) Ho Hh Hb) as (c & s2 & o2 & E2 & HQ & Ho2 & _ & Hk).
    destruct ox as [hx bx]. cbn [o_body] in *. destruct bx as [m| | | | |].
    2-6: rewrite x_raise in Eg; injection Eg as <- <- <-; rewrite x_raise in He; injection He as <- <- <-; by left.
    rewrite x_bind, E2, x_ret in Eg. injection Eg as <- <- <-. right.
    rewrite snoc2. rewrite <- (roots_none R l (p ++ map KName (all_parts path)) (ORun ru) (is_ok a)) at 1.
    eapply hist_step; [exact H1|]. eapply (do_op _ _ _ _ fuel l _ x); [done|exact (qu_reach _ _ _ _ _ HQ _ _ Hx)|cbn [given]; set_solver| |apply call_run|exact He].
    split; [done|]. exists o2. by split.
  Qed.
End Compound.

Section Copies.
  Context `{Env} (a b : pystr) (Ha : a <> []) (Hrem : is_remote a = false) (Hb : b <> []) (Hremb : is_remote b = false).
  Lemma copy_history es s g R l p x fuel pre y s' g' k : history a es s g R -> l ∈ R -> reach (s_heap s) l p = Some x -> is_kind (s_heap s) x k -> k <> KdVl true ->
    dget (s_caches s) b = None -> prefix_ok pre -> exec (deepcopy fuel x (Some b) pre s) g = ((Ok y, s'), g') ->
    exists ref c, (exists o, s_heap s' !! y = Some o /\ h_ref (o_hdr o) = Some ref) /\ moved pre (look (objs_of g a) (s_heap s) x) c /\
    forall es2 s2 g2 R2, history b es2 s2 g2 R2 -> objs_of g' b ⊆ objs_of g2 b ->
    exists z s3 c2, exec (object_at k b ref s2) g2 = ((Ok z, s3), g2) /\ same c2 c /\ history b (es2 ++ [EOpen z c2]) s3 g2 ({[z]} ∪ R2).
  Proof using All.
    intros HH Hl Hp (o & Ho & Hko) Hk Hu Hpre He. destruct (history_able a es s g R l p x Hrem Ha HH Hl Hp) as ((_ & Hc & _) & HT & _).
    destruct (deepcopy_copies a b Ha Hrem Hb fuel x pre s g y s' g' HT) as (k' & c' & (o2 & Ho2 & Hkk) & HK & Hy & (oy & Hoy & Hmy & Hky & Hry & Hsy & HTy & HLy) & HM); try done.
    { intros (o2 & Ho2 & Hk2). apply Hk. congruence. }
    assert (o2 = o) as -> by congruence. assert (k' = k) as -> by congruence.
    destruct (td_home _ _ _ _ HTy [] y oy eq_refl Hoy Hmy) as (_ & _ & ref & Href & _).
    exists ref, c'. split; [by exists oy|]. split; [done|]. intros es2 s2 g2 R2 H2 HO2.
    assert (HS : forall q, look_stored (objs_of g' b) k ref q = c' q).
    { intros q. rewrite <- HLy. rewrite <- Hky. destruct q; cbn [look]; by rewrite Hoy, Hmy, Href. }
    assert (HC : complete c') by (eapply complete_ext; [|apply (td_complete _ _ _ _ HTy)]; intros q; by rewrite HLy).
    assert (HS2 : forall q, look_stored (objs_of g2 b) k ref q = c' q).
    { intros q. rewrite (look_stored_mono (objs_of g' b)); [apply HS|done|]. rewrite HS. apply HC. }
    assert (HE : exists z s3, exec (object_at k b ref s2) g2 = ((Ok z, s3), g2)).
    { unfold object_at, new_obj. rewrite x_bind. cbn. eexists _, _. reflexivity. }
    destruct HE as (z & s3 & HE). exists z, s3, (look_stored (objs_of g2 b) k ref). split; [done|]. split; [exact HS2|].
    apply (hist_step b es2 s2 g2 R2 (EOpen z (look_stored (objs_of g2 b) k ref)) s3 g2 H2). eapply do_open; [| |exact HE].
    - eapply complete_ext; [|exact HC]. intros q. by rewrite HS2.
    - intros Ek. eapply (td_class _ _ _ _ HTy [] y oy ref eq_refl Hoy); [|done]. congruence.
  Qed.
End Copies.
