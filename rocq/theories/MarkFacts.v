(** Proofs about the marks of objects: C22. *)
From Verif Require Import Base BaseFacts Path Json Refs Meta GitText Git Spec_Store State BlobCache ObjRef Objects ExecFacts Common Spec_Objects Spec_Look Spec_Heap Spec_Write Spec_Content Spec_History
  WriteFacts LoadFacts Spec_Marks.

(** ** Objects that are saved nowhere *)
Inductive bad (h : heap) : loc -> Prop :=
| bad_here x o : h !! x = Some o -> h_mapped (o_hdr o) = true -> h_saved (o_hdr o) = ∅ -> bad h x
| bad_sub x o z : h !! x = Some o -> h_mapped (o_hdr o) = true -> In z (sub_objects (o_body o)) -> bad h z -> bad h x.
Lemma bad_unsaved h x : bad h x <-> unsaved_below h x.
Proof.
  split.
  - induction 1 as [x o Ho Hm Hs|x o z Ho Hm Hz _ (y & oy & Hb & Hy)].
    + exists x, o. split; [by eapply below_self|done].
    + exists y, oy. split; [by eapply below_sub|done].
  - intros (y & oy & Hb & Hy & Hm & Hs). induction Hb as [x o Ho|x o z y Ho Hmo Hz _ IH]; [by eapply bad_here|]. eapply bad_sub; eauto.
Qed.
Definition free (h : heap) (l : loc) : Prop := forall o, h !! l = Some o -> h_mapped (o_hdr o) = true -> h_saved (o_hdr o) = ∅.
(** an object that is not loaded, or saved nowhere *)
Lemma bad_free h (l : loc) o : free h l -> (forall o0, h !! l = Some o0 -> h_mapped (o_hdr o0) = true -> h_mapped (o_hdr o) = true /\ h_saved (o_hdr o) = ∅) ->
  forall x, bad h x -> bad (<[l := o]> h) x.
Proof.
  intros Hf Ho x. induction 1 as [x ox Hx Hm Hs|x ox z Hx Hm Hz _ IH]; destruct (decide (x = l)) as [->|Hne].
  - destruct (Ho _ Hx Hm). eapply bad_here; [by rewrite heap_insert, decide_True|done|done].
  - eapply bad_here; [by rewrite heap_insert, decide_False|done|done].
  - destruct (Ho _ Hx Hm). eapply bad_here; [by rewrite heap_insert, decide_True|done|done].
  - eapply bad_sub; [by rewrite heap_insert, decide_False|done|done|done].
Qed.
Lemma bad_dirty h (l : loc) o : h_mapped (o_hdr o) = true -> h_saved (o_hdr o) = ∅ -> forall x, bad h x -> bad (<[l := o]> h) x.
Proof.
  intros Hmo Hso x. induction 1 as [x ox Hx Hm Hs|x ox z Hx Hm Hz _ IH]; (destruct (decide (x = l)) as [->|Hne]; [eapply bad_here; [by rewrite heap_insert, decide_True|done|done]|]).
  - eapply bad_here; [by rewrite heap_insert, decide_False|done|done].
  - eapply bad_sub; [by rewrite heap_insert, decide_False|done|done|done].
Qed.
(** an object that is saved, with all below *)
Lemma bad_not h (l : loc) o : ~ bad h l -> forall x, bad h x -> bad (<[l := o]> h) x.
Proof.
  intros Hl x. induction 1 as [x ox Hx Hm Hs|x ox z Hx Hm Hz Hb IH]; destruct (decide (x = l)) as [->|Hne].
  - destruct Hl. by eapply bad_here.
  - eapply bad_here; [by rewrite heap_insert, decide_False|done|done].
  - destruct Hl. by eapply bad_sub.
  - eapply bad_sub; [by rewrite heap_insert, decide_False|done|done|done].
Qed.
(** the mark of loading *)
Lemma bad_mapped h (l : loc) o o' : h !! l = Some o -> h_saved (o_hdr o') = h_saved (o_hdr o) -> h_mapped (o_hdr o') = true -> o_body o' = o_body o ->
  forall x, bad h x -> bad (<[l := o']> h) x.
Proof.
  intros Hl Hs' Hm' Hb' x. induction 1 as [x ox Hx Hm Hs|x ox z Hx Hm Hz Hb IH]; destruct (decide (x = l)) as [->|Hne].
  - assert (ox = o) as -> by congruence. eapply bad_here; [by rewrite heap_insert, decide_True|done|congruence].
  - eapply bad_here; [by rewrite heap_insert, decide_False|done|done].
  - assert (ox = o) as -> by congruence. eapply bad_sub; [by rewrite heap_insert, decide_True|done|by rewrite Hb'|done].
  - eapply bad_sub; [by rewrite heap_insert, decide_False|done|done|done].
Qed.

(** ** Purging *)
Record pr (s s' : pst) : Prop := {
  pr_next : s_next s' = s_next s;
  pr_some : forall x : loc, is_Some (s_heap s !! x) -> is_Some (s_heap s' !! x);
  pr_obj : forall (x : loc) o', s_heap s' !! x = Some o' -> exists o, s_heap s !! x = Some o /\ h_saved (o_hdr o') = h_saved (o_hdr o) /\
    (h_mapped (o_hdr o') = true -> h_mapped (o_hdr o) = true) /\ incl (sub_objects (o_body o')) (sub_objects (o_body o));
  pr_bad : forall x, bad (s_heap s) x -> bad (s_heap s') x;
}.
Lemma pr_refl s : pr s s.
Proof. split; [done|done| |done]. intros x o Ho. exists o. split_and!; [done|done|done|apply incl_refl]. Qed.
Lemma pr_trans a b c : pr a b -> pr b c -> pr a c.
Proof.
  intros [A1 A2 A3 A4] [B1 B2 B3 B4]. split; [congruence|auto| |auto].
  intros x o'' H2. destruct (B3 x o'' H2) as (o' & H1 & E1 & E2 & E3). destruct (A3 x o' H1) as (o & H0 & F1 & F2 & F3).
  exists o. split_and!; [done|congruence|auto|by eapply incl_tran].
Qed.
Lemma pr_back s s' : pr s s' -> forall x, bad (s_heap s') x -> bad (s_heap s) x.
Proof.
  intros [_ _ Ho _] x. induction 1 as [x o' Hx Hm Hs|x o' z Hx Hm Hz _ IH]; destruct (Ho x o' Hx) as (o & H0 & F1 & F2 & F3).
  - eapply bad_here; [done|auto|congruence].
  - eapply bad_sub; [done|auto|by apply F3|done].
Qed.
Lemma pr_set s (l : loc) o o' : s_heap s !! l = Some o -> h_saved (o_hdr o') = h_saved (o_hdr o) -> (h_mapped (o_hdr o') = true -> h_mapped (o_hdr o) = true) ->
  incl (sub_objects (o_body o')) (sub_objects (o_body o)) -> ~ bad (s_heap s) l -> pr s (with_heap s (<[l := o']> (s_heap s))).
Proof.
  intros Hl H1 H2 H3 H4. split; cbn; [done| | |by apply bad_not].
  - intros x Hx. rewrite heap_insert. case_decide; [by eexists|done].
  - intros x ox. rewrite heap_insert. case_decide as E; [|intros Hx; exists ox; split_and!; [done|done|done|apply incl_refl]].
    intros [= <-]. exists o. subst x. done.
Qed.
Section Purge.
  Context `{Env}.
  Definition purges (rec : loc -> M pst unit) : Prop := forall l s, mw (pr s) (fun _ s' => pr s s' /\ ~ bad (s_heap s) l) (rec l) s.
  Definition visits (m : M pst unit) (ls : list loc) : Prop := forall s, mw (pr s) (fun _ s' => pr s s' /\ forall x, In x ls -> ~ bad (s_heap s) x) m s.
  Lemma vs_none : visits (mret tt) [].
  Proof. intros s. apply mw_ret. split; [apply pr_refl|done]. Qed.
  Lemma vs_app m1 m2 l1 l2 : visits m1 l1 -> visits m2 l2 -> visits (m1 ;;; m2) (l1 ++ l2).
  Proof.
    intros H1 H2 s. apply mw_bind. eapply mw_mono; [apply H1|done|]. cbn beta. intros _ s1 [P1 N1].
    eapply mw_mono; [apply H2| |]; cbn beta.
    - intros s2 P2. by eapply pr_trans.
    - intros _ s2 [P2 N2]. split; [by eapply pr_trans|]. intros x [Hx|Hx]%in_app_iff; [by apply N1|]. intros Hb. apply (N2 x Hx). by apply P1.
  Qed.
  Lemma vs_one rec l : purges rec -> visits (rec l) [l].
  Proof. intros Hr s. eapply mw_mono; [apply Hr|done|]. cbn beta. intros _ s1 [P1 N1]. split; [done|]. by intros x [<-|[]]. Qed.
  Lemma vs_iter {A : Type} rec (f : A -> loc) ls : purges rec -> visits (miter (fun a => rec (f a)) ls) (map f ls).
  Proof. intros Hr. induction ls as [|l ls IH]; cbn [miter map]; [apply vs_none|]. apply (vs_app _ _ [f l]); [by apply vs_one|done]. Qed.
  Lemma mw_end l o b s s1 : s_heap s !! l = Some o -> (h_mapped (o_hdr o) = true -> h_saved (o_hdr o) <> ∅) -> sub_objects b = [] ->
    pr s s1 -> (forall x, In x (sub_objects (o_body o)) -> ~ bad (s_heap s) x) -> mw (pr s) (fun _ s' => pr s s' /\ ~ bad (s_heap s) l) (set_body l b) s1.
  Proof.
    intros Hl Hs Hb P1 N1.
    assert (HN : ~ bad (s_heap s) l).
    { inversion 1 as [? o1 H1 H2 H3|? o1 z H1 H2 H3 H4]; subst; assert (o1 = o) as -> by congruence; [by apply Hs|]. by apply (N1 z). }
    apply mw_bind, mw_getobj; [done|]. intros o1 Ho1. cbn.
    destruct (pr_obj _ _ P1 l o1 Ho1) as (o' & E & F1 & F2 & F3). assert (o' = o) as -> by congruence.
    split; [|done]. eapply pr_trans; [exact P1|]. eapply pr_set; [exact Ho1|done|done|cbn; rewrite Hb; by intros ? []|].
    intros Hbad. apply HN. by eapply pr_back.
  Qed.
  Lemma mw_clear m l o b s : visits m (sub_objects (o_body o)) -> s_heap s !! l = Some o -> (h_mapped (o_hdr o) = true -> h_saved (o_hdr o) <> ∅) ->
    sub_objects b = [] -> mw (pr s) (fun _ s' => pr s s' /\ ~ bad (s_heap s) l) (m ;;; set_body l b) s.
  Proof.
    intros Hm Hl Hs Hb. apply mw_bind. eapply mw_mono; [apply Hm|done|]. cbn beta. intros _ s1 [P1 N1]. by eapply mw_end.
  Qed.
  Lemma mw_purge_impl rec l o s : purges rec -> s_heap s !! l = Some o -> (h_mapped (o_hdr o) = true -> h_saved (o_hdr o) <> ∅) ->
    mw (pr s) (fun _ s' => pr s s' /\ ~ bad (s_heap s) l) (purge_impl rec l) s.
  Proof.
    intros Hr Hl Hs. unfold purge_impl. apply mw_bind, mw_getobj; [apply pr_refl|]. intros o' Ho'. assert (o' = o) as -> by congruence.
    destruct o as [hx b]. cbn [o_body] in *. destruct b as [m|t|c d|i v m t|k vs|us].
    - eapply (mw_clear (mret tt)); [|exact Hl|done|done]. apply vs_none.
    - eapply (mw_clear (mret tt)); [|exact Hl|done|done]. apply vs_none.
    - eapply mw_clear; [|exact Hl|done|done]. cbn [o_body sub_objects]. rewrite <- (map_id (dvals d)) at 2. by apply (vs_iter rec id).
    - destruct m as [x|]; [|apply mw_raise, pr_refl].
      apply mw_bind. eapply mw_mono; [apply Hr|done|]. cbn beta. intros _ s1 [P1 N1]. apply mw_bind.
      assert (Ht : visits (match t with Some y => rec y | None => mret tt end) (match t with Some y => [y] | None => [] end)) by (destruct t; [by apply vs_one|apply vs_none]).
      eapply mw_mono; [apply Ht| |]; cbn beta; [intros s2 P2; by eapply pr_trans|]. intros _ s2 [P2 N2].
      eapply mw_end; [exact Hl|done|done|by eapply pr_trans|]. cbn. intros z [<-|Hz]; [done|]. intros Hb. apply (N2 z); [by destruct t|]. by apply P1.
    - eapply mw_clear; [|exact Hl|done|done]. cbn [o_body sub_objects]. by apply (vs_iter rec (fun r : pystr * vrec => elt_loc (vr_elt (snd r)))).
    - eapply mw_clear; [|exact Hl|done|done]. cbn [o_body sub_objects]. rewrite <- (map_id (dvals us)) at 2. by apply (vs_iter rec id).
  Qed.
  Lemma purges_purge fuel : purges (purge fuel).
  Proof.
    induction fuel as [|f IH]; intros l s; cbn [purge]; [apply mw_raise, pr_refl|].
    apply mw_bind, mw_getobj; [apply pr_refl|]. intros o Ho. destruct (h_mapped (o_hdr o)) eqn:Em.
    2:{ apply mw_ret. split; [apply pr_refl|]. inversion 1; congruence. }
    destruct (decide _) as [|Hne]; [apply mw_raise, pr_refl|]. apply mw_bind.
    eapply mw_mono; [by eapply mw_purge_impl|done|]. cbn beta. intros _ s1 [P1 N1].
    apply mw_bind, mw_getobj; [done|]. intros o1 Ho1. cbn. split; [|done]. eapply pr_trans; [exact P1|].
    eapply pr_set; [exact Ho1|done|done|apply incl_refl|]. intros Hb. apply N1. by eapply pr_back.
  Qed.
End Purge.

(** ** Calls that do not write *)
Definition fresh_next (s : pst) : Prop := forall (l : loc) o, s_heap s !! l = Some o -> (l < s_next s)%N.
Definition kp (h0 : heap) (s : pst) : Prop := fresh_next s /\ forall x, bad h0 x -> bad (s_heap s) x.
(** [l] is not loaded, or ([b] is false) at least not saved *)
Definition idle (b : bool) (x : hdr) : Prop := if b then h_mapped x = false else h_mapped x = true -> h_saved x = ∅.
Definition kf (b : bool) (h0 : heap) (l : loc) (s : pst) : Prop := kp h0 s /\ exists o, s_heap s !! l = Some o /\ idle b (o_hdr o).
Section Kept.
  Context `{Env}.
  Notation P := (fun _ : cmd => True).
  Lemma fresh_set s (l : loc) o : fresh_next s -> is_Some (s_heap s !! l) -> fresh_next (with_heap s (<[l := o]> (s_heap s))).
  Proof. intros Hf [o0 Ho0] x ox. cbn. rewrite heap_insert. case_decide as E; [|apply Hf]. intros _. subst x. by eapply Hf. Qed.
  Lemma kf_get {A : Type} b h0 l x (f : obj -> M pst A) : (forall o, mall P (kf b h0 l) (f o)) -> mall P (kf b h0 l) (mbind (getobj x) f).
  Proof. intros Hf s Hs. unfold mbind, getobj. destruct (s_heap s !! x) as [o|]; cbn; [by apply Hf|done]. Qed.
  Lemma kp_get {A : Type} h0 x (f : obj -> M pst A) : (forall o, mall P (kp h0) (f o)) -> mall P (kp h0) (mbind (getobj x) f).
  Proof. intros Hf s Hs. unfold mbind, getobj. destruct (s_heap s !! x) as [o|]; cbn; [by apply Hf|done]. Qed.
  Lemma idle_set h (l : loc) b o o' : h !! l = Some o -> idle b (o_hdr o) -> (h_mapped (o_hdr o) = true -> h_mapped (o_hdr o') = true /\ h_saved (o_hdr o') = ∅) ->
    forall x, bad h x -> bad (<[l := o']> h) x.
  Proof.
    intros Hl Hi Ho'. apply bad_free; intros o0 Ho0; (assert (o0 = o) as -> by congruence); [intros Hm; destruct b; cbn in Hi; [congruence|auto]|done].
  Qed.
  Lemma kf_setobj b h0 (l : loc) o o' s : kf b h0 l s -> s_heap s !! l = Some o -> idle b (o_hdr o') -> (h_mapped (o_hdr o) = true -> h_mapped (o_hdr o') = true) ->
    kf b h0 l (with_heap s (<[l := o']> (s_heap s))).
  Proof.
    intros ((Hf & Hb) & o0 & Hl & Hi) Hl' Hi' Hm. assert (o0 = o) as -> by congruence. split; [split; [apply fresh_set; [done|by eexists]|]|].
    - intros x Hx. eapply idle_set; [exact Hl|exact Hi| |by apply Hb]. intros Hm0. split; [by apply Hm|]. destruct b; cbn in Hi, Hi'; [congruence|auto].
    - exists o'. cbn. rewrite heap_insert, decide_True by done. done.
  Qed.
  Lemma kf_own b h0 l s o : kf b h0 l s -> s_heap s !! l = Some o -> idle b (o_hdr o).
  Proof. intros (_ & o0 & Hl & Hi) Hl'. congruence. Qed.
  Lemma kf_set_body b h0 l bo : mall P (kf b h0 l) (set_body l bo).
  Proof.
    intros s Hs. unfold set_body, mbind, getobj. destruct (s_heap s !! l) as [o|] eqn:E; cbn; [|done]. eapply kf_setobj; [done|exact E| |done]. exact (kf_own b h0 l s o Hs E).
  Qed.
  Lemma kf_set_hdr b h0 l f : (forall x, h_mapped (f x) = h_mapped x /\ (h_saved x = ∅ -> h_saved (f x) = ∅)) -> mall P (kf b h0 l) (set_hdr l f).
  Proof.
    intros Hf s Hs. unfold set_hdr, mbind, getobj. destruct (s_heap s !! l) as [o|] eqn:E; cbn; [|done]. pose proof (kf_own b h0 l s o Hs E) as Hi. destruct (Hf (o_hdr o)) as [F1 F2].
    eapply kf_setobj; [done|exact E| |cbn; congruence]. cbn. destruct b; cbn in *; [congruence|]. rewrite F1. auto.
  Qed.
  Lemma kp_new_state h0 s o : kp h0 s -> kp h0 (PSt (<[s_next s := o]> (s_heap s)) (N.succ (s_next s)) (s_caches s) (s_orefs s) (s_legacy s) (s_locks s)).
  Proof.
    intros [Hf Hb]. split.
    - intros x ox. cbn. rewrite heap_insert. case_decide as E; [lia|]. intros Hx. apply Hf in Hx. lia.
    - intros x Hx. cbn. apply bad_free; [| |by apply Hb]; intros o1 Ho1; apply Hf in Ho1; lia.
  Qed.
  Lemma kp_new h0 b x y : mall P (kp h0) (new_obj b x y).
  Proof. apply mall_bind; [apply mall_res|]. intros a s Hs. cbn. by apply kp_new_state. Qed.
  Lemma kf_new b h0 l bo x y : mall P (kf b h0 l) (new_obj bo x y).
  Proof.
    apply mall_bind; [apply mall_res|]. intros a s (Hk & o & Hl & Hi). cbn. split; [by apply kp_new_state|]. exists o. split; [|done].
    assert (Hne : s_next s <> l) by (destruct Hk as [Hf _]; apply Hf in Hl; lia). cbn. by rewrite heap_insert, decide_False.
  Qed.
  Lemma kf_steady {A : Type} b h0 l (m : M pst A) : steady m -> mall P (kf b h0 l) m.
  Proof. intros Hm s Hs. eapply pall_mono; [| |apply Hm]; [done|]. by intros a ->. Qed.
  Lemma kf_loc_of b h0 l x : mall P (kf b h0 l) (loc_of x).
  Proof. unfold loc_of. destruct (r_loc x); [apply mall_ret|apply mall_raise]. Qed.
  Lemma kf_init h0 l bo realm ref : mall P (kf true h0 l) (mlet x' <- mres (init_hdr (Some realm) (Some ref)); setobj l (Obj x' bo)).
  Proof.
    intros s Hs. cbn. pose proof Hs as (_ & o & Ho & Hi). eapply kf_setobj; [done|exact Ho|done|]. unfold idle in Hi. congruence.
  Qed.
  (** loading: the object is not loaded yet *)
  Lemma kf_map_in h0 l r ref : mall P (kf true h0 l) (map_in l r ref).
  Proof.
    unfold map_in. apply kf_get. intros o0. apply mall_bind; [by apply kf_set_hdr|]. intros _.
    apply mall_bind; [apply mall_assert|]. intros _. match goal with |- mall _ _ (map_in_impl l r ?x) => generalize x end. intros ref'.
    unfold map_in_impl. apply kf_get. intros o.
    destruct (o_body o) as [m|t|c d|i v m t|k vs|us].
    - apply mall_bind; [apply kf_loc_of|]. intros x. apply mall_bind; [apply kf_steady, st_load_str|]. intros t.
      apply mall_bind; [apply mall_res|]. intros ref2. apply mall_bind; [apply kf_loc_of|]. intros y.
      apply mall_bind; [apply kf_steady, st_load_str|]. intros t2. apply mall_bind; [apply mall_res|]. intros. apply kf_set_body.
    - apply mall_bind; [apply kf_loc_of|]. intros x. apply mall_bind; [apply kf_steady, st_load_str|]. intros. apply kf_set_body.
    - destruct (is_none_reference ref'); [apply kf_set_body|]. apply mall_bind; [apply kf_loc_of|]. intros x.
      apply mall_bind; [apply kf_steady, st_read_tree|].
      intros ls. apply mall_iter. intros ln _. apply mall_bind; [apply mall_res|]. intros [[ty h] nm].
      apply mall_bind; [repeat case_bool_decide; try (apply kf_new); apply mall_raise|]. intros child.
      apply kf_get. intros o'. destruct (o_body o'); try apply mall_raise. apply kf_set_body.
    - apply mall_bind; [apply kf_loc_of|]. intros x. apply mall_bind; [apply kf_steady, st_load_json|]. intros j.
      apply mall_bind; [apply mall_res|]. intros mj. apply mall_bind; [apply mall_res|]. intros mref.
      apply mall_bind; [destruct (is_none_reference mref); [apply mall_ret|apply mall_bind; [apply kf_new|intros; apply mall_ret]]|]. intros md.
      apply mall_bind; [apply mall_res|]. intros fj. apply mall_bind; [apply mall_res|]. intros fref.
      apply mall_bind; [destruct (is_none_reference fref); [apply mall_ret|apply mall_bind; [apply kf_new|intros; apply mall_ret]]|]. intros ft.
      apply mall_bind; [apply mall_res|]. intros uj. apply mall_bind; [apply mall_res|]. intros u.
      apply mall_bind; [apply mall_res|]. intros vj.
      destruct vj; try apply mall_raise; apply kf_init.
    - apply mall_bind; [apply kf_loc_of|]. intros x. apply mall_bind; [apply kf_steady, st_load_json|]. intros j.
      apply mall_bind; [apply mall_res|]. intros js. apply mall_bind; [|intros; apply kf_set_body].
      apply mall_map. intros a _. unfold map_in_assoc. apply mall_bind; [apply mall_res|]. intros rj.
      apply mall_bind; [apply mall_res|]. intros ref1.
      apply mall_bind.
      { destruct (_ || _); [apply mall_bind; [apply kf_new|intros; apply mall_ret]|].
        destruct (jis_str _ _); [apply mall_bind; [apply kf_new|intros; apply mall_ret]|apply mall_raise]. }
      intros e. apply mall_bind; [apply mall_res|]. intros v. apply mall_bind; [apply mall_res|]. intros p.
      destruct v; try apply mall_raise. destruct p; try apply mall_raise.
      apply mall_bind; [apply mall_res|]. intros t. destruct t; try apply mall_raise. apply mall_ret.
    - apply mall_bind; [apply kf_set_body|]. intros _. apply mall_bind; [apply kf_loc_of|]. intros x.
      apply mall_bind; [apply kf_steady, st_ls_tree|].
      intros ls. apply mall_iter. intros ln _. apply mall_bind; [apply mall_res|]. intros [[[? ?] h] nm].
      apply mall_bind; [apply kf_new|]. intros vl. apply mall_bind; [apply mall_res|]. intros u.
      apply kf_get. intros o'. destruct (o_body o'); try apply mall_raise. apply kf_set_body.
  Qed.
  Lemma mall_mw {A : Type} (I : pst -> Prop) (m : M pst A) s : mall P I m -> I s -> mw I (fun _ => I) m s.
  Proof. intros Hm Hs. eapply pall_mono; [done| |exact (Hm s Hs)]. by intros [[a|e] s']. Qed.
  Lemma mw_mall {A : Type} (I : pst -> Prop) (m : M pst A) : (forall s, I s -> mw I (fun _ => I) m s) -> mall P I m.
  Proof. intros Hm s Hs. eapply pall_mono; [done| |exact (Hm s Hs)]. by intros [[a|e] s']. Qed.
  Lemma kp_mapped h0 l : mall P (kp h0) (set_hdr l (hd_mapped true)).
  Proof.
    intros s [Hf Hb]. unfold set_hdr, mbind, getobj. destruct (s_heap s !! l) as [o|] eqn:E; cbn; [|done]. split; [apply fresh_set; [done|by eexists]|].
    intros x Hx. eapply bad_mapped; [exact E|done|done|done|by apply Hb].
  Qed.
  Lemma pr_kp h0 s s' : kp h0 s -> pr s s' -> kp h0 s'.
  Proof.
    intros [Hf Hb] HP. split; [|intros x Hx; by apply HP, Hb]. intros x o Ho. destruct (pr_obj _ _ HP x o Ho) as (o0 & H0 & _). rewrite (pr_next _ _ HP). by eapply Hf.
  Qed.
  Lemma kp_purge h0 fuel l : mall P (kp h0) (purge fuel l).
  Proof.
    apply mw_mall. intros s Hs. eapply mw_mono; [apply purges_purge| |]; cbn beta; [intros s'|intros _ s' [HP _]]; [intros HP|]; by eapply pr_kp.
  Qed.
  Lemma kf_kp b h0 l s : kf b h0 l s -> kp h0 s.
  Proof. by intros []. Qed.
  Lemma kp_read_in h0 fuel l : mall P (kp h0) (read_in fuel l).
  Proof.
    apply mw_mall. intros s Hs. unfold read_in. apply mw_bind, mw_getobj; [done|]. intros o Ho. destruct (h_mapped (o_hdr o)) eqn:Em; [by apply mw_ret|].
    destruct (h_realm (o_hdr o)) as [r|]; [|by apply mw_raise]. destruct (h_ref (o_hdr o)) as [ref|]; [|by apply mw_raise].
    destruct (is_none_reference ref).
    - apply mw_bind, mw_assert; [done|]. intros _. eapply mw_mono; [eapply mw_purge_impl; [apply purges_purge|exact Ho|congruence]| |]; cbn beta; [intros s'|intros _ s' [HP _]]; [intros HP|]; by eapply pr_kp.
    - destruct (in_saved o (Some r)); [|by apply mw_raise]. apply mw_bind. eapply mw_mono; [apply mall_mw; [apply (kf_map_in h0)|]| |].
      + split; [done|]. by exists o.
      + intros s'. apply kf_kp.
      + cbn beta. intros _ s' Hs'. apply mall_mw; [apply kp_mapped|by eapply kf_kp].
  Qed.
  Lemma kp_ensure h0 fuel l : mall P (kp h0) (ensure_mapped fuel l).
  Proof.
    unfold ensure_mapped. apply kp_get. intros o. destruct (h_mapped (o_hdr o)); [apply mall_ret|].
    apply mall_bind; [apply kp_read_in|]. intros _. apply mall_bind; [apply kp_mapped|]. intros _. apply mall_ret.
  Qed.
  Lemma kp_touch {A : Type} h0 l (m : M pst A) : mall P (kf false h0 l) m -> mall P (kp h0) (touch l ;;; m).
  Proof.
    intros Hm. apply mw_mall. intros s [Hf Hb]. apply mw_bind. unfold touch, set_hdr. apply mw_bind, mw_getobj; [done|]. intros o Ho. cbn.
    eapply mw_mono; [apply mall_mw; [exact Hm|]| |].
    - split; [split; [apply fresh_set; [done|by eexists]|]|].
      + intros x Hx. cbn. destruct (h_mapped (o_hdr o)) eqn:Em.
        * apply bad_dirty; [done|done|by apply Hb].
        * eapply (idle_set _ l true); [exact Ho|done|congruence|by apply Hb].
      + eexists. cbn. rewrite heap_insert, decide_True by done. by split.
    - intros s'. apply kf_kp.
    - cbn beta. intros _ s'. apply kf_kp.
  Qed.
  Ltac kk := first [ apply mall_ret | apply mall_raise | apply mall_res | apply mall_assert | apply mall_get | apply kp_ensure | apply kp_read_in | apply kp_purge | apply kp_new | apply kf_set_body
    | apply kp_touch; kk | apply kp_get; intros ?; kk | apply kf_get; intros ?; kk | apply mall_bind; [kk|intros ?; kk]
    | match goal with |- mall _ _ (match ?x with _ => _ end) => destruct x; kk | |- mall _ _ (if ?x then _ else _) => destruct x; kk end ].
  Lemma kp_get_child h0 fuel l e : mall P (kp h0) (get_child fuel l e).
  Proof. unfold get_child, children. kk. Qed.
  Lemma kp_is_node h0 l : mall P (kp h0) (is_mtreenode l).
  Proof. unfold is_mtreenode. kk. Qed.
  Lemma kp_add_child h0 fuel l e c : mall P (kp h0) (add_child fuel l e c).
  Proof. unfold add_child, children. kk. Qed.
  Lemma kp_remove_child h0 fuel l e : mall P (kp h0) (remove_child fuel l e).
  Proof. unfold remove_child, children. kk. Qed.
  Lemma kp_walk h0 fuel parts : forall l, mall P (kp h0) (walk fuel l parts).
  Proof.
    induction parts as [|e rest IH]; intros l; cbn [walk]; [apply mall_ret|]. apply mall_bind; [apply kp_is_node|]. intros [].
    - apply mall_bind; [apply kp_get_child|]. intros [x|]; [apply IH|apply mall_ret].
    - apply mall_ret.
  Qed.
  Lemma kp_at h0 fuel l path : mall P (kp h0) (get_object_at_path fuel l path).
  Proof. apply kp_walk. Qed.
  Lemma kp_add h0 n : forall fuel l child p, mall P (kp h0) (add_child_at_n n fuel l child p).
  Proof.
    induction n as [|n IH]; intros fuel l child p; cbn [add_child_at_n]; (destruct (all_parts p) as [|e rest]; [apply mall_raise|]).
    all: apply mall_bind; [apply kp_get_child|]; intros ex.
    all: destruct rest as [|e2 rest]; [apply mall_bind; [destruct ex; [apply kp_is_node|apply mall_ret]|]; intros []; [apply mall_raise|apply kp_add_child]|].
    all: apply mall_bind; [destruct ex; [apply mall_ret|]; apply mall_bind; [unfold children; kk|]; intros cd;
      apply mall_bind; [apply kp_new|]; intros x; apply mall_bind; [apply kp_add_child|]; intros _; apply mall_ret|].
    all: intros x; apply mall_bind; [apply kp_is_node|]; intros []; [|apply mall_raise].
    - apply mall_raise.
    - apply IH.
  Qed.
  Lemma kp_add_at h0 fuel l child p : mall P (kp h0) (add_child_at fuel l child p).
  Proof. apply kp_add. Qed.
  Lemma kp_remove_at h0 fuel l p : mall P (kp h0) (remove_child_at fuel l p).
  Proof.
    unfold remove_child_at. apply mall_bind; [apply kp_at|]. intros [x|]; [|apply mall_raise]. apply mall_bind; [apply kp_is_node|]. intros []; [|apply mall_raise].
    destruct (last _); [apply kp_remove_child|apply mall_raise].
  Qed.
  Lemma kp_add_run h0 fuel l ru : mall P (kp h0) (metadata_add_run fuel l ru).
  Proof. unfold metadata_add_run. kk. Qed.
  Lemma kp_get_metadata h0 fuel l p : mall P (kp h0) (get_metadata fuel l p).
  Proof. unfold get_metadata. apply mall_bind; [apply kp_at|]. intros. kk. Qed.
  Lemma kp_tree_run h0 fuel l p ru : mall P (kp h0) (filetree_add_run fuel l p ru).
  Proof.
    unfold filetree_add_run. apply mall_bind; [|intros [m|]; [apply kp_add_run|apply mall_raise]].
    apply mall_try; [apply kp_get_metadata|]. intros []; try apply mall_raise. apply mall_bind; [apply kp_new|]. intros m. apply mall_bind; [apply kp_add_at|]. intros. apply mall_ret.
  Qed.
  Lemma kp_modifies h0 fuel y m : modifies fuel y m -> mall P (kp h0) m.
  Proof.
    destruct 1.
    - apply kp_add_child.
    - apply kp_remove_child.
    - apply kp_add_run.
    - unfold set_file_tree, mrr_parts. kk.
    - unfold set_dataset_level_metadata, mrr_parts. kk.
    - unfold set_versioned_element, versions. kk.
    - unfold set_version_list, uuid_entries. kk.
  Qed.
  Lemma kp_alters h0 fuel y m : alters fuel y m -> mall P (kp h0) m.
  Proof. destruct 1; [by eapply kp_modifies|apply kp_add_at..|apply kp_remove_at|apply kp_remove_at|apply kp_tree_run]. Qed.
  Lemma kp_paths h0 fuel b : forall l, mall P (kp h0) (get_paths_recursive fuel b l).
  Proof.
    induction fuel as [|f IH]; intros l; cbn [get_paths_recursive]; [apply mall_raise|]. apply mall_bind; [|intros; apply mall_ret].
    unfold with_mapped. apply mall_bind; [apply kp_ensure|]. intros np. apply mall_finally; [|destruct np; [apply kp_purge|apply mall_ret]].
    apply mall_bind; [unfold children; kk|]. intros cd. apply mall_map. intros nl _. apply mall_bind; [apply kp_is_node|]. intros [].
    - apply mall_bind; [apply IH|]. intros. apply mall_ret.
    - apply mall_ret.
  Qed.
  Lemma kp_record h0 fuel l p : mall P (kp h0) (get_metadata_root_record fuel l p).
  Proof. unfold get_metadata_root_record. apply mall_bind; [apply kp_at|]. intros. kk. Qed.
  Lemma kp_in h0 fuel l p : mall P (kp h0) (dataset_in fuel l p).
  Proof. unfold dataset_in. apply mall_bind; [apply kp_at|]. intros. kk. Qed.
  Lemma kp_element h0 fuel l v p : mall P (kp h0) (get_versioned_element fuel l v p).
  Proof. unfold get_versioned_element, get_version_record, versions, elt_read_in. kk. Qed.
  Lemma kp_list_of h0 fuel l u : mall P (kp h0) (get_version_list fuel l u).
  Proof. unfold get_version_list, uuid_entries. kk. Qed.
  Lemma kp_uuids h0 fuel l : mall P (kp h0) (uuids fuel l).
  Proof. unfold uuids, uuid_entries. kk. Qed.
  Lemma kp_vps h0 fuel l : mall P (kp h0) (versions_and_prefix_paths fuel l).
  Proof. unfold versions_and_prefix_paths, versions. kk. Qed.
  Lemma kp_use h0 fuel y A m : use_call fuel y A m -> mall P (kp h0) m.
  Proof.
    destruct 1; [apply kp_read_in|apply kp_ensure|apply kp_purge| |apply kp_get_child|apply kp_at|apply kp_paths|apply kp_get_metadata|apply kp_in|apply kp_record| | | | |apply kp_vps|apply kp_element| | |apply kp_uuids|apply kp_list_of].
    - unfold is_saved_on. kk.
    - unfold dataset_paths. apply mall_bind; [apply kp_paths|]. intros. apply mall_res.
    - unfold get_file_tree, mrr_parts. kk.
    - unfold get_dataset_level_metadata, mrr_parts. kk.
    - unfold version_list_len, versions. kk.
    - unfold get_versioned_elements, versions. apply mall_bind; [apply kp_ensure|]. intros _. apply mall_bind; [kk|]. intros kv. destruct (dget _ _); [|apply mall_raise].
      apply mall_map. intros. unfold elt_read_in. kk.
    - unfold versioned_elements, versions. kk.
  Qed.
  Lemma kp_obind {A B : Type} h0 (m : M pst (option A)) (k : A -> M pst (option B)) : mall P (kp h0) m -> (forall a, mall P (kp h0) (k a)) -> mall P (kp h0) (obind m k).
  Proof. intros Hm Hk. apply mall_bind; [done|]. intros [a|]; [apply Hk|apply mall_ret]. Qed.
  Lemma kp_dvl h0 fuel us u auto : mall P (kp h0) (dataset_version_list fuel us u auto).
  Proof.
    unfold dataset_version_list. apply mall_bind; [apply kp_uuids|]. intros ks. case_bool_decide; [apply mall_bind; [apply kp_list_of|]; intros; apply mall_ret|].
    destruct auto; [|apply mall_ret]. apply mall_bind; [apply kp_new|]. intros x. apply mall_bind; [apply (kp_modifies _ 0 us), mod_version_list|]. intros. apply mall_ret.
  Qed.
  Lemma kp_has h0 fuel l v p : mall P (kp h0) (has_version fuel l v p).
  Proof. unfold has_version. apply mall_bind; [apply kp_vps|]. intros. apply mall_ret. Qed.
  Lemma kp_set h0 fuel l v t p e : mall P (kp h0) (set_versioned_element fuel l v t p e).
  Proof. apply (kp_modifies _ fuel l), mod_versioned. Qed.
  Lemma kp_tree h0 fuel l v p t auto : mall P (kp h0) (version_tree fuel l v p t auto).
  Proof.
    unfold version_tree. apply mall_bind; [apply kp_has|]. intros []; [apply mall_bind; [apply kp_element|]; intros r; destruct (vr_elt r); [apply mall_ret|apply mall_raise]|].
    destruct auto; [|apply mall_ret]. apply mall_bind; [apply kp_new|]. intros x. apply mall_bind; [apply kp_set|]. intros. apply mall_ret.
  Qed.
  Lemma kp_tree_record h0 fuel l p u v auto : mall P (kp h0) (tree_record fuel l p u v auto).
  Proof.
    unfold tree_record. apply mall_bind; [apply kp_in|]. intros []; [apply kp_record|]. destruct auto; [|apply mall_ret].
    apply mall_bind; [unfold new_root_record; kk|]. intros x. apply mall_bind; [apply kp_add_at|]. intros. apply mall_ret.
  Qed.
  Lemma kp_register h0 fuel vl v t p m : mall P (kp h0) (register_record fuel vl v t p m).
  Proof. unfold register_record. apply mall_bind; [apply kp_has|]. intros []; [apply mall_ret|apply kp_set]. Qed.
  Lemma kp_from_top h0 fuel tvl us u v prefix tp ru rv auto now : mall P (kp h0) (get_metadata_root_record_from_top_nodes fuel tvl us u v prefix tp ru rv auto now).
  Proof.
    unfold get_metadata_root_record_from_top_nodes. cbv zeta. apply kp_obind.
    - case_bool_decide; [apply kp_obind; [apply kp_tree|intros; apply mall_ret]|]. destruct ru as [ru|]; [|apply mall_raise]. destruct rv as [rv|]; [|apply mall_raise].
      apply kp_obind; [apply kp_dvl|]. intros rvl. apply kp_obind; [apply kp_tree|]. intros tree. apply kp_obind; [apply kp_tree_record|]. intros rm.
      apply mall_bind; [apply kp_register|]. intros. apply mall_ret.
    - intros [tree pre]. apply kp_obind; [apply kp_dvl|]. intros vl. apply kp_obind; [apply kp_tree_record|]. intros m. apply mall_bind; [apply kp_register|]. intros. apply mall_ret.
  Qed.
  Lemma kp_top h0 fuel r : mall P (kp h0) (get_top_level_metadata_objects fuel r).
  Proof.
    unfold get_top_level_metadata_objects. apply mall_bind; [apply kp_new|]. intros tvl. apply mall_bind; [apply kp_new|]. intros us.
    apply mall_try; [kk|]. intros []; kk.
  Qed.
  Lemma kp_look h0 fuel r u v prefix tp su sv auto now : mall P (kp h0) (get_top_nodes_and_metadata_root_record fuel r u v prefix tp su sv auto now).
  Proof.
    unfold get_top_nodes_and_metadata_root_record. apply mall_bind; [apply kp_top|]. intros top.
    apply mall_bind; [destruct top as [|]; [apply mall_ret|]; destruct auto; kk|]. intros [[tvl us]|]; [|apply mall_ret].
    apply mall_bind; [|intros; apply mall_ret]. destruct su as [su|]; [destruct sv as [sv|]; [|apply mall_raise]|]; apply kp_from_top.
  Qed.
  Lemma kp_writeless h0 A m : writeless A m -> mall P (kp h0) m.
  Proof.
    destruct 1 as [fuel y A m Hm|fuel y m Hm|lb m Hm| | | | |]; [by eapply kp_use|by eapply kp_alters|destruct Hm; apply kp_new|apply kp_new|apply kp_new|apply kp_top|apply kp_from_top|apply kp_look].
  Qed.
  Lemma kp_calls h0 s s' : without_write s s' -> kp h0 s -> kp h0 s'.
  Proof.
    induction 1 as [|A m s g r s1 g1 s2 Hm He _ IH]; [done|]. intros Hs. apply IH. pose proof (pall_exec _ _ _ g (kp_writeless h0 A m Hm s Hs)) as Hp. by rewrite He in Hp.
  Qed.
  Lemma C22_kept_lemma (s s' : pst) (x : loc) : (forall (l : loc) o, s_heap s !! l = Some o -> (l < s_next s)%N) -> without_write s s' ->
    unsaved_below (s_heap s) x -> unsaved_below (s_heap s') x.
  Proof. intros Hf Hw Hx. apply bad_unsaved. apply bad_unsaved in Hx. assert (Hk : kp (s_heap s) s) by done. by apply (kp_calls _ _ _ Hw Hk). Qed.
End Kept.
