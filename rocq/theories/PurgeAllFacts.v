(** After a purge nothing is loaded. *)
From Verif Require Import Base BaseFacts Path Json Refs Meta Spec_Meta GitText Spec_Git GitTextFacts Git GitFacts Spec_Store State BlobCache ObjRef Objects Spec_Look Spec_Heap Spec_Versions Spec_Write ExecFacts Spec_Cache CacheFacts WriteFacts LoadFacts PeekFacts TreeFacts VersionFacts LookFacts ReadFacts Spec_Content ContentFacts StoreFacts SaveFacts WriteBackFacts WriteAllFacts ReadBackFacts PurgeFacts.

Definition off (h : heap) (z : loc) : Prop := forall o, h !! z = Some o -> h_mapped (o_hdr o) = false.
(** What was below an object that was unloaded is not loaded. *)
Definition clean (h h' : heap) : Prop := forall x o p z, h !! x = Some o -> h_mapped (o_hdr o) = true -> off h' x -> reach h x p = Some z -> off h' z.

Lemma off_drops h h' z : drops safe h h' -> off h z -> off h' z.
Proof. intros Hd Hz o' Ho'. destruct (dr_back _ _ _ _ _ Hd Ho') as (o & Ho & [->|(-> & _)]); [by apply Hz|done]. Qed.
Lemma clean_refl h : clean h h.
Proof. intros x o p z Ho Hm Hx. specialize (Hx o Ho). congruence. Qed.
Lemma clean_off h h' y p z : clean h h' -> off h' y -> reach h y p = Some z -> off h' z.
Proof.
  intros Hc Hy Hp. destruct p as [|k p]; [by injection Hp as <-|]. pose proof Hp as Hp2. cbn [reach] in Hp.
  destruct (h !! y) as [o|] eqn:Ho; [|done]. destruct (h_mapped (o_hdr o)) eqn:Em; [|done]. by apply (Hc y o (k :: p) z).
Qed.
(** A path that was there before is there now or its end is not loaded. *)
Lemma clean_reach h h' p : drops safe h h' -> clean h h' -> forall x z, reach h x p = Some z -> reach h' x p = Some z \/ off h' z.
Proof.
  intros Hd Hc. induction p as [|k p IH]; intros x z Hp; [by left|]. pose proof Hp as Hp2. cbn [reach] in Hp |- *.
  destruct (h !! x) as [o|] eqn:Ho; [|done]. destruct (h_mapped (o_hdr o)) eqn:Em; [|done]. destruct (dget (kids_of (o_body o)) k) as [y|] eqn:Ek; [|done].
  destruct (dr_get _ _ _ _ _ Hd Ho) as (o' & Ho' & [->|(-> & _)]); rewrite Ho'.
  - rewrite Em, Ek. by apply IH.
  - right. apply (Hc x o (k :: p) z Ho Em); [|done]. intros o2 Ho2. rewrite Ho' in Ho2. by injection Ho2 as <-.
Qed.
Lemma clean_trans a b c : drops safe a b -> drops safe b c -> clean a b -> clean b c -> clean a c.
Proof.
  intros D1 D2 C1 C2 x o p z Ho Hm Hx Hp. destruct (clean_reach _ _ _ D1 C1 _ _ Hp) as [Hp'|Hz]; [|by eapply off_drops].
  by apply (clean_off b c x p z).
Qed.

Lemma iter_clean `{Env} f : (forall l s g u s' g', heap_ok s -> is_Some (s_heap s !! l) -> exec (purge f l s) g = ((Ok u, s'), g') -> clean (s_heap s) (s_heap s')) ->
  forall ls s g u s' g', heap_ok s -> (forall x, In x ls -> is_Some (s_heap s !! x)) -> exec (miter (purge f) ls s) g = ((Ok u, s'), g') ->
  drops safe (s_heap s) (s_heap s') /\ clean (s_heap s) (s_heap s') /\ forall x, In x ls -> off (s_heap s') x.
Proof.
  intros Hrec. induction ls as [|x ls IH]; intros s g u s' g' Hok Hls He; cbn [miter] in He.
  - rewrite x_ret in He. injection He as _ <- _. split_and!; [apply dr_refl|apply clean_refl|by intros x []].
  - destruct (purge_run safe safe_dropped f x s g Hok (Hls x (or_introl eq_refl)) (purgeable_safe _ _)) as (res & s1 & Hx & (h1 & ->) & Hd & Hres).
    rewrite x_bind, Hx in He. destruct res as [u1|e]; [|done]. pose proof (Hrec _ _ _ _ _ _ Hok (Hls x (or_introl eq_refl)) Hx) as Hc.
    assert (Hok1 : heap_ok (with_heap s h1)) by by eapply dr_heap_ok.
    destruct (IH (with_heap s h1) g u s' g' Hok1) as (Hd2 & Hc2 & Ho2); [|done|].
    { intros y Hy. destruct (Hls y (or_intror Hy)) as [o Ho]. destruct (dr_get _ _ _ _ _ Hd Ho) as (o' & Ho' & _). by exists o'. }
    split_and!; [by eapply dr_trans; [apply safe_dropped| |]|by eapply clean_trans|].
    intros y [<-|Hy]; [|by apply Ho2]. eapply off_drops; [exact Hd2|]. intros o Ho. by apply Hres.
Qed.
Lemma purge_clean `{Env} f : forall l s g u s' g', heap_ok s -> is_Some (s_heap s !! l) -> exec (purge f l s) g = ((Ok u, s'), g') -> clean (s_heap s) (s_heap s').
Proof.
  induction f as [|f IH]; intros l s g u s' g' Hok [o Ho] He; cbn [purge] in He; [done|].
  rewrite x_bind, x_getobj, Ho in He. cbn beta iota in He. destruct (h_mapped (o_hdr o)) eqn:Em.
  2: { rewrite x_ret in He. injection He as _ <- _. apply clean_refl. }
  destruct (decide (h_saved (o_hdr o) = ∅)) as [Es|Es]; [done|].
  assert (Hb : (exists i v t, o_body o = BMrr i v None t) \/ forall i v t, o_body o <> BMrr i v None t).
  { destruct (o_body o) as [m|t|c d|i v [m|] t|k vs|us]; try (right; done). left. eauto. }
  destruct Hb as [(i & v & t & Hb)|Hb].
  { rewrite x_bind in He. unfold purge_impl in He. rewrite x_bind, x_getobj, Ho in He. cbn beta iota in He. by rewrite Hb, x_raise in He. }
  destruct (Hok l o Ho) as (_ & K2 & _ & _).
  rewrite x_bind, (x_purge_impl _ _ _ _ _ Ho Hb), x_bind in He.
  destruct (exec (miter (purge f) (sub_objects (o_body o)) s) g) as [[[u1|e] s1] g1] eqn:Ei; [|done].
  destruct (iter_clean f IH _ s g u1 s1 g1 Hok K2 Ei) as (Hd & Hc & Hoff). cbn beta iota in He.
  destruct (dr_get _ _ _ _ _ Hd Ho) as (o1 & Ho1 & _). rewrite (WriteFacts.x_set_body l _ o1) in He by done. cbn beta iota in He.
  rewrite (x_set_hdr l _ (Obj (o_hdr o1) (unloaded (o_body o)))) in He by (cbn [s_heap with_heap]; by rewrite heap_insert, decide_True).
  injection He as _ <- _. cbn [s_heap with_heap].
  assert (Hl : forall z, off (s_heap s1) z \/ z = l -> off (<[l:=Obj (hd_mapped false (o_hdr o1)) (unloaded (o_body o))]> (<[l:=Obj (o_hdr o1) (unloaded (o_body o))]> (s_heap s1))) z).
  { intros z Hz oz. rewrite !heap_insert. destruct (decide (l = z)) as [<-|Hne]; [by intros [= <-]|]. destruct Hz as [Hz|Hz]; [apply Hz|by subst]. }
  intros x ox p z Hox Hm Hx Hp. cbn [o_hdr o_body] in *. apply Hl. destruct (decide (x = l)) as [->|Hne].
  - destruct p as [|k p]; cbn [reach] in Hp; [right; by injection Hp as <-|]. rewrite Ho, Em in Hp.
    destruct (dget (kids_of (o_body o)) k) as [y|] eqn:Ek; [|done]. left. apply (clean_off (s_heap s) _ y p z Hc); [|done]. apply Hoff. by eapply kids_in_sub.
  - left. apply (Hc x ox p z Hox Hm); [|done]. intros o2 Ho2. apply (Hx o2). rewrite !heap_insert, !decide_False by done. done.
Qed.
Lemma C23_unloads_lemma `{Env} fuel l s g s' g' : heap_ok s -> is_Some (s_heap s !! l) -> exec (purge fuel l s) g = ((Ok tt, s'), g') ->
  forall y, loaded_below (s_heap s) l y -> exists o', s_heap s' !! y = Some o' /\ h_mapped (o_hdr o') = false.
Proof.
  intros Hok Hl He y Hy. destruct (purge_run safe safe_dropped fuel l s g Hok Hl (purgeable_safe _ _)) as (res & s1 & Hx & _ & Hd & Hres).
  pose proof (purge_clean _ _ _ _ _ _ _ Hok Hl He) as Hc. rewrite Hx in He. injection He as -> -> _. destruct Hres as [_ Hm].
  destruct (below_reach _ _ _ Hok Hy) as (p & Hp). destruct (below_some _ _ _ Hy) as [o Ho]. destruct (dr_get _ _ _ _ _ Hd Ho) as (o' & Ho' & _).
  exists o'. split; [done|]. by apply (clean_off _ _ l p y Hc Hm Hp).
Qed.
