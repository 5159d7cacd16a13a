(** A written object graph can be read back by its reference. *)
From Verif Require Import Base BaseFacts Path Json Refs Meta Spec_Meta GitText Spec_Git GitTextFacts Git GitFacts Spec_Store State BlobCache ObjRef Objects Spec_Look Spec_Heap Spec_Versions Spec_Write ExecFacts Spec_Cache CacheFacts WriteFacts LoadFacts PeekFacts TreeFacts VersionFacts LookFacts ReadFacts Spec_Content ContentFacts StoreFacts SaveFacts WriteBackFacts WriteAllFacts.

(** More objects in the store change nothing for a complete graph. *)
Lemma hollow_at_mono (O O' : store) h l p : O ⊆ O' -> look O h l p <> Broken -> hollow_at O' h l = hollow_at O h l.
Proof.
  intros HO. unfold hollow_at. destruct p as [|k p]; cbn [look]; destruct (h !! l) as [o|]; try done; destruct (h_mapped (o_hdr o)); try done;
    destruct (h_ref (o_hdr o)) as [ref|]; try done; intros [t Ht]%look_stored_ok; by eapply hollow_mono.
Qed.
Lemma look_mono (O O' : store) h p : O ⊆ O' -> forall l, look O h l p <> Broken -> look O' h l p = look O h l p.
Proof.
  intros HO. induction p as [|k p IH]; intros l; cbn [look]; destruct (h !! l) as [o|] eqn:Ho; try done; destruct (h_mapped (o_hdr o)) eqn:Em; try done.
  - destruct (h_ref (o_hdr o)) as [ref|]; [|done]. intros Hb. by apply look_stored_mono.
  - destruct (dget (kids_of (o_body o)) k) as [x|] eqn:Ek; [|done].
    destruct (is_ktree k) eqn:Et; cbn [andb]; [|intros Hb; by apply IH].
    destruct (hollow_at O h x) eqn:Eh.
    + intros _. replace (hollow_at O' h x) with true; [done|]. symmetry. revert Eh. unfold hollow_at. destruct (h !! x) as [ox|]; [|done].
      destruct (h_mapped (o_hdr ox)); [done|]. destruct (h_ref (o_hdr ox)) as [ref|]; [|done]. unfold hollow at 1. destruct (stored O _ ref) as [[b ks]|] eqn:Es; [|done].
      intros Hh. unfold hollow. by rewrite (stored_mono _ _ _ _ _ HO Es).
    + intros Hb. rewrite (hollow_at_mono O O' h x p HO Hb), Eh. by apply IH.
  - destruct (h_ref (o_hdr o)) as [ref|]; [|done]. intros Hb. by apply look_stored_mono.
Qed.
Lemma complete_look_mono (O O' : store) h l : O ⊆ O' -> complete (look O h l) -> forall p, look O' h l p = look O h l p.
Proof. intros HO Hc p. apply look_mono; [done|apply Hc]. Qed.
Lemma tidy_reach O r s p : forall l x, tidy O r s l -> reach (s_heap s) l p = Some x -> tidy O r s x.
Proof.
  induction p as [|k p IH]; intros l x HT Hp; cbn [reach] in Hp; [by injection Hp as <-|].
  destruct (s_heap s !! l) as [o|] eqn:Ho; [|done]. destruct (h_mapped (o_hdr o)) eqn:Em; [|done]. destruct (dget (kids_of (o_body o)) k) as [y|] eqn:Ek; [|done].
  eapply IH; [|exact Hp]. by eapply tidy_kid.
Qed.
Lemma tidy_mono (O O' : store) r s l : O ⊆ O' -> tidy O r s l -> tidy O' r s l.
Proof.
  intros HO HT. pose proof HT as [T1 T2 T3 T4 TC TT T5 T6]. split; try done.
  - intros p x o Hp Ho Hm. destruct (T5 p x o Hp Ho Hm) as (ref & Hf & Hl). exists ref. split; [done|]. intros q.
    assert (Hc : complete (look O (s_heap s) x)) by (eapply td_complete, tidy_reach; [exact HT|exact Hp]).
    rewrite (complete_look_mono O O' _ _ HO Hc). rewrite (look_stored_mono O); [apply Hl|done|]. rewrite Hl. apply Hc.
  - eapply complete_ext; [|exact T6]. by apply (complete_look_mono O).
Qed.

(** A new object for a stored one. *)
Lemma fresh_look O r h a k ref p : look O (<[a := kid_obj r (k, ref)]> h) a p = look_stored O k ref p.
Proof.
  destruct p; cbn [look]; rewrite heap_insert, decide_True by done; unfold kid_obj; cbn; by rewrite kind_empty.
Qed.
Lemma fresh_tidy O r s k ref s' : heap_ok s -> r <> [] -> complete (look_stored O k ref) -> (k = KdNode LMrr -> r_class ref <> JStr (ps "FileTree")) ->
  s_heap s' = <[s_next s := kid_obj r (k, ref)]> (s_heap s) -> s_next s' = N.succ (s_next s) -> tidy O r s' (s_next s).
Proof.
  intros Hok Hr Hc Hf Hh Hn.
  assert (Hnew : forall x : loc, s_heap s' !! x = if decide (s_next s = x) then Some (kid_obj r (k, ref)) else s_heap s !! x) by (intros x; by rewrite Hh, heap_insert).
  assert (Hself : s_heap s' !! s_next s = Some (kid_obj r (k, ref))) by by rewrite Hnew, decide_True.
  assert (HR : forall p x, reach (s_heap s') (s_next s) p = Some x -> p = [] /\ x = s_next s).
  { intros [|key p] x Hp; cbn [reach] in Hp; [by injection Hp as <-|]. rewrite Hself in Hp. unfold kid_obj, kid_hdr in Hp. cbn in Hp. done. }
  split.
  - intros x o. rewrite Hnew. case_decide as Hx.
    + intros [= <-]. unfold kid_obj. cbn. subst x. split_and!; [rewrite Hn; lia| | |].
      * intros y Hy. by destruct k.
      * intros _. by destruct k.
      * destruct k; cbn; apply NoDup_nil_2.
    + intros Ho. destruct (Hok x o Ho) as (H1 & H2 & H3 & H4). split_and!; [rewrite Hn; lia| |done|done].
      intros y Hy. destruct (H2 y Hy) as [oy Hoy]. rewrite Hnew. case_decide; eauto.
  - intros p q x Hp Hq. apply HR in Hp as [-> ->]. by apply HR in Hq as [-> _].
  - intros p x o Hp Ho Hm. apply HR in Hp as [-> ->]. rewrite Hself in Ho. injection Ho as <-. unfold kid_obj, kid_hdr. cbn. split_and!; [done| |].
    + intros m. destruct k; cbn; try done. by intros [= <-].
    + exists ref. split; [done|]. destruct (is_none_reference ref); [by left|right]. destruct r as [|c0 r0]; [done|]; by apply elem_of_singleton.
  - intros p x hx kk vs Hp Ho. apply HR in Hp as [-> ->]. rewrite Hself in Ho. injection Ho as <- Hb. destruct k; try done. cbn in Hb. injection Hb as <- <-. apply wk_nil.
  - intros p x o ref' Hp Ho Hk Hrf. apply HR in Hp as [-> ->]. rewrite Hself in Ho. injection Ho as <-. unfold kid_obj in Hk. cbn in Hk, Hrf. rewrite kind_empty in Hk. injection Hrf as <-. by apply Hf.
  - intros p x hx i v m t Hp Ho. apply HR in Hp as [-> ->]. rewrite Hself in Ho. unfold kid_obj in Ho. injection Ho as _ Hb. by destruct k.
  - intros p x o Hp Ho Hm. apply HR in Hp as [-> ->]. rewrite Hself in Ho. injection Ho as <-. exists ref. split; [done|]. intros q. unfold kid_obj. cbn. rewrite kind_empty.
    by rewrite Hh, fresh_look.
  - eapply complete_ext; [|exact Hc]. intros p. by rewrite Hh, fresh_look.
Qed.

(** Reading an object by its reference. *)
Lemma read_back `{Env} r g k ref s c fuel p : is_remote r = false -> r <> [] -> heap_ok s -> complete c -> (forall q, look_stored (objs_of g r) k ref q = c q) ->
  (k = KdNode LMrr -> r_class ref <> JStr (ps "FileTree")) ->
  exists s', exec ((mlet a <- object_at k r ref; visit fuel a p) s) g = ((Ok (c p), s'), g).
Proof.
  intros Hrem Hr Hok Hc Hl Hf. unfold object_at. rewrite x_bind, (x_new r) by done. cbn beta iota.
  set (s1 := PSt _ _ _ _ _ _).
  assert (HT : tidy (objs_of g r) r s1 (s_next s)).
  { eapply fresh_tidy; try done. eapply complete_ext; [|exact Hc]. done. }
  destruct (visit_quiet r g Hrem Hr fuel p s1 (s_next s) HT) as (s2 & Hx & _). exists s2. rewrite Hx. unfold s1. cbn [s_heap]. by rewrite fresh_look, Hl.
Qed.

(** ** After a write *)
Section Written.
  Context `{Env} (r : pystr) (Hr : r <> []).
  Lemma uncached_cok s : caches_ok s -> uncached r s -> cok r s.
  Proof. intros Hc Hu. split; [done|]. unfold uncached in Hu. intros c. by rewrite Hu. Qed.
  Lemma uncached_completes s g : uncached r s -> completes r (objs_of g r) s g.
  Proof. intros Hu. split; [done|]. intros c b. unfold uncached in Hu. by rewrite Hu. Qed.
  Lemma svm_writes fuel l force m : Spec_Write.writes fuel l (Some r) force m -> svm r m.
  Proof. intros [| |]; [by apply svm_write_out| |]; apply svm_proxy; intros; try done; by apply svm_write_out. Qed.
  Lemma written_before fuel l force m s g ref s' g' : Spec_Write.writes fuel l (Some r) force m -> caches_ok s -> uncached r s ->
    exec (m s) g = ((Ok ref, s'), g') -> objs_of g r ⊆ objs_of g' r /\ caches_ok s' /\ uncached r s'.
  Proof.
    intros Hw Hc Hu He. destruct (svm_writes _ _ _ _ Hw _ _ _ _ _ (uncached_cok _ Hc Hu) He) as [[[H1 _] H2] H3]. apply H3 in Hu. split_and!; [|done|done].
    destruct (H2 _ (uncached_completes s' g' Hu)) as [H4 _]. done.
  Qed.
  Lemma written fuel l force m s g ref s' g' o : Spec_Write.writes fuel l (Some r) force m -> caches_ok s -> uncached r s ->
    tidy (objs_of g r) r s l -> s_heap s !! l = Some o -> kind_of (o_body o) <> KdVl true -> exec (m s) g = ((Ok ref, s'), g') ->
    wfr s s' l /\ good r (objs_of g' r) l ref s' /\ (forall q, look (objs_of g' r) (s_heap s') l q = look (objs_of g r) (s_heap s) l q) /\
    forall q, look_stored (objs_of g' r) (kind_of (o_body o)) ref q = look (objs_of g r) (s_heap s) l q.
  Proof.
    intros Hw Hc Hu HT Ho Hk He. destruct (written_before _ _ _ _ _ _ _ _ _ Hw Hc Hu He) as (HO & Hc' & Hu').
    pose proof (tidy_mono _ _ _ _ _ HO HT) as HT'. pose proof (complete_look_mono _ _ _ _ HO (td_complete _ _ _ _ HT)) as HL.
    assert (HG : wfr s s' l /\ good r (objs_of g' r) l ref s').
    { destruct Hw as [| |].
      - eapply (write_good r Hr (objs_of g' r) fuel l force s g ref s' g' o); try done; [by apply uncached_cok|by apply uncached_completes].
      - destruct (proxy_shows r Hr (objs_of g' r) fuel true l force s g ref s' g' o) as (W & G & _); try done; [by apply uncached_cok|by apply uncached_completes].
      - destruct (proxy_shows r Hr (objs_of g' r) fuel false l force s g ref s' g' o) as (W & G & _); try done; [by apply uncached_cok|by apply uncached_completes]. }
    destruct HG as [W G]. assert (HL2 : forall q, look (objs_of g' r) (s_heap s') l q = look (objs_of g r) (s_heap s) l q).
    { intros q. rewrite <- HL. apply fo_look, fr_on, W. }
    split_and!; try done. intros q. destruct (fr_get _ _ _ _ (proj1 W) Ho) as (o' & Ho' & (Hb & _)).
    pose proof (good_agrees _ _ _ _ _ _ G Ho' q) as Ha. cbn [fst snd] in Ha. rewrite Hb in Ha. by rewrite Ha.
  Qed.
  Lemma written_class fuel l force m s g ref s' g' o : Spec_Write.writes fuel l (Some r) force m -> caches_ok s -> uncached r s ->
    tidy (objs_of g r) r s l -> s_heap s !! l = Some o -> exec (m s) g = ((Ok ref, s'), g') -> kind_of (o_body o) = KdNode LMrr -> r_class ref <> JStr (ps "FileTree").
  Proof.
    intros Hw Hc Hu HT Ho He Hk. assert (Hk2 : kind_of (o_body o) <> KdVl true) by by rewrite Hk.
    destruct (written _ _ _ _ _ _ _ _ _ _ Hw Hc Hu HT Ho Hk2 He) as (W & (HT' & _ & (o' & Ho' & Hf)) & _).
    destruct (fr_get _ _ _ _ (proj1 W) Ho) as (o2 & Ho2 & (Hb & _)). assert (o2 = o') as -> by congruence.
    apply (td_class _ _ _ _ HT' [] l o' ref eq_refl Ho'); [congruence|done].
  Qed.
  Context (Hrem : is_remote r = false).
  Lemma C24_lemma fuel l force m s g ref s' g' o : Spec_Write.writes fuel l (Some r) force m -> caches_ok s -> dget (s_caches s) r = None ->
    tidy (objs_of g r) r s l -> s_heap s !! l = Some o -> kind_of (o_body o) <> KdVl true -> exec (m s) g = ((Ok ref, s'), g') ->
    forall s2 g2 fuel1 fuel2 p, heap_ok s2 -> objs_of g' r ⊆ objs_of g2 r ->
    exists lb, fst (fst (exec (visit fuel1 l p s) g)) = Ok lb /\
               fst (fst (exec ((mlet a <- object_at (kind_of (o_body o)) r ref; visit fuel2 a p) s2) g2)) = Ok lb.
  Proof.
    intros Hw Hc Hu HT Ho Hk He s2 g2 fuel1 fuel2 p Hok HO2.
    destruct (written _ _ _ _ _ _ _ _ _ _ Hw Hc Hu HT Ho Hk He) as (W & G & HL & HS).
    destruct (visit_quiet r g Hrem Hr fuel1 p s l HT) as (s1 & Hx & _). exists (look (objs_of g r) (s_heap s) l p). rewrite Hx. split; [done|].
    destruct (read_back r g2 (kind_of (o_body o)) ref s2 (look (objs_of g r) (s_heap s) l) fuel2 p) as (s3 & Hx3); try done.
    - apply HT.
    - intros q. rewrite (look_stored_mono (objs_of g' r)); [apply HS|done|]. rewrite HS. apply (td_complete _ _ _ _ HT).
    - by eapply written_class.
    - by rewrite Hx3.
  Qed.
  Lemma C24_keeps_lemma fuel l force m s g ref s' g' o : Spec_Write.writes fuel l (Some r) force m -> caches_ok s -> dget (s_caches s) r = None ->
    tidy (objs_of g r) r s l -> s_heap s !! l = Some o -> kind_of (o_body o) <> KdVl true -> exec (m s) g = ((Ok ref, s'), g') ->
    tidy (objs_of g' r) r s' l /\ all_marked r (s_heap s') l /\ caches_ok s' /\ dget (s_caches s') r = None /\
    forall fuel1 fuel2 p, exists lb, fst (fst (exec (visit fuel1 l p s) g)) = Ok lb /\ fst (fst (exec (visit fuel2 l p s') g')) = Ok lb.
  Proof.
    intros Hw Hc Hu HT Ho Hk He.
    destruct (written _ _ _ _ _ _ _ _ _ _ Hw Hc Hu HT Ho Hk He) as (W & (HT' & Hm & _) & HL & HS).
    destruct (written_before _ _ _ _ _ _ _ _ _ Hw Hc Hu He) as (HO & Hc' & Hu'). split_and!; try done. intros fuel1 fuel2 p.
    destruct (visit_quiet r g Hrem Hr fuel1 p s l HT) as (s1 & Hx & _). destruct (visit_quiet r g' Hrem Hr fuel2 p s' l HT') as (s2 & Hx2 & _).
    exists (look (objs_of g r) (s_heap s) l p). rewrite Hx, Hx2, HL. done.
  Qed.
  Lemma C24_tvl_lemma fuel l force s g ref s' g' o : caches_ok s -> dget (s_caches s) r = None ->
    tidy (objs_of g r) r s l -> s_heap s !! l = Some o -> kind_of (o_body o) = KdVl true -> exec (write_out fuel l (Some r) force s) g = ((Ok ref, s'), g') ->
    forall s2 g2 fuel1 fuel2 p, heap_ok s2 -> objs_of g' r ⊆ objs_of g2 r ->
    exists lb, fst (fst (exec (visit fuel1 l p s) g)) = Ok lb /\
               fst (fst (exec ((mlet a <- object_at (KdVl true) r (Ref (JStr (ps "TreeVersionList")) (r_loc ref)); visit fuel2 a p) s2) g2)) = Ok lb.
  Proof.
    intros Hc Hu HT Ho Hk He s2 g2 fuel1 fuel2 p Hok HO2.
    destruct (written_before _ _ _ _ _ _ _ _ _ (writes_any _ _ _ _) Hc Hu He) as (HO & Hc' & Hu').
    pose proof (tidy_mono _ _ _ _ _ HO HT) as HT'. pose proof (complete_look_mono _ _ _ _ HO (td_complete _ _ _ _ HT)) as HL.
    destruct (write_shows r Hr (objs_of g' r) fuel l force s g ref s' g' o) as (_ & _ & HS); try done; [by apply uncached_cok|by apply uncached_completes|].
    rewrite Hk in HS. cbn [self_ref] in HS.
    destruct (visit_quiet r g Hrem Hr fuel1 p s l HT) as (s1 & Hx & _). exists (look (objs_of g r) (s_heap s) l p). rewrite Hx. split; [done|].
    destruct (read_back r g2 (KdVl true) (Ref (JStr (ps "TreeVersionList")) (r_loc ref)) s2 (look (objs_of g r) (s_heap s) l) fuel2 p) as (s3 & Hx3); try done.
    - apply HT.
    - intros q. rewrite (look_stored_mono (objs_of g' r)); [by rewrite HS, HL|done|]. rewrite HS, HL. apply (td_complete _ _ _ _ HT).
    - by rewrite Hx3.
  Qed.
End Written.
