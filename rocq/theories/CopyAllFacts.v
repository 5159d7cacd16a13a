(** Copies of everything. *)
From Verif Require Import Base BaseFacts Path Spec_Path PathFacts Json Refs Meta Spec_Meta GitText Spec_Git Git GitFacts Spec_Store State BlobCache ObjRef Objects Spec_Look Spec_Heap Spec_Versions Spec_Write ExecFacts CacheFacts WriteFacts LoadFacts PeekFacts TreeFacts TreeEditFacts VersionFacts LookFacts ReadFacts Spec_Content ContentFacts StoreFacts SaveFacts WriteBackFacts WriteAllFacts ReadBackFacts PurgeFacts RealmFacts EditFacts GraftFacts HomeFacts Spec_Copy CopyFacts CopyRunFacts CopyKindFacts.

Section CopyAll.
  Context `{Env}.
  Context (a b : pystr) (Ha : a <> []) (Hrem : is_remote a = false) (Hb : b <> []).
  Implicit Types (s : pst) (g : gstate).
  Local Notation nopath := (MetadataPath [AStr []]).

  (** objects that are not loaded are loaded for the copy only *)
  Lemma mapped_copy fuel (m : M pst loc) pre l s g y s' g' : tidy (objs_of g a) a s l -> ready b s -> ~ kind_at s l (KdVl true) ->
    (forall s1 o1 y s2 g2, tidy (objs_of g a) a s1 l -> ready b s1 -> s_heap s1 !! l = Some o1 -> h_mapped (o_hdr o1) = true -> kind_of (o_body o1) <> KdVl true ->
       exec (m s1) g = ((Ok y, s2), g2) -> good_copy a b pre s1 g l y s2 g2) ->
    exec (with_mapped fuel l m s) g = ((Ok y, s'), g') -> good_copy a b pre s g l y s' g'.
  Proof using Ha Hrem.
    intros HT Hr Hkd Hm He. pose proof (td_heap _ _ _ _ HT) as Hok. destruct (tidy_root _ _ _ _ HT) as (o & Ho & Hhome & Hlk). unfold with_mapped in He.
    destruct (h_mapped (o_hdr o)) eqn:Em.
    - rewrite x_bind, (x_mapped_noop _ _ _ _ _ Ho Em) in He. cbn beta iota in He. rewrite x_finally in He. destruct (exec (m s) g) as [[r s2] g2] eqn:E. cbn beta iota in He. rewrite x_ret in He. injection He as -> -> ->.
      eapply Hm; try done. intros Hk. apply Hkd. by exists o.
    - destruct (Hhome eq_refl) as (H1 & H2 & ref & H3 & H4). destruct (look_nil_stored _ _ _ _ _ Ho Em H3 Hlk) as (bd & ks & Hs).
      destruct o as [x b0]. cbn [o_hdr o_body] in *.
      assert (Hbl : blank b0) by (split; [destruct (Hok l _ Ho) as (_ & _ & He0 & _); by apply He0|done]).
      destruct (x_load a g Hrem fuel s l x b0 ref bd ks Ho (proj1 (Hok l _ Ho)) Hbl Ha Em H1 H3) as (s1 & x' & Hx & Hg & Hm' & Hf); [intros Hn; destruct H4; congruence|done|].
      destruct (ld_ensure s l _ fuel g _ s1 g Hok Ho Hx) as [_ [_ HD]]; [done|].
      pose proof (load_quiet (objs_of g a) a s l (Obj x b0) ref bd ks x' s1 Hok Ho Em H3 Ha Hs Hg Hm' Hf HD) as HQ.
      assert (Hl1 : s_heap s1 !! l = Some (Obj x' (shift (s_next s) bd))) by apply Hg.
      set (o1 := Obj x' (shift (s_next s) bd)) in *.
      destruct HD as [HR (ol & Hol & _ & HP & Hk)]. rewrite Hl1 in Hol. injection Hol as <-. rewrite Ho in Hk. cbn [option_map o_body] in Hk. assert (Hk1 : kind_of (o_body o1) = kind_of b0) by congruence. clear Hk.
      assert (HT1 : tidy (objs_of g a) a s1 l) by (apply HQ; [by exists (Obj x b0)|done]).
      assert (Hr1 : ready b s1). { destruct HR as [(E1 & _) _ _ _ _]. destruct Hr as [R1 R2]. unfold ready, caches_ok in *. by rewrite E1. }
      rewrite x_bind, Hx in He. cbn beta iota in He. rewrite x_finally in He. destruct (exec (m s1) g) as [[r s2] g2] eqn:E. cbn beta iota in He.
      destruct (exec (purge fuel l s2) g2) as [[[u|e] s3] g3] eqn:E3; [|done]. injection He as -> -> ->.
      assert (Hkd1 : kind_of (o_body o1) <> KdVl true). { intros Hk. apply Hkd. exists (Obj x b0). split; [done|]. cbn. congruence. }
      destruct (Hm s1 o1 y s2 g2 HT1 Hr1 Hl1 Hm' Hkd1 E) as (k & c' & (ok & Hok1 & Hkk) & HK & Hy & Hc & Hmv). assert (ok = o1) as -> by congruence.
      destruct HK as [B1 B2 B3 B4 B5 B6].
      assert (Hl2 : s_heap s2 !! l = Some o1). { destruct (B3 l o1 Hl1) as (o' & Ho' & Hst). by rewrite (still_loaded _ _ Hst Hm') in Ho'. }
      destruct (purge_flat fuel l o1 s2 g2 u s' g' Hl2 Hm') as (-> & -> & Hsv); [|done|].
      { intros z Hz. destruct HP as (P1 & _). specialize (P1 z Hz). destruct (rd_new _ _ _ HR z) as (oz & Hoz & Hmz & _); [lia|lia|]. destruct (B3 z oz Hoz) as (oz' & Hoz' & Hst). exists oz'. by rewrite (still_mapped _ _ Hst). }
      set (s3 := with_heap s2 _). pose proof (proj1 (Hok l _ Ho)) as Hll. pose proof (rd_next _ _ _ HR) as Hnx.
      assert (Hold : forall z : loc, z <> l -> s_heap s3 !! z = s_heap s2 !! z). { intros z Hn. unfold s3. cbn [s_heap with_heap]. by rewrite heap_insert, decide_False. }
      assert (Hself : s_heap s3 !! l = Some (dropped o1)) by (unfold s3; cbn [s_heap with_heap]; by rewrite heap_insert, decide_True).
      assert (Hok3 : heap_ok s3).
      { assert (Hsome : forall z : loc, is_Some (s_heap s2 !! z) -> is_Some (s_heap s3 !! z)). { intros z Hz. destruct (decide (z = l)) as [->|Hn]; [rewrite Hself; eauto|by rewrite Hold]. }
        intros z oz Hz. destruct (decide (z = l)) as [->|Hn].
        - rewrite Hself in Hz. injection Hz as <-. unfold dropped. cbn [o_body o_hdr]. rewrite unloaded_sub, unloaded_kids. split_and!; [|by intros ? []|done|apply NoDup_nil_2].
          change (s_next s3) with (s_next s2). lia.
        - rewrite Hold in Hz by done. destruct (B1 z oz Hz) as (K1 & K2 & K3 & K4). split_and!; try done. intros w Hw. by apply Hsome, K2. }
      exists k, c'. split_and!; [exists (Obj x b0); split; [done|cbn; congruence]| |lia| |].
      + split; [done|change (s_next s3) with (s_next s2); lia| |done|done|done]. intros z oz Hz. destruct (decide (z = l)) as [->|Hn].
        * exists (dropped o1). split; [done|]. assert (oz = Obj x b0) as -> by congruence. right. destruct Hf as (F1 & F2 & F3 & F4 & F5). unfold dropped. cbn [o_hdr o_body hd_mapped h_mapped h_realm h_ref h_saved].
          split_and!; try done.
          -- by rewrite unloaded_kind.
          -- split; [apply unloaded_sub|]. intros m0. destruct (o_body o1); try done. cbn. by intros [= <-].
          -- intros k0 vs. destruct (o_body o1); try done. cbn. by intros [= _ <-].
          -- unfold o1. cbn [o_hdr]. congruence.
          -- exists ref. destruct F2 as [F2|[F2 F2n]]; eexists; split_and!; try done; [by left|by right].
          -- intros d Hd. assert (d = a) as -> by congruence. unfold o1. cbn [o_hdr]. destruct (is_none_reference ref) eqn:En; [by rewrite F5|]. destruct H4 as [H4|H4]; [done|]. split; intros _; [by apply F3|done].
        * assert (Hzs : (z < s_next s)%N) by exact (proj1 (Hok z oz Hz)). destruct (B3 z oz) as (oz' & Hoz' & Hst). { rewrite (rd_old _ _ _ HR) by done. done. }
          exists oz'. split; [by rewrite Hold|done].
      + eapply copy_frame; [exact Hc|done|]. apply Hold. intros ->. lia.
      + assert (HLK : forall p, look (objs_of g a) (s_heap s1) l p = look (objs_of g a) (s_heap s) l p) by (intros p; apply HQ; by exists (Obj x b0)).
        destruct Hmv as [V1 V2 V3]. split; [by rewrite V1, HLK|intros k0 q Hk0; rewrite <- HLK; apply V2; by rewrite HLK|]. intros k0 q Hk0. apply V3. intros k2. rewrite HLK. apply Hk0.
  Qed.

  Lemma prefix_nopath : prefix_ok nopath.
  Proof using. split; [by exists [AStr []]|]. by apply List.Forall_nil || (cbn; repeat constructor; unfold scalar; lia). Qed.
  Lemma deepcopy_copies fuel : forall l pre s g y s' g', tidy (objs_of g a) a s l -> ready b s -> ~ kind_at s l (KdVl true) -> prefix_ok pre ->
    exec (deepcopy fuel l (Some b) pre s) g = ((Ok y, s'), g') -> good_copy a b pre s g l y s' g'.
  Proof using Ha Hrem Hb.
    induction fuel as [|f IH]; intros l pre s g y s' g' HT Hr Hk Hpre He; [done|]. cbn [deepcopy] in He.
    eapply mapped_copy in He; [exact He|done|done|done|]. clear y s' g' He. intros s1 o1 y s2 g2 HT1 Hr1 Ho1 Hm1 Hk1 He.
    assert (Hrec : forall z s g y s' g', tidy (objs_of g a) a s z -> ready b s -> ~ kind_at s z (KdVl true) ->
      exec (deepcopy f z (Some b) nopath s) g = ((Ok y, s'), g') -> copies a b s g z y s' g').
    { intros z s0 g0 y0 s0' g0' HT0 Hr0 Hk0 He0. apply nopath_copies; [done|]. apply IH; try done. apply prefix_nopath. }
    rewrite x_bind, x_getobj, Ho1 in He. cbn beta iota in He. destruct (o_body o1) as [m|t|c d|i v m t|k vs|us] eqn:Eb.
    - by eapply meta_copy.
    - exfalso. destruct (td_complete _ _ _ _ HT1 []) as (_ & C & _). cbn [look] in C. rewrite Ho1, Hm1, Eb in C. exact (C _ eq_refl).
    - by eapply (node_copy a b Ha Hrem Hb f (S f)).
    - by eapply (mrr_copy a b Ha Hrem Hb f (S f)).
    - eapply (vl_copy a b Ha Hrem Hb f (S f)); try done. intros ->. by apply Hk1.
    - by eapply (uset_copy a b Ha Hrem Hb f (S f)).
  Qed.
  Lemma moved_nopath (c c' : content) : complete c -> moved nopath c c' -> forall q, c' q = c q.
  Proof using.
    intros HC HM. apply (fun X Y => moved_same _ _ _ HC X Y HM).
    - intros k0 Hk0. destruct k0 as [| | |v p|]; try done. pose proof (complete_path _ _ _ HC Hk0) as [Hr _]. destruct p as [r0 q0]. cbn in Hr. by subst r0.
    - intros lb Hlb. destruct (HC []) as (_ & C & _). specialize (C lb Hlb). destruct lb as [| | | |t rs|]; try done. cbn in *. f_equal.
      rewrite <- (map_id rs) at 2. apply map_ext_in. intros [[[v p] ts] e] Hin. cbn. destruct (C v p ts e Hin) as (_ & _ & Hp & _). apply mpath_wf in Hp as [Hr _]. destruct p as [r0 q0]. cbn in Hr. by subst r0.
  Qed.
  Lemma C32_source_lemma fuel l pre s g y s' g' o : tidy (objs_of g a) a s l -> s_heap s !! l = Some o -> kind_of (o_body o) <> KdVl true ->
    caches_ok s -> dget (s_caches s) b = None -> prefix_ok pre -> exec (deepcopy fuel l (Some b) pre s) g = ((Ok y, s'), g') ->
    (forall z oz, s_heap s !! z = Some oz -> exists oz', s_heap s' !! z = Some oz' /\
       (h_mapped (o_hdr oz) = true -> oz' = oz) /\ (h_mapped (o_hdr oz) = false -> h_mapped (o_hdr oz') = false /\ h_realm (o_hdr oz') = h_realm (o_hdr oz))) /\
    (forall r z, r <> [] -> is_remote r = false -> tidy (objs_of g r) r s z -> tidy (objs_of g' r) r s' z /\
       forall fuel1 fuel2 p, exists lb, fst (fst (exec (visit fuel1 z p s) g)) = Ok lb /\ fst (fst (exec (visit fuel2 z p s') g')) = Ok lb) /\
    (forall n, n <> b -> g_repos g' !! n = g_repos g !! n) /\ objs_of g b ⊆ objs_of g' b.
  Proof using Ha Hrem Hb.
    intros HT Ho Hk Hc Hu Hpre He. destruct (deepcopy_copies fuel l pre s g y s' g' HT) as (k & c' & _ & HK & _); try done.
    { intros (o2 & Ho2 & Hk2). apply Hk. congruence. }
    split_and!; [| |apply HK|apply HK].
    - intros z oz Hz. destruct (ke_stays _ _ _ _ _ HK z oz Hz) as (oz' & Hz' & Hst). exists oz'. split_and!; [done|by apply still_loaded|]. intros Hm. rewrite (still_mapped _ _ Hst). split; [done|].
      destruct Hst as [->|(_ & _ & _ & _ & _ & Hr & _)]; done.
    - intros r z Hr Hrr HTz. destruct (ke_tidy b _ _ _ _ _ _ HK HTz) as [HT' HL]. split; [done|]. intros fuel1 fuel2 p. exists (look (objs_of g r) (s_heap s) z p).
      destruct (visit_quiet r g Hrr Hr fuel1 p s z HTz) as (s1 & -> & _). destruct (visit_quiet r g' Hrr Hr fuel2 p s' z HT') as (s2 & -> & _). cbn. split; [done|]. by rewrite HL.
  Qed.

  Lemma C32_copy_lemma fuel l pre s g y s' g' o : is_remote b = false -> tidy (objs_of g a) a s l -> s_heap s !! l = Some o -> kind_of (o_body o) <> KdVl true ->
    caches_ok s -> dget (s_caches s) b = None -> prefix_ok pre -> exec (deepcopy fuel l (Some b) pre s) g = ((Ok y, s'), g') ->
    s_heap s !! y = None /\ exists o' ref c c', s_heap s' !! y = Some o' /\ h_mapped (o_hdr o') = false /\ h_realm (o_hdr o') = Some b /\ h_ref (o_hdr o') = Some ref /\
      (forall fuel p, fst (fst (exec (visit fuel l p s) g)) = Ok (c p)) /\ moved pre c c' /\
      (forall fuel p, fst (fst (exec (visit fuel y p s') g')) = Ok (c' p)) /\
      (forall s2 g2 fuel p, heap_ok s2 -> objs_of g' b ⊆ objs_of g2 b ->
         fst (fst (exec ((mlet x <- object_at (kind_of (o_body o)) b ref; visit fuel x p) s2) g2)) = Ok (c' p)).
  Proof using Ha Hrem Hb.
    intros Hremb HT Ho Hk Hc Hu Hpre He. destruct (deepcopy_copies fuel l pre s g y s' g' HT) as (k & c' & (o2 & Ho2 & Hkk) & HK & Hy & (oy & Hoy & Hmy & Hky & Hry & Hsy & HTy & HLy) & HM); try done.
    { intros (o2 & Ho2 & Hk2). apply Hk. congruence. }
    assert (o2 = o) as -> by congruence. split.
    { destruct (s_heap s !! y) as [oo|] eqn:E; [|done]. pose proof (proj1 (td_heap _ _ _ _ HT y oo E)). lia. }
    destruct (td_home _ _ _ _ HTy [] y oy eq_refl Hoy Hmy) as (_ & _ & ref & Href & _).
    exists oy, ref, (look (objs_of g a) (s_heap s) l), c'. split_and!; try done.
    - intros f0 p. by destruct (visit_quiet a g Hrem Ha f0 p s l HT) as (s1 & -> & _).
    - intros f0 p. destruct (visit_quiet b g' Hremb Hb f0 p s' y HTy) as (s1 & -> & _). cbn. by rewrite HLy.
    - intros s2 g2 f0 p Hok2 HO2.
      assert (HS : forall q, look_stored (objs_of g' b) (kind_of (o_body o)) ref q = c' q).
      { intros q. rewrite <- HLy. rewrite Hkk, <- Hky. destruct q; cbn [look]; by rewrite Hoy, Hmy, Href. }
      assert (HC : complete c') by (eapply complete_ext; [|apply (td_complete _ _ _ _ HTy)]; intros q; by rewrite HLy).
      destruct (read_back b g2 (kind_of (o_body o)) ref s2 c' f0 p) as (s3 & ->); try done.
      + intros q. rewrite (look_stored_mono (objs_of g' b)); [apply HS|done|]. rewrite HS. apply HC.
      + intros Ek. eapply (td_class _ _ _ _ HTy [] y oy ref eq_refl Hoy); [|done]. congruence.
  Qed.
  Lemma C32_same_lemma fuel l s g y s' g' o : is_remote b = false -> tidy (objs_of g a) a s l -> s_heap s !! l = Some o -> kind_of (o_body o) <> KdVl true ->
    caches_ok s -> dget (s_caches s) b = None -> exec (deepcopy fuel l (Some b) nopath s) g = ((Ok y, s'), g') ->
    exists o' ref, s_heap s' !! y = Some o' /\ h_ref (o_hdr o') = Some ref /\
      forall s2 g2 fuel1 fuel2 p, heap_ok s2 -> objs_of g' b ⊆ objs_of g2 b ->
        exists lb, fst (fst (exec (visit fuel1 l p s) g)) = Ok lb /\
                   fst (fst (exec ((mlet x <- object_at (kind_of (o_body o)) b ref; visit fuel2 x p) s2) g2)) = Ok lb.
  Proof using Ha Hrem Hb.
    intros Hremb HT Ho Hk Hc Hu He.
    destruct (C32_copy_lemma fuel l nopath s g y s' g' o Hremb HT Ho Hk Hc Hu prefix_nopath He) as (_ & o' & ref & c & c' & H1 & _ & _ & H2 & H3 & HM & _ & H4).
    exists o', ref. split_and!; [done|done|]. intros s2 g2 fuel1 fuel2 p Hok2 HO2. exists (c p). rewrite H3, H4 by done. split; [done|]. f_equal.
    assert (HC : complete c). { eapply complete_ext; [|apply (td_complete _ _ _ _ HT)]. intros q. specialize (H3 0%nat q). destruct (visit_quiet a g Hrem Ha 0 q s l HT) as (s1 & E & _). rewrite E in H3. cbn in H3. congruence. }
    by apply moved_nopath.
  Qed.
End CopyAll.
