(** Copies of object graphs. *)
From Verif Require Import Base BaseFacts Path Spec_Path PathFacts Json Refs Meta Spec_Meta GitText Spec_Git Git GitFacts Spec_Store State BlobCache ObjRef Objects Spec_Look Spec_Heap Spec_Versions Spec_Write ExecFacts CacheFacts WriteFacts LoadFacts PeekFacts TreeFacts TreeEditFacts VersionFacts LookFacts ReadFacts Spec_Content ContentFacts StoreFacts SaveFacts WriteBackFacts WriteAllFacts ReadBackFacts PurgeFacts RealmFacts EditFacts GraftFacts HomeFacts Spec_Copy.

(** ** Objects that stay *)
(** Loaded objects stay as they are.  Others stay unloaded; their reference may
    get the class that [map_in] writes. *)
Definition still (o o' : obj) : Prop := o' = o \/
  (h_mapped (o_hdr o) = false /\ h_mapped (o_hdr o') = false /\ kind_of (o_body o') = kind_of (o_body o) /\ blank (o_body o') /\
   (forall k vs, o_body o' = BVlist k vs -> vs = []) /\ h_realm (o_hdr o') = h_realm (o_hdr o) /\
   (exists ref ref', h_ref (o_hdr o) = Some ref /\ h_ref (o_hdr o') = Some ref' /\ (ref' = ref \/ ref' = conv_ref ref /\ is_none_reference ref = false)) /\
   forall d, h_realm (o_hdr o) = Some d -> d ∈ h_saved (o_hdr o) <-> d ∈ h_saved (o_hdr o')).
Lemma conv_none ref : is_none_reference (conv_ref ref) = is_none_reference ref.
Proof. unfold conv_ref, is_none_reference. by destruct (_ || _). Qed.
Lemma conv_idem ref : conv_ref (conv_ref ref) = conv_ref ref.
Proof. unfold conv_ref at 2 3. destruct (_ || _) eqn:E; [done|]. unfold conv_ref. by rewrite E. Qed.
Lemma still_refl o : still o o.
Proof. by left. Qed.
Lemma still_trans a b c : still a b -> still b c -> still a c.
Proof.
  intros [->|H1] [->|H2]; [by left|by right|by right|]. right.
  destruct H1 as (A1 & A2 & A3 & A4 & AV & A5 & (r1 & r2 & A6 & A7 & A8) & A9), H2 as (B1 & B2 & B3 & B4 & BV & B5 & (q1 & q2 & B6 & B7 & B8) & B9).
  assert (q1 = r2) as -> by congruence. split_and!; [done|done|congruence|done|done|congruence| |].
  - exists r1, q2. split_and!; [done|done|]. destruct A8 as [->|[-> An]], B8 as [->|[-> Bn]]; auto. right. by rewrite conv_idem.
  - intros d Hd. rewrite A9 by done. apply B9. congruence.
Qed.
Lemma still_mapped o o' : still o o' -> h_mapped (o_hdr o') = h_mapped (o_hdr o).
Proof. intros [->|(A1 & A2 & _)]; congruence. Qed.
Lemma still_kind o o' : still o o' -> kind_of (o_body o') = kind_of (o_body o).
Proof. by intros [->|(A1 & A2 & A3 & _)]. Qed.
Lemma still_loaded o o' : still o o' -> h_mapped (o_hdr o) = true -> o' = o.
Proof. intros [->|(A1 & _)] E; [done|congruence]. Qed.
Lemma still_kids o o' : still o o' -> h_mapped (o_hdr o) = true -> o_body o' = o_body o.
Proof. intros Hs Hm. by rewrite (still_loaded _ _ Hs Hm). Qed.
Lemma conv_stored O k ref : is_none_reference ref = false -> stored O k (conv_ref ref) = stored O k ref.
Proof. intros Hn. by apply stored_conv. Qed.
Lemma still_marked r o o' : still o o' -> (h_mapped (o_hdr o) = false -> h_realm (o_hdr o) = Some r) -> marked r o' <-> marked r o.
Proof.
  intros [->|(A1 & A2 & A3 & A4 & AV & A5 & (r1 & r2 & A6 & A7 & A8) & A9)] Hr; [done|]. specialize (Hr A1). unfold marked. rewrite A1, A2, A6, A7, <- (A9 r Hr).
  assert (E : is_none_reference r2 = is_none_reference r1) by (destruct A8 as [->|[-> _]]; [done|apply conv_none]).
  split; (intros [?|[_ (x & [= <-] & Hx)]]; [by left|right; split; [done|]; eexists; split; [done|congruence]]).
Qed.

(** Heaps in which all objects stay. *)
Definition stays (h h' : heap) : Prop := forall (z : loc) o, h !! z = Some o -> exists o', h' !! z = Some o' /\ still o o'.
Lemma stays_refl h : stays h h.
Proof. intros z o Ho. exists o. split; [done|apply still_refl]. Qed.
Lemma stays_trans a b c : stays a b -> stays b c -> stays a c.
Proof. intros H1 H2 z o Ho. destruct (H1 z o Ho) as (o1 & Ho1 & S1). destruct (H2 z o1 Ho1) as (o2 & Ho2 & S2). exists o2. split; [done|by eapply still_trans]. Qed.
Lemma stays_reach s s' p : heap_ok s -> stays (s_heap s) (s_heap s') -> forall z, is_Some (s_heap s !! z) -> reach (s_heap s') z p = reach (s_heap s) z p.
Proof.
  intros Hok Hst. induction p as [|k p IH]; intros z [o Ho]; [done|]. cbn [reach]. destruct (Hst z o Ho) as (o' & Ho' & Hs). rewrite Ho, Ho', (still_mapped _ _ Hs).
  destruct (h_mapped (o_hdr o)) eqn:Em; [|done]. rewrite (still_kids _ _ Hs Em). destruct (dget (kids_of (o_body o)) k) as [x|] eqn:Ed; [|done].
  apply IH. apply (Hok z o Ho). by eapply kids_in_sub.
Qed.
Lemma stays_hollow O s s' z : stays (s_heap s) (s_heap s') -> is_Some (s_heap s !! z) -> hollow_at O (s_heap s') z = hollow_at O (s_heap s) z.
Proof.
  intros Hst [o Ho]. destruct (Hst z o Ho) as (o' & Ho' & [->|(A1 & A2 & A3 & A4 & AV & A5 & (r1 & r2 & A6 & A7 & A8) & A9)]); unfold hollow_at; rewrite Ho, Ho'; [done|].
  rewrite A1, A2, A3, A6, A7. unfold hollow. destruct A8 as [->|[-> Hn]]; [done|]. by rewrite conv_stored.
Qed.
Lemma stays_look O s s' p : heap_ok s -> stays (s_heap s) (s_heap s') -> forall z, is_Some (s_heap s !! z) -> look O (s_heap s') z p = look O (s_heap s) z p.
Proof.
  intros Hok Hst. assert (HU : forall z o o' q, s_heap s !! z = Some o -> s_heap s' !! z = Some o' -> h_mapped (o_hdr o) = false -> still o o' -> look O (s_heap s') z q = look O (s_heap s) z q).
  { intros z o o' q Ho Ho' Hm [->|(A1 & A2 & A3 & A4 & AV & A5 & (r1 & r2 & A6 & A7 & A8) & A9)]; destruct q; cbn [look]; rewrite Ho, Ho'.
    1, 2: by rewrite Hm.
    all: rewrite A1, A2, A3, A6, A7; destruct A8 as [->|[-> Hn]]; [done|]; cbn [look_stored]; by rewrite conv_stored. }
  induction p as [|k p IH]; intros z [o Ho]; destruct (Hst z o Ho) as (o' & Ho' & Hs); (destruct (h_mapped (o_hdr o)) eqn:Em; [|by eapply HU]);
    pose proof (still_loaded _ _ Hs Em) as ->; cbn [look]; rewrite Ho, Ho', Em; [done|].
  destruct (dget (kids_of (o_body o)) k) as [x|] eqn:Ed; [|done]. assert (Hx : is_Some (s_heap s !! x)) by (apply (Hok z o Ho); by eapply kids_in_sub).
  by rewrite (stays_hollow O s s' x Hst Hx), IH.
Qed.
Lemma stays_tidy O r s s' z : stays (s_heap s) (s_heap s') -> heap_ok s' -> tidy O r s z -> tidy O r s' z.
Proof.
  intros Hst Hk HT. pose proof HT as [T1 T2 T3 T4 TC TT T5 T6]. assert (Hz : is_Some (s_heap s !! z)). { destruct (tidy_root _ _ _ _ HT) as (o & Ho & _). eauto. }
  assert (HR : forall p, reach (s_heap s') z p = reach (s_heap s) z p) by (intros p; by apply stays_reach).
  assert (HB : forall p x o', reach (s_heap s) z p = Some x -> s_heap s' !! x = Some o' -> exists o, s_heap s !! x = Some o /\ still o o').
  { intros p x o' Hp Ho'. destruct (reach_some s p T1 z x Hz Hp) as [o Ho]. destruct (Hst x o Ho) as (o2 & Ho2 & Hs). exists o. split; [done|]. congruence. }
  split; [done| | | | | | |].
  - intros p q x. rewrite !HR. apply T2.
  - intros p x o' Hp Ho' Hm. rewrite HR in Hp. destruct (HB p x o' Hp Ho') as (o & Ho & Hs). rewrite (still_mapped _ _ Hs) in Hm.
    destruct (T3 p x o Hp Ho Hm) as (H1 & H2 & ref & H3 & H4). destruct Hs as [->|(A1 & A2 & A3 & A4 & AV & A5 & (r1 & r2 & A6 & A7 & A8) & A9)]; [split_and!; eauto|].
    assert (r1 = ref) as -> by congruence. split_and!; [congruence|by apply A4|]. exists r2. split; [done|]. destruct H4 as [H4|H4]; [left|right; by apply A9].
    destruct A8 as [->|[-> _]]; [done|by rewrite conv_none].
  - intros p x hx k vs Hp Hx. rewrite HR in Hp. destruct (HB p x _ Hp Hx) as (o & Ho & [E|Hs]); [subst o; by eapply T4|].
    destruct Hs as (_ & _ & _ & _ & AV & _). rewrite (AV k vs eq_refl). apply wk_nil.
  - intros p x o' ref Hp Ho' Hkd Hrf. rewrite HR in Hp. destruct (HB p x o' Hp Ho') as (o & Ho & Hs). rewrite (still_kind _ _ Hs) in Hkd.
    destruct Hs as [->|(A1 & A2 & A3 & A4 & AV & A5 & (r1 & r2 & A6 & A7 & A8) & A9)]; [by eapply TC|]. assert (r2 = ref) as -> by congruence.
    destruct A8 as [->|[-> _]]; [by eapply TC|]. unfold conv_ref. pose proof (TC p x o r1 Hp Ho Hkd A6) as Hc. destruct (_ || _); [done|done].
  - intros p x hx i v m t Hp Hx. rewrite HR in Hp. destruct (HB p x _ Hp Hx) as (o & Ho & [E|Hs]).
    + subst o. destruct (TT p x hx i v m t Hp Ho) as (ht & d & Ht). destruct (Hst t _ Ht) as (ot & Hot & Hs). pose proof (still_kind _ _ Hs) as Hkt. cbn in Hkt.
      destruct ot as [ht' bt]. cbn in Hkt. destruct bt; try done. injection Hkt as ->. eauto.
    + destruct Hs as (_ & _ & _ & [A4 _] & _). cbn in A4. by destruct m.
  - intros p x o' Hp Ho' Hma. rewrite HR in Hp. destruct (HB p x o' Hp Ho') as (o & Ho & Hs).
    assert (Hx : is_Some (s_heap s !! x)) by by exists o.
    assert (Hma0 : all_marked r (s_heap s) x).
    { intros q y oy Hq Hy. destruct (Hst y oy Hy) as (oy' & Hy' & Hsy). apply (still_marked r _ _ Hsy).
      - intros Hm. assert (Hpq : reach (s_heap s) z (p ++ q) = Some y) by (rewrite reach_app, Hp; done). by destruct (T3 (p ++ q) y oy Hpq Hy Hm).
      - apply (Hma q y); [|done]. by rewrite (stays_reach s s'). }
    destruct (T5 p x o Hp Ho Hma0) as (ref & Hrf & Hl). rewrite (still_kind _ _ Hs).
    destruct Hs as [->|(A1 & A2 & A3 & A4 & AV & A5 & (r1 & r2 & A6 & A7 & A8) & A9)].
    + exists ref. split; [done|]. intros q. rewrite (stays_look O s s') by done. apply Hl.
    + assert (r1 = ref) as -> by congruence. exists r2. split; [done|]. intros q. rewrite (stays_look O s s') by done. rewrite <- Hl.
      destruct A8 as [->|[-> Hn]]; [done|]. apply look_stored_eq. by apply stored_conv.
  - eapply complete_ext; [|exact T6]. intros p. by apply stays_look.
Qed.

(** ** Copies that are written and unloaded *)
Section Copy.
  Context `{Env}.
  Context (b : pystr) (Hb : b <> []).
  Implicit Types (s : pst) (g : gstate).
  Record keeps s g s' g' : Prop := {
    ke_ok : heap_ok s';
    ke_next : (s_next s <= s_next s')%N;
    ke_stays : stays (s_heap s) (s_heap s');
    ke_objs : forall n, objs_of g n ⊆ objs_of g' n;
    ke_repos : forall n, n <> b -> g_repos g' !! n = g_repos g !! n;
    ke_caches : caches_ok s' /\ dget (s_caches s') b = None;
  }.
  Lemma ke_trans s1 g1 s2 g2 s3 g3 : keeps s1 g1 s2 g2 -> keeps s2 g2 s3 g3 -> keeps s1 g1 s3 g3.
  Proof.
    intros [A1 A2 A3 A4 A5 A6] [B1 B2 B3 B4 B5 B6]. split; [done|lia|by eapply stays_trans| | |done].
    - intros n. etrans; [apply A4|apply B4].
    - intros n Hn. by rewrite B5, A5.
  Qed.
  Lemma ke_tidy s g s' g' r z : keeps s g s' g' -> tidy (objs_of g r) r s z ->
    tidy (objs_of g' r) r s' z /\ forall q, look (objs_of g' r) (s_heap s') z q = look (objs_of g r) (s_heap s) z q.
  Proof.
    intros HK HT. assert (Hz : is_Some (s_heap s !! z)) by (destruct (tidy_root _ _ _ _ HT) as (o & Ho & _); eauto). split.
    - eapply tidy_mono; [apply HK|]. eapply stays_tidy; [apply HK|apply HK|done].
    - intros q. rewrite <- (complete_look_mono (objs_of g r) (objs_of g' r)); [|apply HK|apply HT]. apply stays_look; [apply HT|apply HK|done].
  Qed.
  (** A written copy of something with content [c], not loaded. *)
  Definition copy_at s g (y : loc) (k : kd) (c : content) : Prop := exists o,
    s_heap s !! y = Some o /\ h_mapped (o_hdr o) = false /\ kind_of (o_body o) = k /\ h_realm (o_hdr o) = Some b /\ b ∈ h_saved (o_hdr o) /\
    tidy (objs_of g b) b s y /\ forall q, look (objs_of g b) (s_heap s) y q = c q.
  Lemma copy_keeps s g s' g' y k c : keeps s g s' g' -> copy_at s g y k c -> copy_at s' g' y k c.
  Proof.
    intros HK (o & Ho & Hm & Hk & Hr & Hs & HT & Hl). destruct (ke_stays _ _ _ _ HK y o Ho) as (o' & Ho' & Hst). destruct (ke_tidy _ _ _ _ _ _ HK HT) as [HT' HL'].
    exists o'. rewrite (still_mapped _ _ Hst), (still_kind _ _ Hst). split_and!; try done.
    - destruct Hst as [->|(A1 & A2 & A3 & A4 & AV & A5 & A6)]; [done|congruence].
    - destruct Hst as [->|(A1 & A2 & A3 & A4 & AV & A5 & A6 & A7)]; [done|by apply A7].
    - intros q. by rewrite HL'.
  Qed.
  Lemma copy_ext s g y k c c' : (forall q, c q = c' q) -> copy_at s g y k c -> copy_at s g y k c'.
  Proof. intros Hc (o & H1 & H2 & H3 & H4 & H5 & H6 & H7). exists o. split_and!; try done. intros q. by rewrite H7. Qed.

  (** unloading an object whose parts are not loaded *)
  Lemma purge_flat fuel l o s g u s' g' : s_heap s !! l = Some o -> h_mapped (o_hdr o) = true ->
    (forall x, In x (sub_objects (o_body o)) -> exists ox, s_heap s !! x = Some ox /\ h_mapped (o_hdr ox) = false) ->
    exec (purge fuel l s) g = ((Ok u, s'), g') -> s' = with_heap s (<[l := dropped o]> (s_heap s)) /\ g' = g /\ h_saved (o_hdr o) <> ∅.
  Proof using.
    intros Ho Hm Hk He. destruct fuel as [|f]; [done|]. cbn [purge] in He. rewrite x_bind, x_getobj, Ho in He. cbn beta iota in He. rewrite Hm in He.
    destruct (decide (h_saved (o_hdr o) = ∅)) as [Es|Es]; [by rewrite x_raise in He|].
    assert (Hb0 : (exists i v t, o_body o = BMrr i v None t) \/ forall i v t, o_body o <> BMrr i v None t).
    { destruct (o_body o) as [m|t|c d|i v [m|] t|k vs|us]; try (right; done). left. eauto. }
    destruct Hb0 as [(i & v & t & Hb0)|Hb0].
    { rewrite x_bind in He. unfold purge_impl in He. rewrite x_bind, x_getobj, Ho in He. cbn beta iota in He. by rewrite Hb0, x_raise in He. }
    rewrite x_bind, (x_purge_impl _ _ _ _ _ Ho Hb0), x_bind in He.
    assert (HI : forall ls, (forall x, In x ls -> exists ox, s_heap s !! x = Some ox /\ h_mapped (o_hdr ox) = false) ->
      exec (miter (purge f) ls s) g = ((Ok tt, s), g) \/ exists e, exec (miter (purge f) ls s) g = ((Err e, s), g)).
    { induction ls as [|x ls IH]; intros Hls; [by left|]. cbn [miter]. rewrite x_bind. destruct (Hls x (or_introl eq_refl)) as (ox & Hox & Hmx).
      destruct f as [|f']; [right; by exists RecursionError|]. cbn [purge]. rewrite x_bind, x_getobj, Hox. cbn beta iota. rewrite Hmx, x_ret. cbn beta iota.
      apply IH. intros y Hy. apply Hls. by right. }
    destruct (HI _ Hk) as [E|[e E]]; rewrite E in He; cbn beta iota in He; [|done].
    rewrite (WriteFacts.x_set_body l _ o) in He by done. cbn beta iota in He.
    rewrite (x_set_hdr l _ (Obj (o_hdr o) (unloaded (o_body o)))) in He by (cbn [s_heap with_heap]; by rewrite heap_insert, decide_True).
    injection He as _ <- <-. split_and!; [|done|done]. destruct s as [hp nx c1 o1 o2 k1]. unfold with_heap. cbn [s_heap s_next s_caches s_orefs s_legacy s_locks o_hdr o_body]. f_equal.
    unfold heap in *. by rewrite insert_insert.
  Qed.

  Lemma finish_ok fuel x bd s g y s' g' : caches_ok s -> dget (s_caches s) b = None -> tidy (objs_of g b) b s x -> one_realm b (s_heap s) x ->
    s_heap s !! x = Some (fresh_obj bd) -> kind_of bd <> KdVl true ->
    (forall z, In z (sub_objects bd) -> exists oz, s_heap s !! z = Some oz /\ h_mapped (o_hdr oz) = false) ->
    exec (finish_copy fuel x (Some b) s) g = ((Ok y, s'), g') ->
    y = x /\ s_next s' = s_next s /\ heap_ok s' /\ (forall z : loc, z <> x -> s_heap s' !! z = s_heap s !! z) /\ (caches_ok s' /\ dget (s_caches s') b = None) /\
    (forall n, objs_of g n ⊆ objs_of g' n) /\ (forall n, n <> b -> g_repos g' !! n = g_repos g !! n) /\
    copy_at s' g' x (kind_of bd) (look (objs_of g b) (s_heap s) x).
  Proof using Hb.
    intros Hc Hu HT H1 Hx Hk Hkid He. unfold finish_copy in He. apply xi_bind in He as (ref & s1 & g1 & E1 & He). apply xi_bind in He as ([] & s2 & g2 & E2 & He). apply xi_ret in He as (<- & <- & <-).
    assert (Hw : Spec_Write.writes fuel x (Some b) false (write_out fuel x (Some b) false)) by constructor.
    pose proof (td_heap _ _ _ _ HT) as Hok.
    destruct (written b Hb fuel x false _ s g ref s1 g1 (fresh_obj bd) Hw Hc Hu HT Hx Hk E1) as (W & (HT1 & Hma & (o1 & Ho1 & Hf1)) & HL & _).
    destruct (written_before b Hb fuel x false _ s g ref s1 g1 Hw Hc Hu E1) as (HO & Hc1 & Hu1).
    destruct (fr_get _ _ _ _ (proj1 W) Hx) as (o1' & Ho1' & Hso). assert (o1' = o1) as -> by congruence.
    assert (Hb1 : o_body o1 = bd) by apply Hso. assert (Hm1 : h_mapped (o_hdr o1) = true) by (destruct Hso as (_ & -> & _); done).
    assert (Hold : forall z : loc, z <> x -> s_heap s1 !! z = s_heap s !! z).
    { intros z Hz. destruct W as (W1 & _ & W3). destruct (s_heap s !! z) as [oz|] eqn:Ez.
      - destruct (h_mapped (o_hdr oz)) eqn:Emz.
        + rewrite W3; [done|]. intros p Hp. destruct p as [|k p]; [by injection Hp as ->|]. cbn [reach] in Hp. rewrite Hx in Hp. cbn [fresh_obj o_hdr o_body h_mapped] in Hp.
          destruct (dget (kids_of bd) k) as [w|] eqn:Ek; [|done]. destruct (Hkid w) as (ow & How & Hmw); [by eapply kids_in_sub|].
          destruct p as [|k' p]; cbn [reach] in Hp; [injection Hp as ->; congruence|]. by rewrite How, Hmw in Hp.
        + destruct (fr_get _ _ _ _ W1 Ez) as (oz' & -> & Hsz). f_equal. destruct Hsz as (_ & _ & _ & Hsz). by rewrite Hsz.
      - specialize (W1 z). rewrite Ez in W1. by destruct (s_heap s1 !! z). }
    destruct (purge_flat fuel x o1 s1 g1 tt s2 g2 Ho1 Hm1) as (-> & -> & Hsv); [|done|].
    { intros z Hz. rewrite Hb1 in Hz. destruct (Hkid z Hz) as (oz & Hoz & Hmz). exists oz. split; [|done]. rewrite Hold; [done|]. intros ->. rewrite Hx in Hoz. by injection Hoz as <-. }
    pose proof (write_one_realm b Hb fuel x false _ s g _ s1 g1 x Hw E1 H1) as H1r.
    destruct (H1r [] x o1 eq_refl Ho1 Hsv) as [Hin Hrl].
    set (s2 := with_heap s1 (<[x := dropped o1]> (s_heap s1))).
    assert (Hdr : drops (marked b) (s_heap s1) (s_heap s2)).
    { intros z. unfold s2. cbn [s_heap with_heap]. rewrite heap_insert. destruct (decide (x = z)) as [<-|Hn]; [rewrite Ho1; cbn; right; split_and!; [done|done|exact Hma]|destruct (s_heap s1 !! z); cbn; auto]. }
    assert (HT2 : tidy (objs_of g1 b) b s2 x) by (by eapply dr_tidy).
    split_and!; try done.
    - apply W.
    - apply HT2.
    - intros z Hz. unfold s2. cbn [s_heap with_heap]. rewrite heap_insert, decide_False by congruence. by apply Hold.
    - intros n. pose proof (exec_grow (write_out fuel x (Some b) false s) g) as Hg. rewrite E1 in Hg. apply Hg.
    - intros n Hn. pose proof (writes_others b fuel x false _ s g n Hb Hw Hc Hn) as Hg. by rewrite E1 in Hg.
    - exists (dropped o1). split_and!; try done.
      + unfold s2. cbn [s_heap with_heap]. by rewrite heap_insert, decide_True.
      + unfold dropped. cbn [o_body]. by rewrite unloaded_kind, Hb1.
      + intros q. rewrite <- HL. by apply (dr_look _ b s1 s2 q Hdr).
  Qed.
End Copy.

(** ** Contents with a prefix *)
Lemma scalar_join l : scalar_str (join [slash] l) <-> Forall scalar_str l.
Proof.
  unfold scalar_str. induction l as [|x [|y l] IH].
  - split; intros _; [apply List.Forall_nil|]. by apply List.Forall_nil.
  - cbn [join]. rewrite List.Forall_cons_iff. split; [intros; split; [done|apply List.Forall_nil]|by intros [? _]].
  - change (join [slash] (x :: y :: l)) with (x ++ [slash] ++ join [slash] (y :: l)). rewrite !List.Forall_app, IH, (List.Forall_cons_iff _ x). split; [by intros (? & _ & ?)|].
    intros [? ?]. split_and!; [done| |done]. apply List.Forall_cons; [|apply List.Forall_nil]. unfold scalar, slash; lia.
Qed.
Lemma under_wf pre p : wfp pre -> wfp p -> wfp (under pre p).
Proof. intros Hp Hq. unfold under. rewrite <- (truediv_path pre p Hp Hq). by apply truediv_wf. Qed.
Lemma wf_mpath p : wfp p -> is_metadata_path p.
Proof. intros Hp. exists [APath p]. by rewrite MetadataPath_of_path. Qed.
Lemma under_ok pre p : prefix_ok pre -> is_metadata_path p -> scalar_str (mp_as_posix p) -> is_metadata_path (under pre p) /\ scalar_str (mp_as_posix (under pre p)).
Proof.
  intros [Hp Hs] Hq Ht. apply mpath_wf in Hp, Hq. pose proof (under_wf _ _ Hp Hq) as Hw. split; [by apply wf_mpath|].
  unfold mp_as_posix in *. rewrite mp_str_wf in * by done. rewrite scalar_join in *. cbn [under p_parts]. apply List.Forall_app. done.
Qed.
Lemma moved_ktree pre k : is_ktree (moved_key pre k) = is_ktree k.
Proof. by destruct k. Qed.
Lemma complete_absent c k q : complete c -> c [k] = Absent -> c (k :: q) = Absent.
Proof.
  intros HC H0. induction q as [|k' q IH] using rev_ind; [done|]. destruct (c (k :: q ++ [k'])) as [| |lb] eqn:E; [done|by destruct (HC (k :: q ++ [k']))|].
  destruct (HC (k :: q)) as (_ & _ & C). destruct (C k' lb E) as (lb' & E3 & _). congruence.
Qed.
Lemma complete_path c v p : complete c -> c [KVer v p] <> Absent -> wfp p.
Proof.
  intros HC Hn. destruct (c [KVer v p]) as [| |lb] eqn:E; [done|by destruct (HC [KVer v p])|]. destruct (HC []) as (_ & C2 & C3). destruct (C3 _ _ E) as (lb0 & E0 & Hp).
  destruct lb0; try done. destruct Hp as (t & e & Hin & _). apply mpath_wf. by apply (C2 _ E0 v p t e).
Qed.
Lemma moved_from pre c k' : complete c -> (exists k, c [k] <> Absent /\ moved_key pre k = k') \/ ~ exists k, c [k] <> Absent /\ moved_key pre k = k'.
Proof.
  intros HC. assert (HD : forall k, c [k] = Absent \/ c [k] <> Absent) by (intros k; destruct (c [k]); auto).
  destruct k' as [n| | |v p'|u].
  1-3, 5: match goal with |- context [moved_key _ _ = ?k0] => destruct (HD k0) as [Ha|Ha]; [right; intros (k & Hk & E); destruct k; try done; cbn in E; congruence|left; by exists k0] end.
  destruct (decide (p' = under pre (PP [] (drop (length (p_parts pre)) (p_parts p'))))) as [Ep|Hn].
  - destruct (HD (KVer v (PP [] (drop (length (p_parts pre)) (p_parts p'))))) as [Ha|Ha]; [right|left; eexists; split; [exact Ha|cbn; congruence]].
    intros (k & Hk & E). destruct k as [| | |w p|]; try done. cbn [moved_key] in E. assert (w = v) as -> by congruence. assert (Ep' : p' = under pre p) by congruence. clear E. pose proof (complete_path c v p HC Hk) as [Hr _]. destruct p as [r0 q0]. cbn in Hr. subst r0 p'.
    cbn [under p_parts] in Ha. by rewrite drop_app in Ha.
  - right. intros (k & Hk & E). destruct k as [| | |w p|]; try done. cbn [moved_key] in E. assert (w = v) as -> by congruence. assert (Ep' : p' = under pre p) by congruence. clear E. pose proof (complete_path c v p HC Hk) as [Hr _]. destruct p as [r0 q0]. cbn in Hr. subst r0 p'.
    apply Hn. cbn [under p_parts]. by rewrite drop_app.
Qed.
Lemma moved_same pre c c' : complete c -> (forall k, c [k] <> Absent -> moved_key pre k = k) -> (forall lb, c [] = Seen lb -> moved_label pre lb = lb) -> moved pre c c' -> forall q, c' q = c q.
Proof.
  intros HC Hk Hl [M1 M2 M3] [|k q].
  - rewrite M1. destruct (c []) as [| |lb]; [done|done|]. cbn. by rewrite Hl.
  - assert (HD : c [k] = Absent \/ c [k] <> Absent) by (destruct (c [k]); auto). destruct HD as [Ha|Ha].
    + rewrite (complete_absent c k q HC Ha). apply M3. intros k0 Hk0 E. rewrite (Hk k0 Hk0) in E. congruence.
    + rewrite <- (M2 k q Ha). by rewrite (Hk k Ha).
Qed.
Lemma complete_moved pre c c' : prefix_ok pre -> moved pre c c' -> complete c -> complete c'.
Proof.
  intros Hpre [M1 M2 M3] HC.
  assert (HA : forall k' q, c' (k' :: q) = Absent \/ exists k, k' = moved_key pre k /\ c [k] <> Absent /\ c' (k' :: q) = c (k :: q)).
  { intros k' q. assert (HD : (exists k, c [k] <> Absent /\ moved_key pre k = k') \/ ~ exists k, c [k] <> Absent /\ moved_key pre k = k') by by apply moved_from.
    destruct HD as [(k & Hk & <-)|Hn]; [right; exists k; split_and!; [done|done|by apply M2]|left]. apply M3. intros k Hk E. apply Hn. eauto. }
  assert (HL : forall lb, label_ok lb -> label_ok (moved_label pre lb)).
  { intros lb. destruct lb as [| | | |b rs|]; try done. cbn. intros Hl v p t e Hin. apply in_map_iff in Hin as ([[[v0 p0] t0] e0] & [= <- <- <- <-] & Hin).
    destruct (Hl v0 p0 t0 e0 Hin) as (A1 & A2 & A3 & A4). destruct (under_ok pre p0 Hpre A3 A4). done. }
  intros p. destruct p as [|k' p].
  - rewrite M1. destruct (HC []) as (C1 & C2 & C3). destruct (c []) as [| |lb] eqn:E0; [..|]; cbn [moved_seen].
    + split_and!; try done. intros k lb' Hs. cbn [app] in Hs. destruct (HA k []) as [Ha|(k0 & -> & Hk & Ha)]; [congruence|]. rewrite Ha in Hs.
      destruct (C3 k0 lb' Hs) as (lb & ? & _). done.
    + done.
    + split_and!; [done|by intros ? [= <-]; apply HL, C2|]. intros k lb' Hs. cbn [app] in Hs. destruct (HA k []) as [Ha|(k0 & -> & Hk & Ha)]; [congruence|]. rewrite Ha in Hs.
      destruct (C3 k0 lb' Hs) as (lb0 & [= <-] & Hpo). exists (moved_label pre lb). split; [done|].
      destruct lb as [| |c0| |b rs|], k0 as [| | |v q0|]; try done. cbn in Hpo |- *. destruct Hpo as (t & e & Hin & Hm). exists t, e. split; [|done].
      apply in_map_iff. by exists (v, q0, t, e).
  - destruct (HA k' p) as [Ha|(k & -> & Hk & Ha)]; rewrite Ha.
    + split_and!; try done. intros k2 lb' Hs. destruct (HA k' (p ++ [k2])) as [Ha2|(k & -> & Hk & Ha2)]; rewrite <- app_comm_cons in Hs; rewrite Ha2 in Hs; [done|].
      destruct (HC (k :: p)) as (_ & _ & C). destruct (C k2 lb' Hs) as (lb & E & _). rewrite (M2 k p Hk) in Ha. congruence.
    + destruct (HC (k :: p)) as (C1 & C2 & C3). split_and!; [done|done|]. intros k2 lb' Hs. rewrite <- app_comm_cons in Hs. rewrite (M2 k _ Hk) in Hs. by apply C3.
Qed.
