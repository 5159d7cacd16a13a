(** The calls that copy. *)
From Verif Require Import Base BaseFacts Path Spec_Path PathFacts Json Refs Meta Spec_Meta GitText Spec_Git Git GitFacts Spec_Store State BlobCache ObjRef Objects Spec_Look Spec_Heap Spec_Versions Spec_Write ExecFacts CacheFacts WriteFacts LoadFacts PeekFacts TreeFacts TreeEditFacts VersionFacts LookFacts ReadFacts Spec_Content ContentFacts StoreFacts SaveFacts WriteBackFacts WriteAllFacts ReadBackFacts PurgeFacts RealmFacts EditFacts GraftFacts HomeFacts Spec_Copy CopyFacts.

Section CopyRun.
  Context `{Env}.
  Context (a b : pystr) (Ha : a <> []) (Hrem : is_remote a = false) (Hb : b <> []).
  Implicit Types (s : pst) (g : gstate).
  Local Notation copy_at := (copy_at b).
  Local Notation keeps := (keeps b).

  Lemma copy_frame s s' g y k c : copy_at s g y k c -> heap_ok s' -> s_heap s' !! y = s_heap s !! y -> copy_at s' g y k c.
  Proof.
    intros (o & Ho & Hm & Hk & Hr & Hs & HT & Hl) Hok E.
    assert (HS : same_below (s_heap s) (s_heap s') y). { intros [|k0 p] z Hp; [by injection Hp as <-|]. cbn [reach] in Hp. by rewrite Ho, Hm in Hp. }
    exists o. split_and!; try done; [congruence|by eapply tidy_same|]. intros q. rewrite <- Hl. by apply fo_look, sb_fo.
  Qed.
  Definition kind_at s (z : loc) (k : kd) : Prop := exists o, s_heap s !! z = Some o /\ kind_of (o_body o) = k.

  (** a new object with copies as parts *)
  Lemma assembled s0 g0 l o0 pre s g x bd : tidy (objs_of g0 a) a s0 l -> s_heap s0 !! l = Some o0 -> h_mapped (o_hdr o0) = true -> prefix_ok pre ->
    heap_ok s -> s_heap s !! x = Some (fresh_obj bd) -> label_of bd = moved_label pre (label_of (o_body o0)) ->
    (forall k1 k2 y, dget (kids_of bd) k1 = Some y -> dget (kids_of bd) k2 = Some y -> k1 = k2) ->
    (forall k y, dget (kids_of bd) k = Some y -> exists k0 z, k = moved_key pre k0 /\ dget (kids_of (o_body o0)) k0 = Some z) ->
    (forall k0 z, dget (kids_of (o_body o0)) k0 = Some z -> exists y kk, dget (kids_of bd) (moved_key pre k0) = Some y /\ kind_at s0 z kk /\ copy_at s g y kk (look (objs_of g0 a) (s_heap s0) z)) ->
    (forall k vs, bd = BVlist k vs -> well_keyed vs) ->
    tidy (objs_of g b) b s x /\ one_realm b (s_heap s) x /\ moved pre (look (objs_of g0 a) (s_heap s0) l) (look (objs_of g b) (s_heap s) x).
  Proof using Hb.
    intros HT Ho Hm Hpre Hok Hx Hlb Hinj Hback Hcopy Hwk. set (O0 := objs_of g0 a) in *. set (O1 := objs_of g b) in *.
    assert (Hkid : forall k y, dget (kids_of bd) k = Some y -> exists k0 z kk, k = moved_key pre k0 /\ dget (kids_of (o_body o0)) k0 = Some z /\ kind_at s0 z kk /\ copy_at s g y kk (look O0 (s_heap s0) z)).
    { intros k y Hk. destruct (Hback k y Hk) as (k0 & z & -> & Hz). destruct (Hcopy k0 z Hz) as (y' & kk & Hy & Hkk & Hc). assert (y' = y) as -> by congruence. eauto 10. }
    assert (HM : moved pre (look O0 (s_heap s0) l) (look O1 (s_heap s) x)).
    { assert (HK : forall k0 z q, dget (kids_of (o_body o0)) k0 = Some z -> look O1 (s_heap s) x (moved_key pre k0 :: q) = look O0 (s_heap s0) l (k0 :: q)).
      { intros k0 z q Hz. destruct (Hcopy k0 z Hz) as (y & kk & Hy & _ & Hc). cbn [look]. rewrite Hx, Ho, Hm, Hz. cbn [fresh_obj o_hdr o_body h_mapped]. rewrite Hy, moved_ktree.
        destruct Hc as (oy & Hoy & _ & _ & _ & _ & _ & Hl). assert (Hh : hollow_at O1 (s_heap s) y = hollow_at O0 (s_heap s0) z).
        { apply eq_true_iff_eq. rewrite !hollow_at_iff. unfold empty_node. split; intros (c & E1 & E2); exists c; (split; [rewrite <- E1; by rewrite Hl|intros k; rewrite <- (E2 k); by rewrite Hl]). }
        rewrite Hh, Hl. done. }
      split.
      - cbn [look]. rewrite Hx, Ho, Hm. cbn [fresh_obj o_hdr o_body h_mapped moved_seen]. by rewrite Hlb.
      - intros k q Hk. cbn [look] in Hk. rewrite Ho, Hm in Hk. destruct (dget (kids_of (o_body o0)) k) as [z|] eqn:Ez; [|done]. by eapply HK.
      - intros k' q Hk'. destruct (dget (kids_of bd) k') as [y|] eqn:Ey.
        + destruct (Hback k' y Ey) as (k0 & z & -> & Hz). rewrite (HK k0 z q Hz). apply complete_absent; [apply HT|].
          destruct (look O0 (s_heap s0) l [k0]) as [| |lb] eqn:E; [done|by destruct (td_complete _ _ _ _ HT [k0])|]. destruct (Hk' k0); [by rewrite E|done].
        + cbn [look]. rewrite Hx. cbn [fresh_obj o_hdr o_body h_mapped]. by rewrite Ey. }
    split_and!; [|  |done].
    - apply (tidy_up O1 b s x (fresh_obj bd) Hok Hx eq_refl); cbn [fresh_obj o_body o_hdr].
      + intros k y Hk. destruct (Hkid k y Hk) as (k0 & z & kk & _ & _ & _ & Hc). by destruct Hc as (oy & _ & _ & _ & _ & _ & HTy & _).
      + assert (HR : forall p y, reach (s_heap s) x p = Some y -> p = [] /\ y = x \/ exists k, p = [k] /\ dget (kids_of bd) k = Some y /\ exists oy, s_heap s !! y = Some oy /\ h_mapped (o_hdr oy) = false).
        { intros p y Hp. destruct p as [|k p]; [left; by injection Hp as <-|right]. cbn [reach] in Hp. rewrite Hx in Hp. cbn [fresh_obj o_hdr o_body h_mapped] in Hp.
          destruct (dget (kids_of bd) k) as [w|] eqn:Ek; [|done]. destruct (Hkid k w Ek) as (_ & _ & _ & _ & _ & _ & (ow & How & Hmw & _)).
          destruct p as [|k' p]; cbn [reach] in Hp; [injection Hp as <-; eauto 10|]. by rewrite How, Hmw in Hp. }
        intros p q y Hp Hq. destruct (HR p y Hp) as [[-> ->]|(k & -> & Hk & (oy & Hoy & Hmy))], (HR q _ Hq) as [[-> E]|(k2 & -> & Hk2 & (oy2 & Hoy2 & Hmy2))]; try done.
        * rewrite Hx in Hoy2. injection Hoy2 as <-. done.
        * subst y. rewrite Hx in Hoy. injection Hoy as <-. done.
        * by rewrite (Hinj k k2 y Hk Hk2).
      + eapply complete_moved; [done|exact HM|apply HT].
      + done.
      + done.
      + intros i v m t E. assert (Ht : dget (kids_of bd) KTree = Some t). { rewrite E. cbn [kids_of]. destruct m; cbn; rewrite ?decide_False by done; by rewrite decide_True by done. }
        destruct (Hkid KTree t Ht) as (k0 & z & kk & Ek & Hz & (oz & Hoz & Hkz) & (oy & Hoy & _ & Hky & _)). destruct k0; try done.
        assert (exists i0 v0 m0, o_body o0 = BMrr i0 v0 m0 (Some z)) as (i0 & v0 & m0 & Eb0).
        { rewrite E in Hlb. destruct (o_body o0) as [| | |i0 v0 m0 t0| |] eqn:Eo; try done. cbn [kids_of] in Hz. exists i0, v0, m0. destruct m0, t0; cbn in Hz; rewrite ?decide_False in Hz by done; rewrite ?decide_True in Hz by done; try done; by injection Hz as ->. }
        destruct (td_tree _ _ _ _ HT [] l (o_hdr o0) i0 v0 m0 z eq_refl) as (hz & d & Hz'). { rewrite Ho, <- Eb0. by destruct o0. }
        rewrite Hoz in Hz'. injection Hz' as ->. cbn in Hkz. subst kk. destruct oy as [hy by_]. cbn in Hky. destruct by_; try done. injection Hky as ->. eauto.
      + intros Hma. destruct (Hma [] x (fresh_obj bd) eq_refl Hx) as [Hi|[Hi _]]; [|done]. cbn in Hi. set_solver.
    - intros p y oy Hp Hy. destruct p as [|k p]; [injection Hp as <-; rewrite Hx in Hy; by injection Hy as <-|]. cbn [reach] in Hp. rewrite Hx in Hp. cbn [fresh_obj o_hdr o_body h_mapped] in Hp.
      destruct (dget (kids_of bd) k) as [w|] eqn:Ek; [|done]. destruct (Hkid k w Ek) as (_ & _ & _ & _ & _ & _ & (ow & How & Hmw & _ & Hrw & Hsw & _)).
      destruct p as [|k' p]; cbn [reach] in Hp; [|by rewrite How, Hmw in Hp]. injection Hp as <-. assert (oy = ow) as -> by congruence. done.
  Qed.

  (** ** Copying one part after the other *)
  Section Loop.
    Context (f : nat) (s0 : pst) (g0 : gstate) (x : loc).
    Local Notation nopath := (MetadataPath [AStr []]).
    Definition copies s g z y s' g' : Prop := exists k, kind_at s z k /\ keeps s g s' g' /\ (s_next s <= y)%N /\ copy_at s' g' y k (look (objs_of g a) (s_heap s) z).
    Definition ready s : Prop := caches_ok s /\ dget (s_caches s) b = None.
    Context (Hrec : forall z s g y s' g', tidy (objs_of g a) a s z -> ready s -> ~ kind_at s z (KdVl true) ->
      exec (deepcopy f z (Some b) nopath s) g = ((Ok y, s'), g') -> copies s g z y s' g').
    (** the copies [D] of parts are there, next to the new object [x] *)
    Record linv {A : Type} (zf : A -> loc) s g (bd : body) (D : list (A * loc)) : Prop := {
      li_keeps : keeps s0 g0 s g;
      li_self : s_heap s !! x = Some (fresh_obj bd);
      li_new : (s_next s0 <= x)%N;
      li_sub : forall w, In w (sub_objects bd) -> In w (map snd D);
      li_nodup : NoDup (map snd D);
      li_copy : forall e y, In (e, y) D -> y <> x /\ exists k, kind_at s0 (zf e) k /\ copy_at s g y k (look (objs_of g0 a) (s_heap s0) (zf e));
    }.
    Lemma kind_keeps s g s' g' z k : keeps s g s' g' -> is_Some (s_heap s !! z) -> kind_at s' z k -> kind_at s z k.
    Proof. intros HK [o Ho] (o' & Ho' & Hk). destruct (ke_stays _ _ _ _ _ HK z o Ho) as (o2 & Ho2 & Hs). exists o. split; [done|]. assert (o2 = o') as -> by congruence. by rewrite <- (still_kind _ _ Hs). Qed.
    Lemma linv_step {A : Type} (zf : A -> loc) s g bd D e y s1 g1 bd1 : linv zf s g bd D -> heap_ok s0 ->
      tidy (objs_of g0 a) a s0 (zf e) -> ~ kind_at s0 (zf e) (KdVl true) ->
      exec (deepcopy f (zf e) (Some b) nopath s) g = ((Ok y, s1), g1) ->
      (forall w, In w (sub_objects bd1) -> w = y \/ In w (sub_objects bd)) -> NoDup (dkeys (kids_of bd1)) ->
      s_heap s1 !! x = Some (fresh_obj bd) /\ linv zf (with_heap s1 (<[x := fresh_obj bd1]> (s_heap s1))) g1 bd1 (D ++ [(e, y)]).
    Proof using Hrec.
      intros [L1 L2 L3 L4 L5 L6] Hok0 HT Hk He Hsub Hnd. destruct (ke_tidy b _ _ _ _ _ _ L1 HT) as [HT1 HL1]. assert (Hz : is_Some (s_heap s0 !! zf e)) by (destruct (tidy_root _ _ _ _ HT) as (o & Ho & _); eauto).
      destruct (Hrec (zf e) s g y s1 g1 HT1) as (k & Hk1 & HK & Hy & Hc); [apply L1|intros Hk2; apply Hk; by eapply kind_keeps|done|].
      assert (Hx1 : s_heap s1 !! x = Some (fresh_obj bd)). { destruct (ke_stays _ _ _ _ _ HK x _ L2) as (o & Ho & Hs). by rewrite (still_loaded _ _ Hs eq_refl) in Ho. }
      split; [done|]. set (s2 := with_heap s1 _). assert (Hold : forall z : loc, z <> x -> s_heap s2 !! z = s_heap s1 !! z). { intros z Hn. unfold s2. cbn [s_heap with_heap]. by rewrite heap_insert, decide_False. }
      assert (Hx2 : s_heap s2 !! x = Some (fresh_obj bd1)) by (unfold s2; cbn [s_heap with_heap]; by rewrite heap_insert, decide_True).
      pose proof (ke_ok _ _ _ _ _ HK) as Hok1. pose proof (ke_ok _ _ _ _ _ L1) as Hoks.
      assert (Hxs : (x < s_next s)%N) by exact (proj1 (Hoks x _ L2)).
      assert (Hyx : y <> x) by (intros ->; lia).
      assert (Hsome : forall z : loc, is_Some (s_heap s1 !! z) -> is_Some (s_heap s2 !! z)). { intros z Hs. destruct (decide (z = x)) as [->|Hn]; [rewrite Hx2; eauto|by rewrite Hold]. }
      assert (Hy1 : is_Some (s_heap s1 !! y)) by (destruct Hc as (o & Ho & _); eauto).
      assert (Hok2 : heap_ok s2).
      { intros z o Hz2. destruct (decide (z = x)) as [->|Hn].
        - rewrite Hx2 in Hz2. injection Hz2 as <-. cbn [fresh_obj o_body o_hdr h_mapped]. split_and!; [exact (proj1 (Hok1 x _ Hx1))| |done|done].
          intros w Hw. apply Hsome. destruct (Hsub w Hw) as [->|Hw']; [done|]. destruct (Hok1 x _ Hx1) as (_ & K2 & _). by apply K2.
        - rewrite Hold in Hz2 by done. destruct (Hok1 z o Hz2) as (K1 & K2 & K3 & K4). split_and!; try done. intros w Hw. apply Hsome. by apply K2. }
      assert (HKs : keeps s0 g0 s1 g1) by by eapply ke_trans.
      split; [| | | | |].
      - destruct HKs as [B1 B2 B3 B4 B5 B6]. split; [done|done| |done|done|done]. intros z o Hzo. destruct (B3 z o Hzo) as (o' & Ho' & Hs). exists o'. split; [|done]. rewrite Hold; [done|]. intros ->.
        pose proof (proj1 (Hok0 x o Hzo)). lia.
      - done.
      - done.
      - intros w Hw. rewrite map_app. apply in_or_app. destruct (Hsub w Hw) as [->|Hw']; [right; by left|left; by apply L4].
      - rewrite map_app. apply NoDup_app. split_and!; [done| |apply NoDup_singleton]. intros w Hw [->|[]%elem_of_nil]%elem_of_cons. cbn [snd] in Hw. apply elem_of_list_In, in_map_iff in Hw as ([e2 y2] & E & Hin). cbn in E. subst y2.
        destruct (L6 e2 y Hin) as (_ & k2 & _ & (o2 & Ho2 & _)). pose proof (proj1 (Hoks y _ Ho2)). lia.
      - intros e2 y2 [Hin|[[= <- <-]|[]]]%in_app_or.
        + destruct (L6 e2 y2 Hin) as (Hn & k2 & Hk2 & Hc2). split; [done|]. exists k2. split; [done|]. eapply copy_frame; [eapply copy_keeps; [exact HK|exact Hc2]|done|by apply Hold].
        + split; [done|]. exists k. split; [by apply (kind_keeps s0 g0 s g)|]. eapply copy_frame; [|done|by apply Hold]. eapply copy_ext; [|exact Hc]. exact HL1.
    Qed.
    Lemma copy_loop {A : Type} (zf : A -> loc) (up : body -> A -> loc -> body) (F : A -> M pst unit) (I : body -> Prop) ls : heap_ok s0 ->
      (forall e, In e ls -> tidy (objs_of g0 a) a s0 (zf e) /\ ~ kind_at s0 (zf e) (KdVl true)) ->
      (forall e s g u s' g', In e ls -> exec (F e s) g = ((Ok u, s'), g') -> exists y s1 g1, exec (deepcopy f (zf e) (Some b) nopath s) g = ((Ok y, s1), g1) /\
         forall bd, I bd -> NoDup (dkeys (kids_of bd)) -> s_heap s1 !! x = Some (fresh_obj bd) -> s' = with_heap s1 (<[x := fresh_obj (up bd e y)]> (s_heap s1)) /\ g' = g1 /\ I (up bd e y)) ->
      (forall bd e y, In e ls -> I bd -> NoDup (dkeys (kids_of bd)) -> (forall w, In w (sub_objects (up bd e y)) -> w = y \/ In w (sub_objects bd)) /\ NoDup (dkeys (kids_of (up bd e y)))) ->
      forall s g bd D u s' g', I bd -> NoDup (dkeys (kids_of bd)) -> linv zf s g bd D -> exec (miter F ls s) g = ((Ok u, s'), g') ->
        exists ys, length ys = length ls /\ let bd' := fold_left (fun bd ey => up bd (fst ey) (snd ey)) (zip ls ys) bd in
          I bd' /\ NoDup (dkeys (kids_of bd')) /\ linv zf s' g' bd' (D ++ zip ls ys).
    Proof using Hrec.
      intros Hok0. induction ls as [|e ls IH]; intros Hls HF Hup s g bd D u s' g' HI Hnd HL He; cbn [miter] in He.
      - apply xi_ret in He as (<- & <- & <-). exists []. cbn. rewrite app_nil_r. done.
      - apply xi_bind in He as (u1 & s1 & g1 & E1 & He). destruct (HF e s g u1 s1 g1 (or_introl eq_refl) E1) as (y & s2 & g2 & E2 & H2).
        destruct (Hls e (or_introl eq_refl)) as [HTe Hke]. destruct (Hup bd e y (or_introl eq_refl) HI Hnd) as [Hs1 Hn1].
        destruct (linv_step zf s g bd D e y s2 g2 (up bd e y) HL Hok0 HTe Hke E2 Hs1 Hn1) as [Hx HL1]. destruct (H2 bd HI Hnd Hx) as (-> & -> & HI1).
        destruct (IH (fun e' He' => Hls e' (or_intror He')) (fun e' s g u s' g' He' => HF e' s g u s' g' (or_intror He')) (fun bd e' y He' => Hup bd e' y (or_intror He')) _ g2 (up bd e y) (D ++ [(e, y)]) u s' g' HI1 Hn1 HL1 He)
          as (ys & Hlen & HI' & Hnd' & HL'). exists (y :: ys). split; [cbn; by rewrite Hlen|]. cbn [zip zip_with fold_left fst snd] in *. rewrite <- app_assoc in HL'. done.
    Qed.
  End Loop.

  (** ** One object with all its parts *)
  Definition good_copy (pre : ppath) s g l y s' g' : Prop := exists k c', kind_at s l k /\ keeps s g s' g' /\ (s_next s <= y)%N /\
    copy_at s' g' y k c' /\ moved pre (look (objs_of g a) (s_heap s) l) c'.
  Lemma nopath_copies s g l y s' g' : tidy (objs_of g a) a s l -> good_copy (MetadataPath [AStr []]) s g l y s' g' -> copies s g l y s' g'.
  Proof using.
    intros HT (k & c' & H1 & H2 & H3 & H4 & HM). exists k. split_and!; try done. eapply copy_ext; [|exact H4]. apply (fun X Y => moved_same _ _ _ (td_complete _ _ _ _ HT) X Y HM).
    - intros k0 Hk0. destruct k0 as [| | |v p|]; try done. pose proof (complete_path _ _ _ (td_complete _ _ _ _ HT) Hk0) as [Hr _]. destruct p as [r0 q0]. cbn in Hr. by subst r0.
    - intros lb Hlb. destruct (td_complete _ _ _ _ HT []) as (_ & C & _). specialize (C lb Hlb). destruct lb as [| | | |t rs|]; try done. cbn in *. f_equal.
      rewrite <- (map_id rs) at 2. apply map_ext_in. intros [[[v p] ts] e] Hin. cbn. destruct (C v p ts e Hin) as (_ & _ & Hp & _). apply mpath_wf in Hp as [Hr _]. destruct p as [r0 q0]. cbn in Hr. by subst r0.
  Qed.
  Lemma zip_in1 {A B : Type} (ls : list A) (ys : list B) e y : In (e, y) (zip ls ys) -> In e ls.
  Proof. revert ys. induction ls as [|e' ls IH]; intros [|y' ys]; cbn; try done. intros [[= <- <-]|Hin]; [by left|right; by eapply IH]. Qed.
  Lemma zip_in2 {A B : Type} (ls : list A) (ys : list B) e : length ys = length ls -> In e ls -> exists y, In (e, y) (zip ls ys).
  Proof. revert ys. induction ls as [|e' ls IH]; intros [|y' ys] Hl; cbn; try done. intros [<-|Hin]; [exists y'; by left|]. destruct (IH ys) as [y Hy]; [by injection Hl|done|]. exists y. by right. Qed.
  Lemma nodup_snd {A : Type} (D : list (A * loc)) e1 e2 y : NoDup (map snd D) -> In (e1, y) D -> In (e2, y) D -> e1 = e2.
  Proof.
    induction D as [|[e z] D IH]; [done|]. cbn. intros [Hn Hd]%NoDup_cons [[= -> ->]|H1] [[= E1]|H2]; [congruence| | |by apply IH].
    - destruct Hn. apply elem_of_list_In, in_map_iff. by exists (e2, y).
    - subst. destruct Hn. apply elem_of_list_In, in_map_iff. exists (e1, y). done.
  Qed.
  Lemma wrap_up {A : Type} fuel pre s0 g0 l o0 x (zf : A -> loc) (kf : A -> key) ls ys s1 g1 bd y s' g' :
    tidy (objs_of g0 a) a s0 l -> s_heap s0 !! l = Some o0 -> h_mapped (o_hdr o0) = true -> prefix_ok pre -> kind_of (o_body o0) <> KdVl true ->
    linv s0 g0 x zf s1 g1 bd (zip ls ys) -> length ys = length ls -> label_of bd = moved_label pre (label_of (o_body o0)) ->
    kids_of (o_body o0) = map (fun e => (kf e, zf e)) ls -> kids_of bd = map (fun ey => (moved_key pre (kf (fst ey)), snd ey)) (zip ls ys) ->
    (forall k vs, bd = BVlist k vs -> well_keyed vs) ->
    exec (finish_copy fuel x (Some b) s1) g1 = ((Ok y, s'), g') -> good_copy pre s0 g0 l y s' g'.
  Proof using Hb.
    intros HT Ho Hm Hpre Hk [L1 L2 L3 L4 L5 L6] Hlen Hlb Hk0 Hk1 Hwk He. pose proof (ke_ok _ _ _ _ _ L1) as Hok1. pose proof (td_heap _ _ _ _ HT) as Hok0.
    assert (Hn0 : NoDup (dkeys (kids_of (o_body o0)))) by exact (proj2 (proj2 (proj2 (Hok0 l o0 Ho)))). assert (Hn1 : NoDup (dkeys (kids_of bd))) by exact (proj2 (proj2 (proj2 (Hok1 x _ L2)))).
    assert (Hin : forall k w, dget (kids_of bd) k = Some w -> exists e, k = moved_key pre (kf e) /\ In (e, w) (zip ls ys)).
    { intros k w Hd. apply dget_Some_In in Hd. rewrite Hk1 in Hd. apply in_map_iff in Hd as ([e w'] & [= <- <-] & Hi). eauto. }
    assert (Hkd : kind_of bd = kind_of (o_body o0)). { rewrite <- !label_kind_of, Hlb. by destruct (label_of (o_body o0)). }
    destruct (assembled s0 g0 l o0 pre s1 g1 x bd HT Ho Hm Hpre Hok1 L2 Hlb) as (HTx & H1x & HMx); [| | |done|].
    - intros k1 k2 w H1 H2. destruct (Hin k1 w H1) as (e1 & -> & I1), (Hin k2 w H2) as (e2 & -> & I2). by rewrite (nodup_snd _ e1 e2 w L5 I1 I2).
    - intros k w Hd. destruct (Hin k w Hd) as (e & -> & I1). exists (kf e), (zf e). split; [done|]. apply TreeFacts.In_dget; [done|]. rewrite Hk0. apply in_map_iff. exists e. split; [done|]. by eapply zip_in1.
    - intros k0 z Hd. apply dget_Some_In in Hd. rewrite Hk0 in Hd. apply in_map_iff in Hd as (e & [= <- <-] & Hi). destruct (zip_in2 ls ys e Hlen Hi) as [w Hw].
      destruct (L6 e w Hw) as (_ & kk & Hkk & Hc). exists w, kk. split_and!; try done. apply TreeFacts.In_dget; [done|]. rewrite Hk1. apply in_map_iff. by exists (e, w).
    - destruct (finish_ok b Hb fuel x bd s1 g1 y s' g') as (-> & F2 & F3 & F4 & F5 & F6 & F7 & F8); try done; [apply L1|apply L1|congruence| |].
      { intros z Hz. rewrite <- sub_kids, Hk1 in Hz. apply in_map_iff in Hz as ([k w] & <- & Hz). apply in_map_iff in Hz as ([e w'] & [= <- <-] & Hz).
        destruct (L6 e w' Hz) as (_ & kk & _ & (ow & How & Hmw & _)). eauto. }
      exists (kind_of bd), (look (objs_of g1 b) (s_heap s1) x). split_and!; [exists o0; split; [done|congruence]| |done|done|done].
      destruct L1 as [B1 B2 B3 B4 B5 B6]. split; [done|lia| | | |done].
      + intros z o Hzo. destruct (B3 z o Hzo) as (o' & Ho' & Hs). exists o'. split; [|done]. rewrite F4; [done|]. intros ->. pose proof (proj1 (Hok0 x o Hzo)). lia.
      + intros n. etrans; [apply B4|apply F6].
      + intros n Hn. by rewrite F7, B5.
  Qed.
End CopyRun.
