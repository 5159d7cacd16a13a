(** Histories. *)
From Verif Require Import Base BaseFacts Path Spec_Path PathFacts Json Refs RefsFacts Meta Spec_Meta MetaFacts GitText Spec_Git Git GitFacts Spec_Store State BlobCache ObjRef Objects Spec_Objects Spec_Look Spec_Heap Spec_Versions Spec_Write ExecFacts LoadFacts PeekFacts TreeFacts TreeEditFacts VersionFacts LookFacts ReadFacts Spec_Content ContentFacts WriteFacts StoreFacts SaveFacts WriteBackFacts WriteAllFacts ReadBackFacts PurgeFacts EditFacts RealmFacts GraftFacts AddFacts ListFacts Spec_Session SessionFacts AnyWriteFacts PartFacts Spec_History UseFacts FrameFacts.

(** ** Contents of parts *)
Lemma lastk_tree p : lastk p = true <-> exists p0, p = p0 ++ [KTree].
Proof.
  destruct p as [|k p _] using rev_ind; [split; [done|intros [p0 E]; by destruct p0]|]. unfold lastk. rewrite last_snoc. split.
  - destruct k; try done. eauto.
  - intros [p0 E]. apply app_inj_tail in E as [_ ->]. done.
Qed.
Lemma tree_at O r s l p0 y : tidy O r s l -> reach (s_heap s) l (p0 ++ [KTree]) = Some y -> exists ht d, s_heap s !! y = Some (Obj ht (BNode LMeta d)).
Proof.
  intros HT Hp. rewrite reach_app in Hp. destruct (reach (s_heap s) l p0) as [z|] eqn:Ez; [|done]. cbn [reach] in Hp. destruct (s_heap s !! z) as [oz|] eqn:Eoz; [|done].
  destruct (h_mapped (o_hdr oz)) eqn:Emz; [|done]. destruct (dget (kids_of (o_body oz)) KTree) as [y'|] eqn:Edz; [|done]. injection Hp as ->.
  pose proof (kids_fit _ _ _ Edz) as Hf. destruct oz as [hz bz]. cbn [o_body o_hdr] in *. destruct bz as [| | |i v m t| |]; try done.
  assert (t = Some y) as ->. { cbn [kids_of] in Edz. destruct m, t; cbn in Edz; repeat case_decide; try done; by injection Edz as ->. }
  by apply (td_tree _ _ _ _ HT p0 z hz i v m y Ez Eoz).
Qed.
Lemma bare_hollow O r s y hx d : tidy O r s y -> s_heap s !! y = Some (Obj hx (BNode LMeta d)) -> h_mapped hx = true -> bare (look O (s_heap s) y) <-> d = [].
Proof.
  intros HT Hy Hm. split.
  - intros Hb. destruct d as [|[n x] d]; [done|]. exfalso. specialize (Hb [KName n]). cbn [look leaf] in Hb. rewrite Hy in Hb. cbn [o_hdr o_body] in Hb. rewrite Hm, kids_names in Hb. cbn [dget] in Hb. rewrite decide_True in Hb by done. cbn [is_ktree andb] in Hb.
    assert (Hx : tidy O r s x). { apply (tidy_kid O r s y _ (KName n) x HT Hy Hm). cbn [o_body]. rewrite kids_names. cbn [dget]. by rewrite decide_True. }
    destruct (look_root _ _ _ _ Hx) as [lb Hl]. cbn [look] in Hl. rewrite Hl in Hb. done.
  - intros -> [|k q]; cbn [look leaf]; rewrite Hy; cbn [o_hdr o_body]; rewrite Hm; [done|]. done.
Qed.
Lemma part_look O r s l p y q : tidy O r s l -> reach (s_heap s) l p = Some y -> look O (s_heap s) l (p ++ q) = if lastk p && hollow_at O (s_heap s) y then Absent else look O (s_heap s) y q.
Proof.
  intros HT Hp. destruct (tidy_root _ _ _ _ (tidy_reach _ _ _ _ _ _ HT Hp)) as (o & Ho & _).
  pose proof (up_look_below (s_heap s) y o O p l q Hp) as E. assert (Hi : <[y := o]> (s_heap s) = s_heap s) by by apply insert_id. unfold heap in *. rewrite Hi in E. apply E.
  intros q' Hq. by apply (td_unshared _ _ _ _ HT q' p y).
Qed.
Lemma part_view O r s l p y o : tidy O r s l -> reach (s_heap s) l p = Some y -> s_heap s !! y = Some o -> h_mapped (o_hdr o) = true -> part_is (look O (s_heap s) l) p (look O (s_heap s) y).
Proof.
  intros HT Hp Ho Hm. assert (Hh : lastk p = true -> hollow_at O (s_heap s) y = true <-> bare (look O (s_heap s) y)).
  { intros [p0 ->]%lastk_tree. destruct (tree_at _ _ _ _ _ _ HT Hp) as (ht & d & Hy). rewrite Ho in Hy. injection Hy as ->. unfold hollow_at. rewrite Ho. cbn [o_hdr o_body] in *. rewrite Hm.
    rewrite (bare_hollow O r s y ht d); [|by eapply tidy_reach|done|done]. destruct d; done. }
  assert (Hx : (lastk p && hollow_at O (s_heap s) y) = true <-> ((exists p0, p = p0 ++ [KTree]) /\ bare (look O (s_heap s) y))).
  { rewrite andb_true_iff, <- lastk_tree. split; intros [H1 H2]; (split; [done|]); by apply Hh. }
  split; intros Hd q; rewrite (part_look O r s l p y q HT Hp).
  - apply Hx in Hd. by rewrite Hd.
  - destruct (lastk p && hollow_at O (s_heap s) y); [|done]. exfalso. apply Hd. by apply Hx.
Qed.
Lemma part_ext c c' p d d' : same c c' -> same d d' -> part_is c p d -> part_is c' p d'.
Proof.
  intros H1 H2 [A B]. assert (Hb : bare d <-> bare d'). { split; intros Hb q; [rewrite <- H2|rewrite H2]; apply Hb. }
  split; intros Hd q; rewrite <- H1.
  - apply A. by rewrite Hb.
  - rewrite <- H2. apply B. by rewrite Hb.
Qed.
Lemma same_sym c d : same c d -> same d c.
Proof. intros H q. by rewrite H. Qed.
Lemma same_trans c d e : same c d -> same d e -> same c e.
Proof. intros H1 H2 q. by rewrite H1. Qed.

Section Add.
  Context `{Env}.
  Context (r : pystr) (g : gstate) (Hrem : is_remote r = false) (Hr : r <> []).
  Notation O := (objs_of g r).

  (** one entry more *)
  Lemma graft_edits s l y p hx c d e child lbc : able O r s l -> reach (s_heap s) l p = Some y -> s_heap s !! y = Some (Obj hx (BNode c d)) -> h_mapped hx = true -> dget d e = None -> storable_name e ->
    able O r s child -> apart (s_heap s) l child -> look O (s_heap s) child [] = Seen lbc -> fits_in c lbc ->
    edits O r s l y p (Obj hx (BNode c d)) (Obj (hd_saved ∅ hx) (BNode c (dset d e child))) (Some (KName e, child)).
  Proof.
    intros Ha Hp Hy Hm Hd He Hc Hap Hlc Hf. pose proof (able_reach _ _ _ _ _ _ Ha Hp) as [HTy HOy]. destruct Hc as [HC1 HC2].
    assert (Hapy : apart (s_heap s) y child). { intros q1 q2 x H1 H2. apply (Hap (p ++ q1) q2 x); [|done]. by rewrite reach_app, Hp. }
    split; try done.
    - intros k x [= <- <-]. split; [|done]. split; done.
    - apply (gr_kids O r s y y [] hx c d e child lbc HTy HOy eq_refl eq_refl Hy Hm Hd He HC1 HC2 Hapy Hlc Hf).
    - apply (gr_nodup O r s y y [] hx c d e child lbc HTy HOy eq_refl eq_refl Hy Hm Hd He HC1 HC2 Hapy Hlc Hf).
    - apply (gr_label O r s y y [] hx c d e child lbc HTy HOy eq_refl eq_refl Hy Hm Hd He HC1 HC2 Hapy Hlc Hf).
    - apply (gr_parts O r s y y [] hx c d e child lbc HTy HOy eq_refl eq_refl Hy Hm Hd He HC1 HC2 Hapy Hlc Hf).
  Qed.
  (** a new directory *)
  Lemma fm_dir s s2 s3 l x z : heap_ok s -> keeps O r s s2 -> (forall a, is_Some (s_heap s !! a) -> apart (s_heap s2) a z) -> frames O r s2 s3 l (Some z) ->
    able O r s l -> able O r s x -> apart (s_heap s) l x -> frames O r s s3 l (Some x).
  Proof.
    intros Hok HK Hz HF Hl Hx Hap. pose proof (able_some _ _ _ _ Hl) as Sl. pose proof (able_some _ _ _ _ Hx) as Sx.
    assert (HX : forall a, is_Some (s_heap s !! a) -> apart (s_heap s) l a -> off (s_heap s2) l (Some z) a).
    { intros a Sa Ha. split; [by apply (kp_some _ _ _ _ HK)|]. split; [by apply (kp_apart _ _ _ _ HK)|]. intros c [= <-]. apply ap_sym. by apply Hz. }
    pose proof (fm_keeps O r s s2 l None Hok HK Sl ltac:(done)) as HF1. split.
    - eapply rs_trans; [apply HF1|apply HF].
    - apply HF.
    - intros a (A1 & A2 & A3) Ha. destruct (fm_one _ _ _ _ _ _ HF a) as ((D1 & D2 & D3) & D4 & D5); [by apply HX|by eapply able_keeps|].
      split; [|split; [done|]].
      + split; [done|]. split; [done|]. intros c [= <-]. apply (fm_two _ _ _ _ _ _ HF); [by apply HX|by apply HX|by eapply able_keeps..|]. apply (kp_apart _ _ _ _ HK); auto.
      + intros q. rewrite D5. destruct Ha as [Ha Hb]. apply (ca_look _ _ _ _ _ (ca_old _ _ _ _ (kp_calm _ _ _ _ HK) a Ha Hb)).
    - intros a b (A1 & A2 & A3) (B1 & B2 & B3) Ha Hb Hab. apply (fm_two _ _ _ _ _ _ HF); [by apply HX|by apply HX|by eapply able_keeps..|]. by apply (kp_apart _ _ _ _ HK).
  Qed.

  Lemma add_frame n : forall fuel l y p child path s c hx d lbc u s' g', able O r s l -> reach (s_heap s) l p = Some y -> s_heap s !! y = Some (Obj hx (BNode c d)) ->
    wfp path -> all_parts path <> [] -> Forall storable_name (all_parts path) -> (length (all_parts path) <= n)%nat ->
    able O r s child -> apart (s_heap s) l child -> look O (s_heap s) child [] = Seen lbc -> fits_in c lbc ->
    exec (add_child_at_n n fuel y child path s) g = ((Ok u, s'), g') ->
    frames O r s s' l (Some child) /\ able O r s' l /\ (forall q z, extends p q -> reach (s_heap s) l q = Some z -> reach (s_heap s') l q = Some z) /\ (forall q, ~ extends q p -> look O (s_heap s') l q = look O (s_heap s) l q).
  Proof using Hrem Hr.
    induction n as [|n IH]; intros fuel l y p child path s c hx d lbc u s' g' Hl Hp Hy Hw Hne Hst Hn Hc Hap Hlc Hfit He.
    { destruct (all_parts path); [done|cbn in Hn; lia]. }
    cbn [add_child_at_n] in He. rewrite wfp_all in * by done. destruct (p_parts path) as [|e rest] eqn:Ep; [done|]. clear Hne.
    pose proof Hw as [_ Hg]. rewrite Ep in Hg. apply List.Forall_cons_iff in Hg as [Hge Hgr]. apply List.Forall_cons_iff in Hst as [Hse Hsr].
    destruct (get_child_quiet r g Hrem Hr fuel s y hx c d (tidy_reach _ _ _ _ _ _ (proj1 Hl) Hp) Hy) as (s1 & hx1 & d1 & HQ & Hy1 & Hm1 & Hgc).
    pose proof (able_some _ _ _ _ Hl) as Sl. pose proof (able_some _ _ _ _ Hc) as Sc. pose proof (kp_quiet _ _ _ _ HQ) as HK.
    assert (Hok : heap_ok s) by apply Hl.
    assert (HF1 : frames O r s s1 l (Some child)). { apply fm_keeps; try done. by intros ? [= <-]. }
    pose proof (able_keeps _ _ _ _ _ HK Hl) as Hl1. pose proof (able_keeps _ _ _ _ _ HK Hc) as Hc1.
    assert (Hap1 : apart (s_heap s1) l child) by by apply (kp_apart _ _ _ _ HK).
    assert (HL : forall q, look O (s_heap s1) l q = look O (s_heap s) l q) by (intros q; by eapply qu_look; [exact HQ|]).
    assert (Hlc1 : look O (s_heap s1) child [] = Seen lbc). { rewrite <- Hlc. by eapply qu_look; [exact HQ|]. }
    assert (Hp1 : reach (s_heap s1) l p = Some y) by by eapply qu_reach.
    rewrite x_bind, Hgc in He. cbn beta iota in He. destruct (dget d1 e) as [x|] eqn:Ed.
    - (* there is an entry *)
      assert (Hdk : dget (kids_of (BNode c d1)) (KName e) = Some x) by by rewrite kids_names.
      assert (Hrx : reach (s_heap s1) l (p ++ [KName e]) = Some x). { rewrite reach_app, Hp1. cbn [reach]. rewrite Hy1. cbn [o_hdr o_body]. by rewrite Hm1, Hdk. }
      destruct (tidy_kid_label O r s1 y _ (KName e) x (tidy_reach _ _ _ _ _ _ (proj1 Hl1) Hp1) Hy1 Hm1 Hdk eq_refl) as (ox & lb & Hox & Hlx & Hlkx & Hpo).
      pose proof (lab_node _ _ _ _ _ _ (tidy_reach _ _ _ _ _ _ (proj1 Hl1) Hrx) Hox Hlx) as Hnode. destruct rest as [|e2 rest].
      { exfalso. rewrite x_bind, (x_is_node _ _ _ _ Hox) in He. cbn beta iota in He. destruct (is_node ox); [by rewrite x_raise in He|]. by rewrite (x_add_child _ _ _ _ _ _ _ _ _ Hge Hy1 Hm1), Ed in He. }
      rewrite x_bind, x_ret in He. cbn beta iota in He. rewrite x_bind, (x_is_node _ _ _ _ Hox) in He. cbn beta iota in He. destruct (is_node ox) eqn:Enx; [|by rewrite x_raise in He].
      destruct Hnode as [Hnode _]. destruct (Hnode eq_refl) as [c' ->]. cbn in Hpo. destruct Hpo as [_ ->]. destruct (kind_node ox c) as [dx Ex]; [by rewrite <- Hlkx|].
      destruct (parts_again (e2 :: rest) Hgr) as [Hall Hwf].
      destruct (IH fuel l x (p ++ [KName e]) child (MetadataPath [AStr (join [slash] (e2 :: rest))]) s1 c (o_hdr ox) dx lbc u s' g') as (F1 & F2 & F3 & F4); try done; try (by rewrite Hall).
      + by rewrite <- Ex.
      + rewrite Hall. cbn in Hn |- *. lia.
      + split; [by eapply fm_trans|]. split; [done|]. split.
        * intros q z [q2 Eq] Hz. apply F3; [exists (q2 ++ [KName e]); by rewrite Eq, app_assoc|]. by eapply qu_reach.
        * intros q Hq. rewrite <- HL. apply F4. intros [z ->]. apply Hq. rewrite <- app_assoc. by eexists.
    - destruct rest as [|e2 rest].
      + rewrite x_bind, x_ret in He. cbn beta iota in He. rewrite (x_add_child _ _ _ _ _ _ _ _ _ Hge Hy1 Hm1), Ed in He. injection He as _ <- _.
        pose proof (graft_edits s1 l y p hx1 c d1 e child lbc Hl1 Hp1 Hy1 Hm1 Ed Hse Hc1 Hap1 Hlc1 Hfit) as HE.
        change (with_heap s1 _) with (edited s1 y (Obj (hd_saved ∅ hx1) (BNode c (dset d1 e child)))).
        split; [eapply fm_trans; [exact HF1|]; apply (et_frames _ _ _ _ _ _ _ _ _ HE)|]. split; [by eapply et_able'|]. split; [intros q z Hq Hz; eapply et_up; [exact HE|done|]; by eapply qu_reach|].
        intros q Hq. rewrite (et_off _ _ _ _ _ _ _ _ _ HE q Hq). apply HL.
      + rewrite x_bind, x_bind, (x_children _ _ _ _ _ _ Hy1) in He. cbn beta iota in He. rewrite x_bind, TreeEditFacts.x_new in He. cbn beta iota in He. cbn [fst] in He.
        change (PSt _ _ _ _ _ _) with (grown s1 (fresh_obj (BNode c []))) in He. set (s2 := grown s1 (fresh_obj (BNode c []))) in *. set (y2 := s_next s1) in *.
        assert (Hok1 : heap_ok s1) by apply Hl1. assert (Hv : forall k vs, BNode c [] = BVlist k vs -> vs = []) by done.
        pose proof (gw_quiet O r s1 (BNode c []) Hok1 eq_refl) as HQ2. fold s2 in HQ2. pose proof (kp_quiet _ _ _ _ HQ2) as HK2.
        pose proof (able_some _ _ _ _ Hl1) as Sl1. pose proof (able_some _ _ _ _ Hc1) as Sc1.
        pose proof (able_keeps _ _ _ _ _ HK2 Hl1) as Hl2. pose proof (able_keeps _ _ _ _ _ HK2 Hc1) as Hc2.
        assert (HL2 : forall q, look O (s_heap s2) l q = look O (s_heap s) l q) by (intros q; rewrite <- HL; by eapply qu_look; [exact HQ2|]).
        assert (Hp2 : reach (s_heap s2) l p = Some y) by by eapply qu_reach.
        assert (Hy2 : s_heap s2 !! y = Some (Obj hx1 (BNode c d1))). { rewrite <- Hy1. apply gw_old; [done|]. rewrite Hy1. by eexists. }
        assert (Hlab : label_ok (LbNode c)).
        { pose proof (tidy_reach _ _ _ _ _ _ (proj1 Hl1) Hp1) as HTy. destruct (td_complete _ _ _ _ HTy []) as (_ & C & _). apply C. cbn [look]. rewrite Hy1. cbn [o_hdr o_body]. by rewrite Hm1. }
        assert (Hz : forall a, is_Some (s_heap s1 !! a) -> apart (s_heap s2) a y2) by (intros a; apply (gw_apart s1 (BNode c []) Hok1 eq_refl)).
        assert (HN : able O r s2 y2) by (split; [apply (gw_tidy O r s1 (BNode c []) Hok1 eq_refl Hv Hlab)|apply (gw_one r s1 (BNode c []) eq_refl)]).
        pose proof (gw_look O s1 (BNode c []) eq_refl []) as HN0. cbn in HN0. fold s2 y2 in HN0.
        pose proof (graft_edits s2 l y p hx1 c d1 e y2 (LbNode c) Hl2 Hp2 Hy2 Hm1 Ed Hse HN (Hz l Sl1) HN0 eq_refl) as HE.
        rewrite x_bind, (x_add_child fuel y hx1 c d1 e y2 s2 g Hge Hy2 Hm1), Ed in He. cbn beta iota in He. rewrite x_ret in He. cbn beta iota in He.
        change (with_heap s2 _) with (edited s2 y (Obj (hd_saved ∅ hx1) (BNode c (dset d1 e y2)))) in He. set (s3 := edited s2 y (Obj (hd_saved ∅ hx1) (BNode c (dset d1 e y2)))) in *.
        pose proof (et_frames _ _ _ _ _ _ _ _ _ HE) as HF3. cbn [fmap option_fmap option_map snd] in HF3. fold s3 in HF3. pose proof (et_able' _ _ _ _ _ _ _ _ _ HE) as Hl3. fold s3 in Hl3.
        assert (HF13 : frames O r s1 s3 l (Some child)) by by eapply fm_dir.
        assert (Hx2 : off (s_heap s2) l (Some y2) child).
        { split; [by apply (kp_some _ _ _ _ HK2)|]. split; [by apply (kp_apart _ _ _ _ HK2)|]. intros ? [= <-]. apply ap_sym. by apply Hz. }
        destruct (fm_one _ _ _ _ _ _ HF3 child Hx2 Hc2) as ((A1 & A2 & A3) & A4 & A5).
        assert (Hr3 : reach (s_heap s3) l (p ++ [KName e]) = Some y2).
        { unfold s3. rewrite reach_app, (et_reach' _ _ _ _ _ _ _ _ _ HE). cbn [reach]. rewrite (et_obj' s2 y _). cbn [o_hdr o_body]. cbn [hd_saved h_mapped]. by rewrite Hm1, kids_names, dget_dset_eq. }
        assert (Hy3 : s_heap s3 !! y2 = Some (Obj (Hdr None None true ∅) (BNode c []))).
        { cbn [s3 edited s_heap with_heap]. rewrite heap_insert, decide_False; [apply (gw_self s1 (BNode c []))|]. intros ->. pose proof (proj1 (Hok1 _ _ Hy1)) as HH. unfold y2 in HH. lia. }
        rewrite x_bind, (x_is_node _ _ _ _ Hy3) in He. cbn beta iota in He. cbn [is_node o_body] in He.
        destruct (parts_again (e2 :: rest) Hgr) as [Hall Hwf].
        destruct (IH fuel l y2 (p ++ [KName e]) child (MetadataPath [AStr (join [slash] (e2 :: rest))]) s3 c (Hdr None None true ∅) [] lbc u s' g') as (F1 & F2 & F3 & F4); try done; try (by rewrite Hall).
        * rewrite Hall. cbn in Hn |- *. lia.
        * rewrite A5. rewrite <- Hlc1. by eapply qu_look; [exact HQ2|].
        * split; [eapply fm_trans; [exact HF1|]; by eapply fm_trans|]. split; [done|]. split.
          { intros q z [q2 Eq] Hqz. apply F3; [exists (q2 ++ [KName e]); by rewrite Eq, app_assoc|]. eapply et_up; [exact HE|by exists q2|]. eapply qu_reach; [exact HQ2|]. by eapply qu_reach. }
          intros q Hq. rewrite F4.
          -- unfold s3. rewrite (et_off _ _ _ _ _ _ _ _ _ HE q Hq). apply HL2.
          -- intros [z ->]. apply Hq. rewrite <- app_assoc. by eexists.
  Qed.
End Add.

(** ** Trees that do not count *)
Lemma complete_up c p q : complete c -> c p = Absent -> c (p ++ q) = Absent.
Proof.
  intros Hc Hp. induction q as [|k q IH] using rev_ind; [by rewrite app_nil_r|]. rewrite app_assoc. destruct (c ((p ++ q) ++ [k])) as [| |lb] eqn:E; [done| |].
  - by destruct (Hc ((p ++ q) ++ [k])) as (H & _).
  - destruct (Hc (p ++ q)) as (_ & _ & H). destruct (H k lb E) as (lb0 & H0 & _). congruence.
Qed.
Lemma bare_empty c : complete c -> c [] = Seen (LbNode LMeta) -> bare c <-> empty_node c.
Proof.
  intros Hc H0. split.
  - intros Hb. exists LMeta. split; [done|]. intros n. by rewrite Hb.
  - intros (c' & _ & Hn) [|k q]; cbn [leaf]; [done|]. apply (complete_up c [k] q Hc). destruct (c [k]) as [| |lb] eqn:E; [done| |].
    + by destruct (Hc [k]) as (H & _).
    + destruct (Hc []) as (_ & _ & H). destruct (H k lb E) as (lb0 & E0 & H1). rewrite H0 in E0. injection E0 as <-. destruct k as [n| | | |]; try done. by rewrite Hn in E.
Qed.
Lemma tree_hollow O r s x : tidy O r s x -> is_kind (s_heap s) x (KdNode LMeta) -> hollow_at O (s_heap s) x = true <-> bare (look O (s_heap s) x).
Proof.
  intros HT (o & Ho & Hk). destruct (look_root _ _ _ _ HT) as [lb Hl]. pose proof (look_kind _ _ _ _ _ Ho Hl) as Hlk. rewrite Hk in Hlk. destruct lb; try done. injection Hlk as ->.
  rewrite hollow_at_iff. symmetry. apply bare_empty; [apply HT|done].
Qed.
Lemma look_kids O h y o k q : h !! y = Some o -> h_mapped (o_hdr o) = true ->
  look O h y (k :: q) = match dget (kids_of (o_body o)) k with Some x => if is_ktree k && hollow_at O h x then Absent else look O h x q | None => Absent end.
Proof. intros Ho Hm. cbn [look]. by rewrite Ho, Hm. Qed.
Lemma look_top O h y o : h !! y = Some o -> h_mapped (o_hdr o) = true -> look O h y [] = Seen (label_of (o_body o)).
Proof. intros Ho Hm. cbn [look]. by rewrite Ho, Hm. Qed.
Lemma root_label O r s x k : tidy O r s x -> is_kind (s_heap s) x k -> exists lb, look O (s_heap s) x [] = Seen lb /\ label_kind lb = k /\ label_ok lb.
Proof.
  intros HT (o & Ho & Hk). destruct (look_root _ _ _ _ HT) as [lb Hl]. exists lb. split; [done|]. split; [rewrite <- Hk; by eapply look_kind|]. destruct (td_complete _ _ _ _ HT []) as (_ & H & _). by apply H.
Qed.

Lemma no_kid b k : key_fits k b = false -> dget (kids_of b) k = None.
Proof. intros Hf. destruct (dget (kids_of b) k) as [x|] eqn:E; [|done]. apply kids_fit in E. congruence. Qed.

(** ** Version lists *)
Lemma flat_recs (vs : pydict pystr (pydict ppath vrec)) : well_keyed vs ->
  map (fun r : pystr * vrec => (fst r, vr_path (snd r), vr_time (snd r), is_etree (vr_elt (snd r)))) (vs_records vs) =
  map (fun x : (pystr * ppath) * (pystr * bool) => (fst (fst x), snd (fst x), fst (snd x), snd (snd x))) (vs_flat (fun r => (vr_time r, is_etree (vr_elt r))) vs).
Proof.
  intros [_ Hw]. unfold vs_records, vs_flat. rewrite !concat_map, !map_map. f_equal. apply map_ext_in. intros [v d] Hin. cbn. rewrite !map_map. apply map_ext_in. intros [p r] Hp. cbn.
  destruct (Hw _ _ Hin) as [_ H]. by rewrite (H _ _ Hp).
Qed.
Section Pick.
  Context {K A : Type} `{EqDecision K}.
  Definition hit (k : K) (x : K * A) : bool := bool_decide (fst x = k).
  Lemma hit_eq k a : hit k (k, a) = true.
  Proof. by apply bool_decide_true. Qed.
  Lemma hit_ne k k' a : k' <> k -> hit k (k', a) = false.
  Proof. intros Hn. by apply bool_decide_false. Qed.
  Lemma pick_none k (d : pydict K A) : k ∉ dkeys d -> List.filter (hit k) d = [].
  Proof.
    induction d as [|[k0 a] d IH]; intros Hn; [done|]. unfold dkeys in *. cbn [map fst] in Hn. apply not_elem_of_cons in Hn as [H1 H2]. cbn. rewrite hit_ne by congruence. by apply IH.
  Qed.
  Lemma pick_other k a (d : pydict K A) : List.filter (fun x => negb (hit k x)) (dset d k a) = List.filter (fun x => negb (hit k x)) d.
  Proof.
    induction d as [|[k0 a0] d IH]; cbn [dset].
    - cbn. by rewrite hit_eq.
    - case_decide; cbn.
      + subst k0. by rewrite !hit_eq.
      + by rewrite IH.
  Qed.
  Lemma pick_one k a (d : pydict K A) : NoDup (dkeys d) -> List.filter (hit k) (dset d k a) = [(k, a)].
  Proof.
    induction d as [|[k0 a0] d IH]; intros Hn; cbn [dset].
    - cbn. by rewrite hit_eq.
    - unfold dkeys in *. cbn [map fst] in Hn. apply NoDup_cons in Hn as [H1 H2]. case_decide; cbn.
      + subst k0. rewrite hit_eq. f_equal. by apply pick_none.
      + rewrite hit_ne by done. by apply IH.
  Qed.
End Pick.
Lemma flat_other {A : Type} (w : vrec -> A) vs v p r : List.filter (fun x => negb (hit (v, p) x)) (vs_flat w (vs_set vs v p r)) = List.filter (fun x => negb (hit (v, p) x)) (vs_flat w vs).
Proof.
  assert (HM : forall (d : pydict ppath vrec) (v : pystr), map (fun pr => ((v, fst pr), w (snd pr))) (dset d p r) = dset (map (fun pr => ((v, fst pr), w (snd pr))) d) (v, p) (w r)).
  { intros d' v'. apply (dset_map (fun q => (v', q)) w). by intros ? ? [=]. }
  unfold vs_set. induction vs as [|[v0 d] vs IH].
  - cbn. by rewrite hit_eq.
  - cbn [dget dset]. destruct (decide (v0 = v)) as [->|Hne]; rewrite !flat_cons, !List.filter_app; [rewrite HM, pick_other; done|]. by rewrite IH.
Qed.
Lemma flat_one {A : Type} (w : vrec -> A) vs v p r : vs_ok vs -> List.filter (hit (v, p)) (vs_flat w (vs_set vs v p r)) = [((v, p), w r)].
Proof.
  assert (HM : forall (d : pydict ppath vrec) (v : pystr), map (fun pr => ((v, fst pr), w (snd pr))) (dset d p r) = dset (map (fun pr => ((v, fst pr), w (snd pr))) d) (v, p) (w r)).
  { intros d' v'. apply (dset_map (fun q => (v', q)) w). by intros ? ? [=]. }
  unfold vs_set. induction vs as [|[v0 d] vs IH]; intros [Hnd Hd].
  - cbn. by rewrite hit_eq.
  - unfold dkeys in Hnd. cbn [map fst] in Hnd. apply NoDup_cons in Hnd as [Hv Hnd]. cbn [dget dset]. destruct (decide (v0 = v)) as [->|Hne]; rewrite !flat_cons, !List.filter_app.
    + rewrite HM, pick_one, (pick_none _ (vs_flat w vs)); [done|by apply flat_key_notin|].
      unfold dkeys. rewrite map_map. cbn. rewrite <- (map_map fst (fun q => (v, q))). apply NoDup_fmap_2; [by intros ? ? [=]|]. eapply Hd. by left.
    + rewrite pick_none by by apply inner_notin. cbn. apply IH. split; [done|]. intros. eapply Hd. by right.
Qed.
Lemma filter_map {A B} (f : A -> B) (P : B -> bool) l : List.filter P (map f l) = map f (List.filter (fun x => P (f x)) l).
Proof. induction l as [|x l IH]; [done|]. cbn. destruct (P (f x)); cbn; by rewrite IH. Qed.
Lemma keyed_ok vs : well_keyed vs -> vs_ok vs.
Proof. intros [H1 H2]. split; [done|]. intros v d Hin. by destruct (H2 _ _ Hin). Qed.
Lemma set_recorded (vs : pydict pystr (pydict ppath vrec)) v p t e : well_keyed vs ->
  let recs vs := map (fun r : pystr * vrec => (fst r, vr_path (snd r), vr_time (snd r), is_etree (vr_elt (snd r)))) (vs_records vs) in
  recorded (recs vs) v p t (is_etree e) (recs (vs_set vs v p (VRec t p e))).
Proof.
  intros Hw recs. unfold recs. rewrite (flat_recs vs Hw), (flat_recs (vs_set vs v p (VRec t p e))) by by apply wk_set.
  assert (HF : forall l : list ((pystr * ppath) * (pystr * bool)), List.filter (fun x => same_key v p (fst (fst x), snd (fst x), fst (snd x), snd (snd x))) l = List.filter (hit (v, p)) l).
  { intros l. apply List.filter_ext. intros [[v' p'] [t' b']]. done. }
  assert (HG : forall l : list ((pystr * ppath) * (pystr * bool)), List.filter (fun x => negb (same_key v p (fst (fst x), snd (fst x), fst (snd x), snd (snd x)))) l = List.filter (fun x => negb (hit (v, p) x)) l).
  { intros l. apply List.filter_ext. intros [[v' p'] [t' b']]. done. }
  split; rewrite !filter_map, ?HF, ?HG.
  - rewrite flat_one by by apply keyed_ok. done.
  - by rewrite flat_other.
Qed.

(** ** Calls on loaded objects *)
Section Ops.
  Context `{Env}.
  Context (r : pystr) (g : gstate) (Hrem : is_remote r = false) (Hr : r <> []).
  Notation O := (objs_of g r).
  Section One.
    Context (s : pst) (l y : loc) (p : list key) (hx : hdr) (b : body).
    Context (Ha : able O r s l) (Hp : reach (s_heap s) l p = Some y) (Hy : s_heap s !! y = Some (Obj hx b)) (Hm : h_mapped hx = true).
    Let HTy : tidy O r s y := tidy_reach _ _ _ _ _ _ (proj1 Ha) Hp.
    Notation dirt b' := (Obj (hd_saved ∅ hx) b').
    Lemma old_part k x lb : dget (kids_of b) k = Some x -> is_ktree k && hollow_at O (s_heap s) x = false -> look O (s_heap s) x [] = Seen lb -> part_ok (label_of b) k lb.
    Proof using All.
      intros Hd Hh Hl. destruct (td_complete _ _ _ _ HTy []) as (_ & _ & C). destruct (C k lb) as (lb0 & H0 & Hpo).
      - cbn [app]. rewrite (look_kids _ _ _ _ _ _ Hy Hm). cbn [o_body]. by rewrite Hd, Hh.
      - rewrite (look_top _ _ _ _ Hy Hm) in H0. by injection H0 as <-.
    Qed.
    Lemma old_label : label_ok (label_of b).
    Proof using All. destruct (td_complete _ _ _ _ HTy []) as (_ & C & _). apply C. by rewrite (look_top _ _ _ _ Hy Hm). Qed.
    Lemma old_nodup : NoDup (dkeys (kids_of b)).
    Proof using All. apply (td_heap _ _ _ _ HTy _ _ Hy). Qed.
    Lemma old_kid k x : dget (kids_of b) k = Some x -> tidy O r s x.
    Proof using All. intros Hd. by eapply (tidy_kid O r s y _ k x HTy Hy). Qed.
    Lemma shrink b' : kind_of b' = kind_of b -> (forall k x, dget (kids_of b') k = Some x -> dget (kids_of b) k = Some x) -> NoDup (dkeys (kids_of b')) ->
      (forall k vs, b' = BVlist k vs -> well_keyed vs) -> (forall i v m t, b' = BMrr i v m (Some t) -> exists i' v' m', b = BMrr i' v' m' (Some t)) -> label_ok (label_of b') ->
      (forall k lb, part_ok (label_of b) k lb -> part_ok (label_of b') k lb) -> edits O r s l y p (Obj hx b) (dirt b') None.
    Proof using All.
      intros H1 H2 H3 H4 H5 H6 H7. split; try done; cbn [o_body].
      - intros k x Hk. left. by apply H2.
      - intros i v m t Eb. destruct (H5 _ _ _ _ Eb) as (i' & v' & m' & Eb'). rewrite Eb' in Hy. by apply (td_tree _ _ _ _ HTy [] y hx i' v' m' t eq_refl).
      - intros k x Hk Hh lb Hl. apply H7. eapply old_part; [by apply H2|done..].
    Qed.
    Lemma same_edit : edits O r s l y p (Obj hx b) (dirt b) None.
    Proof using All.
      apply shrink; try done; [apply old_nodup| |eauto|apply old_label]. intros k vs Eb. rewrite Eb in Hy. by apply (td_keyed _ _ _ _ HTy [] y hx k vs eq_refl).
    Qed.
    Lemma same_effect : same (look O (s_heap (edited s y (dirt b))) y) (look O (s_heap s) y).
    Proof using All.
      intros [|k q].
      - rewrite (et_top _ _ _ _ _ _ _ _ _ same_edit), (look_top _ _ _ _ Hy Hm). done.
      - rewrite (et_below _ _ _ _ _ _ _ _ _ same_edit), (look_kids _ _ _ _ _ _ Hy Hm). done.
    Qed.
    Lemma grow_edit b' k a : able O r s a -> apart (s_heap s) l a -> kind_of b' = kind_of b -> (forall k2 x, dget (kids_of b') k2 = Some x -> (k2 = k /\ x = a) \/ (k2 <> k /\ dget (kids_of b) k2 = Some x)) -> NoDup (dkeys (kids_of b')) ->
      (forall k vs, b' = BVlist k vs -> well_keyed vs) -> (forall i v m t, b' = BMrr i v m (Some t) -> (exists i' v' m', b = BMrr i' v' m' (Some t)) \/ exists ht d, s_heap s !! t = Some (Obj ht (BNode LMeta d))) ->
      label_ok (label_of b') -> (forall k2 lb, k2 <> k -> part_ok (label_of b) k2 lb -> part_ok (label_of b') k2 lb) ->
      (forall lb, look O (s_heap s) a [] = Seen lb -> part_ok (label_of b') k lb) -> edits O r s l y p (Obj hx b) (dirt b') (Some (k, a)).
    Proof using All.
      intros H0 H1 H2 H3 H4 H5 H6 H7 H8 H9. split; try done; cbn [o_body].
      - by intros k' c [= <- <-].
      - intros k2 x Hk. destruct (H3 _ _ Hk) as [[-> ->]|[_ Hk']]; [by right|by left].
      - intros i v m t Eb. destruct (H6 _ _ _ _ Eb) as [(i' & v' & m' & Eb')|Ht]; [|done]. rewrite Eb' in Hy. by apply (td_tree _ _ _ _ HTy [] y hx i' v' m' t eq_refl).
      - intros k2 x Hk Hh lb Hl. destruct (H3 _ _ Hk) as [[-> ->]|[Hne Hk']]; [by apply H9|]. apply H8; [done|]. by eapply old_part.
    Qed.
  End One.

  (** Calls on a loaded object are changes of its body. *)
  Definition changes (s : pst) (l y : loc) (p : list key) (ob : obj) (o : op) (x : option loc) (a : res unit) (s' : pst) : Prop :=
    exists o' new, edits O r s l y p ob o' new /\ s' = edited s y o' /\ snd <$> new = (if is_ok a then x else None) /\
      op_effect o (look O (s_heap s) y) (content_of (look O (s_heap s)) x) (is_ok a) (look O (s_heap s') y).
  Lemma body_run fuel y hx b s (f : body -> M pst unit) g' : s_heap s !! y = Some (Obj hx b) -> h_mapped hx = true ->
    exec ((ensure_mapped fuel y ;;; touch y ;;; mlet o <- getobj y; f (o_body o)) s) g' = exec (f b (edited s y (Obj (hd_saved ∅ hx) b))) g'.
  Proof.
    intros Hy Hm. rewrite x_bind, (x_mapped_noop _ _ _ _ _ Hy Hm). cbn beta iota. rewrite x_bind, (x_touch _ _ _ _ Hy). cbn beta iota. cbn [o_hdr o_body].
    rewrite x_bind, x_getobj. cbn [s_heap with_heap]. rewrite heap_insert, decide_True by done. done.
  Qed.
  Lemma set_run y hx b b' s g' : exec (set_body y b' (edited s y (Obj (hd_saved ∅ hx) b))) g' = ((Ok tt, edited s y (Obj (hd_saved ∅ hx) b')), g').
  Proof.
    erewrite WriteFacts.x_set_body by (unfold edited; cbn [s_heap with_heap]; by rewrite heap_insert, decide_True). cbn [o_hdr]. unfold edited, with_heap. cbn [s_heap s_next s_caches s_orefs s_legacy s_locks]. by rewrite heap_ins2.
  Qed.
  Lemma mrr_run fuel y hx i v m t s (f : option uuid * option pystr * option loc * option loc -> M pst unit) g' : s_heap s !! y = Some (Obj hx (BMrr i v m t)) -> h_mapped hx = true ->
    exec ((ensure_mapped fuel y ;;; touch y ;;; mlet q <- mrr_parts y; f q) s) g' = exec (f (i, v, m, t) (edited s y (Obj (hd_saved ∅ hx) (BMrr i v m t)))) g'.
  Proof.
    intros Hy Hm. rewrite x_bind, (x_mapped_noop _ _ _ _ _ Hy Hm). cbn beta iota. rewrite x_bind, (x_touch _ _ _ _ Hy). cbn beta iota. cbn [o_hdr o_body].
    unfold mrr_parts. rewrite !x_bind, x_getobj. cbn [s_heap with_heap]. rewrite heap_insert, decide_True by done. cbn beta iota. cbn [o_body]. rewrite x_ret. done.
  Qed.
  Section Call.
    Context (s : pst) (l y : loc) (p : list key) (hx : hdr) (b : body).
    Context (Ha : able O r s l) (Hp : reach (s_heap s) l p = Some y) (Hy : s_heap s !! y = Some (Obj hx b)) (Hm : h_mapped hx = true).
    Let HTy : tidy O r s y := tidy_reach _ _ _ _ _ _ (proj1 Ha) Hp.
    Notation ob := (Obj hx b).
    Lemma do_fail o x e : op_effect o (look O (s_heap s) y) (content_of (look O (s_heap s)) x) false (look O (s_heap (edited s y (Obj (hd_saved ∅ hx) b))) y) ->
      changes s l y p ob o x (Err e) (edited s y (Obj (hd_saved ∅ hx) b)).
    Proof using All. intros He. exists (Obj (hd_saved ∅ hx) b), None. split; [by apply same_edit|]. done. Qed.
    Lemma op_run fuel ru a s' g' : run_ok ru -> kind_of b = KdMeta -> exec (metadata_add_run fuel y ru s) g = ((a, s'), g') -> g' = g /\ changes s l y p ob (ORun ru) None a s'.
    Proof using All.
      intros Hru Hk He. destruct b as [m| | | | |] eqn:Eb; try done. rewrite (meta_run fuel g s y hx m ru Hy Hm) in He.
      pose proof (look_top O _ _ _ Hy Hm) as Ht. cbn [o_body label_of] in Ht. pose proof (old_label s l y p hx (BMeta m) Ha Hp Hy Hm) as Hb0.
      destruct (add_extractor_run m ru) as [m'|e] eqn:Er; injection He as <- <- <-; (split; [done|]).
      - assert (HE : edits O r s l y p (Obj hx (BMeta m)) (Obj (hd_saved ∅ hx) (BMeta m')) None).
        { apply (shrink s l y p hx (BMeta m) Ha Hp Hy Hm); try done; [apply NoDup_nil_2|]. exact (built_run m ru m' Hb0 Hru Er). }
        exists (Obj (hd_saved ∅ hx) (BMeta m')), None. split; [done|]. split; [done|]. split; [done|]. cbn [op_effect is_ok]. exists m. split; [done|]. rewrite Er. split; [done|].
        intros [|k q]; [by rewrite (et_top _ _ _ _ _ _ _ _ _ HE)|]. rewrite (et_below _ _ _ _ _ _ _ _ _ HE). cbn [relabel]. by rewrite (look_kids _ _ _ _ _ _ Hy Hm).
      - assert (HE := same_effect s l y p hx (BMeta m) Ha Hp Hy Hm). exists (Obj (hd_saved ∅ hx) (BMeta m)), None. split; [by apply same_edit|]. split; [done|]. split; [done|].
        cbn [op_effect is_ok]. exists m. split; [done|]. by rewrite Er.
    Qed.
    Lemma op_remove fuel n a s' g' c : kind_of b = KdNode c -> exec (remove_child fuel y n s) g = ((a, s'), g') -> g' = g /\ changes s l y p ob (ORemove n) None a s'.
    Proof using All.
      intros Hk He. destruct b as [| |c' d| | |] eqn:Eb; try done. injection Hk as ->. unfold remove_child in He. rewrite x_bind, (x_mapped_noop _ _ _ _ _ Hy Hm) in He. cbn beta iota in He. rewrite x_bind, (x_touch _ _ _ _ Hy) in He. cbn beta iota in He. cbn [o_hdr o_body] in He.
      change (with_heap s _) with (edited s y (Obj (hd_saved ∅ hx) (BNode c d))) in He.
      assert (Hy1 : s_heap (edited s y (Obj (hd_saved ∅ hx) (BNode c d))) !! y = Some (Obj (hd_saved ∅ hx) (BNode c d))) by apply et_obj'.
      rewrite x_bind, (x_children _ _ _ _ _ _ Hy1) in He. cbn beta iota in He. cbn [fst snd] in He.
      assert (Hd1 : look O (s_heap s) y [KName n] = Absent <-> dget d n = None).
      { rewrite (look_kids _ _ _ _ _ _ Hy Hm). cbn [o_body]. rewrite kids_names. destruct (dget d n) as [x|] eqn:Ed; [|done]. cbn [is_ktree andb].
        destruct (look_root O r s x) as [lb Hl]; [|by rewrite Hl]. apply (old_kid s l y p hx (BNode c d) Ha Hp Hy Hm (KName n)). by rewrite kids_names. }
      unfold dmem in He. destruct (dget d n) as [x|] eqn:Ed; cbn beta iota in He.
      - rewrite set_run in He. injection He as <- <- <-. split; [done|].
        assert (Hnd : NoDup (dkeys d)) by (apply (kids_node_keys _ c); apply (td_heap _ _ _ _ HTy y _ Hy)).
        assert (HE : edits O r s l y p (Obj hx (BNode c d)) (Obj (hd_saved ∅ hx) (BNode c (ddel d n))) None).
        { apply (shrink s l y p hx (BNode c d) Ha Hp Hy Hm); try done.
          - intros k z Hz. pose proof (kids_fit _ _ _ Hz) as Hf. destruct k as [n2| | | |]; try done. rewrite kids_names in *. destruct (decide (n2 = n)) as [->|Hn]; [by rewrite dget_ddel_eq in Hz|]. by rewrite dget_ddel_ne in Hz.
          - apply kids_node_keys. by apply ddel_nodup.
          - apply (old_label s l y p hx (BNode c d) Ha Hp Hy Hm). }
        exists (Obj (hd_saved ∅ hx) (BNode c (ddel d n))), None. split; [done|]. split; [done|]. split; [done|]. cbn [op_effect is_ok]. right. split; [by rewrite Hd1|]. split; [done|].
        intros [|k q]; [rewrite (et_top _ _ _ _ _ _ _ _ _ HE); cbn [unplug]; by rewrite (look_top _ _ _ _ Hy Hm)|]. rewrite (et_below _ _ _ _ _ _ _ _ _ HE). cbn [unplug]. rewrite (look_kids _ _ _ _ _ _ Hy Hm). cbn [o_body].
        destruct k as [n2| | | |]; try (rewrite !no_kid by done; by destruct (decide _)). rewrite !kids_names. destruct (decide (KName n = KName n2)) as [[= <-]|Hn]; [by rewrite dget_ddel_eq|]. rewrite dget_ddel_ne by congruence. done.
      - rewrite x_raise in He. injection He as <- <- <-. split; [done|]. exists (Obj (hd_saved ∅ hx) (BNode c d)), None. split; [by apply same_edit|]. split; [done|]. split; [done|]. cbn [op_effect is_ok]. left. split; [by apply Hd1|]. split; [done|]. by eapply same_effect.
    Qed.

    Definition mrr_kid (m t : option loc) (k : key) : option loc := match k with KMeta => m | KTree => t | _ => None end.
    Lemma mrr_kids i v m t k : dget (kids_of (BMrr i v m t)) k = mrr_kid m t k.
    Proof. cbn [kids_of]. destruct k, m, t; cbn; repeat case_decide; done. Qed.
    Lemma mrr_nodup i v m t : NoDup (dkeys (kids_of (BMrr i v m t))).
    Proof. cbn [kids_of]. destruct m, t; cbn; repeat (apply NoDup_cons; split; [set_solver|]); apply NoDup_nil_2. Qed.
    (** a part of a root record is removed *)
    Lemma op_less i v m t m' t' o k : b = BMrr i v m t -> (k = KMeta /\ m' = None /\ t' = t /\ o = ONoMeta) \/ (k = KTree /\ m' = m /\ t' = None /\ o = ONoTree) ->
      changes s l y p ob o None (Ok tt) (edited s y (Obj (hd_saved ∅ hx) (BMrr i v m' t'))).
    Proof using All.
      intros Eb Hk. rewrite Eb. pose proof Hy as Hy'. rewrite Eb in Hy'.
      assert (Hkid : forall k2, mrr_kid m' t' k2 = if decide (k = k2) then None else mrr_kid m t k2).
      { intros k2. destruct Hk as [(-> & -> & -> & _)|(-> & -> & -> & _)], k2; cbn; repeat case_decide; done. }
      assert (HE : edits O r s l y p (Obj hx (BMrr i v m t)) (Obj (hd_saved ∅ hx) (BMrr i v m' t')) None).
      { apply (shrink s l y p hx (BMrr i v m t) Ha Hp Hy' Hm); try done.
        - intros k2 x. rewrite !mrr_kids, Hkid. by destruct (decide (k = k2)).
        - apply mrr_nodup.
        - intros i' v' m2 t2 [= <- <- <- Et]. exists i, v, m. destruct Hk as [(-> & -> & -> & _)|(-> & -> & -> & _)]; [by rewrite Et|done].
        - apply (old_label s l y p hx (BMrr i v m t) Ha Hp Hy' Hm). }
      exists (Obj (hd_saved ∅ hx) (BMrr i v m' t')), None. split; [done|]. split; [done|]. split; [done|].
      assert (HS : same (look O (s_heap (edited s y (Obj (hd_saved ∅ hx) (BMrr i v m' t')))) y) (unplug (look O (s_heap s) y) k)).
      { intros [|k2 q]; [rewrite (et_top _ _ _ _ _ _ _ _ _ HE); cbn [unplug]; by rewrite (look_top _ _ _ _ Hy' Hm)|]. rewrite (et_below _ _ _ _ _ _ _ _ _ HE). cbn [unplug]. rewrite (look_kids _ _ _ _ _ _ Hy' Hm). cbn [o_body].
        rewrite !mrr_kids, Hkid. by destruct (decide (k = k2)). }
      destruct Hk as [(-> & -> & -> & ->)|(-> & -> & -> & ->)]; by split.
    Qed.
    (** a part of a root record is set *)
    Lemma op_more i v m t m' t' o k z : b = BMrr i v m t -> (k = KMeta /\ m' = Some z /\ t' = t /\ o = OMeta /\ is_kind (s_heap s) z KdMeta) \/ (k = KTree /\ m' = m /\ t' = Some z /\ o = OTree /\ is_kind (s_heap s) z (KdNode LMeta)) ->
      able O r s z -> apart (s_heap s) l z -> changes s l y p ob o (Some z) (Ok tt) (edited s y (Obj (hd_saved ∅ hx) (BMrr i v m' t'))).
    Proof using All.
      intros Eb Hk Hz Hap. rewrite Eb. pose proof Hy as Hy'. rewrite Eb in Hy'.
      assert (Hkid : forall k2, mrr_kid m' t' k2 = if decide (k = k2) then Some z else mrr_kid m t k2).
      { intros k2. destruct Hk as [(-> & -> & -> & _)|(-> & -> & -> & _)], k2; cbn; repeat case_decide; done. }
      assert (HE : edits O r s l y p (Obj hx (BMrr i v m t)) (Obj (hd_saved ∅ hx) (BMrr i v m' t')) (Some (k, z))).
      { apply (grow_edit s l y p hx (BMrr i v m t) Ha Hp Hy' Hm); try done.
        - intros k2 x. rewrite !mrr_kids, Hkid. destruct (decide (k = k2)) as [<-|Hn]; [intros [= <-]; by left|]. intros Hx. right. split; [congruence|done].
        - apply mrr_nodup.
        - intros i' v' m2 t2 [= <- <- <- Et]. destruct Hk as [(-> & -> & -> & _)|(-> & -> & -> & _ & (oz & Hoz & Hkz))].
          + left. exists i, v, m. by rewrite Et.
          + right. injection Et as <-. destruct oz as [hz bz]. cbn [o_body] in Hkz. destruct bz as [| |c d| | |]; try done. injection Hkz as ->. eauto.
        - apply (old_label s l y p hx (BMrr i v m t) Ha Hp Hy' Hm).
        - intros lb Hlb. destruct Hk as [(-> & _ & _ & _ & Hkz)|(-> & _ & _ & _ & Hkz)]; destruct (root_label _ _ _ _ _ (proj1 Hz) Hkz) as (lb' & E1 & E2 & _); rewrite Hlb in E1; injection E1 as <-; destruct lb; try done; cbn; [eauto|by injection E2 as ->]. }
      exists (Obj (hd_saved ∅ hx) (BMrr i v m' t')), (Some (k, z)). split; [done|]. split; [done|]. split; [done|].
      assert (HS : forall q, look O (s_heap (edited s y (Obj (hd_saved ∅ hx) (BMrr i v m' t')))) y q =
        match q with [] => look O (s_heap s) y [] | k2 :: q2 => if decide (k = k2) then (if is_ktree k && hollow_at O (s_heap s) z then Absent else look O (s_heap s) z q2) else look O (s_heap s) y q end).
      { intros [|k2 q]; [rewrite (et_top _ _ _ _ _ _ _ _ _ HE); by rewrite (look_top _ _ _ _ Hy' Hm)|]. rewrite (et_below _ _ _ _ _ _ _ _ _ HE). rewrite (look_kids _ _ _ _ _ _ Hy' Hm). cbn [o_body].
        rewrite !mrr_kids, Hkid. destruct (decide (k = k2)) as [<-|]; done. }
      destruct Hk as [(-> & -> & -> & -> & Hkz)|(-> & -> & -> & -> & Hkz)]; cbn [op_effect content_of]; (split; [done|]).
      - intros q. by rewrite HS.
      - pose proof (tree_hollow _ _ _ _ (proj1 Hz) Hkz) as Hh. cbn [is_ktree andb] in HS. split; intros Hb q; rewrite HS; destruct q as [|k2 q]; cbn [plug unplug]; try done; destruct (decide (KTree = k2)); try done.
        + apply Hh in Hb. by rewrite Hb.
        + destruct (hollow_at O (s_heap s) z); [|done]. exfalso. apply Hb. by apply Hh.
    Qed.
    Lemma op_version fuel v t q e a s' g' : op_ok (s_heap s) y (OVersion v t q (is_etree e)) (Some (elt_loc e)) -> able O r s (elt_loc e) -> apart (s_heap s) l (elt_loc e) ->
      exec (set_versioned_element fuel y v t q e s) g = ((a, s'), g') -> g' = g /\ changes s l y p ob (OVersion v t q (is_etree e)) (Some (elt_loc e)) a s'.
    Proof using All.
      intros (Hv & Ht & Hq & Hq2 & (kk & oy & Hoy & Hkk) & (z & [= <-] & Hz)) Hae Hap He. rewrite Hy in Hoy. injection Hoy as <-. cbn [o_body] in Hkk. destruct b as [| | | |k vs|] eqn:Eb; try done. cbn in Hkk.
      pose proof (set_one fuel y hx k vs (VCall v t q e) s g Hy Hm) as Hs. cbn [vc_version vc_time vc_path vc_elt call_record] in Hs. rewrite Hs in He. injection He as <- <- <-. split; [done|].
      assert (Hw : well_keyed vs) by by apply (td_keyed _ _ _ _ HTy [] y hx k vs eq_refl). assert (Hw' : well_keyed (vs_set vs v q (VRec t q e))) by by apply wk_set.
      change (with_heap s _) with (edited s y (Obj (hd_saved ∅ hx) (BVlist k (vs_set vs v q (VRec t q e))))).
      assert (Hkid : forall v2 q2, dget (kids_of (BVlist k (vs_set vs v q (VRec t q e)))) (KVer v2 q2) = if decide ((v, q) = (v2, q2)) then Some (elt_loc e) else dget (kids_of (BVlist k vs)) (KVer v2 q2)).
      { intros v2 q2. rewrite !kids_vget by by apply keyed_ok. rewrite vget_set. by destruct (decide _). }
      set (rc := fun r : pystr * vrec => (fst r, vr_path (snd r), vr_time (snd r), is_etree (vr_elt (snd r)))).
      pose proof (set_recorded vs v q t e Hw) as HR. cbv zeta in HR. fold rc in HR.
      assert (HIn : forall v2 q2 t2 b2, In (v2, q2, t2, b2) (map rc (vs_records (vs_set vs v q (VRec t q e)))) <-> ((v2, q2) = (v, q) /\ t2 = t /\ b2 = is_etree e) \/ ((v2, q2) <> (v, q) /\ In (v2, q2, t2, b2) (map rc (vs_records vs)))).
      { intros v2 q2 t2 b2. destruct HR as [R1 R2]. destruct (decide ((v2, q2) = (v, q))) as [[= -> ->]|Hn].
        - transitivity (In (v, q, t2, b2) (List.filter (same_key v q) (map rc (vs_records (vs_set vs v q (VRec t q e)))))).
          + rewrite filter_In. unfold same_key. cbn. rewrite bool_decide_true by done. tauto.
          + rewrite R1. cbn. split; [intros [[= <- <-]|[]]; by left|intros [(_ & -> & ->)|[[] _]]; [by left|done]].
        - transitivity (In (v2, q2, t2, b2) (List.filter (fun x => negb (same_key v q x)) (map rc (vs_records (vs_set vs v q (VRec t q e)))))).
          + rewrite filter_In. unfold same_key. cbn. rewrite bool_decide_false by done. tauto.
          + rewrite R2, filter_In. unfold same_key. cbn. rewrite bool_decide_false by done. cbn. split; [intros [? _]; by right|intros [[? _]|[_ ?]]; done]. }
      pose proof (old_label s l y p hx (BVlist k vs) Ha Hp Hy Hm) as HL. cbn [label_of label_ok] in HL. fold rc in HL.
      assert (HE : edits O r s l y p (Obj hx (BVlist k vs)) (Obj (hd_saved ∅ hx) (BVlist k (vs_set vs v q (VRec t q e)))) (Some (KVer v q, elt_loc e))).
      { apply (grow_edit s l y p hx (BVlist k vs) Ha Hp Hy Hm); try done.
        - intros k2 x Hx. pose proof (kids_fit _ _ _ Hx) as Hf. destruct k2 as [| | |v2 q2|]; try done. rewrite Hkid in Hx. destruct (decide ((v, q) = (v2, q2))) as [[= <- <-]|Hn]; [injection Hx as <-; by left|]. right. split; [congruence|done].
        - apply kids_flat_keys. by apply keyed_ok.
        - by intros ? ? [= _ <-].
        - cbn [label_of label_ok]. fold rc. intros v2 q2 t2 b2 [([= -> ->] & -> & _)|[_ Hin]]%HIn; [done|]. by eapply HL.
        - intros k2 lb Hn. cbn [label_of]. fold rc. destruct k2 as [| | |v2 q2|]; try done. cbn [part_ok]. intros (t2 & b2 & Hin & Hlb). exists t2, b2. split; [|done]. apply HIn. right. split; [congruence|done].
        - intros lb Hlb. cbn [label_of]. fold rc. cbn [part_ok]. exists t, (is_etree e). split; [apply HIn; by left|].
          destruct (root_label _ _ _ _ _ (proj1 Hae) Hz) as (lb' & E1 & E2 & _). rewrite Hlb in E1. injection E1 as <-. destruct (is_etree e), lb; try done. by injection E2 as ->. }
      exists (Obj (hd_saved ∅ hx) (BVlist k (vs_set vs v q (VRec t q e)))), (Some (KVer v q, elt_loc e)). split; [done|]. split; [done|]. split; [done|]. cbn [op_effect is_ok content_of]. split; [done|].
      exists k, (map rc (vs_records vs)), (map rc (vs_records (vs_set vs v q (VRec t q e)))). split; [by rewrite (look_top _ _ _ _ Hy Hm)|]. split; [done|].
      intros [|k2 q0]; [by rewrite (et_top _ _ _ _ _ _ _ _ _ HE)|]. rewrite (et_below _ _ _ _ _ _ _ _ _ HE). cbn [plug relabel o_body]. destruct (decide (KVer v q = k2)) as [<-|Hn].
      - rewrite Hkid, decide_True by done. done.
      - rewrite (look_kids _ _ _ _ _ _ Hy Hm). cbn [o_body]. destruct k2 as [| | |v2 q2|].
        4: { rewrite Hkid, decide_False by congruence. done. }
        all: by rewrite !no_kid by done.
    Qed.
    Lemma op_list u z a s' g' us : uuid_ok u -> is_kind (s_heap s) z (KdVl false) -> b = BUset us -> able O r s z -> apart (s_heap s) l z ->
      exec (set_version_list y u z s) g = ((a, s'), g') -> g' = g /\ changes s l y p ob (OList u) (Some z) a s'.
    Proof using All.
      intros Hu Hz Eb Haz Hap He. rewrite Eb. pose proof Hy as Hy'. rewrite Eb in Hy'. rewrite (set_list_one y hx us u z s g Hy') in He. injection He as <- <- <-. split; [done|].
      change (with_heap s _) with (edited s y (Obj (hd_saved ∅ hx) (BUset (dset us u z)))).
      assert (HE : edits O r s l y p (Obj hx (BUset us)) (Obj (hd_saved ∅ hx) (BUset (dset us u z))) (Some (KUuid u, z))).
      { apply (grow_edit s l y p hx (BUset us) Ha Hp Hy' Hm); try done.
        - intros k2 x Hx. pose proof (kids_fit _ _ _ Hx) as Hf. destruct k2 as [| | | |u2]; try done. rewrite kids_uuids in Hx. rewrite kids_uuids. rewrite dget_dset in Hx. case_decide; [subst u2; injection Hx as <-; by left|]. right. split; [congruence|done].
        - apply kids_us_keys, dset_nodup, kids_us_keys. apply (td_heap _ _ _ _ HTy y _ Hy').
        - intros lb Hlb. cbn [label_of part_ok]. split; [done|]. destruct (root_label _ _ _ _ _ (proj1 Haz) Hz) as (lb' & E1 & E2 & _). rewrite Hlb in E1. injection E1 as <-. destruct lb as [| | | |kk rs|]; try done. injection E2 as ->. eauto. }
      exists (Obj (hd_saved ∅ hx) (BUset (dset us u z))), (Some (KUuid u, z)). split; [done|]. split; [done|]. split; [done|]. cbn [op_effect is_ok content_of]. split; [done|].
      intros [|k2 q0]; [rewrite (et_top _ _ _ _ _ _ _ _ _ HE); cbn [plug]; by rewrite (look_top _ _ _ _ Hy' Hm)|]. rewrite (et_below _ _ _ _ _ _ _ _ _ HE). cbn [plug o_body]. destruct (decide (KUuid u = k2)) as [<-|Hn].
      - rewrite kids_uuids, dget_dset_eq. done.
      - rewrite (look_kids _ _ _ _ _ _ Hy' Hm). cbn [o_body]. destruct k2 as [| | | |u2].
        5: { rewrite !kids_uuids, dget_dset_ne by congruence. done. }
        all: by rewrite !no_kid by done.
    Qed.
  End Call.

  Definition op_done (s : pst) (l : loc) (p : list key) (o : op) (x : option loc) (a : res unit) (s' : pst) : Prop :=
    frames O r s s' l (if is_ok a then x else None) /\ able O r s' l /\
    exists d d', replaced (look O (s_heap s) l) p d d' (look O (s_heap s') l) /\ op_effect o d (content_of (look O (s_heap s)) x) (is_ok a) d'.
  Lemma changes_done s l y p ob o x a s' : changes s l y p ob o x a s' -> op_done s l p o x a s'.
  Proof.
    intros (o' & new & HE & -> & Hn & Hop). unfold op_done. rewrite <- Hn. split; [by apply (et_frames _ _ _ _ _ _ _ _ _ HE)|]. split; [by eapply et_able'|].
    exists (look O (s_heap s) y), (look O (s_heap (edited s y o')) y). split; [|done]. split; [|split].
    - eapply part_view; [apply (et_able _ _ _ _ _ _ _ _ _ HE)|apply HE|apply HE|apply HE].
    - eapply part_view; [apply (et_able' _ _ _ _ _ _ _ _ _ HE)|by eapply et_reach'|apply et_obj'|]. rewrite (et_hdr _ _ _ _ _ _ _ _ _ HE). cbn [hd_saved h_mapped]. apply HE.
    - intros q. by eapply et_off.
  Qed.
  Lemma tree_set_ext d c c' d' : same c c' -> tree_set d c d' -> tree_set d c' d'.
  Proof.
    intros Hs [H1 H2]. assert (Hb : bare c <-> bare c'). { split; intros Hb q; [rewrite <- Hs|rewrite Hs]; apply Hb. } split; intros Hc.
    - apply H1. by apply Hb.
    - assert (Hn : ~ bare c) by by rewrite Hb. intros q. rewrite (H2 Hn q). destruct q as [|k q]; cbn [plug]; [done|]. destruct (decide (KTree = k)); [apply Hs|done].
  Qed.
  Lemma plug_ext d k c c' : same c c' -> same (plug d k c) (plug d k c').
  Proof. intros Hs [|k2 q]; cbn [plug]; [done|]. destruct (decide (k = k2)); [apply Hs|done]. Qed.
  Lemma effect_ext o d c c' ok d' : same c c' -> op_effect o d c ok d' -> op_effect o d c' ok d'.
  Proof.
    intros Hs. destruct o; cbn [op_effect]; try done.
    - intros [H1|(H1 & H2 & cl & H3 & H4 & H5)]; [by left|right]. split; [done|]. split; [done|]. exists cl. split; [done|]. split; [|done]. intros q. by rewrite H4.
    - intros [H1 H2]. split; [done|]. by eapply tree_set_ext.
    - intros [H1 H2]. split; [done|]. eapply same_trans; [exact H2|]. by apply plug_ext.
    - intros [H1 (k & rs & rs' & H2 & H3 & H4)]. split; [done|]. exists k, rs, rs'. split; [done|]. split; [done|]. eapply same_trans; [exact H4|]. by apply plug_ext.
    - intros [H1 H2]. split; [done|]. eapply same_trans; [exact H2|]. by apply plug_ext.
  Qed.
  Lemma content_ext s s' x : keeps O r s s' -> (forall z, x = Some z -> able O r s z) -> same (content_of (look O (s_heap s')) x) (content_of (look O (s_heap s)) x).
  Proof. intros HK Hx q. destruct x as [z|]; cbn [content_of]; [|done]. destruct (Hx z eq_refl) as [H1 H2]. apply (ca_look _ _ _ _ _ (ca_old _ _ _ _ (kp_calm _ _ _ _ HK) z H1 H2)). Qed.
  Lemma done_after s s1 l p o x a s' : able O r s l -> (forall z, x = Some z -> able O r s z) -> keeps O r s s1 -> op_done s1 l p o x a s' -> op_done s l p o x a s'.
  Proof.
    intros Hl Hx HK (H1 & H2 & d & d' & (R1 & R2 & R3) & H4). split.
    - eapply fm_trans; [|exact H1]. apply fm_keeps; [apply Hl|done|by eapply able_some|]. intros z Hz. apply (able_some O r). apply Hx. by destruct (is_ok a).
    - split; [done|]. assert (HS : same (look O (s_heap s1) l) (look O (s_heap s) l)) by (intros q; destruct Hl as [L1 L2]; apply (ca_look _ _ _ _ _ (ca_old _ _ _ _ (kp_calm _ _ _ _ HK) l L1 L2))).
      exists d, d'. split; [split; [|split]|].
      + by eapply part_ext; [exact HS| |exact R1].
      + done.
      + intros q Hq. rewrite <- HS. by apply R3.
      + eapply effect_ext; [|exact H4]. by apply content_ext.
  Qed.
  Lemma kind_keeps s s1 x k : keeps O r s s1 -> able O r s x -> is_kind (s_heap s) x k -> is_kind (s_heap s1) x k.
  Proof.
    intros HK [H1 H2] (o & Ho & Hk). destruct (ca_kind _ _ _ _ _ (ca_old _ _ _ _ (kp_calm _ _ _ _ HK) x H1 H2) o Ho) as (o' & Ho' & Hk'). exists o'. split; [done|]. by rewrite Hk'.
  Qed.
  (** the object is loaded first *)
  Lemma load_first fuel s l y p : able O r s l -> reach (s_heap s) l p = Some y ->
    exists s1 hx b, keeps O r s s1 /\ able O r s1 l /\ reach (s_heap s1) l p = Some y /\ s_heap s1 !! y = Some (Obj hx b) /\ h_mapped hx = true /\ (forall k, is_kind (s_heap s) y k -> kind_of b = k) /\
      forall A (f : M pst A), exec ((ensure_mapped fuel y ;;; f) s) g = exec ((ensure_mapped fuel y ;;; f) s1) g.
  Proof using Hrem Hr.
    intros Hl Hp. pose proof (tidy_reach _ _ _ _ _ _ (proj1 Hl) Hp) as HT. destruct (tidy_root _ _ _ _ HT) as (o & Ho & Hh & Hb).
    destruct (ensure_quiet r g Hrem Hr fuel s y o (td_heap _ _ _ _ HT) Ho Hh Hb) as (b1 & s1 & o1 & He & HQ & Ho1 & Hm1 & Hk). destruct o1 as [hx b]. pose proof (kp_quiet _ _ _ _ HQ) as HK.
    exists s1, hx, b. split; [done|]. split; [by eapply able_keeps|]. split; [by eapply qu_reach|]. split; [done|]. split; [done|]. split.
    - intros k (o2 & Ho2 & Hk2). rewrite Ho in Ho2. injection Ho2 as <-. rewrite <- Hk2. exact Hk.
    - intros A f. rewrite !x_bind, He, (x_mapped_noop _ _ _ _ _ Ho1 Hm1). done.
  Qed.
  Lemma op_step fuel s l y p o x m a s' g' : able O r s l -> reach (s_heap s) l p = Some y -> op_ok (s_heap s) y o x -> op_call fuel y o x m -> (forall z, x = Some z -> able O r s z /\ apart (s_heap s) l z) ->
    exec (m s) g = ((a, s'), g') -> g' = g /\ op_done s l p o x a s'.
  Proof using Hrem Hr.
    intros Hl Hp Hok Hc Hx He. assert (Hxa : forall z, x = Some z -> able O r s z) by (intros z Hz; by apply Hx). pose proof (able_reach _ _ _ _ _ _ Hl Hp) as Hly.
    destruct (load_first fuel s l y p Hl Hp) as (s1 & hx & b & HK & Hl1 & Hp1 & Hy1 & Hm1 & Hkd & HL).
    assert (Hx1 : forall z, x = Some z -> able O r s1 z /\ apart (s_heap s1) l z). { intros z Hz. destruct (Hx z Hz) as [H1 H2]. split; [by eapply able_keeps|]. apply (kp_apart _ _ _ _ HK); [by eapply able_some..|done]. }
    assert (HD : (g' = g /\ exists ob, changes s1 l y p ob o x a s') -> g' = g /\ op_done s l p o x a s'). { intros [-> [ob HC]]. split; [done|]. eapply done_after; [done|done|exact HK|]. by eapply changes_done. }
    assert (HA : forall path z, o = OAdd path -> x = Some z -> exec (add_child_at fuel y z path s) g = ((a, s'), g') -> g' = g /\ op_done s l p o x a s').
    { intros path z -> -> Hea. clear HD HL Hc He. destruct Hok as (Hmp & Hne & Hst & c & Hkc & Hpart). unfold add_child_at in Hea. destruct (Hx z eq_refl) as [Haz Hapz].
      destruct Hkc as (oy & Hoy & Hky). destruct oy as [hy by_]. cbn [o_body] in Hky. destruct by_ as [| |c' d| | |]; try done. injection Hky as ->.
      destruct (look_root _ _ _ _ (proj1 Haz)) as [lbz Hlz].
      assert (Hfit : fits_in c lbz).
      { destruct Hpart as [(z' & [= <-] & Hkz)|[Hct (z' & [= <-] & Hkz)]]; destruct (root_label _ _ _ _ _ (proj1 Haz) Hkz) as (lb & E1 & E2 & _); rewrite Hlz in E1; injection E1 as <-.
        - destruct lbz; try done. by injection E2 as ->.
        - destruct c, lbz; done. }
      assert (Hc0 : look O (s_heap s) y [] = Seen (LbNode c)). { destruct (root_label O r s y (KdNode c) (proj1 Hly)) as (lb & E1 & E2 & _); [by eexists|]. rewrite E1. destruct lb; try done. by injection E2 as ->. }
      assert (HV : part_is (look O (s_heap s) l) p (look O (s_heap s) y)).
      { pose proof (part_view O r s1 l p y _ (proj1 Hl1) Hp1 Hy1 Hm1) as HV. eapply part_ext; [| |exact HV].
        - intros q. destruct Hl as [L1 L2]. apply (ca_look _ _ _ _ _ (ca_old _ _ _ _ (kp_calm _ _ _ _ HK) l L1 L2)).
        - intros q. destruct Hly as [L1 L2]. apply (ca_look _ _ _ _ _ (ca_old _ _ _ _ (kp_calm _ _ _ _ HK) y L1 L2)). }
      destruct Hly as [HTy H1y].
      assert (Hapy : apart (s_heap s) y z). { intros q1 q2 w W1 W2. apply (Hapz (p ++ q1) q2 w); [|done]. by rewrite reach_app, Hp. }
      destruct (add_at r g Hrem Hr (length (all_parts path)) fuel y y [] z path s c hy d lbz HTy H1y eq_refl eq_refl Hoy (mpath_wf _ Hmp) Hne Hst (le_n _) (proj1 Haz) (proj2 Haz) Hapy Hlz Hfit) as (res & s2 & Hes & Hres).
      cbv zeta in Hres. rewrite Hes in Hea. injection Hea as -> -> <-. split; [done|]. destruct a as [u|e]; cbn [is_ok op_done].
      - destruct (add_frame r g Hrem Hr (length (all_parts path)) fuel l y p z path s c hy d lbz u s' g Hl Hp Hoy (mpath_wf _ Hmp) Hne Hst (le_n _) Haz Hapz Hlz Hfit Hes) as (F1 & F2 & F3 & F4).
        split; [done|]. split; [done|]. assert (Hp' : reach (s_heap s') l p = Some y) by (apply F3; [apply extends_refl|done]).
        exists (look O (s_heap s) y), (look O (s_heap s') y). split; [split; [done|split; [|done]]|].
        + pose proof (gf_reach _ _ _ _ _ _ _ _ _ Hres) as Hr'. cbn [app] in Hr'. destruct (all_parts path) as [|e0 es]; [done|]. cbn [map reach] in Hr'. destruct (s_heap s' !! y) as [o'|] eqn:Eo'; [|done]. destruct (h_mapped (o_hdr o')) eqn:Em'; [|done].
          by eapply part_view; [apply F2| | |].
        + cbn [op_effect content_of]. right. split; [|split; [done|]].
          * intros (q & lb & B1 & B2 & B3 & B4). apply (gf_free _ _ _ _ _ _ _ _ _ Hres). exists q, lb. split; [done|]. split; [by exists q|]. done.
          * exists c. split; [done|]. split; [|split].
            -- apply (gf_new _ _ _ _ _ _ _ _ _ Hres).
            -- intros q Q1 Q2. apply (gf_dir _ _ _ _ _ _ _ _ _ Hres); [by exists q|done|done].
            -- intros q Q1 Q2. apply (gf_old _ _ _ _ _ _ _ _ _ Hres); [done|by left].
      - destruct Hres as (_ & HQ & q & lb & B1 & _ & B2 & B3 & B4). pose proof (kp_quiet _ _ _ _ HQ) as HK2. split; [apply fm_keeps; [apply Hl|done|by eapply able_some|done]|]. split; [by eapply able_keeps|].
        assert (HS2 : same (look O (s_heap s) l) (look O (s_heap s') l)). { intros q'. symmetry. eapply qu_look; [exact HQ|]. by eapply able_some. }
        exists (look O (s_heap s) y), (look O (s_heap s) y). split; [split; [done|split]|].
        + by eapply part_ext; [exact HS2| |exact HV].
        + intros q' _. symmetry. apply HS2.
        + cbn [op_effect]. left. split; [|done]. by exists q, lb. }
    destruct Hc as [ru|n| | |path z|path z|path z|path z|z|z|v t q e|u z].
    - destruct Hok as [H1 H2]. apply HD. unfold metadata_add_run in He. rewrite HL in He. destruct (op_run s1 l y p hx b Hl1 Hp1 Hy1 Hm1 fuel ru a s' g' H1 (Hkd _ H2) He) as [-> HC]. split; [done|]. eauto.
    - destruct Hok as [c Hk]. apply HD. unfold remove_child in He. rewrite HL in He. destruct (op_remove s1 l y p hx b Hl1 Hp1 Hy1 Hm1 fuel n a s' g' c (Hkd _ Hk) He) as [-> HC]. split; [done|]. eauto.
    - apply HD. pose proof (Hkd _ Hok) as Hk. destruct b as [| | |i v mm t| |] eqn:Eb; try done. unfold set_file_tree in He. rewrite HL, (mrr_run fuel y hx i v mm t s1 _ g Hy1 Hm1) in He. rewrite set_run in He. injection He as <- <- <-.
      split; [done|]. eexists. eapply (op_less s1 l y p hx (BMrr i v mm t) Hl1 Hp1 Hy1 Hm1 i v mm t mm None ONoTree KTree eq_refl). right. done.
    - apply HD. pose proof (Hkd _ Hok) as Hk. destruct b as [| | |i v mm t| |] eqn:Eb; try done. unfold set_dataset_level_metadata in He. rewrite HL, (mrr_run fuel y hx i v mm t s1 _ g Hy1 Hm1) in He. rewrite set_run in He. injection He as <- <- <-.
      split; [done|]. eexists. eapply (op_less s1 l y p hx (BMrr i v mm t) Hl1 Hp1 Hy1 Hm1 i v mm t None t ONoMeta KMeta eq_refl). left. done.
    - by eapply HA.
    - by eapply HA.
    - by eapply HA.
    - by eapply HA.
    - destruct Hok as [Hk0 (z' & [= <-] & Hkz)]. apply HD. pose proof (Hkd _ Hk0) as Hk. destruct b as [| | |i v mm t| |] eqn:Eb; try done. unfold set_file_tree in He. rewrite HL, (mrr_run fuel y hx i v mm t s1 _ g Hy1 Hm1) in He. rewrite set_run in He. injection He as <- <- <-.
      destruct (Hx1 z eq_refl) as [Z1 Z2]. split; [done|]. eexists. eapply (op_more s1 l y p hx (BMrr i v mm t) Hl1 Hp1 Hy1 Hm1 i v mm t mm (Some z) OTree KTree z eq_refl); [|done|done]. right. split; [done|]. split; [done|]. split; [done|]. split; [done|]. by eapply kind_keeps; eauto.
    - destruct Hok as [Hk0 (z' & [= <-] & Hkz)]. apply HD. pose proof (Hkd _ Hk0) as Hk. destruct b as [| | |i v mm t| |] eqn:Eb; try done. unfold set_dataset_level_metadata in He. rewrite HL, (mrr_run fuel y hx i v mm t s1 _ g Hy1 Hm1) in He. rewrite set_run in He. injection He as <- <- <-.
      destruct (Hx1 z eq_refl) as [Z1 Z2]. split; [done|]. eexists. eapply (op_more s1 l y p hx (BMrr i v mm t) Hl1 Hp1 Hy1 Hm1 i v mm t (Some z) t OMeta KMeta z eq_refl); [|done|done]. left. split; [done|]. split; [done|]. split; [done|]. split; [done|]. by eapply kind_keeps; eauto.
    - destruct (Hx1 _ eq_refl) as [Z1 Z2]. apply HD. unfold set_versioned_element in He. rewrite HL in He. destruct Hok as (O1 & O2 & O3 & O4 & [kk O5] & z' & [= <-] & O6).
      destruct (op_version s1 l y p hx b Hl1 Hp1 Hy1 Hm1 fuel v t q e a s' g') as [-> HC]; [|done|done|exact He|split; [done|]; eauto].
      split; [done|]. split; [done|]. split; [done|]. split; [done|]. split; [exists kk; by eapply kind_keeps|]. exists (elt_loc e). split; [done|]. eapply kind_keeps; [done|by apply Hxa|done].
    - destruct Hok as (O1 & (z' & [= <-] & O2) & hy & us & Hoy & Hmy). destruct (Hx z eq_refl) as [Z1 Z2].
      destruct (op_list s l y p hy (BUset us) Hl Hp Hoy Hmy u z a s' g' us O1 O2 eq_refl Z1 Z2 He) as [-> HC]. split; [done|]. by eapply changes_done.
  Qed.
End Ops.

(** ** Roots *)
Section Roots.
  Context `{Env}.
  Context (r : pystr) (Hrem : is_remote r = false) (Hr : r <> []).
  Record hold (g : gstate) (s : pst) (R : gset loc) : Prop := {
    hd_fresh : fresh r s;
    hd_able : forall a, a ∈ R -> able (objs_of g r) r s a;
    hd_apart : forall a b, a ∈ R -> b ∈ R -> a <> b -> apart (s_heap s) a b;
  }.
  Lemma fresh_rest s s' : fresh r s -> rest_same s s' -> heap_ok s' -> fresh r s'.
  Proof. intros (H1 & H2 & H3) (E & _) Hok. split; [done|]. unfold caches_ok in *. by rewrite E. Qed.
  Lemma hold_sub g s R R' : hold g s R -> R' ⊆ R -> hold g s R'.
  Proof. intros [H1 H2 H3] HS. split; [done|auto|auto]. Qed.
  Lemma hold_some g s R a : hold g s R -> a ∈ R -> is_Some (s_heap s !! a).
  Proof. intros HH Ha. eapply able_some. by apply (hd_able _ _ _ HH). Qed.
  Lemma hold_keeps g s R s' : hold g s R -> keeps (objs_of g r) r s s' ->
    hold g s' R /\ forall a, a ∈ R -> same (look (objs_of g r) (s_heap s') a) (look (objs_of g r) (s_heap s) a).
  Proof.
    intros HH HK. split; [split|].
    - eapply fresh_rest; [apply HH|apply HK|]. apply (kp_ok _ _ _ _ HK). apply HH.
    - intros a Ha. eapply able_keeps; [done|]. by apply HH.
    - intros a b Ha Hb Hn. apply (kp_apart _ _ _ _ HK); [by eapply hold_some..|]. by apply HH.
    - intros a Ha q. destruct (hd_able _ _ _ HH a Ha) as [H1 H2]. apply (ca_look _ _ _ _ _ (ca_old _ _ _ _ (kp_calm _ _ _ _ HK) a H1 H2)).
  Qed.
  Lemma hold_new g s R s' l : hold g s R -> keeps (objs_of g r) r s s' -> able (objs_of g r) r s' l -> (forall a, a ∈ R -> apart (s_heap s') a l) -> hold g s' ({[l]} ∪ R).
  Proof.
    intros HH HK Hl Ha. destruct (hold_keeps _ _ _ _ HH HK) as [[H1 H2 H3] _]. split; [done| |].
    - intros a [->%elem_of_singleton|HR]%elem_of_union; [done|auto].
    - intros a b [->%elem_of_singleton|HR]%elem_of_union [->%elem_of_singleton|HR2]%elem_of_union Hn; auto; [done|]. apply ap_sym. auto.
  Qed.
  Lemma hold_frames g s R R' s' l x : hold g s R -> frames (objs_of g r) r s s' l x -> R' ⊆ R -> l ∈ R' -> (forall z, x = Some z -> z ∈ R /\ z ∉ R') -> able (objs_of g r) r s' l ->
    hold g s' R' /\ forall a, a ∈ R' -> a <> l -> same (look (objs_of g r) (s_heap s') a) (look (objs_of g r) (s_heap s) a).
  Proof.
    intros HH HF HS Hl Hx Hal.
    assert (HO : forall a, a ∈ R' -> a <> l -> off (s_heap s) l x a).
    { intros a Ha Hn. split; [eapply hold_some; eauto|]. split; [apply HH; auto|]. intros z Hz. destruct (Hx z Hz) as [H1 H2]. apply HH; auto. by intros ->. }
    assert (HA : forall a, a ∈ R' -> able (objs_of g r) r s a) by (intros a Ha; apply HH; auto).
    split; [split|].
    - eapply fresh_rest; [apply HH|apply HF|apply HF].
    - intros a Ha. destruct (decide (a = l)) as [->|Hn]; [done|]. by apply (fm_one _ _ _ _ _ _ HF a); auto.
    - intros a b Ha Hb Hn. destruct (decide (a = l)) as [->|Hna].
      + destruct (fm_one _ _ _ _ _ _ HF b) as ((_ & H1 & _) & _); auto.
      + destruct (decide (b = l)) as [->|Hnb].
        * destruct (fm_one _ _ _ _ _ _ HF a) as ((_ & H1 & _) & _); auto. by apply ap_sym.
        * apply (fm_two _ _ _ _ _ _ HF); auto. apply HH; auto.
    - intros a Ha Hn. destruct (fm_one _ _ _ _ _ _ HF a) as (_ & _ & H1); auto.
  Qed.
  Lemma part_top c d : part_is c [] d -> same c d.
  Proof. intros [_ H2] q. change q with ([] ++ q) at 1. apply H2. intros [[p0 E] _]. by destruct p0. Qed.
  Lemma hold_op g s R l p o x a s' : hold g s R -> l ∈ R -> given x ⊆ R ∖ {[l]} -> op_done r g s l p o x a s' ->
    let R' := if is_ok a then R ∖ given x else R in
    hold g s' R' /\ l ∈ R' /\ (forall b, b ∈ R' -> b <> l -> same (look (objs_of g r) (s_heap s') b) (look (objs_of g r) (s_heap s) b)).
  Proof.
    intros HH Hl Hx (HF & Hal & _) R'.
    assert (HlR : l ∈ R') by (unfold R'; destruct (is_ok a); [|done]; set_solver).
    assert (HS : R' ⊆ R) by (unfold R'; destruct (is_ok a); set_solver).
    destruct (hold_frames g s R R' s' l (if is_ok a then x else None) HH HF HS HlR) as [H1 H2]; [|done|done].
    intros z Hz. unfold R'. destruct (is_ok a); [|done]. subst x. cbn in *. set_solver.
  Qed.

  (** new objects *)
  Lemma hold_grown g s R b : hold g s R -> kids_of b = [] -> (forall k vs, b = BVlist k vs -> vs = []) -> label_ok (label_of b) ->
    let s' := GraftFacts.grown s (fresh_obj b) in let l := s_next s in
    l ∉ R /\ hold g s' ({[l]} ∪ R) /\ (forall a, a ∈ R -> same (look (objs_of g r) (s_heap s') a) (look (objs_of g r) (s_heap s) a)) /\ same (look (objs_of g r) (s_heap s') l) (leaf (label_of b)).
  Proof.
    intros HH Hk Hv Hlb s' l. assert (Hok : heap_ok s) by apply (hd_fresh _ _ _ HH).
    assert (HlR : l ∉ R). { intros Hl. pose proof (hold_some _ _ _ _ HH Hl) as HS. pose proof (gw_none s Hok) as HN. unfold l in HS. rewrite HN in HS. by destruct HS. }
    pose proof (kp_quiet _ _ _ _ (gw_quiet (objs_of g r) r s b Hok Hk)) as HK. destruct (hold_keeps _ _ _ _ HH HK) as [_ HL].
    split; [done|]. split; [|split; [exact HL|]].
    - apply (hold_new g s R s' l HH HK); [split; [by apply gw_tidy|by apply gw_one]|]. intros a Ha. apply gw_apart; [done|done|by eapply hold_some].
    - intros q. unfold s', l. rewrite gw_look by done. by destruct q.
  Qed.
  Lemma hold_open g s R k ref : hold g s R -> complete (look_stored (objs_of g r) k ref) -> (k = KdNode LMrr -> r_class ref <> JStr (ps "FileTree")) ->
    let s' := PSt (<[s_next s := kid_obj r (k, ref)]> (s_heap s)) (N.succ (s_next s)) (s_caches s) (s_orefs s) (s_legacy s) (s_locks s) in let l := s_next s in
    l ∉ R /\ hold g s' ({[l]} ∪ R) /\ (forall a, a ∈ R -> same (look (objs_of g r) (s_heap s') a) (look (objs_of g r) (s_heap s) a)) /\ same (look (objs_of g r) (s_heap s') l) (look_stored (objs_of g r) k ref).
  Proof using All.
    intros HH Hco Hcl s' l. assert (Hok : heap_ok s) by apply (hd_fresh _ _ _ HH). pose proof (gw_none s Hok) as HN.
    assert (HlR : l ∉ R). { intros Hl. pose proof (hold_some _ _ _ _ HH Hl) as HS. unfold l in HS. rewrite HN in HS. by destruct HS. }
    assert (HT : tidy (objs_of g r) r s' l) by by eapply fresh_tidy.
    assert (Hself : s_heap s' !! l = Some (kid_obj r (k, ref))) by (cbn [s' s_heap]; by rewrite heap_insert, decide_True).
    assert (Hold : forall x : loc, is_Some (s_heap s !! x) -> s_heap s' !! x = s_heap s !! x).
    { intros x [o Ho]. cbn [s' s_heap]. rewrite heap_insert, decide_False; [done|]. intros <-. rewrite HN in Ho. done. }
    assert (HQ : quiet (objs_of g r) r s s') by (apply grow_quiet; [done|apply HT|done|cbn; lia|done]).
    pose proof (kp_quiet _ _ _ _ HQ) as HK. destruct (hold_keeps _ _ _ _ HH HK) as [_ HL].
    assert (Hone : forall p x, reach (s_heap s') l p = Some x -> x = l). { intros [|k2 p] x; [by intros [= <-]|]. cbn [reach]. by rewrite Hself. }
    split; [done|]. split; [|split; [exact HL|]].
    - apply (hold_new g s R s' l HH HK).
      + split; [done|]. intros p x o Hp Ho Hs. apply Hone in Hp as ->. rewrite Hself in Ho. injection Ho as <-. cbn [kid_obj o_hdr kid_hdr h_saved h_realm snd] in *. destruct (is_none_reference ref); [done|]. destruct (decide (r = [])) as [?|?]; [done|]. assert (E : match r with [] => ∅ | _ => {[ r ]} end = ({[ r ]} : gset pystr)) by (clear -Hr; by destruct r). split; [rewrite E; set_solver|done].
      + intros a Ha p q x Hp Hq. apply Hone in Hq as ->. rewrite (sb_reach_eq (s_heap s) (s_heap s') a p) in Hp.
        * apply (reach_some s p Hok) in Hp; [|by eapply hold_some]. unfold l in Hp; rewrite HN in Hp. by destruct Hp.
        * apply (grow_below s s' a Hok Hold). by eapply hold_some.
    - intros q. cbn [s' s_heap]. by rewrite fresh_look.
  Qed.
  (** writing *)
  Lemma hold_write g s R fuel l force m ref s' g' : hold g s R -> l ∈ R -> Spec_Write.writes fuel l (Some r) force m -> exec (m s) g = ((Ok ref, s'), g') ->
    objs_of g r ⊆ objs_of g' r /\ hold g' s' (R ∖ {[l]}) /\ (forall a, a ∈ R ∖ {[l]} -> same (look (objs_of g' r) (s_heap s') a) (look (objs_of g r) (s_heap s) a)) /\
    (tidy (objs_of g' r) r s' l -> hold g' s' R).
  Proof using All.
    intros HH Hl Hw He. destruct (hd_fresh _ _ _ HH) as (Hok & Hc & Hu). destruct (hd_able _ _ _ HH l Hl) as [HT HO].
    destruct (written_before r Hr fuel l force m s g ref s' g' Hw Hc Hu He) as (HG & Hc' & Hu').
    destruct (any_write r fuel l force m s g (Ok ref) s' g' Hr Hw Hok Hc He) as ((W1 & W2 & W3) & _ & _).
    assert (Hok' : heap_ok s') by by eapply frame_heap_ok.
    assert (HF : fresh r s') by done.
    assert (HE : forall a, a ∈ R ∖ {[l]} -> tidy (objs_of g' r) r s' a /\ forall q, look (objs_of g' r) (s_heap s') a q = look (objs_of g r) (s_heap s) a q).
    { intros a Ha. destruct (hd_able _ _ _ HH a) as [HTa HOa]; [set_solver|]. destruct (write_elsewhere r r fuel l force m s g (Ok ref) s' g' a Hr Hw Hc HTa) as (_ & _ & _ & E1 & E2); [apply HH; set_solver|done|done]. }
    assert (HA : forall a b, a ∈ R -> b ∈ R -> a <> b -> apart (s_heap s') a b).
    { intros a b Ha Hb Hn p q x. rewrite !(fo_reach (s_heap s) (s_heap s')) by by apply fr_on. by apply (hd_apart _ _ _ HH a b Ha Hb Hn). }
    split; [done|]. split; [|split].
    - split; [done| |].
      + intros a Ha. split; [by apply HE|]. eapply (write_one_realm r Hr); [done|done|]. apply HH. set_solver.
      + intros a b Ha Hb. apply HA; set_solver.
    - intros a Ha. exact (proj2 (HE a Ha)).
    - intros HT'. split; [done| |done]. intros a Ha. split; [|eapply (write_one_realm r Hr); [done|done|]; by apply HH]. destruct (decide (a = l)) as [->|Hn]; [done|]. apply HE. set_solver.
  Qed.

  (** a new root record *)
  Lemma record_end s u v m t : edited (GraftFacts.grown s (fresh_obj (BMrr u v None None))) (s_next s) (fresh_obj (BMrr u v m t)) = GraftFacts.grown s (fresh_obj (BMrr u v m t)).
  Proof. unfold edited, GraftFacts.grown, with_heap. cbn. by rewrite heap_ins2. Qed.
  Lemma record_again s l o1 o2 : edited (edited s l o1) l o2 = edited s l o2.
  Proof. unfold edited, with_heap. cbn. by rewrite heap_ins2. Qed.
  Lemma hold_record g s R u v m t : hold g s R -> uuid_ok u -> scalar_str v -> given m ⊆ R -> given t ⊆ R -> given m ## given t ->
    (forall a, m = Some a -> is_kind (s_heap s) a KdMeta) -> (forall a, t = Some a -> is_kind (s_heap s) a (KdNode LMeta)) ->
    let s' := GraftFacts.grown s (fresh_obj (BMrr (Some u) (Some v) m t)) in let l := s_next s in
    let C := look (objs_of g r) (s_heap s) in let C' := look (objs_of g r) (s_heap s') in
    l ∉ R /\ hold g s' ({[l]} ∪ R ∖ (given m ∪ given t)) /\ (forall a, a ∈ R ∖ (given m ∪ given t) -> same (C' a) (C a)) /\
    let d := leaf (LbMrr (Some u) (Some v)) in let d1 := match m with Some a => plug d KMeta (C a) | None => d end in
    match t with Some a => tree_set d1 (C a) (C' l) | None => same (C' l) d1 end.
  Proof using All.
    intros HH Hu Hv Hm Ht Hd Km Kt s' l C C'. assert (Hok : heap_ok s) by apply (hd_fresh _ _ _ HH).
    destruct (hold_grown g s R (BMrr (Some u) (Some v) None None) HH eq_refl) as (HlR & H1 & L1 & E1); [done|cbn; split; eexists; (split; [reflexivity|done])|].
    cbn [label_of] in E1. fold l in HlR, H1, E1.
    set (s1 := GraftFacts.grown s (fresh_obj (BMrr (Some u) (Some v) None None))) in *.
    assert (HS1 : forall a, is_Some (s_heap s !! a) -> s_heap s1 !! a = s_heap s !! a) by (intros a Ha; by apply gw_old).
    assert (Hy1 : s_heap s1 !! l = Some (fresh_obj (BMrr (Some u) (Some v) None None))) by apply gw_self.
    assert (Hl1 : l ∈ {[l]} ∪ R) by set_solver.
    assert (K1 : forall a k, a ∈ R -> is_kind (s_heap s) a k -> is_kind (s_heap s1) a k). { intros a k Ha (o & Ho & Hk). exists o. split; [|done]. rewrite HS1; [done|]. by eexists. }
    (* the metadata *)
    assert (H2 : exists R2, R2 = {[l]} ∪ R ∖ given m /\ hold g (edited s1 l (fresh_obj (BMrr (Some u) (Some v) m None))) R2 /\
      (forall a, a ∈ R ∖ given m -> same (look (objs_of g r) (s_heap (edited s1 l (fresh_obj (BMrr (Some u) (Some v) m None)))) a) (look (objs_of g r) (s_heap s1) a)) /\
      same (look (objs_of g r) (s_heap (edited s1 l (fresh_obj (BMrr (Some u) (Some v) m None)))) l) (match m with Some a => plug (leaf (LbMrr (Some u) (Some v))) KMeta (C a) | None => leaf (LbMrr (Some u) (Some v)) end) /\
      (forall a k, a ∈ R ∖ given m -> is_kind (s_heap s1) a k -> is_kind (s_heap (edited s1 l (fresh_obj (BMrr (Some u) (Some v) m None)))) a k)).
    { exists ({[l]} ∪ R ∖ given m). split; [done|]. destruct m as [a|].
      - cbn [given] in *. assert (HaR : a ∈ R) by set_solver.
        pose proof (op_more r g Hrem Hr s1 l l [] (Hdr None None true ∅) (BMrr (Some u) (Some v) None None) (hd_able _ _ _ H1 l Hl1) eq_refl Hy1 eq_refl (Some u) (Some v) None None (Some a) None OMeta KMeta a eq_refl) as HC.
        destruct HC as (o' & new & HE & Ee & Hn & Hop).
        { left. split; [done|]. split; [done|]. split; [done|]. split; [done|]. apply K1; [done|]. by apply Km. }
        { apply H1. set_solver. } { apply H1; [done|set_solver|]. intros <-. done. }
        assert (HD : op_done r g s1 l [] OMeta (Some a) (Ok tt) (edited s1 l (fresh_obj (BMrr (Some u) (Some v) (Some a) None)))) by (eapply changes_done; exists o', new; by split).
        assert (Hgv : given (Some a) ⊆ ({[l]} ∪ R) ∖ {[l]}) by (cbn [given]; set_solver).
        destruct (hold_op g s1 ({[l]} ∪ R) l [] OMeta (Some a) (Ok tt) _ H1 Hl1 Hgv HD) as (HH2 & _ & L2). cbn [is_ok given] in HH2, L2.
        split; [eapply hold_sub; [exact HH2|set_solver]|]. split; [intros b Hb; apply L2; set_solver|]. split.
        + destruct HD as (_ & _ & d & d' & (R1 & R2 & _) & Hop2). apply part_top in R1, R2. cbn [op_effect content_of] in Hop2. destruct Hop2 as [_ Hop2].
          eapply same_trans; [exact R2|]. eapply same_trans; [exact Hop2|]. intros [|k q]; cbn [plug]; rewrite <- R1, ?E1; [done|]. destruct (decide (KMeta = k)); [by apply L1|done].
        + intros b k Hb (o & Ho & Hk). exists o. split; [|done]. unfold edited. cbn [s_heap with_heap]. rewrite heap_insert, decide_False; [done|]. intros <-. set_solver.
      - cbn [given] in *. assert (Ee : edited s1 l (fresh_obj (BMrr (Some u) (Some v) None None)) = s1) by (apply record_end). rewrite Ee. split; [eapply hold_sub; [exact H1|set_solver]|]. split; [by intros b _|]. split; [done|]. done. }
    destruct H2 as (R2 & -> & H2 & L2 & E2 & K2). set (s2 := edited s1 l (fresh_obj (BMrr (Some u) (Some v) m None))) in *.
    split; [done|]. destruct t as [a|].
    - cbn [given] in *. assert (HaR : a ∈ R ∖ given m) by set_solver. assert (Hl2 : l ∈ {[l]} ∪ R ∖ given m) by set_solver.
      assert (Hy2 : s_heap s2 !! l = Some (fresh_obj (BMrr (Some u) (Some v) m None))) by apply et_obj'.
      pose proof (op_more r g Hrem Hr s2 l l [] (Hdr None None true ∅) (BMrr (Some u) (Some v) m None) (hd_able _ _ _ H2 l Hl2) eq_refl Hy2 eq_refl (Some u) (Some v) m None m (Some a) OTree KTree a eq_refl) as HC.
      destruct HC as (o' & new & HE & Ee & Hn & Hop).
      { right. split; [done|]. split; [done|]. split; [done|]. split; [done|]. apply K2; [done|]. apply K1; [set_solver|]. by apply Kt. }
      { apply H2. set_solver. } { apply H2; [done|set_solver|]. intros <-. set_solver. }
      assert (HD : op_done r g s2 l [] OTree (Some a) (Ok tt) (edited s2 l (fresh_obj (BMrr (Some u) (Some v) m (Some a))))) by (eapply changes_done; exists o', new; by split).
      assert (Es : edited s2 l (fresh_obj (BMrr (Some u) (Some v) m (Some a))) = s') by (unfold s2; rewrite record_again; apply record_end). rewrite Es in HD.
      assert (Hgv : given (Some a) ⊆ ({[l]} ∪ R ∖ given m) ∖ {[l]}) by (cbn [given]; set_solver).
      destruct (hold_op g s2 ({[l]} ∪ R ∖ given m) l [] OTree (Some a) (Ok tt) _ H2 Hl2 Hgv HD) as (HH3 & _ & L3). cbn [is_ok given] in HH3, L3.
      split; [eapply hold_sub; [exact HH3|set_solver]|]. split.
      + intros b Hb. eapply same_trans; [apply L3; set_solver|]. eapply same_trans; [apply L2; set_solver|]. apply L1. set_solver.
      + destruct HD as (_ & _ & d & d' & (P1 & P2 & _) & Hop2). apply part_top in P1, P2. cbn [op_effect content_of] in Hop2. destruct Hop2 as [_ Hop2].
        assert (HSa : same (look (objs_of g r) (s_heap s2) a) (C a)). { eapply same_trans; [by apply L2|]. apply L1. set_solver. }
        apply (tree_set_ext _ _ _ _ HSa) in Hop2. destruct Hop2 as [T1 T2]. cbv zeta. split; intros Hb.
        * eapply same_trans; [exact P2|]. eapply same_trans; [by apply T1|]. intros [|k q]; cbn [unplug]; rewrite <- P1, E2; [done|]. done.
        * eapply same_trans; [exact P2|]. eapply same_trans; [by apply T2|]. intros [|k q]; cbn [plug]; [by rewrite <- P1, E2|]. destruct (decide (KTree = k)); [done|]. by rewrite <- P1, E2.
    - cbn [given] in *. assert (Es : s2 = s') by apply record_end. rewrite Es in H2, L2, E2. split; [eapply hold_sub; [exact H2|set_solver]|]. split.
      + intros b Hb. eapply same_trans; [apply L2; set_solver|]. apply L1. set_solver.
      + exact E2.
  Qed.
End Roots.

(** ** Events *)
Section Events.
  Context `{Env}.
  Context (r : pystr) (Hrem : is_remote r = false) (Hr : r <> []).
  Notation view g s := (fun l => look (objs_of g r) (s_heap s) l).
  Lemma new_made lb m s g l s' g' : makes lb m -> exec (m s) g = ((Ok l, s'), g') ->
    exists b, lb = label_of b /\ kids_of b = [] /\ (forall k vs, b = BVlist k vs -> vs = []) /\ label_ok lb /\ l = s_next s /\ s' = GraftFacts.grown s (fresh_obj b) /\ g' = g.
  Proof.
    intros Hm He. destruct Hm.
    all: unfold new_metadata, new_file_tree, new_dataset_tree, new_version_list, new_tree_version_list, new_uuid_set in He; rewrite TreeEditFacts.x_new in He; injection He as <- <- <-.
    - exists (BMeta []). repeat (split; [done|]). split; [apply built_empty|]. done.
    - exists (BNode LMeta []). repeat (split; [done|]). done.
    - exists (BNode LMrr []). repeat (split; [done|]). done.
    - exists (BVlist false []). repeat (split; [done|]). split; [by intros ? ? [= _ <-]|]. done.
    - exists (BVlist true []). repeat (split; [done|]). split; [by intros ? ? [= _ <-]|]. done.
    - exists (BUset []). repeat (split; [done|]). done.
  Qed.
  Lemma step s g R e s' g' : hold r g s R -> does r s g R e s' g' -> hold r g' s' (roots e R) /\ effect e R (view g s) (view g' s').
  Proof using All.
    intros HH Hd. destruct Hd as [lb m l s' g' Hm He|u v m t l s' g' Hu Hv Hgm Hgt Hgd Km Kt He|k ref l s' g' Hco Hcl He|fuel l p y A m a s' g' Hl Hp Hc He|g' HO|fuel l p sn s' g' Hl He
      |fuel l p y o x m a s' g' Hl Hp Hx Hok Hc He|fuel l force m k ref s' g' Hl Hw Hk Hnk He|fuel l force ref s' g' Hl Hk He|l Hl|s' Hf]; cbn [roots].
    - destruct (new_made _ _ _ _ _ _ _ Hm He) as (b & -> & Hk & Hvs & Hlb & -> & -> & ->). destruct (hold_grown r g s R b HH Hk Hvs Hlb) as (H1 & H2 & H3 & H4).
      split; [done|]. split; [intros a _ Ha _; by apply H3|]. done.
    - unfold new_mrr in He. rewrite TreeEditFacts.x_new in He. injection He as <- <- <-.
      destruct (hold_record r Hrem Hr g s R u v m t HH Hu Hv Hgm Hgt Hgd Km Kt) as (H1 & H2 & H3 & H4). split; [done|]. split; [|split; [done|exact H4]].
      intros a Ha HaR _. apply H3. cbn [roots] in Ha. apply elem_of_union in Ha as [->%elem_of_singleton|Ha]; [done|done].
    - unfold object_at in He. rewrite (ReadFacts.x_new r g Hrem) in He. injection He as <- <- <-. destruct (hold_open r Hrem Hr g s R k ref HH Hco Hcl) as (H1 & H2 & H3 & H4).
      split; [done|]. split; [intros a _ Ha _; by apply H3|]. done.
    - destruct (use_soft r g Hrem Hr fuel y A m s Hc) as (a' & s2 & E & HK & _); [eapply able_reach; [by apply HH|done]|]. rewrite He in E. injection E as <- <- ->.
      destruct (hold_keeps r g s R s' HH HK) as [H1 H2]. split; [done|]. split; [|done]. intros b _ Hb _. by apply H2.
    - assert (HL : forall a, a ∈ R -> same (look (objs_of g' r) (s_heap s) a) (look (objs_of g r) (s_heap s) a)).
      { intros a Ha q. apply complete_look_mono; [done|]. apply (hd_able _ _ _ _ HH a Ha). }
      split; [|split; [intros a _ Ha _; by apply HL|done]]. split; [apply HH| |apply HH]. intros a Ha. destruct (hd_able _ _ _ _ HH a Ha) as [H1 H2]. split; [|done]. by eapply tidy_mono.
    - destruct (visit_quiet r g Hrem Hr fuel p s l) as (s2 & E & HQ); [by apply (hd_able _ _ _ _ HH l Hl)|]. rewrite He in E. injection E as -> <- ->.
      destruct (hold_keeps r g s R s' HH (kp_quiet _ _ _ _ HQ)) as [H1 H2]. split; [done|]. split; [|done]. intros b _ Hb _. by apply H2.
    - destruct (op_step r g Hrem Hr fuel s l y p o x m a s' g' (hd_able _ _ _ _ HH l Hl) Hp Hok Hc) as [-> HD]; [|done|].
      + intros z ->. cbn [given] in Hx. split; [apply HH; set_solver|]. apply HH; set_solver.
      + destruct (hold_op r Hrem Hr g s R l p o x a s' HH Hl Hx HD) as (H1 & H2 & H3). split; [done|]. split; [intros b Hb HbR Hn; by apply H3|].
        destruct HD as (_ & _ & d & d' & D1 & D2). by exists d, d'.
    - destruct (hold_write r Hrem Hr g s R fuel l force m ref s' g' HH Hl Hw He) as (H1 & H2 & H3 & H4). destruct (hd_fresh _ _ _ _ HH) as (Hok & Hc & Hu). destruct (hd_able _ _ _ _ HH l Hl) as [HT HO].
      destruct Hk as (o & Ho & Hk). destruct (written r Hr fuel l force m s g ref s' g' o Hw Hc Hu HT Ho) as (W & (HT' & _) & HL & HS); [by rewrite Hk|done|]. rewrite Hk in HS.
      split; [by apply H4|]. split; [|done]. intros a _ Ha _. destruct (decide (a = l)) as [->|Hn]; [done|]. apply H3. set_solver.
    - destruct (hold_write r Hrem Hr g s R fuel l force _ ref s' g' HH Hl (writes_any _ _ _ _) He) as (H1 & H2 & H3 & _). destruct (hd_fresh _ _ _ _ HH) as (Hok & Hc & Hu). destruct (hd_able _ _ _ _ HH l Hl) as [HT HO].
      destruct Hk as (o & Ho & Hk). split; [done|]. split; [intros a Ha _ _; by apply H3|].
      pose proof (tidy_mono _ _ _ _ _ H1 HT) as HT'. pose proof (complete_look_mono _ _ _ _ H1 (td_complete _ _ _ _ HT)) as HL. destruct (written_before r Hr fuel l force _ s g ref s' g' (writes_any _ _ _ _) Hc Hu He) as (_ & Hc' & Hu').
      destruct (write_shows r Hr (objs_of g' r) fuel l force s g ref s' g' o) as (_ & _ & HS); try done; [by apply uncached_cok|by apply uncached_completes|].
      rewrite Hk in HS. cbn [self_ref] in HS. intros q. by rewrite HS, HL.
    - split; [eapply hold_sub; [exact HH|set_solver]|]. split; [|done]. by intros a _ _ _.
    - split; [|split; [|done]].
      + split; [done| |]; intros ? ?; set_solver.
      + intros a Ha. cbn [roots] in Ha. set_solver.
  Qed.
  Lemma run_history es s g R : history r es s g R -> hold r g s R /\ accounts es R (view g s).
  Proof using All.
    induction 1 as [s g Hf|es s g R e s' g' Hh [IH1 IH2] Hd].
    - split; [split; [done|set_solver|set_solver]|apply acc_nil].
    - destruct (step s g R e s' g' IH1 Hd) as [H1 H2]. split; [done|]. by eapply acc_snoc.
  Qed.
  Lemma history_lemma es s g R : history r es s g R ->
    exists C, accounts es R C /\ forall l, l ∈ R ->
      (forall fuel p, fst (fst (exec (visit fuel l p s) g)) = Ok (C l p)) /\
      (forall k fuel force m ref s' g', is_kind (s_heap s) l k -> k <> KdVl true -> Spec_Write.writes fuel l (Some r) force m -> exec (m s) g = ((Ok ref, s'), g') ->
         forall s2 g2 fuel2 p, heap_ok s2 -> objs_of g' r ⊆ objs_of g2 r ->
         fst (fst (exec ((mlet a <- object_at k r ref; visit fuel2 a p) s2) g2)) = Ok (C l p)) /\
      (forall fuel force ref s' g', is_kind (s_heap s) l (KdVl true) -> exec (write_out fuel l (Some r) force s) g = ((Ok ref, s'), g') ->
         forall s2 g2 fuel2 p, heap_ok s2 -> objs_of g' r ⊆ objs_of g2 r ->
         fst (fst (exec ((mlet a <- object_at (KdVl true) r (Ref (JStr (ps "TreeVersionList")) (r_loc ref)); visit fuel2 a p) s2) g2)) = Ok (C l p)).
  Proof using All.
    intros Hh. destruct (run_history es s g R Hh) as [HH HA]. exists (view g s). split; [exact HA|]. intros l Hl.
    destruct (hd_fresh _ _ _ _ HH) as (Hok & Hc & Hu). destruct (hd_able _ _ _ _ HH l Hl) as [HT HO].
    assert (HV : forall fuel p, fst (fst (exec (visit fuel l p s) g)) = Ok (look (objs_of g r) (s_heap s) l p)).
    { intros fuel p. destruct (visit_quiet r g Hrem Hr fuel p s l HT) as (s1 & Hx & _). by rewrite Hx. }
    split; [exact HV|]. split.
    - intros k fuel force m ref s' g' (o & Ho & <-) Hk Hw He s2 g2 fuel2 p Hok2 HO2.
      destruct (C24_lemma r Hr Hrem fuel l force m s g ref s' g' o Hw Hc Hu HT Ho Hk He s2 g2 1%nat fuel2 p Hok2 HO2) as (lb & E1 & E2). rewrite HV in E1. injection E1 as ->. exact E2.
    - intros fuel force ref s' g' (o & Ho & Hk) He s2 g2 fuel2 p Hok2 HO2.
      destruct (C24_tvl_lemma r Hr Hrem fuel l force s g ref s' g' o Hc Hu HT Ho Hk He s2 g2 1%nat fuel2 p Hok2 HO2) as (lb & E1 & E2). rewrite HV in E1. injection E1 as ->. exact E2.
  Qed.
End Events.
