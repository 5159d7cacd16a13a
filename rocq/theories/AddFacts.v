(** Additions to trees whose parts are loaded on demand. *)
From Verif Require Import Base BaseFacts Path Spec_Path PathFacts Json Refs Meta Spec_Meta GitText Spec_Git Git Spec_Store State BlobCache ObjRef Objects Spec_Look Spec_Heap Spec_Versions Spec_Write ExecFacts LoadFacts PeekFacts TreeFacts TreeEditFacts VersionFacts LookFacts Spec_Content ContentFacts WriteFacts StoreFacts SaveFacts WriteBackFacts WriteAllFacts ReadBackFacts EditFacts GraftFacts.

(** Something is on the way from [p] to [P], or at [P]. *)
Definition occupied (O : store) (h : heap) (l : loc) (p P : list key) : Prop :=
  exists q lb, extends P q /\ extends q p /\ q <> p /\ look O h l q = Seen lb /\ (q = P \/ forall c, lb <> LbNode c).
Record grafted (O : store) (r : pystr) (s s' : pst) (l : loc) (p P : list key) (child : loc) (c : leafcls) : Prop := {
  gf_rest : rest_same s s';
  gf_tidy : tidy O r s' l;
  gf_one : one_realm r (s_heap s') l;
  gf_free : ~ occupied O (s_heap s) l p P;
  gf_new : forall q, look O (s_heap s') l (P ++ q) = look O (s_heap s) child q;
  gf_dir : forall q, extends q p -> extends P q -> q <> P -> look O (s_heap s') l q = Seen (LbNode c);
  gf_old : forall q, ~ extends q P -> (~ extends P q \/ look O (s_heap s) l q <> Absent) -> look O (s_heap s') l q = look O (s_heap s) l q;
  gf_reach : reach (s_heap s') l P = Some child;
  gf_dirty : dirty (s_heap s') l;
}.
Lemma extends_refl {A} (p : list A) : extends p p.
Proof. exists []. by rewrite app_nil_r. Qed.
Lemma extends_trans {A} (a b c : list A) : extends a b -> extends b c -> extends a c.
Proof. intros [x ->] [y ->]. exists (y ++ x). by rewrite app_assoc. Qed.
Lemma extends_snoc {A} (p q : list A) k : extends q p -> q <> p -> extends (p ++ k) q -> length k = 1%nat -> q = p ++ k.
Proof.
  intros [x ->] Hn [y E] Hk. rewrite <- app_assoc in E. apply app_inv_head in E. destruct x as [|a x]; [by rewrite app_nil_r in Hn|]. subst k. rewrite app_length in Hk. cbn in Hk.
  destruct x, y; cbn in Hk; try lia. done.
Qed.
Lemma between {A} (p q : list A) e rest : extends q p -> q <> p -> extends (p ++ e :: rest) q -> extends q (p ++ [e]).
Proof.
  intros [x ->] Hn [y E]. rewrite <- app_assoc in E. apply app_inv_head in E. destruct x as [|a x]; [by rewrite app_nil_r in Hn|]. cbn in E. injection E as <- _.
  exists x. by rewrite <- app_assoc.
Qed.
Lemma lab_node O r s x o lb : tidy O r s x -> s_heap s !! x = Some o -> look O (s_heap s) x [] = Seen lb -> is_node o = true <-> exists c, lb = LbNode c.
Proof.
  intros HT Ho Hl. pose proof (look_kind _ _ _ _ _ Ho Hl) as Hk. unfold is_node. split.
  - intros Hn. destruct (o_body o); try done. destruct lb; try done. eauto.
  - intros [c ->]. destruct (o_body o); done.
Qed.

Section Add.
  Context `{Env}.
  Context (r : pystr) (g : gstate) (Hrem : is_remote r = false) (Hr : r <> []).
  Notation O := (objs_of g r).

  Lemma add_at n : forall fuel l y p child path s c hx d lbc,
    tidy O r s l -> one_realm r (s_heap s) l -> reach (s_heap s) l p = Some y -> lastk p = false -> s_heap s !! y = Some (Obj hx (BNode c d)) ->
    wfp path -> all_parts path <> [] -> Forall storable_name (all_parts path) -> (length (all_parts path) <= n)%nat ->
    tidy O r s child -> one_realm r (s_heap s) child -> apart (s_heap s) l child -> look O (s_heap s) child [] = Seen lbc -> fits_in c lbc ->
    exists res s', exec (add_child_at_n n fuel y child path s) g = ((res, s'), g) /\
      let P := p ++ map KName (all_parts path) in
      match res with
      | Ok _ => grafted O r s s' l p P child c
      | Err e => e = ValueError /\ quiet O r s s' /\ occupied O (s_heap s) l p P
      end.
  Proof using Hrem Hr.
    induction n as [|n IH]; intros fuel l y p child path s c hx d lbc HT H1 Hp Hlk Hy Hw Hne Hst Hn HC HC1 Hap Hlc Hfit.
    { destruct (all_parts path); [done|cbn in Hn; lia]. }
    cbn [add_child_at_n]. rewrite wfp_all in * by done. destruct (p_parts path) as [|e rest] eqn:Ep; [done|]. clear Hne.
    pose proof Hw as [_ Hg]. rewrite Ep in Hg. apply List.Forall_cons_iff in Hg as [Hge Hgr]. apply List.Forall_cons_iff in Hst as [Hse Hsr].
    destruct (get_child_quiet r g Hrem Hr fuel s y hx c d (tidy_reach _ _ _ _ _ _ HT Hp) Hy) as (s1 & hx1 & d1 & HQ & Hy1 & Hm1 & Hgc).
    pose proof (tidy_some r g _ _ HT) as Sl. pose proof (tidy_some r g _ _ HC) as Sc.
    assert (HT1 : tidy O r s1 l) by (by eapply qu_tidy; [exact HQ| |]). assert (HO1 : one_realm r (s_heap s1) l) by (by eapply qu_one; [exact HQ| |]).
    assert (HCt : tidy O r s1 child) by (by eapply qu_tidy; [exact HQ| |]). assert (HCo : one_realm r (s_heap s1) child) by (by eapply qu_one; [exact HQ| |]).
    assert (Hap1 : apart (s_heap s1) l child) by (by apply (gs_apart _ _ (qu_good _ _ _ _ HQ))).
    assert (HL : forall q, look O (s_heap s1) l q = look O (s_heap s) l q) by (intros q; by eapply qu_look; [exact HQ|]).
    assert (HLc : forall q, look O (s_heap s1) child q = look O (s_heap s) child q) by (intros q; by eapply qu_look; [exact HQ|]).
    assert (Hp1 : reach (s_heap s1) l p = Some y) by by eapply qu_reach.
    assert (Hlc1 : look O (s_heap s1) child [] = Seen lbc) by by rewrite HLc.
    assert (HW : forall q, look O (s_heap s) l (p ++ q) = look O (s_heap s1) y q) by (intros q; rewrite <- HL; by apply reach_way).
    assert (HR1 : rest_same s s1) by apply (lo_rest _ _ (gs_loads _ _ (qu_good _ _ _ _ HQ))).
    assert (Hpp : look O (s_heap s) l p = Seen (LbNode c)).
    { rewrite <- (app_nil_r p), HW. cbn [look]. rewrite Hy1. cbn [o_hdr o_body]. by rewrite Hm1. }
    rewrite x_bind, Hgc. cbn beta iota. cbn [map].
    destruct (dget d1 e) as [x|] eqn:Ed.
    - (* there is an entry *)
      assert (Hdk : dget (kids_of (BNode c d1)) (KName e) = Some x) by by rewrite kids_names.
      destruct (tidy_kid_label O r s1 y _ (KName e) x (tidy_reach _ _ _ _ _ _ HT1 Hp1) Hy1 Hm1 Hdk eq_refl) as (ox & lb & Hox & Hlx & Hlkx & Hpo).
      assert (HTx : tidy O r s1 x) by (by eapply tidy_kid; [exact (tidy_reach _ _ _ _ _ _ HT1 Hp1)|exact Hy1| |exact Hdk]).
      assert (Hxx : forall q, look O (s_heap s) l (p ++ KName e :: q) = look O (s_heap s1) x q).
      { intros q. rewrite HW. cbn [look]. rewrite Hy1. cbn [o_hdr o_body]. rewrite Hm1, Hdk. done. }
      pose proof (lab_node _ _ _ _ _ _ HTx Hox Hlx) as Hnode.
      destruct rest as [|e2 rest].
      + assert (Hocc : occupied O (s_heap s) l p (p ++ [KName e])).
        { exists (p ++ [KName e]), lb. split_and!; [apply extends_refl|by eexists| |by rewrite Hxx|by left]. intros E. apply (f_equal length) in E. rewrite app_length in E. cbn in E. lia. }
        rewrite x_bind, (x_is_node _ _ _ _ Hox). cbn beta iota. destruct (is_node ox).
        * exists (Err ValueError), s1. split; [done|]. done.
        * rewrite (x_add_child _ _ _ _ _ _ _ _ _ Hge Hy1 Hm1), Ed. exists (Err ValueError), s1. split; [done|]. done.
      + rewrite x_bind, x_ret. cbn beta iota. rewrite x_bind, (x_is_node _ _ _ _ Hox). cbn beta iota. destruct (is_node ox) eqn:Enx.
        2:{ exists (Err ValueError), s1. split; [done|]. split_and!; [done|done|]. exists (p ++ [KName e]), lb. split_and!.
            - exists (map KName (e2 :: rest)). by rewrite <- app_assoc.
            - by eexists.
            - intros E. apply (f_equal length) in E. rewrite app_length in E. cbn in E. lia.
            - by rewrite Hxx.
            - right. intros c' ->. destruct Hnode as [_ Hx]. specialize (Hx (ex_intro _ c' eq_refl)). done. }
        destruct Hnode as [Hnode _]. destruct (Hnode eq_refl) as [c' ->]. cbn in Hpo. destruct Hpo as [_ ->].
        destruct (kind_node ox c) as [dx Ex]; [by rewrite <- Hlkx|].
        destruct (parts_again (e2 :: rest) Hgr) as [Hall Hwf].
        destruct (IH fuel l x (p ++ [KName e]) child (MetadataPath [AStr (join [slash] (e2 :: rest))]) s1 c (o_hdr ox) dx lbc) as (res & s' & Hx & HR); try done; try (by rewrite Hall).
        * rewrite reach_app, Hp1. cbn [reach]. rewrite Hy1. cbn [o_hdr o_body]. by rewrite Hm1, Hdk.
        * apply lastk_name.
        * by rewrite <- Ex.
        * rewrite Hall. cbn in Hn |- *. lia.
        * exists res, s'. split; [done|]. rewrite Hall in HR. cbn zeta in HR |- *. rewrite <- app_assoc in HR. cbn [app] in HR. set (P := p ++ KName e :: map KName (e2 :: rest)) in *.
          destruct res as [[]|err].
          -- destruct HR as [G1 G2 G3 G4 G5 G6 G7 G8 G9]. split; try done.
             ++ by eapply rs_trans.
             ++ intros (q & lb & O1 & O2 & O3 & O4 & O5). destruct (decide (q = p ++ [KName e])) as [->|Hq].
                ** rewrite Hxx, Hlx in O4. injection O4 as <-. destruct O5 as [O5|O5]; [|by apply (O5 c)]. unfold P in O5. apply app_inv_head in O5. done.
                ** apply G4. exists q, lb. split_and!; [done| |done|by rewrite HL|done]. by eapply between.
             ++ intros q. by rewrite <- HLc.
             ++ intros q Q1 Q2 Q3. destruct (decide (q = p)) as [->|Hq].
                ** rewrite G7; [by rewrite HL| |right; by rewrite HL, Hpp]. intros Hq. destruct Q2 as [z Ez]. destruct Hq as [z2 Ez2]. rewrite Ez in Ez2. rewrite <- app_assoc in Ez2.
                   apply (f_equal length) in Ez2. rewrite !app_length in Ez2. destruct z; [by rewrite app_nil_r in Ez|cbn in Ez2; lia].
                ** apply G6; [|done|done]. by eapply between.
             ++ intros q Q1 Q2. rewrite <- HL in Q2. rewrite <- HL. by apply G7.
          -- destruct HR as (-> & HQ2 & (q & lb & O1 & O2 & O3 & O4 & O5)). split_and!; [done|by eapply qu_trans|]. exists q, lb. rewrite HL in O4.
             assert (Hlen : (length p < length q)%nat). { destruct O2 as [z ->]. rewrite !app_length. cbn. lia. }
             split_and!; try done; [|by intros ->; lia]. eapply extends_trans; [exact O2|]. by eexists.
    - (* there is no entry *)
      assert (Hdk : dget (kids_of (BNode c d1)) (KName e) = None) by by rewrite kids_names.
      assert (Habs : forall q, look O (s_heap s) l (p ++ KName e :: q) = Absent).
      { intros q. rewrite HW. cbn [look]. rewrite Hy1. cbn [o_hdr o_body]. by rewrite Hm1, Hdk. }
      assert (Hfree : ~ occupied O (s_heap s) l p (p ++ KName e :: map KName rest)).
      { intros (q & lb & O1 & O2 & O3 & O4 & O5). destruct (between _ _ _ _ O2 O3 O1) as [z ->]. rewrite <- app_assoc in O4. cbn [app] in O4. by rewrite Habs in O4. }
      destruct rest as [|e2 rest].
      + cbn [map]. rewrite x_bind, x_ret. cbn beta iota. rewrite (x_add_child _ _ _ _ _ _ _ _ _ Hge Hy1 Hm1), Ed.
        eexists (Ok tt), _. split; [reflexivity|]. cbn zeta. change (with_heap s1 _) with (graft s1 y hx1 c d1 e child).
        pose proof (graft_tidy O r s1 l y p hx1 c d1 e child lbc HT1 HO1 Hp1 Hlk Hy1 Hm1 Ed Hse HCt HCo Hap1 Hlc1 Hfit) as GT.
        split.
        * exact HR1.
        * exact GT.
        * exact (graft_one O r s1 l y p hx1 c d1 e child lbc HT1 HO1 Hp1 Hlk Hy1 Hm1 Ed Hse HCt HCo Hap1 Hlc1 Hfit).
        * exact Hfree.
        * intros q. rewrite <- app_assoc. cbn [app]. rewrite <- HLc. exact (graft_look O r s1 l y p hx1 c d1 e child lbc HT1 HO1 Hp1 Hlk Hy1 Hm1 Ed Hse HCt HCo Hap1 Hlc1 Hfit q).
        * intros q Q1 Q2 Q3. assert (q = p) as ->. { destruct (decide (q = p)); [done|]. exfalso. apply Q3. by eapply extends_snoc. }
          rewrite (graft_off O r s1 l y p hx1 c d1 e child lbc HT1 HO1 Hp1 Hlk Hy1 Hm1 Ed Hse HCt HCo Hap1 Hlc1 Hfit); [by rewrite HL|].
          intros [z Ez]. apply (f_equal length) in Ez. rewrite !app_length in Ez. cbn in Ez. lia.
        * intros q Q1 _. rewrite <- HL. exact (graft_off O r s1 l y p hx1 c d1 e child lbc HT1 HO1 Hp1 Hlk Hy1 Hm1 Ed Hse HCt HCo Hap1 Hlc1 Hfit q Q1).
        * exact (graft_reach O r s1 l y p hx1 c d1 e child lbc HT1 HO1 Hp1 Hlk Hy1 Hm1 Ed Hse HCt HCo Hap1 Hlc1 Hfit).
        * exists p, y. unfold graft. cbn [s_heap with_heap]. split.
          -- rewrite <- (app_nil_r p). rewrite (up_reach_below (s_heap s1) y _ p l [] Hp1); [done|]. intros q Hq. by apply (td_unshared _ _ _ _ HT1 q p y).
          -- eexists. rewrite heap_insert, decide_True by done. split; [done|]. done.
      + rewrite x_bind, x_bind, (x_children _ _ _ _ _ _ Hy1). cbn beta iota. rewrite x_bind, x_new. cbn beta iota. cbn [fst].
        change (PSt _ _ _ _ _ _) with (grown s1 (fresh_obj (BNode c []))). set (s2 := grown s1 (fresh_obj (BNode c []))). set (y2 := s_next s1).
        assert (Hok1 : heap_ok s1) by apply HT1.
        assert (Hv : forall k vs, BNode c [] = BVlist k vs -> vs = []) by done.
        pose proof (gw_quiet O r s1 (BNode c []) Hok1 eq_refl) as HQ2. fold s2 in HQ2.
        pose proof (tidy_some r g _ _ HT1) as Sl1. pose proof (tidy_some r g _ _ HCt) as Sc1.
        assert (HT2 : tidy O r s2 l) by (by eapply qu_tidy; [exact HQ2| |]). assert (HO2 : one_realm r (s_heap s2) l) by (by eapply qu_one; [exact HQ2| |]).
        assert (HCt2 : tidy O r s2 child) by (by eapply qu_tidy; [exact HQ2| |]). assert (HCo2 : one_realm r (s_heap s2) child) by (by eapply qu_one; [exact HQ2| |]).
        assert (Hap2 : apart (s_heap s2) l child) by (by apply (gs_apart _ _ (qu_good _ _ _ _ HQ2))).
        assert (HL2 : forall q, look O (s_heap s2) l q = look O (s_heap s) l q) by (intros q; rewrite <- HL; by eapply qu_look; [exact HQ2|]).
        assert (HLc2 : forall q, look O (s_heap s2) child q = look O (s_heap s) child q) by (intros q; rewrite <- HLc; by eapply qu_look; [exact HQ2|]).
        assert (Hp2 : reach (s_heap s2) l p = Some y) by by eapply qu_reach.
        assert (Hy2 : s_heap s2 !! y = Some (Obj hx1 (BNode c d1))). { rewrite <- Hy1. apply gw_old; [done|]. rewrite Hy1. by eexists. }
        assert (Hlab : label_ok (LbNode c)). { destruct (td_complete _ _ _ _ HT p) as (_ & C & _). by apply C. }
        assert (HNt : tidy O r s2 y2) by (apply (gw_tidy O r s1 (BNode c []) Hok1 eq_refl Hv Hlab)).
        assert (HNo : one_realm r (s_heap s2) y2) by (apply (gw_one r s1 (BNode c []) eq_refl)).
        assert (HNa : apart (s_heap s2) l y2) by (apply (gw_apart s1 (BNode c []) Hok1 eq_refl l Sl1)).
        assert (HNc : apart (s_heap s2) child y2) by (apply (gw_apart s1 (BNode c []) Hok1 eq_refl child Sc1)).
        assert (HNl : forall q, look O (s_heap s2) y2 q = match q with [] => Seen (LbNode c) | _ => Absent end) by (intros q; apply (gw_look O s1 (BNode c []) eq_refl q)).
        assert (HNf : fits_in c (LbNode c)) by done. pose proof (HNl []) as HN0. cbn in HN0.
        rewrite x_bind, (x_add_child fuel y hx1 c d1 e y2 s2 g Hge Hy2 Hm1), Ed. cbn beta iota. rewrite x_ret. cbn beta iota.
        change (with_heap s2 _) with (graft s2 y hx1 c d1 e y2). set (s3 := graft s2 y hx1 c d1 e y2).
        pose proof (graft_tidy O r s2 l y p hx1 c d1 e y2 (LbNode c) HT2 HO2 Hp2 Hlk Hy2 Hm1 Ed Hse HNt HNo HNa HN0 HNf) as HT3. fold s3 in HT3.
        pose proof (graft_one O r s2 l y p hx1 c d1 e y2 (LbNode c) HT2 HO2 Hp2 Hlk Hy2 Hm1 Ed Hse HNt HNo HNa HN0 HNf) as HO3. fold s3 in HO3.
        pose proof (graft_look O r s2 l y p hx1 c d1 e y2 (LbNode c) HT2 HO2 Hp2 Hlk Hy2 Hm1 Ed Hse HNt HNo HNa HN0 HNf) as HL3. fold s3 in HL3.
        pose proof (graft_off O r s2 l y p hx1 c d1 e y2 (LbNode c) HT2 HO2 Hp2 Hlk Hy2 Hm1 Ed Hse HNt HNo HNa HN0 HNf) as HF3. fold s3 in HF3.
        pose proof (graft_reach O r s2 l y p hx1 c d1 e y2 (LbNode c) HT2 HO2 Hp2 Hlk Hy2 Hm1 Ed Hse HNt HNo HNa HN0 HNf) as HR3. fold s3 in HR3.
        pose proof (graft_below O r s2 l y p hx1 c d1 e y2 (LbNode c) HT2 HO2 Hp2 Hlk Hy2 Hm1 Ed Hse HNt HNo HNa HN0 HNf child Hap2) as HB3. fold s3 in HB3.
        assert (HNc' : apart (s_heap s2) y2 child) by (intros a b z Ha Hb; by apply (HNc b a z)).
        pose proof (graft_apart O r s2 l y p hx1 c d1 e y2 (LbNode c) HT2 HO2 Hp2 Hlk Hy2 Hm1 Ed Hse HNt HNo HNa HN0 HNf child Hap2 HNc') as HA3. fold s3 in HA3.
        assert (Hy3 : s_heap s3 !! y2 = Some (Obj (Hdr None None true ∅) (BNode c []))).
        { cbn [s3 graft s_heap with_heap]. rewrite heap_insert, decide_False; [apply (gw_self s1 (BNode c []))|]. intros ->. pose proof (proj1 (Hok1 _ _ Hy1)) as HH. unfold y2 in HH. lia. }
        rewrite x_bind, (x_is_node _ _ _ _ Hy3). cbn beta iota. cbn [is_node o_body].
        destruct (parts_again (e2 :: rest) Hgr) as [Hall Hwf].
        assert (HLc3 : forall q, look O (s_heap s3) child q = look O (s_heap s) child q) by (intros q; rewrite <- HLc2; by apply fo_look, sb_fo).
        destruct (IH fuel l y2 (p ++ [KName e]) child (MetadataPath [AStr (join [slash] (e2 :: rest))]) s3 c (Hdr None None true ∅) [] lbc) as (res & s' & Hx & HR); try done; try (by rewrite Hall).
        * apply lastk_name.
        * rewrite Hall. cbn in Hn |- *. lia.
        * eapply tidy_same; [exact HCt2|apply HT3|done].
        * by eapply sb_one.
        * by rewrite HLc3.
        * exists res, s'. split; [done|]. rewrite Hall in HR. cbn zeta in HR |- *. rewrite <- app_assoc in HR. cbn [app] in HR. set (P := p ++ KName e :: map KName (e2 :: rest)) in *.
          assert (Hpe : extends P (p ++ [KName e])) by (exists (map KName (e2 :: rest)); by rewrite <- app_assoc).
          destruct res as [[]|err].
          -- destruct HR as [G1 G2 G3 G4 G5 G6 G7 G8 G9]. split; try done.
             ++ eapply rs_trans; [exact HR1|exact G1].
             ++ intros q. by rewrite <- HLc3.
             ++ intros q Q1 Q2 Q3. destruct (decide (q = p)) as [->|Hq].
                ** assert (Hn3 : ~ extends p (p ++ [KName e])). { intros [z Ez]. apply (f_equal length) in Ez. rewrite !app_length in Ez. cbn in Ez. lia. }
                   rewrite G7; [by rewrite HF3, HL2| |right; by rewrite HF3, HL2, Hpp]. intros Hq. apply Hn3. by eapply extends_trans.
                ** apply G6; [|done|done]. by eapply between.
             ++ intros q Q1 Q2. destruct (decide (extends q (p ++ [KName e]))) as [[z Ez]|Hq].
                ** destruct z as [|k z]; [rewrite app_nil_r in Ez; subst q; rewrite Habs in Q2; destruct Q2 as [Q2|Q2]; done|].
                   assert (HQ3 : look O (s_heap s3) l q = Absent) by (rewrite Ez, <- app_assoc; cbn [app]; by rewrite HL3, HNl).
                   destruct Q2 as [Q2|Q2].
                   --- rewrite G7 by auto. rewrite HQ3, Ez, <- app_assoc. cbn [app]. by rewrite Habs.
                   --- exfalso. apply Q2. rewrite Ez, <- app_assoc. apply Habs.
                ** rewrite G7; [by rewrite HF3, HL2|done|]. rewrite HF3, HL2 by done. done.
          -- exfalso. destruct HR as (_ & _ & (q & lb & O1 & O2 & O3 & O4 & O5)). destruct O2 as [z ->]. rewrite <- app_assoc in O4. cbn [app] in O4. rewrite HL3, HNl in O4.
             destruct z; [by rewrite app_nil_r in O3|done].
  Qed.
End Add.
