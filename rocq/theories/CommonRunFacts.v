(** Look-ups of root records return, if all is in memory (C43). *)
From Verif Require Import Base BaseFacts Path Spec_Path PathFacts Json Refs Meta GitText Git GitFacts State BlobCache ObjRef Objects ExecFacts Common
  Spec_Look Spec_Heap Spec_Versions Spec_Dataset Spec_Write Spec_Common WriteFacts LoadFacts PeekFacts TreeEditFacts VersionFacts TreeFacts DatasetFacts ContentFacts CommonFacts.

Section Ready.
  Context `{Env}.
  Implicit Types D : loc -> Prop.
  Definition fresh (s : pst) : Prop := forall z : loc, (s_next s <= z)%N -> s_heap s !! z = None.
  Lemma ok_fresh s : heap_ok s -> fresh s.
  Proof. intros Hok z Hz. destruct (s_heap s !! z) as [o|] eqn:E; [|done]. destruct (Hok z o E) as [Hl _]. lia. Qed.
  (** things of [D] stay what they are *)
  Definition stay D h D' h' : Prop := forall x k, is_a D h x k -> is_a D' h' x k.
  Lemma stay_trans D0 h0 D1 h1 D2 h2 : stay D0 h0 D1 h1 -> stay D1 h1 D2 h2 -> stay D0 h0 D2 h2.
  Proof. intros A B x k Hx. by apply B, A. Qed.
  Lemma fit_stay D h D' h' b : stay D h D' h' -> parts_fit D h b -> parts_fit D' h' b.
  Proof.
    intros Hs. destruct b as [| |[] d| |[] vs|d]; cbn; try done.
    - intros Hf e x Hd. by apply Hs, (Hf e).
    - intros Hf v p r Hr. destruct (Hf v p r Hr) as (t & Ht & Hk). exists t. split; [done|]. by apply Hs.
    - intros Hf u x Hd. by apply Hs, (Hf u).
  Qed.
  Lemma im_put D s l hx b b' : in_memory D (s_heap s) -> D l -> s_heap s !! l = Some (Obj hx b) -> kind_of b' = kind_of b -> parts_fit D (s_heap s) b' ->
    let h' := <[l := Obj (hd_saved ∅ hx) b']> (s_heap s) in in_memory D h' /\ stay D (s_heap s) D h'.
  Proof.
    intros Hi Hl Ho Hk Hf h'. assert (Hs : stay D (s_heap s) D h').
    { intros x k [Hx (o & Hox & Hkx)]. split; [done|]. unfold h'. rewrite heap_insert. case_decide as E; [|by exists o]. subst x. rewrite Ho in Hox. injection Hox as <-. eexists. split; [done|]. cbn in *. congruence. }
    split; [|done]. intros x Hx. destruct (Hi x Hx) as (o & Hox & Hm & Hfo). unfold h' at 1. rewrite heap_insert. case_decide as E.
    - subst x. rewrite Ho in Hox. injection Hox as <-. eexists. split; [done|]. split; [done|]. by eapply fit_stay.
    - exists o. split; [done|]. split; [done|]. by eapply fit_stay.
  Qed.
  Definition and_new D (x : loc) : loc -> Prop := fun y => D y \/ y = x.
  Lemma im_new D s b : in_memory D (s_heap s) -> fresh s -> parts_fit D (s_heap s) b ->
    let h' := <[s_next s := Obj (Hdr None None true ∅) b]> (s_heap s) in
    in_memory (and_new D (s_next s)) h' /\ stay D (s_heap s) (and_new D (s_next s)) h' /\ is_a (and_new D (s_next s)) h' (s_next s) (kind_of b).
  Proof.
    intros Hi Hfr Hf h'.
    assert (Hold : forall (x : loc) o, s_heap s !! x = Some o -> h' !! x = Some o).
    { intros x o Hx. unfold h'. rewrite heap_insert, decide_False; [done|]. intros <-. rewrite (Hfr (s_next s)) in Hx by lia. done. }
    assert (Hs : stay D (s_heap s) (and_new D (s_next s)) h').
    { intros x k [Hx (o & Hox & Hkx)]. split; [by left|]. exists o. split; [by apply Hold|done]. }
    split; [|split; [done|]].
    - intros x [Hx| ->].
      + destruct (Hi x Hx) as (o & Hox & Hm & Hfo). exists o. split; [by apply Hold|]. split; [done|]. by eapply fit_stay.
      + eexists. unfold h' at 1. rewrite heap_insert, decide_True by done. split; [done|]. split; [done|]. cbn [o_body]. by eapply fit_stay.
    - split; [by right|]. eexists. unfold h'. rewrite heap_insert, decide_True by done. split; done.
  Qed.
  Lemma im_get D h x k : in_memory D h -> is_a D h x k -> exists hx b, h !! x = Some (Obj hx b) /\ h_mapped hx = true /\ kind_of b = k /\ parts_fit D h b.
  Proof. intros Hi [Hx (o & Ho & Hk)]. destruct (Hi x Hx) as ([hx b] & Ho' & Hm & Hf). rewrite Ho in Ho'. injection Ho' as ->. by exists hx, b. Qed.

  Lemma im_alloc D b s g x s' g' : in_memory D (s_heap s) -> fresh s -> parts_fit D (s_heap s) b -> exec (new_obj b None None s) g = ((Ok x, s'), g') ->
    exists D', in_memory D' (s_heap s') /\ stay D (s_heap s) D' (s_heap s') /\ is_a D' (s_heap s') x (kind_of b) /\ g' = g.
  Proof. intros Hi Hf Hp He. rewrite TreeEditFacts.x_new in He. injection He as <- <- <-. destruct (im_new D s b Hi Hf Hp) as (A1 & A2 & A3). by exists (and_new D (s_next s)). Qed.

  (** a step of a run that works in memory *)
  Definition runs D (s : pst) (s' : pst) (Q : (loc -> Prop) -> Prop) : Prop :=
    exists D', in_memory D' (s_heap s') /\ stay D (s_heap s) D' (s_heap s') /\ Q D'.

  Lemma im_dvl D fuel us u s g : wf s -> in_memory D (s_heap s) -> is_a D (s_heap s) us KdUs ->
    exists x s', exec (dataset_version_list fuel us u true s) g = ((Ok (Some x), s'), g) /\ runs D s s' (fun D' => is_a D' (s_heap s') x (KdVl false)).
  Proof.
    intros Hw Hi Hus. destruct (im_get _ _ _ _ Hi Hus) as (hx & b & Ho & Hm & Hk & Hf). destruct b as [| | | | |d]; try done.
    destruct (dget d u) as [x|] eqn:Ed.
    - pose proof (Hf u x Ed) as Hx. exists x, s. split; [|exists D; split; [done|split; [by intros ? ? ?|done]]]. apply rp_dvl; [by exists hx, d|].
      destruct (im_get _ _ _ _ Hi Hx) as (hy & c & Hy & Hmy & _). by eexists.
    - unfold dataset_version_list, uuids, uuid_entries. rewrite !x_bind, (x_mapped_noop _ _ _ _ _ Ho Hm). cbn beta iota.
      rewrite !x_bind, x_getobj, Ho. cbn beta iota. cbn [o_body]. rewrite x_ret. cbn beta iota. rewrite x_ret. cbn beta iota.
      rewrite bool_decide_false by (intros Hin; apply dget_is_Some in Hin; rewrite Ed in Hin; by destruct Hin).
      rewrite x_bind, TreeEditFacts.x_new. cbn beta iota.
      destruct (im_new D s (BVlist false []) Hi (ok_fresh _ (proj1 Hw)) I) as (A1 & A2 & A3). cbn zeta in *. set (D2 := and_new D (s_next s)) in *. set (s2 := PSt _ _ _ _ _ _). change (<[s_next s:=_]> (s_heap s)) with (s_heap s2) in A1, A2, A3.
      assert (Ho2 : s_heap s2 !! us = Some (Obj hx (BUset d))).
      { cbn. rewrite heap_insert, decide_False; [done|]. intros E. rewrite <- E in Ho. rewrite (ok_fresh _ (proj1 Hw)) in Ho by lia. done. }
      unfold set_version_list. rewrite x_bind, x_bind, (x_touch _ _ _ _ Ho2). cbn beta iota. cbn [o_hdr o_body].
      unfold uuid_entries. rewrite !x_bind, x_getobj. cbn [s_heap with_heap]. rewrite heap_insert, decide_True by done. cbn beta iota. cbn [o_body]. rewrite x_ret. cbn beta iota.
      erewrite WriteFacts.x_set_body by (cbn; rewrite heap_insert, decide_True; done). cbn beta iota. rewrite x_ret. eexists _, _. split; [done|].
      unfold runs, with_heap. cbn [s_heap o_hdr]. rewrite heap_ins2. destruct (im_put D2 s2 us hx (BUset d) (BUset (dset d u (s_next s))) A1) as [B1 B2].
      + by apply A2 in Hus as [? _].
      + done.
      + done.
      + intros u' x'. rewrite dget_dset. case_decide; [by intros [= <-]|]. intros Hd. by apply A2, (Hf u').
      + exists D2. split; [done|]. split; [by eapply stay_trans|]. by apply B2.
  Qed.
  Lemma rp_hasnt fuel l v p hx k vs s g : wf s -> s_heap s !! l = Some (Obj hx (BVlist k vs)) -> h_mapped hx = true -> record_of vs v p = None ->
    exec (has_version fuel l v p s) g = ((Ok false, s), g).
  Proof.
    intros Hw Ho Hm Hr. unfold has_version, versions_and_prefix_paths. rewrite !x_bind, (x_mapped_noop _ _ _ _ _ Ho Hm). cbn beta iota.
    rewrite x_bind, (x_versions _ _ _ _ _ _ Ho). cbn beta iota. rewrite x_ret. cbn beta iota. rewrite x_ret. do 3 f_equal. apply bool_decide_eq_false. rewrite elem_of_list_In, in_map_iff. cbn [snd].
    intros ([v' r] & [= -> <-] & Hin). apply records_in in Hin; [|by eapply (proj2 Hw)]. congruence.
  Qed.
  Lemma im_set D fuel l v t p e hx k vs s g : in_memory D (s_heap s) -> D l -> s_heap s !! l = Some (Obj hx (BVlist k vs)) -> h_mapped hx = true ->
    (k = true -> exists x, e = ETree x /\ is_a D (s_heap s) x (KdNode LMrr)) ->
    exists s', exec (set_versioned_element fuel l v t p e s) g = ((Ok tt, s'), g) /\ in_memory D (s_heap s') /\ stay D (s_heap s) D (s_heap s').
  Proof.
    intros Hi Hl Ho Hm He. eexists. split; [exact (set_one fuel l hx k vs (VCall v t p e) s g Ho Hm)|]. cbn [s_heap with_heap]. apply (im_put D s l hx (BVlist k vs)); try done.
    destruct k; [|done]. destruct (He eq_refl) as (x & -> & Hx). intros v' p' r Hr. cbn in Hr.
    pose proof (vget_set vs v p (VRec t p (ETree x)) v' p') as HV. unfold vget in HV. unfold record_of in Hr. unfold call_record in Hr. cbn in Hr. rewrite HV in Hr. case_decide.
    - injection Hr as <-. by exists x.
    - destruct (Hi l Hl) as (o & Ho' & _ & Hf). rewrite Ho in Ho'. injection Ho' as <-. by apply (Hf v' p').
  Qed.
  Lemma im_register D fuel l v t p m s g : wf s -> in_memory D (s_heap s) -> is_a D (s_heap s) l (KdVl false) ->
    exists s', exec (register_record fuel l v t p m s) g = ((Ok tt, s'), g) /\ in_memory D (s_heap s') /\ stay D (s_heap s) D (s_heap s').
  Proof.
    intros Hw Hi Hl. destruct (im_get _ _ _ _ Hi Hl) as (hx & b & Ho & Hm & Hk & _). destruct b as [| | | |k vs|]; try done. cbn in Hk. injection Hk as ->.
    destruct (record_of vs v p) as [r|] eqn:Er.
    - exists s. split; [|split; [done|by intros ? ? ?]]. apply (rp_register _ _ _ _ _ _ (fun _ => True)); [done|]. by exists hx, false, vs, r.
    - unfold register_record. rewrite x_bind, (rp_hasnt _ _ _ _ _ _ _ _ _ Hw Ho Hm Er). cbn beta iota. by apply (im_set D fuel l v t p (EMrr m) hx false vs s g Hi (proj1 Hl) Ho Hm).
  Qed.
  Lemma im_tree D fuel l v p t s g : wf s -> in_memory D (s_heap s) -> is_a D (s_heap s) l (KdVl true) ->
    exists x s', exec (version_tree fuel l v p t true s) g = ((Ok (Some x), s'), g) /\ runs D s s' (fun D' => is_a D' (s_heap s') x (KdNode LMrr)).
  Proof.
    intros Hw Hi Hl. destruct (im_get _ _ _ _ Hi Hl) as (hx & b & Ho & Hm & Hk & Hf). destruct b as [| | | |k vs|]; try done. cbn in Hk. injection Hk as ->.
    destruct (record_of vs v p) as [r|] eqn:Er.
    - destruct (Hf v p r Er) as (x & Hx & Hxx). exists x, s. split; [|exists D; split; [done|split; [by intros ? ? ?|done]]]. apply rp_tree; [done|by exists hx, true, vs, r|].
      destruct (im_get _ _ _ _ Hi Hxx) as (hy & c & Hy & Hmy & _). by eexists.
    - unfold version_tree. rewrite x_bind, (rp_hasnt _ _ _ _ _ _ _ _ _ Hw Ho Hm Er). cbn beta iota. rewrite x_bind, TreeEditFacts.x_new. cbn beta iota.
      destruct (im_new D s (BNode LMrr []) Hi (ok_fresh _ (proj1 Hw))) as (A1 & A2 & A3); [done|]. cbn zeta in *. set (D2 := and_new D (s_next s)) in *. set (s2 := PSt _ _ _ _ _ _). change (<[s_next s:=_]> (s_heap s)) with (s_heap s2) in A1, A2, A3.
      assert (Ho2 : s_heap s2 !! l = Some (Obj hx (BVlist true vs))).
      { cbn. rewrite heap_insert, decide_False; [done|]. intros E. rewrite <- E in Ho. rewrite (ok_fresh _ (proj1 Hw)) in Ho by lia. done. }
      destruct (im_set D2 fuel l v t p (ETree (s_next s)) hx true vs s2 g A1 (proj1 (A2 _ _ Hl)) Ho2 Hm) as (s3 & E3 & B1 & B2); [intros _; eexists; by split|].
      rewrite x_bind, E3. cbn beta iota. rewrite x_ret. eexists _, _. split; [done|]. exists D2. split; [done|]. split; [by eapply stay_trans|]. by apply B2.
  Qed.

  (** paths of a dataset tree *)
  Lemma im_peek D h : in_memory D h -> forall parts l, is_a D h l (KdNode LMrr) -> ~ In root_record_name parts ->
    exists r, peek h l parts = Some r /\ forall x, r = Some x -> is_a D h x (KdNode LMrr).
  Proof.
    intros Hi. induction parts as [|e q IH]; intros l Hl Hn; cbn [peek]; [eexists; split; [done|by intros ? [= <-]]|].
    destruct (im_get _ _ _ _ Hi Hl) as (hx & b & Ho & Hm & Hk & Hf). destruct b as [| |c d| | |]; try done. cbn in Hk. injection Hk as ->. rewrite Ho. cbn [o_body o_hdr]. rewrite Hm.
    destruct (dget d e) as [y|] eqn:Ed; [|by exists None]. apply IH; [|intros ?; apply Hn; by right]. specialize (Hf e y Ed). cbn in Hf. rewrite decide_False in Hf; [done|]. intros ->. apply Hn. by left.
  Qed.
  Lemma im_peek_record D h parts l : in_memory D h -> is_a D h l (KdNode LMrr) -> ~ In root_record_name parts ->
    exists r, peek h l (parts ++ [root_record_name]) = Some r /\ forall x, r = Some x -> is_a D h x KdMrr.
  Proof.
    intros Hi. revert l. induction parts as [|e q IH]; intros l Hl Hn; cbn [peek app]; destruct (im_get _ _ _ _ Hi Hl) as (hx & b & Ho & Hm & Hk & Hf);
      destruct b as [| |c d| | |]; try done; cbn in Hk; injection Hk as ->; rewrite Ho; cbn [o_body o_hdr]; rewrite Hm.
    - destruct (dget d root_record_name) as [y|] eqn:Ed; [|by exists None]. exists (Some y). split; [done|]. intros ? [= <-]. specialize (Hf _ y Ed). cbn in Hf. by rewrite decide_True in Hf.
    - destruct (dget d e) as [y|] eqn:Ed; [|by exists None]. apply IH; [|intros ?; apply Hn; by right]. specialize (Hf e y Ed). cbn in Hf. rewrite decide_False in Hf; [done|]. intros ->. apply Hn. by left.
  Qed.
  Lemma im_add n : forall D fuel l child p q s g s' g', in_memory D (s_heap s) -> fresh s -> wfp p -> all_parts p = q ++ [root_record_name] -> ~ In root_record_name q ->
    is_a D (s_heap s) l (KdNode LMrr) -> is_a D (s_heap s) child KdMrr -> exec (add_child_at_n n fuel l child p s) g = ((Ok tt, s'), g') -> runs D s s' (fun _ => g' = g).
  Proof.
    induction n as [|n IH]; intros D fuel l child p q s g s' g' Hi Hfr Hp Hall Hnq Hl Hc He; cbn [add_child_at_n] in He; rewrite Hall in He.
    all: assert (Hg : good_names (q ++ [root_record_name])) by (rewrite <- Hall, wfp_all by done; apply Hp).
    all: destruct (im_get _ _ _ _ Hi Hl) as (hx & b & Ho & Hm & Hk & Hf); destruct b as [| |c d| | |]; try done; cbn in Hk; injection Hk as ->.
    all: destruct q as [|e q]; cbn [app] in He, Hg.
    all: apply List.Forall_cons_iff in Hg as [Hge Hgr]; rewrite x_bind, (x_get_child _ _ _ _ _ _ _ _ Ho Hm) in He; cbn beta iota in He.
    1,3: apply xi_bind in He as (nd & s1 & g1 & E1 & He); destruct (dget d root_record_name) as [y|] eqn:Ed.
    1,3: exfalso; specialize (Hf _ y Ed); cbn in Hf; rewrite decide_True in Hf by done; destruct (im_get _ _ _ _ Hi Hf) as (hy & by_ & Hy & _ & Hky & _).
    1,2: rewrite (x_is_node _ _ _ _ Hy) in E1; injection E1 as <- <- <-; destruct by_; try done; cbn in He; rewrite (x_add_child _ _ _ _ _ _ _ _ _ Hge Ho Hm), Ed in He; done.
    1,2: apply xi_ret in E1 as (<- & <- & <-); rewrite (x_add_child _ _ _ _ _ _ _ _ _ Hge Ho Hm), Ed in He; injection He as <- <-; exists D.
    1,2: destruct (im_put D s l hx (BNode LMrr d) (BNode LMrr (dset d root_record_name child)) Hi (proj1 Hl) Ho eq_refl) as [B1 B2]; [|split; [exact B1|split; [exact B2|done]]].
    1,2: intros e' x'; rewrite dget_dset; case_decide as Ee; [subst e'; intros [= <-]; by rewrite decide_True|apply Hf].
    all: assert (Hne : e <> root_record_name) by (intros ->; apply Hnq; by left).
    all: assert (Hq : ~ In root_record_name q) by (intros ?; apply Hnq; by right).
    all: assert (Hcons : exists e2 z, q ++ [root_record_name] = e2 :: z) by (destruct q; by eexists _, _); destruct Hcons as (e2 & z & Ez); rewrite Ez in He, Hgr; cbn beta iota in He.
    all: apply xi_bind in He as (y & s1 & g1 & E1 & He); apply xi_bind in He as (nd & s2 & g2 & E2 & He).
    { exfalso. destruct nd; done. }
    destruct (parts_again (e2 :: z) Hgr) as [Hall2 Hwf2]. rewrite <- Ez in Hall2 at 2.
    assert (Hy : g1 = g /\ fresh s1 /\ runs D s s1 (fun D' => is_a D' (s_heap s1) y (KdNode LMrr))).
    { destruct (dget d e) as [y0|] eqn:Ed.
      - apply xi_ret in E1 as (<- & <- & <-). split; [done|]. split; [done|]. exists D. split; [done|]. split; [by intros ? ? ?|]. specialize (Hf e y0 Ed). cbn in Hf. by rewrite decide_False in Hf.
      - rewrite x_bind, (x_children _ _ _ _ _ _ Ho) in E1. cbn beta iota in E1. rewrite x_bind, TreeEditFacts.x_new in E1. cbn beta iota in E1. cbn [fst] in E1.
        destruct (im_new D s (BNode LMrr []) Hi Hfr) as (A1 & A2 & A3); [done|]. cbn zeta in *. set (D2 := and_new D (s_next s)) in *. set (s3 := PSt _ _ _ _ _ _) in *. change (<[s_next s:=_]> (s_heap s)) with (s_heap s3) in A1, A2, A3.
        assert (Ho3 : s_heap s3 !! l = Some (Obj hx (BNode LMrr d))).
        { cbn. rewrite heap_insert, decide_False; [done|]. intros E. rewrite <- E in Ho. rewrite (Hfr (s_next s)) in Ho by lia. done. }
        rewrite x_bind, (x_add_child _ _ _ _ _ _ _ _ _ Hge Ho3 Hm), Ed in E1. cbn beta iota in E1. apply xi_ret in E1 as (<- & <- & <-). split; [done|]. split.
        + intros w Hw. cbn in Hw |- *. rewrite !heap_insert. case_decide as E; [subst w; rewrite Hfr in Ho by lia; done|]. case_decide; [lia|]. apply Hfr. lia.
        + destruct (im_put D2 s3 l hx (BNode LMrr d) (BNode LMrr (dset d e (s_next s))) A1 (proj1 (A2 _ _ Hl)) Ho3 eq_refl) as [B1 B2].
          * intros e' x'. rewrite dget_dset. case_decide as Ee; [subst e'; intros [= <-]; by rewrite decide_False|]. intros Hd. apply A2. by apply Hf.
          * exists D2. split; [done|]. split; [by eapply stay_trans|]. by apply B2. }
    destruct Hy as (-> & Hfr1 & D1 & Hi1 & Hs1 & Hy1). destruct (im_get _ _ _ _ Hi1 Hy1) as (hy & by_ & Hoy & _ & Hky & _). rewrite (x_is_node _ _ _ _ Hoy) in E2. injection E2 as <- <- <-.
    destruct by_ as [| |cy dy| | |]; try done. cbn in He.
    destruct (IH D1 fuel y child _ q s1 g s' g' Hi1 Hfr1 Hwf2 Hall2 Hq Hy1 (Hs1 _ _ Hc) He) as (D3 & C1 & C2 & ->). exists D3. split; [done|]. split; [by eapply stay_trans|done].
  Qed.
  Lemma im_record D fuel t p u v s g : wf s -> wfp p -> ~ In root_record_name (all_parts p) -> in_memory D (s_heap s) -> is_a D (s_heap s) t (KdNode LMrr) ->
    exists x s', exec (tree_record fuel t p u v true s) g = ((Ok (Some x), s'), g) /\ runs D s s' (fun D' => is_a D' (s_heap s') x KdMrr).
  Proof.
    intros Hw Hp Hn Hi Ht. destruct (record_path_parts p Hp) as [HwR HR]. destruct (im_peek_record D (s_heap s) (all_parts p) t Hi Ht Hn) as (r & Hr & Hrk). rewrite <- HR in Hr.
    destruct r as [x|].
    - specialize (Hrk x eq_refl). exists x, s. split; [|exists D; split; [done|split; [by intros ? ? ?|done]]]. apply rp_record. split; [by apply peek_reach|].
      destruct (im_get _ _ _ _ Hi Hrk) as (hx & b & Ho & Hm & Hk & _). destruct b; try done. by eexists _, _, _, _, _.
    - unfold tree_record, dataset_in, get_object_at_path. rewrite !x_bind, (walk_peek _ _ _ _ _ _ Hr). cbn beta iota. rewrite x_ret. cbn beta iota. cbn [is_some].
      destruct (exec (new_root_record (Some u) (Some v) s) g) as [[[x|e] sC] gC] eqn:EC; [|done].
      assert (EC' := EC). unfold new_root_record in EC. apply xi_bind in EC as (xa & sA & gA & EA & EC).
      destruct (st_new _ _ _ _ _ _ Hw EA) as (HwA & HlA & _ & _ & _); [done|apply NoDup_nil_2|by apply bk_other|].
      destruct (im_alloc D (BMeta []) _ _ _ _ _ Hi (ok_fresh _ (proj1 Hw)) I EA) as (DA & A1 & A2 & A3 & ->). apply xi_bind in EC as (xb & sB & gB & EB & EC).
      destruct (st_new _ _ _ _ _ _ HwA EB) as (HwB & HlB & HnB & _ & _); [done|apply NoDup_nil_2|by apply bk_other|].
      destruct (im_alloc DA (BNode LMeta []) _ _ _ _ _ A1 (ok_fresh _ (proj1 HwA)) I EB) as (DB & B1 & B2 & B3 & ->).
      destruct (st_new _ _ _ _ _ _ HwB EC) as (HwC & HlC & _ & _ & _).
      { intros z. cbn. intros [<-|[<-|[]]]; [destruct (B2 _ _ A3) as [_ (o & -> & _)]; by eexists|by eexists]. }
      { cbn. apply NoDup_cons_2; [|apply NoDup_cons_2; [|apply NoDup_nil_2]]; rewrite ?elem_of_cons, ?elem_of_nil; intros Hin; repeat destruct Hin as [Hin|Hin]; done. }
      { by apply bk_other. }
      destruct (im_alloc DB (BMrr (Some u) (Some v) (Some xa) (Some xb)) _ _ _ _ _ B1 (ok_fresh _ (proj1 HwB)) I EC) as (DC & C1 & C2 & C3 & ->).
      cbn [kind_of] in C3. assert (Hst : stay D (s_heap s) DC (s_heap sC)) by (eapply stay_trans; [exact A2|]; eapply stay_trans; [exact B2|exact C2]).
      assert (Hlo : loads s sC) by (eapply lo_trans; [exact HlA|]; eapply lo_trans; [exact HlB|exact HlC]).
      pose proof (loads_peek _ _ Hlo _ _ _ Hr) as HrC. pose proof (Hst _ _ Ht) as HtC.
      rewrite x_bind, EC'. cbn beta iota. unfold add_dataset, add_child_at.
      destruct (add_outcome (length (all_parts (record_path p))) fuel t x (record_path p) sC g None (proj1 HwC) HwR) as [_ Hadd].
      { rewrite HR. by destruct (all_parts p). }
      { done. }
      { destruct HtC as [_ ([ho [| |c d| | |]] & Ho & Hk)]; try done. by exists ho, c, d. }
      { done. }
      destruct (Hadd eq_refl) as (s4 & E4).
      { intros (q & z & y & Hq & Hz & Heq & Hpq & Hnode). rewrite HR in Heq. destruct z as [|z0 z] using rev_ind; [done|]. rewrite app_assoc in Heq. apply app_inj_tail in Heq as [Heq _].
        destruct (im_peek DC (s_heap sC) C1 q t HtC) as (r' & Hr' & Hk'); [intros Hin; apply Hn; rewrite Heq; apply in_app_iff; by left|].
        rewrite Hpq in Hr'. injection Hr' as <-. destruct (Hk' y eq_refl) as [_ ([ho [| |c d| | |]] & Ho & Hk)]; try done. apply Hnode. by exists ho, c, d. }
      rewrite x_bind, E4. cbn beta iota. rewrite x_ret. eexists _, _. split; [done|].
      destruct (im_add _ DC fuel t x (record_path p) (all_parts p) sC g s4 g C1 (ok_fresh _ (proj1 HwC)) HwR HR Hn HtC C3 E4) as (D4 & F1 & F2 & _).
      exists D4. split; [done|]. split; [by eapply stay_trans|]. by apply F2.
  Qed.
  Notation call := get_metadata_root_record_from_top_nodes.
  Lemma C43_returns_lemma D fuel tvl us u v prefix q ru rv now s g : heap_ok s -> lists_keyed s -> is_metadata_path q -> ~ In root_record_name (all_parts q) ->
    in_memory D (s_heap s) -> is_a D (s_heap s) tvl (KdVl true) -> is_a D (s_heap s) us KdUs -> (q = no_path \/ is_Some ru /\ is_Some rv) ->
    exists m s' D', exec (call fuel tvl us u v prefix q ru rv true now s) g = ((Ok (Some m), s'), g) /\
      in_memory D' (s_heap s') /\ (forall x k, is_a D (s_heap s) x k -> is_a D' (s_heap s') x k) /\ is_a D' (s_heap s') m KdMrr.
  Proof.
    intros H1 H2 Hq%mpath_wf Hn Hi Ht Hu Hr. pose proof (conj H1 H2 : wf s) as Hw. unfold get_metadata_root_record_from_top_nodes. change (MetadataPath [AStr []]) with no_path. cbn zeta.
    assert (Hsome : forall D h x k, is_a D h x k -> is_Some (h !! x)) by (intros ? ? ? ? [_ (o & -> & _)]; by eexists).
    assert (Hnp : ~ In root_record_name (all_parts no_path)) by (intros Hx; vm_compute in Hx; destruct Hx).
    (* the part for the record itself *)
    assert (Hend : forall D1 s1 tree p', wf s1 -> in_memory D1 (s_heap s1) -> is_a D1 (s_heap s1) us KdUs -> is_a D1 (s_heap s1) tree (KdNode LMrr) ->
      exists m s' D', exec (obind (dataset_version_list fuel us u true) (fun vl => obind (tree_record fuel tree q u v true) (fun mrr => register_record fuel vl v (now 3%nat) p' mrr ;;; mret (Some mrr))) s1) g = ((Ok (Some m), s'), g) /\
        in_memory D' (s_heap s') /\ stay D1 (s_heap s1) D' (s_heap s') /\ is_a D' (s_heap s') m KdMrr).
    { intros D1 s1 tree p' Hw1 Hi1 Hu1 Ht1. destruct (im_dvl D1 fuel us u s1 g Hw1 Hi1 Hu1) as (vl & s2 & E2 & D2 & Hi2 & Hs2 & Hvl).
      destruct (st_dvl _ _ _ _ _ _ _ _ _ Hw1 (Hsome _ _ _ _ Hu1) E2) as (Hw2 & _). unfold obind at 1. rewrite x_bind, E2. cbn beta iota.
      destruct (im_record D2 fuel tree q u v s2 g Hw2 Hq Hn Hi2 (Hs2 _ _ Ht1)) as (m & s3 & E3 & D3 & Hi3 & Hs3 & Hm).
      destruct (st_record _ _ _ _ _ _ _ _ _ _ _ Hw2 Hq (Hsome _ _ _ _ (Hs2 _ _ Ht1)) E3) as (Hw3 & _). unfold obind. rewrite x_bind, E3. cbn beta iota.
      destruct (im_register D3 fuel vl v (now 3%nat) p' m s3 g Hw3 Hi3 (Hs3 _ _ Hvl)) as (s4 & E4 & Hi4 & Hs4). rewrite x_bind, E4. cbn beta iota. rewrite x_ret.
      exists m, s4, D3. split; [done|]. split; [done|]. split; [eapply stay_trans; [exact Hs2|]; by eapply stay_trans|by apply Hs4]. }
    unfold obind at 1. case_bool_decide as Hqn.
    - destruct (im_tree D fuel tvl v prefix (now 2%nat) s g Hw Hi Ht) as (t & s1 & E1 & D1 & Hi1 & Hs1 & Hk1).
      destruct (st_tree _ _ _ _ _ _ _ _ _ _ _ Hw (Hsome _ _ _ _ Ht) E1) as (Hw1 & _). unfold obind at 1. rewrite !x_bind, E1. cbn beta iota. rewrite x_ret. cbn beta iota.
      destruct (Hend D1 s1 t prefix Hw1 Hi1 (Hs1 _ _ Hu) Hk1) as (m & s' & D' & -> & A1 & A2 & A3). exists m, s', D'. split; [done|]. split; [done|]. split; [|done]. by eapply stay_trans.
    - destruct Hr as [Hr|[[ru' ->] [rv' ->]]]; [done|].
      destruct (im_dvl D fuel us ru' s g Hw Hi Hu) as (rvl & s1 & E1 & D1 & Hi1 & Hs1 & Hk1). destruct (st_dvl _ _ _ _ _ _ _ _ _ Hw (Hsome _ _ _ _ Hu) E1) as (Hw1 & _).
      unfold obind at 1. rewrite !x_bind, E1. cbn beta iota.
      destruct (im_tree D1 fuel tvl rv' prefix (now 0%nat) s1 g Hw1 Hi1 (Hs1 _ _ Ht)) as (t & s2 & E2 & D2 & Hi2 & Hs2 & Hk2).
      destruct (st_tree _ _ _ _ _ _ _ _ _ _ _ Hw1 (Hsome _ _ _ _ (Hs1 _ _ Ht)) E2) as (Hw2 & _). unfold obind at 1. rewrite x_bind, E2. cbn beta iota.
      destruct (im_record D2 fuel t no_path ru' rv' s2 g Hw2 no_path_wf Hnp Hi2 Hk2) as (rm & s3 & E3 & D3 & Hi3 & Hs3 & Hk3).
      destruct (st_record _ _ _ _ _ _ _ _ _ _ _ Hw2 no_path_wf (Hsome _ _ _ _ Hk2) E3) as (Hw3 & _). unfold obind at 1. rewrite x_bind, E3. cbn beta iota.
      destruct (im_register D3 fuel rvl rv' (now 1%nat) prefix rm s3 g Hw3 Hi3) as (s4 & E4 & Hi4 & Hs4); [by apply Hs3, Hs2|].
      destruct (st_register _ _ _ _ _ _ _ _ _ _ Hw3 (Hsome _ _ _ _ (Hs3 _ _ (Hs2 _ _ Hk1))) (Hsome _ _ _ _ Hk3) E4) as (Hw4 & _).
      rewrite x_bind, E4. cbn beta iota. rewrite x_ret. cbn beta iota.
      destruct (Hend D3 s4 t no_path Hw4 Hi4) as (m & s' & D' & -> & A1 & A2 & A3); [by apply Hs4, Hs3, Hs2, Hs1|by apply Hs4, Hs3|].
      exists m, s', D'. split; [done|]. split; [done|]. split; [|done]. intros x k Hx. by apply A2, Hs4, Hs3, Hs2, Hs1.
  Qed.
End Ready.
