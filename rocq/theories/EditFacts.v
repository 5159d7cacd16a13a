(** Changes of one loaded object in an object graph. *)
From Verif Require Import Base BaseFacts Path Json Refs Meta Spec_Meta GitText Git Spec_Store State BlobCache ObjRef Objects Spec_Look Spec_Heap Spec_Versions Spec_Write ExecFacts LoadFacts PeekFacts TreeFacts VersionFacts LookFacts Spec_Content ContentFacts WriteFacts StoreFacts SaveFacts WriteBackFacts WriteAllFacts ReadBackFacts.

(** A way through loaded objects is what is seen. *)
Lemma reach_look O h p : forall l z o, reach h l p = Some z -> h !! z = Some o -> h_mapped (o_hdr o) = true -> is_hollow (o_body o) = false ->
  forall q, look O h l (p ++ q) = look O h z q.
Proof.
  induction p as [|k p IH]; intros l z o Hp Ho Hm Hh q; cbn [app].
  - cbn in Hp. by injection Hp as ->.
  - cbn [reach] in Hp. cbn [look]. destruct (h !! l) as [ol|] eqn:El; [|done]. destruct (h_mapped (o_hdr ol)); [|done]. destruct (dget (kids_of (o_body ol)) k) as [x|]; [|done].
    assert (Hx : hollow_at O h x = false).
    { unfold hollow_at. destruct p as [|k2 p]; cbn [reach] in Hp; [injection Hp as ->; by rewrite Ho, Hm|].
      destruct (h !! x) as [ox|]; [|done]. destruct (h_mapped (o_hdr ox)); [|done]. destruct (dget (kids_of (o_body ox)) k2) as [x2|] eqn:Ed; [|done]. by eapply kids_not_hollow. }
    rewrite Hx, andb_false_r. by eapply IH.
Qed.
Lemma part_ok_kind lb k a b : part_ok lb k a -> label_kind a = label_kind b -> part_ok lb k b.
Proof.
  intros Ha Hk. destruct lb, k; try done; cbn in *.
  - destruct Ha as [H1 H2]. split; [done|]. destruct a, b; try done; cbn in *; congruence.
  - destruct Ha as [m0 ->]. destruct b; try done. by eexists.
  - subst a. destruct b; try done. cbn in Hk. by injection Hk as <-.
  - destruct Ha as (t & b0 & H1 & H2). exists t, b0. split; [done|]. destruct a, b; try done; cbn in *; congruence.
  - destruct Ha as (H1 & rs & ->). split; [done|]. destruct b; try done. cbn in Hk. injection Hk as <-. by eexists.
Qed.
Lemma extends_dec {A} `{EqDecision A} (q p : list A) : Decision (extends q p).
Proof.
  revert q. induction p as [|k p IH]; intros q; [left; by exists q|]. destruct q as [|k2 q]; [right; by intros [? ?]|].
  destruct (decide (k2 = k)) as [->|Hn]; [|right; intros [? E]; cbn in E; congruence]. destruct (IH q) as [E|E].
  - left. destruct E as [r ->]. by exists r.
  - right. intros [r Er]. cbn in Er. injection Er as ->. apply E. by exists r.
Defined.
#[export] Existing Instance extends_dec.

Section Upd.
  Context (h : heap) (y : loc) (o o' : obj) (Ho : h !! y = Some o).
  Local Notation h' := (<[y := o']> h : heap).
  Lemma up_get (x : loc) : h' !! x = if decide (y = x) then Some o' else h !! x.
  Proof. apply heap_insert. Qed.
  Lemma up_same a : (forall q, reach h a q <> Some y) -> same_below h h' a.
  Proof. intros Hn p x Hp. rewrite up_get, decide_False; [done|]. intros <-. by apply (Hn p). Qed.
  Lemma up_off_reach a q : (forall q, reach h a q <> Some y) -> reach h' a q = reach h a q.
  Proof. intros Hn. by apply fo_reach, sb_fo, up_same. Qed.
  Lemma up_off_look O a q : (forall q, reach h a q <> Some y) -> look O h' a q = look O h a q.
  Proof. intros Hn. by apply fo_look, sb_fo, up_same. Qed.
  Lemma up_off_hollow O (a : loc) : a <> y -> hollow_at O h' a = hollow_at O h a.
  Proof. intros Hn. unfold hollow_at. by rewrite up_get, decide_False. Qed.
  Lemma up_to_y q : forall a, reach h a q = Some y -> exists q0, reach h' a q0 = Some y.
  Proof.
    induction q as [|k q IH]; intros a Hq; [injection Hq as ->; by exists []|]. destruct (decide (y = a)) as [<-|Hn]; [by exists []|].
    cbn [reach] in Hq. destruct (h !! a) as [oa|] eqn:Ea; [|done]. destruct (h_mapped (o_hdr oa)) eqn:Em; [|done]. destruct (dget (kids_of (o_body oa)) k) as [x|] eqn:Ed; [|done].
    destruct (IH x Hq) as [q0 Hq0]. exists (k :: q0). cbn [reach]. by rewrite up_get, decide_False, Ea, Em, Ed.
  Qed.
  Section Way.
    Lemma up_way_step a k p : reach h a (k :: p) = Some y -> (forall q, reach h a q = Some y -> q = k :: p) ->
      exists oa x, a <> y /\ h !! a = Some oa /\ h_mapped (o_hdr oa) = true /\ dget (kids_of (o_body oa)) k = Some x /\ reach h x p = Some y /\ (forall q, reach h x q = Some y -> q = p) /\
        (forall k2 x2, k2 <> k -> dget (kids_of (o_body oa)) k2 = Some x2 -> forall q, reach h x2 q <> Some y).
    Proof.
      intros Hp Hu. pose proof Hp as Hp0. cbn [reach] in Hp0. destruct (h !! a) as [oa|] eqn:Ea; [|done]. destruct (h_mapped (o_hdr oa)) eqn:Em; [|done].
      destruct (dget (kids_of (o_body oa)) k) as [x|] eqn:Ed; [|done]. exists oa, x. split_and!; try done.
      - intros ->. specialize (Hu [] eq_refl). done.
      - intros q Hq. assert (E : k :: q = k :: p); [apply Hu; cbn [reach]; by rewrite Ea, Em, Ed|]. by injection E.
      - intros k2 x2 Hk Hd q Hq. assert (E : k2 :: q = k :: p); [apply Hu; cbn [reach]; by rewrite Ea, Em, Hd|]. injection E as E _. done.
    Qed.
    Lemma up_reach_below p : forall a q, reach h a p = Some y -> (forall q, reach h a q = Some y -> q = p) -> reach h' a (p ++ q) = reach h' y q.
    Proof.
      induction p as [|k p IH]; intros a q Hp Hu; [injection Hp as ->; done|]. destruct (up_way_step a k p Hp Hu) as (oa & x & Hn & Ha & Hm & Hd & Hx & Hux & _).
      cbn [app reach]. rewrite up_get, decide_False, Ha, Hm, Hd by done. by apply IH.
    Qed.
    Lemma up_reach_off p : forall a q, reach h a p = Some y -> (forall q, reach h a q = Some y -> q = p) -> ~ extends q p -> reach h' a q = reach h a q.
    Proof.
      induction p as [|k p IH]; intros a q Hp Hu Hq; [exfalso; apply Hq; by exists q|]. destruct (up_way_step a k p Hp Hu) as (oa & x & Hn & Ha & Hm & Hd & Hx & Hux & Hoff).
      destruct q as [|k2 q]; [done|]. cbn [reach]. rewrite up_get, decide_False, Ha, Hm by done. destruct (dget (kids_of (o_body oa)) k2) as [x2|] eqn:Ed2; [|done].
      destruct (decide (k2 = k)) as [->|Hk].
      - assert (x2 = x) as -> by congruence. apply IH; try done. intros [q' ->]. apply Hq. by exists q'.
      - apply up_off_reach. by eapply Hoff.
    Qed.
    Lemma up_look_below O p : forall a q, reach h a p = Some y -> (forall q, reach h a q = Some y -> q = p) ->
      look O h' a (p ++ q) = if lastk p && hollow_at O h' y then Absent else look O h' y q.
    Proof.
      induction p as [|k p IH]; intros a q Hp Hu; [injection Hp as ->; done|]. destruct (up_way_step a k p Hp Hu) as (oa & x & Hn & Ha & Hm & Hd & Hx & Hux & _).
      cbn [app look]. rewrite up_get, decide_False, Ha, Hm, Hd by done. destruct p as [|k2 p].
      - cbn in Hx. injection Hx as ->. cbn [app]. done.
      - rewrite IH by done. rewrite lastk_cons. destruct (up_way_step x k2 p Hx Hux) as (ox & x2 & Hnx & Hax & Hmx & Hdx & _).
        rewrite up_off_hollow by done. unfold hollow_at at 1. rewrite Hax, Hmx, (kids_not_hollow _ _ _ Hdx), andb_false_r. done.
    Qed.
    Lemma up_look_off O p : forall a q, reach h a p = Some y -> (forall q, reach h a q = Some y -> q = p) -> ~ extends q p -> look O h' a q = look O h a q.
    Proof.
      induction p as [|k p IH]; intros a q Hp Hu Hq; [exfalso; apply Hq; by exists q|]. destruct (up_way_step a k p Hp Hu) as (oa & x & Hn & Ha & Hm & Hd & Hx & Hux & Hoff).
      destruct q as [|k2 q]; cbn [look]; rewrite up_get, decide_False, Ha, Hm by done; [done|]. destruct (dget (kids_of (o_body oa)) k2) as [x2|] eqn:Ed2; [|done].
      destruct (decide (k2 = k)) as [->|Hk].
      - assert (x2 = x) as -> by congruence. rewrite up_off_hollow.
        + destruct (is_ktree k && hollow_at O h x); [done|]. apply IH; try done. intros [q' ->]. apply Hq. by exists q'.
        + intros ->. apply Hq. exists q. assert ([] = p) as <- by by apply Hux. done.
      - rewrite up_off_hollow by (intros ->; by apply (Hoff k2 y Hk Ed2 [])). destruct (is_ktree k2 && hollow_at O h x2); [done|]. apply up_off_look. by eapply Hoff.
    Qed.
  End Way.
End Upd.

(** ** One change: [y], found at [p] below [l], becomes [o']; [new] may be added to its parts *)
Section Edit.
  Context (O : store) (r : pystr) (s : pst) (l y : loc) (p : list key) (o o' : obj) (new : option (key * loc)).
  Context (HT : tidy O r s l) (Hp : reach (s_heap s) l p = Some y) (Ho : s_heap s !! y = Some o) (Hm : h_mapped (o_hdr o) = true).
  Context (Hm' : h_mapped (o_hdr o') = true) (Hsv : h_saved (o_hdr o') = ∅) (Hrf : h_ref (o_hdr o') = h_ref (o_hdr o)) (Hkd : kind_of (o_body o') = kind_of (o_body o)).
  Context (Hnew : forall k c, new = Some (k, c) -> tidy O r s c /\ apart (s_heap s) l c).
  Context (Hkids : forall k x, dget (kids_of (o_body o')) k = Some x -> dget (kids_of (o_body o)) k = Some x \/ new = Some (k, x)).
  Context (Hnd : NoDup (dkeys (kids_of (o_body o')))).
  Context (Hwk : forall k vs, o_body o' = BVlist k vs -> well_keyed vs).
  Context (Hft : forall i v m t, o_body o' = BMrr i v m (Some t) -> exists ht d, s_heap s !! t = Some (Obj ht (BNode LMeta d))).
  Context (Hlb : label_ok (label_of (o_body o'))).
  Context (Hpt : forall k x, dget (kids_of (o_body o')) k = Some x -> is_ktree k && hollow_at O (s_heap s) x = false ->
    forall lb, look O (s_heap s) x [] = Seen lb -> part_ok (label_of (o_body o')) k lb).
  Local Notation h := (s_heap s).
  Definition edited : pst := with_heap s (<[y := o']> (s_heap s)).
  Local Notation h' := (<[y := o']> (s_heap s) : heap).

  Lemma ed_get (x : loc) : h' !! x = if decide (y = x) then Some o' else h !! x.
  Proof. apply up_get. Qed.
  Lemma ed_self : h' !! y = Some o'.
  Proof. by rewrite ed_get, decide_True. Qed.
  Lemma ed_uniq q : reach h l q = Some y -> q = p.
  Proof. intros Hq. by apply (td_unshared _ _ _ _ HT q p y). Qed.
  Lemma ed_tidy_y : tidy O r s y.
  Proof. by eapply tidy_reach. Qed.
  Lemma ed_kid k x : dget (kids_of (o_body o')) k = Some x -> tidy O r s x /\ (forall q, reach h x q <> Some y).
  Proof.
    intros Hd. destruct (Hkids k x Hd) as [Hk|Hk].
    - split; [by eapply tidy_kid, Hk; [apply ed_tidy_y| |]|]. intros q Hq.
      assert (E : p ++ k :: q = p); [|apply (f_equal length) in E; rewrite app_length in E; cbn in E; lia].
      apply ed_uniq. rewrite reach_app, Hp. cbn [reach]. by rewrite Ho, Hm, Hk.
    - destruct (Hnew k x Hk) as [H1 H2]. split; [done|]. intros q Hq. by apply (H2 p q y).
  Qed.
  Lemma ed_reach_y k q : reach h' y (k :: q) = match dget (kids_of (o_body o')) k with Some x => reach h x q | None => None end.
  Proof.
    cbn [reach]. rewrite ed_self, Hm'. destruct (dget (kids_of (o_body o')) k) as [x|] eqn:Ed; [|done]. apply up_off_reach. by eapply ed_kid.
  Qed.
  Lemma ed_look_y k q : look O h' y (k :: q) = match dget (kids_of (o_body o')) k with Some x => if is_ktree k && hollow_at O h x then Absent else look O h x q | None => Absent end.
  Proof.
    cbn [look]. rewrite ed_self, Hm'. destruct (dget (kids_of (o_body o')) k) as [x|] eqn:Ed; [|done]. destruct (ed_kid k x Ed) as [_ Hn].
    rewrite up_off_hollow by (intros ->; by apply (Hn [])). by rewrite up_off_look.
  Qed.
  Lemma ed_look_nil : look O h' y [] = Seen (label_of (o_body o')).
  Proof. cbn [look]. by rewrite ed_self, Hm'. Qed.
  Lemma ed_look_below q : look O h' l (p ++ q) = if lastk p && hollow_at O h' y then Absent else look O h' y q.
  Proof. apply up_look_below; [done|]. apply ed_uniq. Qed.
  Lemma ed_look_off q : ~ extends q p -> look O h' l q = look O h l q.
  Proof. apply up_look_off; [done|]. apply ed_uniq. Qed.
  (** where objects are found afterwards *)
  Lemma ed_cases q x : reach h' l q = Some x ->
    (~ extends q p /\ reach h l q = Some x /\ x <> y) \/ (q = p /\ x = y) \/
    (exists k z q', q = p ++ k :: q' /\ dget (kids_of (o_body o')) k = Some z /\ reach h z q' = Some x /\ x <> y).
  Proof.
    intros Hq. destruct (decide (extends q p)) as [[q' ->]|Hn].
    - right. rewrite up_reach_below in Hq; [|done|apply ed_uniq]. destruct q' as [|k q']; [left; injection Hq as <-; by rewrite app_nil_r|right].
      rewrite ed_reach_y in Hq. destruct (dget (kids_of (o_body o')) k) as [z|] eqn:Ed; [|done]. exists k, z, q'. split_and!; try done. intros ->. by eapply ed_kid.
    - left. rewrite (up_reach_off h y o' p l q Hp ed_uniq Hn) in Hq. split_and!; try done. intros ->. apply Hn. rewrite (ed_uniq _ Hq). exists []. by rewrite app_nil_r.
  Qed.
  Lemma ed_root q x : reach h' l q = Some x -> x = y \/ (x <> y /\ exists a q', tidy O r s a /\ reach h a q' = Some x).
  Proof.
    intros [(_ & H1 & H2)|[[_ ->]|(k & z & q' & _ & H1 & H2 & H3)]]%ed_cases; [right; eauto|by left|right]. destruct (ed_kid _ _ H1) as [Hz _]. eauto.
  Qed.
  Lemma ed_heap_ok : heap_ok edited.
  Proof.
    intros x ox Hx. cbn [edited s_heap s_next with_heap] in *. rewrite ed_get in Hx.
    assert (HS : forall a, is_Some (h !! a) -> is_Some (h' !! a)) by (intros a Ha; rewrite ed_get; destruct (decide (y = a)); [by eexists|done]).
    destruct (decide (y = x)) as [<-|Hn].
    - injection Hx as <-. split_and!; [apply (td_heap _ _ _ _ HT y o Ho)| |congruence|done]. intros a Ha. apply HS. rewrite <- sub_kids in Ha. apply in_map_iff in Ha as ([k a'] & <- & Hin).
      apply (TreeFacts.In_dget _ _ _ Hnd) in Hin. destruct (ed_kid _ _ Hin) as [Ha _]. destruct (tidy_root _ _ _ _ Ha) as (oa & Hoa & _). by eexists.
    - destruct (td_heap _ _ _ _ HT x ox Hx) as (H1 & H2 & H3 & H4). split_and!; try done. intros a Ha. by apply HS, H2.
  Qed.
  Lemma ed_unshared : unshared h' l.
  Proof.
    intros p1 q1 x H1 H2. destruct (ed_cases _ _ H1) as [(A1 & A2 & A3)|[[-> ->]|(k1 & z1 & p1' & -> & B1 & B2 & B3)]], (ed_cases _ _ H2) as [(C1 & C2 & C3)|[[-> E]|(k2 & z2 & q1' & -> & D1 & D2 & D3)]]; try done; try (by subst).
    - by apply (td_unshared _ _ _ _ HT p1 q1 x).
    - exfalso. destruct (Hkids _ _ D1) as [D|D].
      + apply A1. exists (k2 :: q1'). apply (td_unshared _ _ _ _ HT _ _ x); [done|]. rewrite reach_app, Hp. cbn [reach]. by rewrite Ho, Hm, D.
      + destruct (Hnew _ _ D) as [_ Hap]. by apply (Hap p1 q1' x).
    - exfalso. destruct (Hkids _ _ B1) as [D|D].
      + apply C1. exists (k1 :: p1'). apply (td_unshared _ _ _ _ HT _ _ x); [done|]. rewrite reach_app, Hp. cbn [reach]. by rewrite Ho, Hm, D.
      + destruct (Hnew _ _ D) as [_ Hap]. by apply (Hap q1 p1' x).
    - assert (HB : forall k z q, dget (kids_of (o_body o)) k = Some z -> reach h z q = Some x -> reach h l (p ++ k :: q) = Some x).
      { intros k z q Hd Hq. rewrite reach_app, Hp. cbn [reach]. by rewrite Ho, Hm, Hd. }
      destruct (Hkids _ _ B1) as [E1|E1], (Hkids _ _ D1) as [E2|E2].
      + apply (td_unshared _ _ _ _ HT _ _ x); by eapply HB.
      + exfalso. destruct (Hnew _ _ E2) as [_ Hap]. eapply Hap; [|exact D2]. by eapply HB.
      + exfalso. destruct (Hnew _ _ E1) as [_ Hap]. eapply Hap; [|exact B2]. by eapply HB.
      + rewrite E1 in E2. injection E2 as <- <-. destruct (Hnew _ _ E1) as [Ht _]. do 2 f_equal. by apply (td_unshared _ _ _ _ Ht _ _ x).
  Qed.
  Lemma ed_complete : complete (look O h' l).
  Proof.
    assert (HY : forall q, look O h' y q <> Broken /\ (forall lb, look O h' y q = Seen lb -> label_ok lb) /\
      (forall k lb', look O h' y (q ++ [k]) = Seen lb' -> exists lb, look O h' y q = Seen lb /\ part_ok lb k lb')).
    { intros [|k q]; cbn [app].
      - rewrite ed_look_nil. split_and!; [done|by intros lb [= <-]|]. intros k lb'. rewrite ed_look_y. destruct (dget (kids_of (o_body o')) k) as [x|] eqn:Ed; [|done].
        destruct (is_ktree k && hollow_at O h x) eqn:Eh; [done|]. intros Hl. eexists. split; [done|]. by eapply Hpt.
      - rewrite ed_look_y. setoid_rewrite ed_look_y. destruct (dget (kids_of (o_body o')) k) as [x|] eqn:Ed; [|done].
        destruct (is_ktree k && hollow_at O h x) eqn:Eh; [done|]. destruct (ed_kid _ _ Ed) as [Hx _]. apply (td_complete _ _ _ _ Hx). }
    intros q. destruct (decide (extends q p)) as [[q' ->]|Hn].
    - rewrite ed_look_below. destruct (HY q') as (Y1 & Y2 & Y3). destruct (lastk p && hollow_at O h' y) eqn:Eh; split_and!; try done.
      + intros k lb'. rewrite <- app_assoc, ed_look_below, Eh. done.
      + intros k lb'. rewrite <- app_assoc, ed_look_below, Eh. apply Y3.
    - rewrite ed_look_off by done. destruct (td_complete _ _ _ _ HT q) as (C1 & C2 & C3). split_and!; [done|done|]. intros k lb'.
      destruct (decide (extends (q ++ [k]) p)) as [[q2 E]|Hn2]; [|rewrite ed_look_off by done; apply C3].
      assert (Ep : p = q ++ [k]).
      { destruct q2 as [|k2 q2] using rev_ind; [by rewrite app_nil_r in E|]. exfalso. rewrite app_assoc in E. apply app_inj_tail in E as [E _]. apply Hn. exists q2. done. }
      clear E. pose proof ed_look_below as HB. specialize (HB []). rewrite app_nil_r in HB. rewrite Ep in HB. rewrite HB. clear HB. rewrite <- Ep. rewrite ed_look_nil. destruct (lastk p && hollow_at O h' y); [done|]. intros [= <-].
      pose proof Hp as Hp0. rewrite Ep, reach_app in Hp0. destruct (reach h l q) as [z|] eqn:Ez; [|done]. cbn [reach] in Hp0. destruct (h !! z) as [oz|] eqn:Eoz; [|done].
      destruct (h_mapped (o_hdr oz)) eqn:Emz; [|done]. destruct (dget (kids_of (o_body oz)) k) as [y'|] eqn:Edz; [|done]. injection Hp0 as ->.
      assert (HL : forall q2, look O h l (q ++ q2) = look O h z q2) by (eapply reach_look; [done|done|done|by eapply kids_not_hollow]).
      exists (label_of (o_body oz)). split; [rewrite <- (app_nil_r q), HL; cbn [look]; by rewrite Eoz, Emz|].
      destruct (is_ktree k && hollow_at O h y) eqn:Eh.
      + apply andb_true_iff in Eh as [Ek _]. destruct k; try done. pose proof (kids_fit _ _ _ Edz) as Hf. destruct oz as [hz bz]. cbn [o_body o_hdr] in *. destruct bz as [| | |i v m t| |]; try done.
        assert (t = Some y) as ->. { cbn [kids_of] in Edz. destruct m, t; cbn in Edz; repeat case_decide; try done; by injection Edz as ->. }
        destruct (td_tree _ _ _ _ HT q z _ i v m y Ez Eoz) as (ht & d & Hty). assert (o = Obj ht (BNode LMeta d)) as -> by congruence. cbn in Hkd. cbn. destruct (o_body o'); try done. cbn in Hkd. by injection Hkd as ->.
      + destruct (C3 k (label_of (o_body o))) as (lb & Hl & Hpk).
        { rewrite HL, (not_ktree_look O _ z k [] y oz Eoz Emz Edz), Eh. cbn [look]. by rewrite Ho, Hm. }
        rewrite <- (app_nil_r q), HL in Hl. cbn [look] in Hl. rewrite Eoz, Emz in Hl. injection Hl as <-. eapply part_ok_kind; [exact Hpk|]. by rewrite !label_kind_of.
  Qed.
  Lemma ed_tidy : tidy O r edited l.
  Proof.
    split; cbn [edited s_heap with_heap].
    - apply ed_heap_ok.
    - apply ed_unshared.
    - intros q x ox Hq Hx Hmx. rewrite ed_get in Hx. destruct (ed_root _ _ Hq) as [->|(Hn & a & q' & Ha & Hq')].
      + rewrite decide_True in Hx by done. injection Hx as <-. congruence.
      + rewrite decide_False in Hx by done. by eapply (td_home _ _ _ _ Ha).
    - intros q x hx k vs Hq Hx. rewrite ed_get in Hx. destruct (ed_root _ _ Hq) as [->|(Hn & a & q' & Ha & Hq')].
      + rewrite decide_True in Hx by done. injection Hx as E. eapply Hwk. by rewrite E.
      + rewrite decide_False in Hx by done. by eapply (td_keyed _ _ _ _ Ha).
    - intros q x ox ref Hq Hx Hk Hf. rewrite ed_get in Hx. destruct (ed_root _ _ Hq) as [->|(Hn & a & q' & Ha & Hq')].
      + rewrite decide_True in Hx by done. injection Hx as <-. apply (td_class _ _ _ _ HT p y o ref); congruence.
      + rewrite decide_False in Hx by done. by eapply (td_class _ _ _ _ Ha).
    - intros q x hx i v m t Hq Hx. rewrite ed_get in Hx.
      assert (HK : forall ht d, h !! t = Some (Obj ht (BNode LMeta d)) -> exists ht d, h' !! t = Some (Obj ht (BNode LMeta d))).
      { intros ht d Ht. rewrite ed_get. destruct (decide (y = t)) as [<-|]; [|eauto]. assert (o = Obj ht (BNode LMeta d)) as -> by congruence. destruct o' as [h0' b']. cbn in Hkd. destruct b'; try done. cbn in Hkd. injection Hkd as ->. eauto. }
      destruct (ed_root _ _ Hq) as [->|(Hn & a & q' & Ha & Hq')].
      + rewrite decide_True in Hx by done. injection Hx as E. destruct (Hft i v m t) as (ht & d & Ht); [by rewrite E|]. by eapply HK.
      + rewrite decide_False in Hx by done. destruct (td_tree _ _ _ _ Ha q' x hx i v m t Hq' Hx) as (ht & d & Ht). by eapply HK.
    - intros q x ox Hq Hx Hma. rewrite ed_get in Hx.
      assert (Hny : forall q0, reach h' x q0 <> Some y).
      { intros q0 Hq0. destruct (Hma q0 y o' Hq0 ed_self) as [Hi|[Hi _]]; [rewrite Hsv in Hi; set_solver|congruence]. }
      destruct (ed_root _ _ Hq) as [->|(Hn & a & q' & Ha & Hq')]; [exfalso; by apply (Hny [])|]. rewrite decide_False in Hx by done.
      assert (Hsb : same_below h h' x). { apply up_same. intros q0 Hq0. destruct (up_to_y h y o' q0 x Hq0) as [q1 Hq1]. by apply (Hny q1). }
      destruct (td_marks _ _ _ _ Ha q' x ox Hq' Hx) as (ref & Hf & Hl); [eapply sb_marked; [|exact Hma]; by apply sb_sym|].
      exists ref. split; [done|]. intros q0. rewrite Hl. symmetry. by apply fo_look, sb_fo.
    - apply ed_complete.
  Qed.
  Lemma ed_one : one_realm r h l -> (forall k c, new = Some (k, c) -> one_realm r h c) -> one_realm r h' l.
  Proof.
    intros H1 H2 q x ox Hq Hx Hs. rewrite ed_get in Hx. destruct (ed_cases _ _ Hq) as [(_ & A & B)|[[-> ->]|(k & z & q' & -> & D1 & D2 & D3)]].
    - rewrite decide_False in Hx by done. by eapply H1.
    - rewrite decide_True in Hx by done. injection Hx as <-. done.
    - rewrite decide_False in Hx by done. destruct (Hkids _ _ D1) as [E|E]; [|by eapply (H2 _ _ E)]. eapply (H1 (p ++ k :: q')); [|done|done].
      rewrite reach_app, Hp. cbn [reach]. by rewrite Ho, Hm, E.
  Qed.
End Edit.
