(** Lookups and additions in trees whose parts are loaded on demand. *)
From Verif Require Import Base BaseFacts Path Spec_Path PathFacts Json Refs Meta Spec_Meta GitText Spec_Git Git Spec_Store State BlobCache ObjRef Objects Spec_Look Spec_Heap Spec_Versions Spec_Write ExecFacts LoadFacts PeekFacts TreeFacts TreeEditFacts VersionFacts LookFacts Spec_Content ContentFacts WriteFacts StoreFacts SaveFacts WriteBackFacts WriteAllFacts ReadBackFacts EditFacts.

(** ** New objects *)
Lemma reach_some s p : heap_ok s -> forall a x, is_Some (s_heap s !! a) -> reach (s_heap s) a p = Some x -> is_Some (s_heap s !! x).
Proof.
  intros Hok. induction p as [|k p IH]; intros a x Ha Hp; [by injection Hp as <-|]. cbn [reach] in Hp. destruct (s_heap s !! a) as [o|] eqn:Eo; [|done].
  destruct (h_mapped (o_hdr o)); [|done]. destruct (dget (kids_of (o_body o)) k) as [y|] eqn:Ed; [|done]. apply (IH y); [|done]. apply (Hok a o Eo). by eapply kids_in_sub.
Qed.
Lemma grow_below s s' a : heap_ok s -> (forall x : loc, is_Some (s_heap s !! x) -> s_heap s' !! x = s_heap s !! x) -> is_Some (s_heap s !! a) -> same_below (s_heap s) (s_heap s') a.
Proof. intros Hok Hs Ha p x Hp. apply Hs. by eapply reach_some. Qed.
Lemma sb_one r h h' l : same_below h h' l -> one_realm r h l -> one_realm r h' l.
Proof. intros Hs Ho p x o Hp Hx. apply (sb_reach h h') in Hp as [Hp E]; [|done]. rewrite E in Hx. by eapply Ho. Qed.
Lemma grow_quiet O r s s' : heap_ok s -> heap_ok s' -> rest_same s s' -> (s_next s <= s_next s')%N ->
  (forall x : loc, is_Some (s_heap s !! x) -> s_heap s' !! x = s_heap s !! x) -> quiet O r s s'.
Proof.
  intros Hok Hok' Hr Hn Hs.
  assert (HB : forall a, is_Some (s_heap s !! a) -> same_below (s_heap s) (s_heap s') a) by (intros a; by apply grow_below).
  assert (HR : forall a p, is_Some (s_heap s !! a) -> reach (s_heap s') a p = reach (s_heap s) a p) by (intros a p Ha; by apply fo_reach, sb_fo, HB).
  split.
  - split.
    + split; [done|done|]. intros x o Ho. exists o. rewrite Hs by by exists o. done.
    + done.
    + intros a Ha Hu p q x. rewrite !HR by done. intros Hp Hq Hx. apply (Hu p q x Hp Hq). destruct Hx as (hx & c & d & Hx). exists hx, c, d. rewrite <- Hs; [done|]. by eapply reach_some.
    + intros a Ha Hu p q x. rewrite !HR by done. apply Hu.
    + intros a b Ha Hb Hu p q x. rewrite !HR by done. apply Hu.
    + intros a p x Ha Hx. by rewrite HR.
  - intros a p Ha. by apply fo_look, sb_fo, HB.
  - intros a Ha. unfold hollow_at. by rewrite Hs.
  - intros a Ha Hh p x o. rewrite HR by done. intros Hp. rewrite Hs by by eapply reach_some. intros H1 H2. exact (Hh p x o Hp H1 H2).
  - intros a Ha HT. eapply tidy_same; [exact HT|done|by apply HB].
  - intros a Ha. by apply sb_one, HB.
  - intros a Ha _ _ Hs0 p x o. rewrite HR by done. intros Hp. rewrite Hs by by eapply reach_some. apply (Hs0 p x o Hp).
Qed.
Definition grown (s : pst) (o : obj) : pst := PSt (<[s_next s := o]> (s_heap s)) (N.succ (s_next s)) (s_caches s) (s_orefs s) (s_legacy s) (s_locks s).
Definition fresh_obj (b : body) : obj := Obj (Hdr None None true ∅) b.
Section Grown.
  Context (O : store) (r : pystr) (s : pst) (b : body) (Hok : heap_ok s) (Hb : kids_of b = []) (Hv : forall k vs, b = BVlist k vs -> vs = []).
  Local Notation s' := (grown s (fresh_obj b)).
  Lemma gw_get (x : loc) : s_heap s' !! x = if decide (s_next s = x) then Some (fresh_obj b) else s_heap s !! x.
  Proof. cbn. apply heap_insert. Qed.
  Lemma gw_self : s_heap s' !! s_next s = Some (fresh_obj b).
  Proof. by rewrite gw_get, decide_True. Qed.
  Lemma gw_old (x : loc) : is_Some (s_heap s !! x) -> s_heap s' !! x = s_heap s !! x.
  Proof using Hok. intros [o Ho]. rewrite gw_get, decide_False; [done|]. intros <-. pose proof (proj1 (Hok _ _ Ho)) as HH. lia. Qed.
  Lemma gw_none : s_heap s !! s_next s = None.
  Proof using Hok. destruct (s_heap s !! s_next s) as [o|] eqn:E; [|done]. pose proof (proj1 (Hok _ _ E)) as HH. lia. Qed.
  Lemma gw_ok : heap_ok s'.
  Proof using Hok Hb.
    intros x o Hx. rewrite gw_get in Hx. cbn [s_next grown]. destruct (decide (s_next s = x)) as [<-|Hn].
    - injection Hx as <-. cbn [fresh_obj o_body o_hdr h_mapped]. rewrite <- sub_kids, Hb. split_and!; [lia|by intros ? []|done|apply NoDup_nil_2].
    - destruct (Hok x o Hx) as (H1 & H2 & H3 & H4). split_and!; try done; [lia|]. intros y Hy. rewrite gw_get. case_decide; [by eexists|by apply H2].
  Qed.
  Lemma gw_quiet : quiet O r s s'.
  Proof using Hok Hb. apply grow_quiet; [done|apply gw_ok|done|cbn; lia|apply gw_old]. Qed.
  Lemma gw_reach p x : reach (s_heap s') (s_next s) p = Some x -> p = [] /\ x = s_next s.
  Proof using Hb. destruct p as [|k p]; [by intros [= <-]|]. cbn [reach]. rewrite gw_self. cbn [fresh_obj o_hdr o_body h_mapped]. by rewrite Hb. Qed.
  Lemma gw_look p : look O (s_heap s') (s_next s) p = match p with [] => Seen (label_of b) | _ => Absent end.
  Proof using Hb. destruct p as [|k p]; cbn [look]; rewrite gw_self; cbn [fresh_obj o_hdr o_body h_mapped]; [done|]. by rewrite Hb. Qed.
  Lemma gw_apart a : is_Some (s_heap s !! a) -> apart (s_heap s') a (s_next s).
  Proof using Hok Hb.
    intros Ha p q x Hp [-> ->]%gw_reach. pose proof (fo_reach _ _ p a (sb_fo _ _ _ (grow_below s s' a Hok gw_old Ha))) as HR.
    rewrite HR in Hp. apply (reach_some s p Hok) in Hp; [|done]. rewrite gw_none in Hp. by destruct Hp.
  Qed.
  Lemma gw_one : one_realm r (s_heap s') (s_next s).
  Proof using Hb. intros p x o [-> ->]%gw_reach. rewrite gw_self. intros [= <-]. done. Qed.
  Lemma gw_tidy : label_ok (label_of b) -> tidy O r s' (s_next s).
  Proof using Hok Hb Hv.
    intros Hl. assert (Hd : forall k, dget (kids_of b) k = None) by (intros k; by rewrite Hb).
    eapply tidy_up; [apply gw_ok|apply gw_self|done| | | | | | |].
    - intros k x. cbn [fresh_obj o_body]. by rewrite Hd.
    - intros p q x [-> _]%gw_reach [-> _]%gw_reach. done.
    - intros p. rewrite gw_look. destruct p as [|k p]; split_and!; try done; [by intros lb [= <-]|..]; intros k' lb'; by rewrite gw_look.
    - intros k vs E. rewrite (Hv k vs E). apply wk_nil.
    - done.
    - intros i v m t E. cbn [fresh_obj o_body] in E. clear Hv. subst b. cbn in Hb. by destruct m.
    - intros Hm. destruct (Hm [] (s_next s) (fresh_obj b) eq_refl gw_self) as [Hx|[Hx _]]; [|done]. cbn in Hx. set_solver.
  Qed.
End Grown.

(** ** Ways *)
Lemma lastk_names pre p : lastk pre = false -> lastk (pre ++ map KName p) = false.
Proof.
  intros Hp. destruct p as [|n p] using rev_ind; [by rewrite app_nil_r|]. unfold lastk. rewrite map_app, app_assoc. cbn [map]. by rewrite last_snoc.
Qed.
Lemma lastk_name p n : lastk (p ++ [KName n]) = false.
Proof. unfold lastk. by rewrite last_snoc. Qed.

Section Walk.
  Context `{Env}.
  Context (r : pystr) (g : gstate) (Hrem : is_remote r = false) (Hr : r <> []).
  Notation O := (objs_of g r).

  Lemma qu_some s s' a : quiet O r s s' -> is_Some (s_heap s !! a) -> is_Some (s_heap s' !! a).
  Proof. intros HQ. apply loads_some, (gs_loads _ _ (qu_good _ _ _ _ HQ)). Qed.
  Lemma qu_kind s s' a o : quiet O r s s' -> s_heap s !! a = Some o -> exists o', s_heap s' !! a = Some o' /\ kind_of (o_body o') = kind_of (o_body o).
  Proof. intros HQ Ho. destruct (lo_obj _ _ (gs_loads _ _ (qu_good _ _ _ _ HQ)) a o Ho) as (o' & H1 & H2 & _). eauto. Qed.
  Lemma qu_reach s s' p : quiet O r s s' -> forall a x, reach (s_heap s) a p = Some x -> reach (s_heap s') a p = Some x.
  Proof.
    intros HQ. induction p as [|k p IH]; intros a x; [done|]. cbn [reach]. destruct (s_heap s !! a) as [o|] eqn:Eo; [|done]. destruct (h_mapped (o_hdr o)) eqn:Em; [|done].
    destruct (lo_obj _ _ (gs_loads _ _ (qu_good _ _ _ _ HQ)) a o Eo) as (o' & H1 & _ & H2). rewrite H1, (H2 Em), Em. destruct (dget _ k); [apply IH|done].
  Qed.
  Lemma tidy_some s a : tidy O r s a -> is_Some (s_heap s !! a).
  Proof. intros HT. destruct (tidy_root _ _ _ _ HT) as (o & Ho & _). eauto. Qed.
  Lemma kind_node o c : kind_of (o_body o) = KdNode c -> exists d, o = Obj (o_hdr o) (BNode c d).
  Proof. destruct o as [h b]. cbn. destruct b; try done. intros [= ->]. eauto. Qed.

  Lemma get_child_quiet fuel s l hx c d : tidy O r s l -> s_heap s !! l = Some (Obj hx (BNode c d)) ->
    exists s1 hx1 d1, quiet O r s s1 /\ s_heap s1 !! l = Some (Obj hx1 (BNode c d1)) /\ h_mapped hx1 = true /\
      forall e, exec (get_child fuel l e s) g = ((Ok (dget d1 e), s1), g).
  Proof using Hrem Hr.
    intros HT Hl. destruct (tidy_root _ _ _ _ HT) as (o & Ho & Hh & Hlk). assert (o = Obj hx (BNode c d)) as -> by congruence.
    destruct (ensure_quiet r g Hrem Hr fuel s l _ (td_heap _ _ _ _ HT) Ho Hh Hlk) as (b & s1 & o1 & Hx & HQ & Ho1 & Hm1 & Hk1).
    destruct (kind_node o1 c Hk1) as [d1 E]. destruct o1 as [hx1 b1]. cbn in E. injection E as ->.
    exists s1, hx1, d1. split_and!; try done. intros e. unfold get_child. rewrite x_bind, Hx. cbn beta iota. by rewrite x_bind, (x_children _ _ _ _ _ _ Ho1).
  Qed.
  Lemma look_leaf s l o n q : tidy O r s l -> s_heap s !! l = Some o -> is_node o = false -> look O (s_heap s) l (KName n :: q) = Absent.
  Proof.
    intros HT Ho Hn. destruct (look O (s_heap s) l [KName n]) as [| |lb] eqn:E.
    - pose proof (td_complete _ _ _ _ HT) as HC. revert q. apply (rev_ind (fun q => look O (s_heap s) l (KName n :: q) = Absent)); [done|]. intros k q IH.
      destruct (look O (s_heap s) l (KName n :: q ++ [k])) as [| |lb] eqn:E2; [done|by destruct (HC (KName n :: q ++ [k]))|].
      destruct (HC (KName n :: q)) as (_ & _ & C). destruct (C k lb E2) as (lb' & E3 & _). congruence.
    - by destruct (td_complete _ _ _ _ HT [KName n]) as (E2 & _).
    - destruct (td_complete _ _ _ _ HT []) as (_ & _ & C). destruct (C (KName n) lb E) as (lb' & E3 & Hp). pose proof (look_kind _ _ _ _ _ Ho E3) as Hk.
      unfold is_node in Hn. destruct lb'; try done. destruct (o_body o); done.
  Qed.
  (** looking up a path loads what is on the way *)
  Lemma walk_quiet fuel parts : forall s l, tidy O r s l -> exists s' x, exec (walk fuel l parts s) g = ((Ok x, s'), g) /\ quiet O r s s' /\
    match x with
    | Some x => reach (s_heap s') l (map KName parts) = Some x /\ forall q, look O (s_heap s) l (map KName parts ++ q) = look O (s_heap s') x q
    | None => forall q, look O (s_heap s) l (map KName parts ++ q) = Absent
    end.
  Proof using Hrem Hr.
    induction parts as [|e parts IH]; intros s l HT; cbn [walk map].
    - exists s, (Some l). rewrite x_ret. split_and!; try done. apply qu_refl, (td_heap _ _ _ _ HT).
    - destruct (tidy_some _ _ HT) as [o Ho]. rewrite x_bind, (x_is_node _ _ _ _ Ho). cbn beta iota. destruct (is_node o) eqn:En.
      2:{ exists s, None. rewrite x_ret. split_and!; [done|apply qu_refl, (td_heap _ _ _ _ HT)|]. intros q. by eapply look_leaf. }
      destruct o as [hx b]. destruct b as [| |c d| | |]; try done.
      destruct (get_child_quiet fuel s l hx c d HT Ho) as (s1 & hx1 & d1 & HQ & Ho1 & Hm1 & Hg). rewrite x_bind, Hg. cbn beta iota.
      assert (HL : forall q, look O (s_heap s) l q = look O (s_heap s1) l q) by (intros q; symmetry; by eapply qu_look; [exact HQ|eexists]).
      assert (HT1 : tidy O r s1 l) by (eapply qu_tidy; [exact HQ|by eexists|done]).
      assert (HK : dget (kids_of (BNode c d1)) (KName e) = dget d1 e) by apply kids_names.
      destruct (dget d1 e) as [y|] eqn:Ed.
      + destruct (IH s1 y) as (s2 & x & Hx & HQ2 & HR); [by eapply tidy_kid|]. exists s2, x. split; [done|]. split; [by eapply qu_trans|].
        assert (HL1 : forall q, look O (s_heap s1) l (KName e :: q) = look O (s_heap s1) y q).
        { intros q. cbn [look]. rewrite Ho1. cbn [o_hdr o_body]. by rewrite Hm1, HK. }
        destruct x as [x|].
        * destruct HR as [HR1 HR2]. split.
          -- cbn [reach]. destruct (lo_obj _ _ (gs_loads _ _ (qu_good _ _ _ _ HQ2)) l _ Ho1) as (o2 & Ho2 & _ & E2). rewrite Ho2, (E2 Hm1). cbn [o_hdr o_body]. by rewrite Hm1, HK.
          -- intros q. cbn [app]. rewrite HL, HL1. apply HR2.
        * intros q. cbn [app]. rewrite HL, HL1. apply HR.
      + exists s1, None. rewrite x_ret. split_and!; try done. intros q. cbn [app]. rewrite HL. cbn [look]. rewrite Ho1. cbn [o_hdr o_body]. by rewrite Hm1, HK.
  Qed.
End Walk.

(** ** One new entry *)
Definition fits_in (c : leafcls) (lb : label) : Prop :=
  match lb with LbNode c' => c' = c | LbMeta _ => c = LMeta | LbMrr _ _ => c = LMrr | _ => False end.
Section Graft.
  Context (O : store) (r : pystr) (s : pst) (l y : loc) (p : list key) (hx : hdr) (c : leafcls) (d : pydict pystr loc) (e : pystr) (child : loc) (lbc : label).
  Context (HT : tidy O r s l) (H1 : one_realm r (s_heap s) l) (Hp : reach (s_heap s) l p = Some y) (Hlk : lastk p = false).
  Context (Hy : s_heap s !! y = Some (Obj hx (BNode c d))) (Hm : h_mapped hx = true) (Hd : dget d e = None) (He : storable_name e).
  Context (HC : tidy O r s child) (HC1 : one_realm r (s_heap s) child) (Hap : apart (s_heap s) l child).
  Context (Hlc : look O (s_heap s) child [] = Seen lbc) (Hfit : fits_in c lbc).
  Local Notation o := (Obj hx (BNode c d)).
  Local Notation o' := (Obj (hd_saved ∅ hx) (BNode c (dset d e child))).
  Definition graft : pst := with_heap s (<[y := o']> (s_heap s)).
  Local Notation new := (Some (KName e, child)).

  Lemma gr_kids k x : dget (kids_of (BNode c (dset d e child))) k = Some x -> dget (kids_of (BNode c d)) k = Some x \/ new = Some (k, x).
  Proof using All.
    intros Hk. pose proof (kids_fit _ _ _ Hk) as Hf. destruct k as [n| | | |]; try done. rewrite kids_names in Hk |- *.
    destruct (decide (n = e)) as [->|Hn]; [rewrite dget_dset_eq in Hk; injection Hk as ->; by right|]. rewrite dget_dset_ne in Hk by done. by left.
  Qed.
  Lemma gr_nodup : NoDup (dkeys (kids_of (BNode c (dset d e child)))).
  Proof using All. apply kids_node_keys, dset_nodup, (kids_node_keys _ c). apply (td_heap _ _ _ _ HT y _ Hy). Qed.
  Lemma gr_label : label_ok (LbNode c).
  Proof using All.
    assert (E : look O (s_heap s) l p = Seen (LbNode c)).
    { rewrite <- (app_nil_r p). rewrite (reach_way O (s_heap s) p l y [] Hp Hlk). cbn [look]. rewrite Hy. cbn [o_hdr o_body]. by rewrite Hm. }
    destruct (td_complete _ _ _ _ HT p) as (_ & C & _). by apply C.
  Qed.
  Lemma gr_parts k x : dget (kids_of (BNode c (dset d e child))) k = Some x -> is_ktree k && hollow_at O (s_heap s) x = false ->
    forall lb, look O (s_heap s) x [] = Seen lb -> part_ok (LbNode c) k lb.
  Proof using All.
    intros Hk Hh lb Hl. pose proof (kids_fit _ _ _ Hk) as Hf. destruct k as [n| | | |]; try done. destruct (gr_kids _ _ Hk) as [Hk0|[= <- <-]].
    - destruct (tidy_kid_label O r s y o (KName n) x (tidy_reach _ _ _ _ _ _ HT Hp) Hy Hm Hk0 eq_refl) as (ox & lb' & Hox & Hl' & _ & Hpo).
      rewrite Hl in Hl'. injection Hl' as <-. exact Hpo.
    - rewrite Hlc in Hl. injection Hl as <-. split; [done|]. by destruct lbc.
  Qed.
  Lemma gr_new k x : new = Some (k, x) -> tidy O r s x /\ apart (s_heap s) l x.
  Proof using All. by intros [= <- <-]. Qed.
  Lemma graft_tidy : tidy O r graft l.
  Proof using All.
    refine (ed_tidy O r s l y p o o' new HT Hp Hy Hm Hm eq_refl eq_refl eq_refl gr_new gr_kids gr_nodup _ _ gr_label gr_parts); done.
  Qed.
  Lemma graft_one : one_realm r (s_heap graft) l.
  Proof using All.
    refine (ed_one O r s l y p o o' new HT Hp Hy Hm Hm eq_refl gr_new gr_kids gr_parts H1 _). by intros k x [= <- <-].
  Qed.
  Lemma graft_look q : look O (s_heap graft) l (p ++ KName e :: q) = look O (s_heap s) child q.
  Proof using All.
    unfold graft; cbn [s_heap with_heap].
    rewrite (ed_look_below O r s l y p o' HT Hp (KName e :: q)), Hlk. cbn [andb]. rewrite (ed_look_y O r s l y p o o' new HT Hp Hy Hm Hm gr_new gr_kids gr_parts).
    cbn [o_body]. rewrite kids_names, dget_dset_eq. done.
  Qed.
  Lemma graft_before q : look O (s_heap s) l (p ++ KName e :: q) = Absent.
  Proof using All. rewrite (reach_way O (s_heap s) p l y _ Hp Hlk). cbn [look]. rewrite Hy. cbn [o_hdr o_body]. by rewrite Hm, kids_names, Hd. Qed.
  Lemma graft_off q : ~ extends q (p ++ [KName e]) -> look O (s_heap graft) l q = look O (s_heap s) l q.
  Proof using All.
    intros Hq. unfold graft; cbn [s_heap with_heap]. destruct (decide (extends q p)) as [[q' ->]|Hn].
    2:{ by apply (ed_look_off O r s l y p o' HT Hp). }
    rewrite (reach_way O (s_heap s) p l y _ Hp Hlk). rewrite (ed_look_below O r s l y p o' HT Hp q'), Hlk. cbn [andb]. destruct q' as [|k q'].
    - rewrite (ed_look_nil O s y o' Hm). cbn [look]. rewrite Hy. cbn [o_hdr o_body]. by rewrite Hm.
    - rewrite (ed_look_y O r s l y p o o' new HT Hp Hy Hm Hm gr_new gr_kids gr_parts). cbn [look]. rewrite Hy. cbn [o_hdr o_body]. rewrite Hm.
      destruct k as [n| | | |].
      1: rewrite !kids_names, dget_dset_ne; [done|intros ->; apply Hq; exists q'; by rewrite <- app_assoc].
      all: match goal with |- context [dget (kids_of (BNode c ?d0)) ?k] => destruct (dget (kids_of (BNode c d0)) k) eqn:E1; [by apply kids_fit in E1|] end;
        match goal with |- context [dget (kids_of (BNode c ?d0)) ?k] => destruct (dget (kids_of (BNode c d0)) k) eqn:E2; [by apply kids_fit in E2|] end; done.
  Qed.
  Lemma graft_get (x : loc) : s_heap graft !! x = if decide (y = x) then Some o' else s_heap s !! x.
  Proof using All. cbn. apply heap_insert. Qed.
  Lemma graft_reach : reach (s_heap graft) l (p ++ [KName e]) = Some child.
  Proof using All.
    unfold graft; cbn [s_heap with_heap]. rewrite (up_reach_below (s_heap s) y o' p l [KName e] Hp (ed_uniq O r s l y p HT Hp)). cbn [reach]. rewrite (ed_self s y o'). cbn [o_hdr o_body hd_saved h_mapped]. by rewrite Hm, kids_names, dget_dset_eq.
  Qed.
  (** other objects *)
  Lemma graft_below a : apart (s_heap s) l a -> same_below (s_heap s) (s_heap graft) a.
  Proof using All. intros Ha. apply up_same. intros q Hq. by apply (Ha p q y). Qed.
  Lemma graft_apart a : apart (s_heap s) l a -> apart (s_heap s) child a -> apart (s_heap graft) l a.
  Proof using All.
    intros Ha Hc q1 q2 x Hx Hx2. rewrite (fo_reach _ _ q2 a (sb_fo _ _ _ (graft_below a Ha))) in Hx2.
    destruct (ed_cases O r s l y p o o' new HT Hp Hy Hm Hm gr_new gr_kids gr_parts q1 x Hx) as [(_ & E & _)|[[_ ->]|(k & z & q' & _ & Hz & Hx' & _)]].
    - by apply (Ha q1 q2 x).
    - by apply (Ha p q2 y).
    - destruct (gr_kids _ _ Hz) as [Hz'|[= <- <-]].
      + apply (Ha (p ++ k :: q') q2 x); [|done]. rewrite reach_app, Hp. cbn [reach]. rewrite Hy. cbn [o_hdr o_body]. by rewrite Hm, Hz'.
      + by apply (Hc q' q2 x).
  Qed.
  Lemma graft_ok : heap_ok graft.
  Proof using All. apply (td_heap _ _ _ _ graft_tidy). Qed.
End Graft.
