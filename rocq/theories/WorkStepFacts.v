(** The steps of a look-up with [auto_create], between loading and writing: proofs for C55. *)
From Verif Require Import Base BaseFacts Path Spec_Path PathFacts Json Refs RefsFacts Meta Spec_Meta MetaFacts GitText Spec_Git Git GitFacts Spec_Store State BlobCache ObjRef Objects Spec_Objects Spec_Look Spec_Heap Spec_Versions Spec_Write ExecFacts LoadFacts PeekFacts TreeFacts TreeEditFacts VersionFacts PartFacts LookFacts ReadFacts Spec_Content ContentFacts WriteFacts StoreFacts SaveFacts WriteBackFacts WriteAllFacts ReadBackFacts PurgeFacts EditFacts RealmFacts GraftFacts AddFacts ListFacts Spec_History UseFacts FrameFacts DatasetFacts HistoryFacts
  Common Spec_Common CommonFacts Spec_Publish Spec_Demand Spec_Workflow WorkFacts.

(** ** Version lists *)
Lemma vs_more k vs v q t e : well_keyed vs -> record_of vs v q = None -> scalar_str v -> scalar_str t -> is_metadata_path q -> scalar_str (mp_as_posix q) -> label_ok (label_of (BVlist k vs)) ->
  let vs' := vs_set vs v q (VRec t q e) in
  well_keyed vs' /\ (forall k2, dget (kids_of (BVlist k vs')) k2 = if decide (KVer v q = k2) then Some (elt_loc e) else dget (kids_of (BVlist k vs)) k2) /\
  dget (kids_of (BVlist k vs)) (KVer v q) = None /\ NoDup (dkeys (kids_of (BVlist k vs'))) /\ label_ok (label_of (BVlist k vs')) /\ adds (KVer v q) t (label_of (BVlist k vs)) (label_of (BVlist k vs')) /\
  (forall k2 lb, part_ok (label_of (BVlist k vs)) k2 lb -> part_ok (label_of (BVlist k vs')) k2 lb) /\
  (forall lb, match lb with LbNode c => c = LMrr /\ is_etree e = true | LbMrr _ _ => is_etree e = false | _ => False end -> part_ok (label_of (BVlist k vs')) (KVer v q) lb).
Proof.
  intros Hw Hnone Hv Ht Hq Hq2 HL vs'. assert (Hw' : well_keyed vs') by by apply wk_set.
  assert (Hkid : forall v2 q2, dget (kids_of (BVlist k vs')) (KVer v2 q2) = if decide ((v, q) = (v2, q2)) then Some (elt_loc e) else dget (kids_of (BVlist k vs)) (KVer v2 q2)).
  { intros v2 q2. rewrite !kids_vget by by apply keyed_ok. unfold vs'. rewrite vget_set. by destruct (decide _). }
  set (rc := fun r : pystr * vrec => (fst r, vr_path (snd r), vr_time (snd r), is_etree (vr_elt (snd r)))).
  pose proof (set_recorded vs v q t e Hw) as HR. cbv zeta in HR. fold rc vs' in HR.
  assert (HIn : forall v2 q2 t2 b2, In (v2, q2, t2, b2) (map rc (vs_records vs')) <-> ((v2, q2) = (v, q) /\ t2 = t /\ b2 = is_etree e) \/ ((v2, q2) <> (v, q) /\ In (v2, q2, t2, b2) (map rc (vs_records vs)))).
  { intros v2 q2 t2 b2. destruct HR as [R1 R2]. destruct (decide ((v2, q2) = (v, q))) as [[= -> ->]|Hn].
    - transitivity (In (v, q, t2, b2) (List.filter (same_key v q) (map rc (vs_records vs')))).
      + rewrite filter_In. unfold same_key. cbn. rewrite bool_decide_true by done. tauto.
      + rewrite R1. cbn. split; [intros [[= <- <-]|[]]; by left|intros [(_ & -> & ->)|[[] _]]; [by left|done]].
    - transitivity (In (v2, q2, t2, b2) (List.filter (fun x => negb (same_key v q x)) (map rc (vs_records vs')))).
      + rewrite filter_In. unfold same_key. cbn. rewrite bool_decide_false by done. tauto.
      + rewrite R2, filter_In. unfold same_key. cbn. rewrite bool_decide_false by done. cbn. split; [intros [? _]; by right|intros [[? _]|[_ ?]]; done]. }
  assert (Hno : forall t2 b2, ~ In (v, q, t2, b2) (map rc (vs_records vs))).
  { intros t2 b2 Hin. apply in_map_iff in Hin as ([v' r'] & [= -> <- _ _] & Hin). apply records_in in Hin; [|done]. cbn in *. congruence. }
  split; [done|]. split.
  { intros k2. destruct (decide (KVer v q = k2)) as [<-|Hn]; [by rewrite Hkid, decide_True|]. destruct k2 as [| | |v2 q2|]; try (by rewrite !no_kid by done). rewrite Hkid, decide_False by congruence. done. }
  split. { rewrite kids_vget by by apply keyed_ok. unfold vget. unfold record_of in Hnone. by rewrite Hnone. }
  split; [by apply kids_flat_keys, keyed_ok|]. cbn [label_of label_ok] in *. fold rc in HL |- *. split.
  { intros v2 q2 t2 b2 [([= -> ->] & -> & _)|[_ Hin]]%HIn; [done|]. by eapply HL. }
  split. { split; [done|]. split; [intros [[[v2 q2] t2] b2] Hin; apply HIn; right; split; [|done]; intros [= -> ->]; by eapply Hno|]. intros v2 q2 t2 b2 [([= -> ->] & -> & _)|[_ Hin]]%HIn; [by right|by left]. }
  split.
  - intros k2 lb. destruct k2 as [| | |v2 q2|]; try done. cbn [part_ok]. intros (t2 & b2 & Hin & Hlb). exists t2, b2. split; [|done]. apply HIn. right. split; [|done]. intros [= -> ->]. by eapply Hno.
  - intros lb Hlb. cbn [part_ok]. exists t, (is_etree e). split; [apply HIn; by left|]. by destruct lb.
Qed.

Lemma same_look O h h' l : same_below h h' l -> forall q, look O h' l q = look O h l q.
Proof. intros HS q. by apply fo_look, sb_fo. Qed.
Section Exec.
  Context `{Env}.
  Lemma x_has fuel l v p hx k vs s g : s_heap s !! l = Some (Obj hx (BVlist k vs)) -> h_mapped hx = true -> well_keyed vs ->
    exec (has_version fuel l v p s) g = ((Ok (is_some (record_of vs v p)), s), g).
  Proof.
    intros Ho Hm Hw. unfold has_version, versions_and_prefix_paths. rewrite !x_bind, (x_mapped_noop _ _ _ _ _ Ho Hm). cbn beta iota.
    rewrite x_bind, (x_versions _ _ _ _ _ _ Ho). cbn beta iota. rewrite x_ret. cbn beta iota. rewrite x_ret. do 3 f_equal. cbn [snd].
    destruct (record_of vs v p) as [rr|] eqn:Er; cbn [is_some].
    - apply bool_decide_eq_true. rewrite elem_of_list_In, in_map_iff.
      assert (Hp : vr_path rr = p). { unfold record_of in Er. destruct (dget vs v) as [d|] eqn:Ed; [|done]. apply dget_Some_In in Ed. apply (proj2 Hw) in Ed as [_ Hd]. apply dget_Some_In in Er. by apply Hd. }
      exists (v, rr). cbn. split; [by rewrite Hp|]. apply records_in; [done|]. by rewrite Hp.
    - apply bool_decide_eq_false. rewrite elem_of_list_In, in_map_iff. intros ([v' r'] & [= -> <-] & Hin). apply records_in in Hin; [|done]. cbn in *. congruence.
  Qed.
  Lemma x_has_load fuel l v p hx k vs b s s1 g : exec (ensure_mapped fuel l s) g = ((Ok b, s1), g) -> s_heap s1 !! l = Some (Obj hx (BVlist k vs)) -> h_mapped hx = true -> well_keyed vs ->
    exec (has_version fuel l v p s) g = ((Ok (is_some (record_of vs v p)), s1), g).
  Proof.
    intros E Ho Hm Hw. rewrite <- (x_has fuel l v p hx k vs s1 g Ho Hm Hw). unfold has_version, versions_and_prefix_paths. rewrite !(x_bind _ _ s), !(x_bind _ _ s1), E. cbn beta iota.
    by rewrite (x_mapped_noop _ _ _ _ _ Ho Hm).
  Qed.
  Lemma x_get_version fuel l v p hx k vs rr s g : s_heap s !! l = Some (Obj hx (BVlist k vs)) -> h_mapped hx = true -> record_of vs v p = Some rr ->
    exec (get_versioned_element fuel l v p s) g = exec ((elt_read_in fuel (vr_elt rr) ;;; mret rr) s) g.
  Proof.
    intros Ho Hm Er. unfold get_versioned_element. rewrite x_bind, (x_mapped_noop _ _ _ _ _ Ho Hm). cbn beta iota.
    assert (Eg : exec (get_version_record fuel l v p s) g = ((Ok rr, s), g)).
    { unfold get_version_record. rewrite x_bind, (x_mapped_noop _ _ _ _ _ Ho Hm). cbn beta iota. rewrite x_bind, (x_versions _ _ _ _ _ _ Ho). cbn beta iota. cbn [snd].
      unfold record_of in Er. destruct (dget vs v); [|done]. by rewrite Er. }
    by rewrite x_bind, Eg.
  Qed.
End Exec.

(** ** A new root record *)
Section Record.
  Context `{Env}.
  Context (r : pystr) (Hrem : is_remote r = false) (Hr : r <> []).
  Notation O g := (objs_of g r).
  Definition rec_state (s : pst) (u : uuid) (v : pystr) : pst :=
    GraftFacts.grown (GraftFacts.grown (GraftFacts.grown s (fresh_obj (BMeta []))) (fresh_obj (BNode LMeta []))) (fresh_obj (BMrr (Some u) (Some v) (Some (s_next s)) (Some (N.succ (s_next s))))).
  Definition rec_loc (s : pst) : loc := N.succ (N.succ (s_next s)).
  Lemma x_record s g u v : exec (new_root_record (Some u) (Some v) s) g = ((Ok (rec_loc s), rec_state s u v), g).
  Proof.
    unfold new_root_record. rewrite x_bind, TreeEditFacts.x_new. cbn beta iota. rewrite x_bind, TreeEditFacts.x_new. cbn beta iota. by rewrite TreeEditFacts.x_new.
  Qed.
  Lemma record_hold s g u v R : hold r g s R -> uuid_ok u -> scalar_str v -> hold r g (rec_state s u v) ({[rec_loc s]} ∪ R) /\ rec_loc s ∉ R /\
    forall q, look (O g) (s_heap (rec_state s u v)) (rec_loc s) q = new_record u v q.
  Proof using All.
    intros HH Hu Hv.
    destruct (hold_grown r g s R (BMeta []) HH eq_refl) as (A1 & A2 & A3 & A4); [done|apply built_empty|]. set (s1 := GraftFacts.grown s (fresh_obj (BMeta []))) in *.
    destruct (hold_grown r g s1 _ (BNode LMeta []) A2 eq_refl) as (B1 & B2 & B3 & B4); [done|done|]. set (s2 := GraftFacts.grown s1 (fresh_obj (BNode LMeta []))) in *.
    assert (Hok : heap_ok s) by apply (hd_fresh _ _ _ _ HH). assert (Hok1 : heap_ok s1) by apply (hd_fresh _ _ _ _ A2).
    change (s_next s1) with (N.succ (s_next s)) in *.
    destruct (hold_record r Hrem Hr g s2 ({[N.succ (s_next s)]} ∪ ({[s_next s]} ∪ R)) u v (Some (s_next s)) (Some (N.succ (s_next s))) B2 Hu Hv) as (C1 & C2 & C3 & C4).
    - cbn [given]. set_solver.
    - cbn [given]. set_solver.
    - cbn [given]. apply disjoint_singleton_l. rewrite elem_of_singleton. lia.
    - intros a [= <-]. exists (fresh_obj (BMeta [])). split; [|done]. unfold s2. rewrite gw_old; [apply gw_self|done|]. eexists. apply gw_self.
    - intros a [= <-]. exists (fresh_obj (BNode LMeta [])). split; [|done]. exact (gw_self s1 _).
    - change (s_next s2) with (rec_loc s) in *. cbn [given] in C2.
      split; [|split].
      + eapply hold_sub; [exact C2|]. intros a Ha. apply elem_of_union in Ha as [Ha|Ha]; [set_solver|]. apply elem_of_union. right. apply elem_of_difference. split; [set_solver|].
        intros [->%elem_of_singleton| ->%elem_of_singleton]%elem_of_union; [done|]. apply B1. set_solver.
      + intros Hc. apply C1. set_solver.
      + intros q. destruct C4 as [T1 _]. cbv zeta in T1.
        assert (Hhol : forall q, look (O g) (s_heap s2) (N.succ (s_next s)) q = leaf (LbNode LMeta) q) by (intros q0; apply B4).
        assert (Hm : forall q, look (O g) (s_heap s2) (s_next s) q = leaf (LbMeta []) q). { intros q0. rewrite B3 by set_solver. apply A4. }
        unfold rec_state. fold s1 s2. rewrite T1.
        2:{ exact Hhol. }
        destruct q as [|[n| | | |] q]; cbn [unplug plug leaf new_record]; try done.
        rewrite decide_False by done. rewrite decide_True by done. rewrite Hm. by destruct q.
  Qed.
  Lemma record_quiet s g u v : fresh r s -> uuid_ok u -> scalar_str v ->
    let s' := rec_state s u v in let m := rec_loc s in
    quiet (O g) r s s' /\ able (O g) r s' m /\ (forall a, able (O g) r s a -> apart (s_heap s') a m) /\ (forall q, look (O g) (s_heap s') m q = new_record u v q) /\ is_kind (s_heap s') m KdMrr.
  Proof using All.
    intros Hf Hu Hv s' m. assert (H0 : hold r g s ∅) by (split; [done|set_solver|set_solver]).
    destruct (record_hold s g u v ∅ H0 Hu Hv) as (A1 & _ & A3). assert (Hok : heap_ok s) by apply Hf. pose proof (hd_fresh _ _ _ _ A1) as (Hok' & _ & _).
    assert (HN : forall x : loc, is_Some (s_heap s !! x) -> (x < s_next s)%N) by (intros x [o Ho]; by apply (Hok x o)).
    split; [|split; [apply A1; set_solver|split; [|split; [done|]]]].
    - apply grow_quiet; [done|done|done|cbn; lia|]. intros x Hx%HN. unfold s', rec_state, GraftFacts.grown. cbn. rewrite !heap_insert, !decide_False by lia. done.
    - intros a Ha. assert (H1 : hold r g s {[a]}). { split; [done| |]; intros b; [|intros b']; rewrite !elem_of_singleton; [by intros ->|]. by intros -> ->. }
      destruct (record_hold s g u v {[a]} H1 Hu Hv) as (B1 & B2 & _). apply (hd_apart _ _ _ _ B1); [set_solver|set_solver|]. intros ->. apply B2. set_solver.
    - eexists. split; [apply gw_self|done].
  Qed.
End Record.

(** ** One top node *)
Section Side.
  Context (g : gstate) (r : pystr) (c : content) (Hfull : full c).
  Notation O := (objs_of g r).
  (** Nothing that is in [c] is lost; without changes everything is marked as saved. *)
  Definition held (s : pst) (l : loc) : Prop :=
    within c (look O (s_heap s) l) /\ (((forall q, look O (s_heap s) l q = c q) /\ all_saved r (s_heap s) l) \/ dirty (s_heap s) l).
  Record side (s : pst) (l : loc) (o : obj) (X : list key -> Prop) : Prop := {
    sd_based : based O r s l o;
    sd_held : held s l;
    sd_shaped : shaped X (look O (s_heap s) l);
  }.
  Lemma sd_some s l o X : side s l o X -> is_Some (s_heap s !! l).
  Proof using. intros HS. eexists. apply (rd_obj _ _ _ _ _ (proj1 (sd_based _ _ _ _ HS))). Qed.
  Lemma sd_weak s l o (X X' : list key -> Prop) : (forall p, X p -> X' p) -> side s l o X -> side s l o X'.
  Proof using. intros HX [H1 H2 H3]. split; [done|done|by eapply shaped_weak]. Qed.
  Lemma dirty_quiet s s' l : quiet O r s s' -> dirty (s_heap s) l -> dirty (s_heap s') l.
  Proof using. intros HQ (p & x & Hp & o & Ho & Hm & Hs). exists p, x. split; [by eapply (qu_reach r g)|]. exists o. split; [by eapply quiet_cell|done]. Qed.
  Lemma side_quiet s s' l o X : quiet O r s s' -> side s l o X -> side s' l o X.
  Proof using All.
    intros HQ HS. pose proof (sd_some _ _ _ _ HS) as Hl. destruct HS as [H1 [H2 H3] H4]. pose proof (fun q => qu_look _ _ _ _ HQ l q Hl) as EL. split.
    - by eapply based_quiet.
    - split; [eapply within_ext; [|intros q; symmetry; apply EL|exact H2]; done|]. destruct H3 as [[H3 H5]|H3]; [left|right; by eapply dirty_quiet].
      split; [intros q; by rewrite EL|]. apply (qu_saved _ _ _ _ HQ); [done|by eapply rd_complete; apply H1| |done].
      intros p cl. rewrite H3. intros Hp Hn. destruct (Hfull p cl Hp Hn) as (k & lb & Hk). exists k, lb. by rewrite H3.
    - eapply shaped_ext; [|exact H4]. intros q. by rewrite EL.
  Qed.
  Lemma side_same s s' l o X : based O r s' l o -> same_below (s_heap s) (s_heap s') l -> side s l o X -> side s' l o X.
  Proof using.
    intros HB HS [H1 [H2 H3] H4]. assert (EL : forall q, look O (s_heap s') l q = look O (s_heap s) l q) by (intros q; by apply fo_look, sb_fo).
    assert (ER : forall q, reach (s_heap s') l q = reach (s_heap s) l q) by (intros q; by apply sb_reach_eq). split.
    - done.
    - split; [eapply within_ext; [|intros q; symmetry; apply EL|exact H2]; done|]. destruct H3 as [[H3 H5]|(p & x & Hp & o0 & Ho & Hm)]; [left|right].
      + split; [intros q; by rewrite EL|]. intros p x o0 Hp Ho. rewrite ER in Hp. rewrite (HS p x Hp) in Ho. by apply (H5 p x).
      + exists p, x. rewrite ER. split; [done|]. exists o0. rewrite (HS p x Hp). done.
    - eapply shaped_ext; [|exact H4]. intros q. by rewrite EL.
  Qed.
  Lemma held_plus s s' l Q k t n : held s l -> plus Q k t n (look O (s_heap s) l) (look O (s_heap s') l) -> dirty (s_heap s') l -> held s' l.
  Proof using. intros [H1 _] HP HD. split; [|by right]. eapply within_trans; [exact H1|]. by eapply plus_within. Qed.

  (** a new entry of the top node *)
  Section NewEntry.
    Context (s : pst) (l : loc) (o o' : obj) (k0 : key) (ch : loc) (X X' : list key -> Prop) (lbn : label) (t : pystr) (HS : side s l o X).
    Context (Hh : o_hdr o' = hd_saved ∅ (o_hdr o)) (Hk : kind_of (o_body o') = kind_of (o_body o)) (Hno : dget (kids_of (o_body o)) k0 = None).
    Context (Hkids : forall k, dget (kids_of (o_body o')) k = if decide (k0 = k) then Some ch else dget (kids_of (o_body o)) k).
    Context (Hc : able O r s ch) (Hap : forall k x, dget (kids_of (o_body o)) k = Some x -> apart (s_heap s) x ch) (Hlow : forall q y, reach (s_heap s) ch q = Some y -> ~ is_top s y).
    Context (Hnd : NoDup (dkeys (kids_of (o_body o')))) (Hwk : forall k vs, o_body o' = BVlist k vs -> well_keyed vs) (Hlab : label_ok (label_of (o_body o'))).
    Context (Hgr : adds k0 t (label_of (o_body o)) (label_of (o_body o'))) (Hpo : forall k lb, part_ok (label_of (o_body o)) k lb -> part_ok (label_of (o_body o')) k lb).
    Context (Hlb : look O (s_heap s) ch [] = Seen lbn) (Hpn : part_ok (label_of (o_body o')) k0 lbn).
    Context (Hsh : shaped nowhere (look O (s_heap s) ch)) (HX : forall p, X p -> X' p \/ p = []) (HF : forall cl, lbn = LbNode cl -> X' [k0]).
    Context (HL : forall v q rs, label_of (o_body o) = LbVl true rs -> k0 = KVer v q -> lbn = LbNode LMrr).
    Notation s' := (edited s l o').
    Let B := sd_based _ _ _ _ HS.
    Lemma ne_kids k x : dget (kids_of (o_body o')) k = Some x -> (k <> k0 /\ dget (kids_of (o_body o)) k = Some x) \/ (k = k0 /\ x = ch).
    Proof using All. rewrite Hkids. destruct (decide (k0 = k)) as [<-|Hn]; [intros [= <-]; by right|]. intros Hx. left. split; [congruence|done]. Qed.
    Lemma ne_apart k x : k <> k0 -> dget (kids_of (o_body o)) k = Some x -> apart (s_heap s) x ch.
    Proof using All. intros _ Hx. by eapply Hap. Qed.
    Lemma ne_part k x lb : dget (kids_of (o_body o')) k = Some x -> look O (s_heap s) x [] = Seen lb -> part_ok (label_of (o_body o')) k lb.
    Proof using All.
      intros [[Hn Hx]|[-> ->]]%ne_kids Hl; [|rewrite Hlb in Hl; by injection Hl as <-]. apply Hpo. by eapply (rd_part _ _ _ _ _ (proj1 B)).
    Qed.
    Lemma ne_based : based O r s' l o'.
    Proof using All. apply (top_based O r s l o o' k0 ch B Hh Hk ne_kids Hc ne_apart Hlow Hnd Hwk Hlab ne_part). Qed.
    Lemma ne_other l2 o2 : based O r s l2 o2 -> l2 <> l -> based O r s' l2 o2 /\ same_below (s_heap s) (s_heap s') l2.
    Proof using All. apply (top_other O r s l o o' k0 ch B Hh Hk ne_kids Hc ne_apart Hlow Hnd Hwk Hlab ne_part). Qed.
    Lemma ne_kid_same k x : dget (kids_of (o_body o')) k = Some x -> same_below (s_heap s) (s_heap s') x.
    Proof using All. intros Hd. apply top_below. by eapply (top_kid O r s l o o' k0 ch B Hh Hk ne_kids Hc ne_apart Hlow Hnd Hwk Hlab ne_part k x). Qed.
    Lemma ne_plus : plus [] k0 t (look O (s_heap s) ch) (look O (s_heap s) l) (look O (s_heap s') l).
    Proof using All.
      pose proof (top_look O r s l o o' k0 ch B Hh Hk ne_kids Hc ne_apart Hlow Hnd Hwk Hlab ne_part) as TL. pose proof (rd_look O r s l o (proj1 B)) as RL. split.
      - intros q. cbn [app]. rewrite TL, Hkids, decide_True by done. done.
      - intros [|k q] Hp Hx; [done|]. rewrite TL, RL, Hkids. destruct (decide (k0 = k)) as [<-|Hn]; [|done]. exfalso. apply Hx. by exists q.
      - eexists _, _. split; [eapply rd_nil, B|]. split; [eapply rd_nil, ne_based|done].
      - intros q. cbn [app]. by rewrite RL, Hno.
    Qed.
    Lemma ne_side : side s' l o' X'.
    Proof using All.
      pose proof ne_plus as HP. split.
      - apply ne_based.
      - eapply held_plus; [apply HS|exact HP|]. eapply (top_dirty O r s l o o' B Hh).
      - eapply (plus_shaped [] k0 t _ _ _ X X' lbn); [exact HP|done|apply HS|done|done| | |].
        + intros cl Hcl. left. by eapply HF.
        + intros e. rewrite (rd_nil O r s l o (proj1 B)). intros [= E]. pose proof (rd_top _ _ _ _ _ (proj1 B)) as Ht. destruct (o_body o); try done. by destruct Ht.
        + intros v q rs. rewrite (rd_nil O r s l o (proj1 B)). intros [= E]. by eapply HL.
    Qed.
  End NewEntry.
  (** a new part of an entry *)
  Section NewPart.
    Context (s : pst) (l : loc) (ol : obj) (k0 : key) (x : loc) (o o' : obj) (kk : key) (ch : loc) (X X' : list key -> Prop) (lbn : label) (t : pystr) (HS : side s l ol X).
    Context (Hx : dget (kids_of (o_body ol)) k0 = Some x) (E : edits O r s x x [] o o' (Some (kk, ch))).
    Context (Hnew : forall k1 x1, k1 <> k0 -> dget (kids_of (o_body ol)) k1 = Some x1 -> apart (s_heap s) ch x1).
    Context (Hno : dget (kids_of (o_body o)) kk = None) (Hkt : is_ktree kk = false) (Hx2 : forall k, dget (kids_of (o_body o')) k = if decide (kk = k) then Some ch else dget (kids_of (o_body o)) k).
    Context (Hgr : adds kk t (label_of (o_body o)) (label_of (o_body o'))).
    Context (Hpk : part_ok (label_of (o_body ol)) k0 (label_of (o_body o)) -> part_ok (label_of (o_body ol)) k0 (label_of (o_body o'))).
    Notation s' := (edited s x o').
    Let B := sd_based _ _ _ _ HS.
    Lemma np_part lb : look O (s_heap s') x [] = Seen lb -> part_ok (label_of (o_body ol)) k0 lb.
    Proof using All.
      rewrite (et_top _ _ _ _ _ _ _ _ _ E). intros [= <-]. apply Hpk.
      eapply (rd_part _ _ _ _ _ (proj1 B)); [exact Hx|]. apply look_top; apply E.
    Qed.
    Let Hnew' : forall k c k1 x1, Some (kk, ch) = Some (k, c) -> k1 <> k0 -> dget (kids_of (o_body ol)) k1 = Some x1 -> apart (s_heap s) c x1.
    Proof. intros k c1 k1 x1 [= <- <-]. apply Hnew. Qed.
    Lemma np_based : based O r s' l ol.
    Proof using All. apply (low_based O r s l ol k0 x x [] o o' _ B Hx E Hnew' np_part). Qed.
    Lemma np_other l2 o2 : based O r s l2 o2 -> (forall k2 x2, dget (kids_of (o_body o2)) k2 = Some x2 -> apart (s_heap s) x x2) -> based O r s' l2 o2 /\ same_below (s_heap s) (s_heap s') l2.
    Proof using All. apply (low_other O r s l ol k0 x x [] o o' _ B Hx E Hnew' np_part). Qed.
    Lemma np_plus : plus [k0] kk t (look O (s_heap s) ch) (look O (s_heap s) l) (look O (s_heap s') l).
    Proof using All.
      pose proof (low_look O r s l ol k0 x x [] o o' _ B Hx E Hnew' np_part) as LL. pose proof (rd_look O r s l ol (proj1 B)) as RL.
      assert (Hm : h_mapped (o_hdr o) = true) by apply E. assert (Ho : s_heap s !! x = Some o) by apply E.
      split.
      - intros q. cbn [app]. rewrite LL, decide_True by done. rewrite (et_below _ _ _ _ _ _ _ _ _ E), Hx2, decide_True, Hkt by done. done.
      - intros [|k p] Hp Hnx; [by rewrite (rd_nil O r s' l ol (proj1 np_based)), (rd_nil O r s l ol (proj1 B))|].
        rewrite LL. destruct (decide (k = k0)) as [->|Hn]; [|done]. destruct p as [|k2 p]; [done|]. rewrite RL, Hx, (et_below _ _ _ _ _ _ _ _ _ E), Hx2, (look_kids O (s_heap s) x o k2 p Ho Hm).
        destruct (decide (kk = k2)) as [<-|Hn2]; [|done]. exfalso. apply Hnx. by exists p.
      - exists (label_of (o_body o)), (label_of (o_body o')). split; [|split; [|done]].
        + rewrite RL, Hx. by apply look_top.
        + rewrite LL, decide_True by done. apply (et_top _ _ _ _ _ _ _ _ _ E).
      - intros q. cbn [app]. rewrite RL, Hx, (look_kids O (s_heap s) x o kk q Ho Hm), Hno. done.
    Qed.
    Context (Hlb : look O (s_heap s) ch [] = Seen lbn) (Hsh : shaped nowhere (look O (s_heap s) ch)) (HX : forall p, X p -> X' p \/ p = [k0]) (HF : forall cl, lbn <> LbNode cl).
    Context (HTr : forall e, kk = KName e -> (e = root_record_name <-> exists i v, lbn = LbMrr i v)) (HLs : forall rs, label_of (o_body o) <> LbVl true rs).
    Lemma np_side : side s' l ol X'.
    Proof using All.
      pose proof np_plus as HP. split.
      - apply np_based.
      - eapply held_plus; [apply HS|exact HP|]. apply (low_dirty O r s l ol k0 x x [] o o' _ B Hx E Hnew' np_part).
      - eapply (plus_shaped [k0] kk t _ _ _ X X' lbn); [exact HP|done|apply HS|done|done| | |].
        + intros cl Hcl. by destruct (HF cl).
        + intros e _. apply HTr.
        + intros v q rs. rewrite (rd_look O r s l ol (proj1 B)), Hx. rewrite (look_top O (s_heap s) x o) by apply E. intros [= E2]. by destruct (HLs rs).
    Qed.
  End NewPart.
End Side.

(** ** Both top nodes *)
Section World.
  Context `{Env}.
  Context (r : pystr) (g : gstate) (Hrem : is_remote r = false) (Hr : r <> []).
  Context (tvl us : loc) (c1 c2 : content) (F1 : full c1) (F2 : full c2).
  Notation O := (objs_of g r).
  Record world (s : pst) (ot ou : obj) (X : list key -> Prop) : Prop := {
    wo_fresh : fresh r s;
    wo_t : side g r c1 s tvl ot X;
    wo_u : side g r c2 s us ou nowhere;
    wo_kt : kind_of (o_body ot) = KdVl true;
    wo_ku : kind_of (o_body ou) = KdUs;
    wo_cross : forall k x k' x', dget (kids_of (o_body ot)) k = Some x -> dget (kids_of (o_body ou)) k' = Some x' -> apart (s_heap s) x x';
  }.
  Lemma wo_ready_t s ot ou X : world s ot ou X -> ready O r s tvl ot.
  Proof using. intros W. apply (sd_based _ _ _ _ _ _ _ (wo_t _ _ _ _ W)). Qed.
  Lemma wo_ready_u s ot ou X : world s ot ou X -> ready O r s us ou.
  Proof using. intros W. apply (sd_based _ _ _ _ _ _ _ (wo_u _ _ _ _ W)). Qed.
  Lemma wo_ne s ot ou X : world s ot ou X -> tvl <> us.
  Proof using.
    intros W E. pose proof (rd_obj _ _ _ _ _ (wo_ready_t _ _ _ _ W)) as H1. pose proof (rd_obj _ _ _ _ _ (wo_ready_u _ _ _ _ W)) as H2. rewrite E, H2 in H1. injection H1 as ->.
    pose proof (wo_kt _ _ _ _ W). pose proof (wo_ku _ _ _ _ W). congruence.
  Qed.
  Lemma wo_able_t s ot ou X k x : world s ot ou X -> dget (kids_of (o_body ot)) k = Some x -> able O r s x.
  Proof using. intros W. eapply based_kid. apply (wo_t _ _ _ _ W). Qed.
  Lemma wo_able_u s ot ou X k x : world s ot ou X -> dget (kids_of (o_body ou)) k = Some x -> able O r s x.
  Proof using. intros W. eapply based_kid. apply (wo_u _ _ _ _ W). Qed.
  Lemma wo_weak s ot ou (X X' : list key -> Prop) : (forall p, X p -> X' p) -> world s ot ou X -> world s ot ou X'.
  Proof using. intros HX [H1 H2 H3 H4 H5 H6]. split; try done. by eapply sd_weak. Qed.
  Lemma wo_quiet s s' ot ou X : quiet O r s s' -> world s ot ou X -> world s' ot ou X.
  Proof using F1 F2.
    intros HQ W. split.
    - eapply fresh_rest; [apply W|apply (lo_rest _ _ (gs_loads _ _ (qu_good _ _ _ _ HQ)))|apply (gs_ok _ _ (qu_good _ _ _ _ HQ))].
    - eapply side_quiet; [done|done|apply W].
    - eapply side_quiet; [done|done|apply W].
    - apply W.
    - apply W.
    - intros k x k' x' Hx Hx'. apply (gs_apart _ _ (qu_good _ _ _ _ HQ)); [by eapply able_some, wo_able_t|by eapply able_some, wo_able_u|]. by eapply (wo_cross _ _ _ _ W).
  Qed.
  Lemma quiet_kind s s' (x : loc) k : quiet O r s s' -> is_kind (s_heap s) x k -> is_kind (s_heap s') x k.
  Proof using. intros HQ (o & Ho & Hk). destruct (qu_kind r g s s' x o HQ Ho) as (o' & Ho' & Hk'). exists o'. split; [done|congruence]. Qed.
  Lemma wo_body_t s ot ou X : world s ot ou X -> exists hx vs, ot = Obj hx (BVlist true vs) /\ h_mapped hx = true /\ well_keyed vs /\ s_heap s !! tvl = Some (Obj hx (BVlist true vs)) /\ label_ok (label_of (BVlist true vs)).
  Proof using.
    intros W. pose proof (wo_ready_t _ _ _ _ W) as R. pose proof (wo_kt _ _ _ _ W) as Hk. pose proof (rd_obj _ _ _ _ _ R) as Ho. pose proof (rd_map _ _ _ _ _ R) as Hm. pose proof (rd_keyed _ _ _ _ _ R) as Hw. pose proof (rd_label _ _ _ _ _ R) as Hl.
    destruct ot as [hx [| | | |k vs|]]; try done. cbn in Hk. injection Hk as ->. exists hx, vs. split_and!; try done. by eapply Hw.
  Qed.
  Lemma wo_body_u s ot ou X : world s ot ou X -> exists hx d, ou = Obj hx (BUset d) /\ h_mapped hx = true /\ s_heap s !! us = Some (Obj hx (BUset d)).
  Proof using.
    intros W. pose proof (wo_ready_u _ _ _ _ W) as R. pose proof (wo_ku _ _ _ _ W) as Hk. pose proof (rd_obj _ _ _ _ _ R) as Ho. pose proof (rd_map _ _ _ _ _ R) as Hm.
    destruct ou as [hx [| | | | |d]]; try done. by exists hx, d.
  Qed.
  Lemma able_read fuel s (x : loc) : able O r s x -> exists s', exec (read_in fuel x s) g = ((Ok tt, s'), g) /\ quiet O r s s'.
  Proof using Hrem Hr. intros [HT _]. destruct (tidy_root _ _ _ _ HT) as (o & Ho & Hh & Hl). eapply (read_in_quiet r g Hrem Hr); [apply HT|exact Ho|done|done]. Qed.
  Lemma able_ensure fuel s (x : loc) k : able O r s x -> is_kind (s_heap s) x k -> exists b s' o', exec (ensure_mapped fuel x s) g = ((Ok b, s'), g) /\ quiet O r s s' /\
    s_heap s' !! x = Some o' /\ h_mapped (o_hdr o') = true /\ kind_of (o_body o') = k.
  Proof using Hrem Hr.
    intros [HT _] (ok & Hok & Hk). destruct (tidy_root _ _ _ _ HT) as (o & Ho & Hh & Hl). assert (ok = o) as -> by congruence.
    destruct (ensure_quiet r g Hrem Hr fuel s x o) as (b & s' & o' & E & HQ & A1 & A2 & A3); [apply HT|exact Ho|done|done|]. exists b, s', o'. split_and!; try done. congruence.
  Qed.
  (** fresh objects *)
  Lemma wo_grown s ot ou X b : world s ot ou X -> kids_of b = [] -> (forall k vs, b = BVlist k vs -> vs = []) -> label_ok (label_of b) ->
    let s' := GraftFacts.grown s (fresh_obj b) in let x := s_next s in
    quiet O r s s' /\ world s' ot ou X /\ able O r s' x /\ (forall a, able O r s a -> apart (s_heap s') a x) /\ (forall a, able O r s a -> a <> x) /\ (forall q, look O (s_heap s') x q = leaf (label_of b) q) /\ is_kind (s_heap s') x (kind_of b) /\
    (forall q y, reach (s_heap s') x q = Some y -> y = x).
  Proof using F1 F2.
    intros W Hk Hv Hl s' x. assert (Hok : heap_ok s) by apply (wo_fresh _ _ _ _ W). pose proof (gw_quiet O r s b Hok Hk) as HQ.
    split; [done|]. split; [by eapply wo_quiet|]. split; [split; [by apply gw_tidy|by apply gw_one]|]. split; [|split; [|split; [|split]]].
    - intros a Ha. apply gw_apart; [done|done|by eapply able_some].
    - intros a Ha ->. apply able_some in Ha. unfold x in Ha. rewrite (gw_none s Hok) in Ha. by destruct Ha.
    - intros q. unfold s', x. rewrite gw_look by done. by destruct q.
    - eexists. split; [apply gw_self|done].
    - intros [|k q] y; [by intros [= <-]|]. cbn [reach]. unfold s', x. rewrite gw_self. cbn. by rewrite Hk.
  Qed.
  Lemma shaped_leaf lb : shaped nowhere (leaf lb).
  Proof using. split. - by intros [|? ?] cl Hp Hn. - intros p e lb' _. by destruct p. - intros p rs v q lb' _. by destruct p. Qed.

  (** *** The dataset tree of a version *)
  Definition args_ok (v : pystr) (t : pystr) (p : ppath) : Prop := scalar_str v /\ scalar_str t /\ is_metadata_path p /\ scalar_str (mp_as_posix p).
  Lemma st_tree fuel v p t s ot ou : world s ot ou nowhere -> args_ok v t p ->
    exists x s' ot', exec (version_tree fuel tvl v p t true s) g = ((Ok (Some x), s'), g) /\ world s' ot' ou (eq [KVer v p]) /\
      dget (kids_of (o_body ot')) (KVer v p) = Some x /\ is_kind (s_heap s') x (KdNode LMrr) /\
      with_part [] (KVer v p) t (only (LbNode LMrr)) (look O (s_heap s) tvl) (look O (s_heap s') tvl) /\ forall q, look O (s_heap s') us q = look O (s_heap s) us q.
  Proof using All.
    intros W (Hv & Ht & Hp & Hp2). pose proof (wo_ready_t _ _ _ _ W) as R. destruct (wo_body_t _ _ _ _ W) as (hx & vs & -> & Hm & Hw & Ho & Hlb).
    unfold version_tree. rewrite x_bind, (x_has _ _ _ _ _ _ _ _ _ Ho Hm Hw). cbn beta iota. destruct (record_of vs v p) as [rr|] eqn:Er; cbn [is_some].
    - assert (Hd : dget (kids_of (BVlist true vs)) (KVer v p) = Some (elt_loc (vr_elt rr))) by (rewrite kids_vget by (by apply keyed_ok); unfold vget; unfold record_of in Er; by rewrite Er).
      pose proof (wo_able_t _ _ _ _ _ _ W Hd) as Ha. destruct (rd_seen _ _ _ _ _ R _ _ Hd) as (lb & Hs & Hpo).
      assert (lb = LbNode LMrr) as ->.
      { eapply (sh_list _ _ (sd_shaped _ _ _ _ _ _ _ (wo_t _ _ _ _ W)) []); [exact (rd_nil _ _ _ _ _ R)|]. cbn [app]. rewrite (rd_look _ _ _ _ _ R). cbn [o_body]. by rewrite Hd. }
      destruct Hpo as (t0 & b0 & Hin & _ & ->). apply in_map_iff in Hin as ([v1 r1] & [= -> <- _ He] & Hin). apply records_in in Hin; [|done]. cbn [snd fst] in *.
      assert (r1 = rr) as ->.
      { unfold record_of in Hin, Er. destruct (dget vs v) as [dd|] eqn:Ed; [|done]. cbn in *. congruence. }
      destruct (vr_elt rr) as [x|x] eqn:Ee; [|done]. cbn [elt_loc] in *.
      assert (Hkx : is_kind (s_heap s) x (KdNode LMrr)). { destruct (able_some _ _ _ _ Ha) as [ox Hox]. exists ox. split; [done|]. symmetry. by apply (look_kind _ _ _ _ _ Hox Hs). }
      destruct (able_read fuel s x Ha) as (s' & E & HQ). exists x, s', (Obj hx (BVlist true vs)).
      rewrite x_bind, (x_get_version _ _ _ _ _ _ _ _ _ _ Ho Hm Er). unfold elt_read_in. rewrite Ee. cbn [elt_loc]. rewrite x_bind, E. cbn beta iota. rewrite x_ret. cbn beta iota. rewrite Ee, x_ret.
      assert (Ht0 : is_Some (s_heap s !! tvl)) by by eexists. assert (Hu0 : is_Some (s_heap s !! us)) by (eexists; apply (wo_ready_u _ _ _ _ W)).
      split; [done|]. split; [|split; [done|split; [by eapply quiet_kind|split]]].
      + eapply wo_weak; [|by eapply wo_quiet]. by intros q [].
      + left. split; [exists (LbNode LMrr); cbn [app]; rewrite (rd_look _ _ _ _ _ R); cbn [o_body]; by rewrite Hd|]. intros q. by apply (qu_look _ _ _ _ HQ).
      + intros q. by apply (qu_look _ _ _ _ HQ).
    - rewrite x_bind, TreeEditFacts.x_new. cbn beta iota. change (PSt _ _ _ _ _ _) with (GraftFacts.grown s (fresh_obj (BNode LMrr []))).
      destruct (wo_grown s _ _ _ (BNode LMrr []) W eq_refl) as (HQ & W2 & Ha & Hap & Hne & Hlk & Hkx & Hre); [done|done|]. set (s2 := GraftFacts.grown s (fresh_obj (BNode LMrr []))) in *. set (x := s_next s) in *.
      assert (Ho2 : s_heap s2 !! tvl = Some (Obj hx (BVlist true vs))) by apply (wo_ready_t _ _ _ _ W2).
      rewrite x_bind, (set_one fuel tvl hx true vs (VCall v t p (ETree x)) s2 g Ho2 Hm). cbn beta iota. cbn [vc_version vc_time vc_path vc_elt call_record]. rewrite x_ret. change (call_record _) with (VRec t p (ETree x)).
      destruct (vs_more true vs v p t (ETree x) Hw Er Hv Ht Hp Hp2 Hlb) as (M1 & M2 & M3 & M4 & M5 & M6 & M7 & M8). set (vs' := vs_set vs v p (VRec t p (ETree x))) in *. cbn [elt_loc] in M2.
      change (with_heap s2 _) with (edited s2 tvl (Obj (hd_saved ∅ hx) (BVlist true vs'))). set (o' := Obj (hd_saved ∅ hx) (BVlist true vs')).
      assert (Hapk : forall k y, dget (kids_of (BVlist true vs)) k = Some y -> apart (s_heap s2) y x) by (intros k y Hy; apply Hap; by eapply wo_able_t).
      assert (Hlow : forall q y, reach (s_heap s2) x q = Some y -> ~ is_top s2 y). { intros q y ->%Hre (oy & Hoy & Hky). destruct Hkx as (ox & Hox & Hkx). rewrite Hox in Hoy. injection Hoy as <-. rewrite Hkx in Hky. by destruct Hky. }
      assert (Hwk : forall k vs0, o_body o' = BVlist k vs0 -> well_keyed vs0) by (intros k vs0 [= _ <-]; done).
      assert (Hlx : look O (s_heap s2) x [] = Seen (LbNode LMrr)) by by rewrite Hlk.
      assert (Hsh : shaped nowhere (look O (s_heap s2) x)) by (eapply shaped_ext; [|apply shaped_leaf]; intros q; symmetry; apply Hlk).
      assert (HX : forall q : list key, nowhere q -> [KVer v p] = q \/ q = []) by by intros q [].
      pose proof (wo_t _ _ _ _ W2) as S2. pose proof (wo_u _ _ _ _ W2) as U2. pose proof (wo_ne _ _ _ _ W2) as Hne2.
      assert (Hpn : part_ok (label_of (o_body o')) (KVer v p) (LbNode LMrr)) by by apply M8.
      pose proof (ne_side g r c1 F1 s2 tvl _ o' (KVer v p) x nowhere (eq [KVer v p]) (LbNode LMrr) t S2 eq_refl eq_refl M3 M2 Ha Hapk Hlow M4 Hwk M5 M6 M7 Hlx Hpn Hsh HX (fun _ _ => eq_refl) (fun _ _ _ _ _ => eq_refl)) as S3.
      pose proof (ne_other g r c1 F1 s2 tvl _ o' (KVer v p) x nowhere (eq [KVer v p]) (LbNode LMrr) t S2 eq_refl eq_refl M3 M2 Ha Hapk Hlow M4 Hwk M5 M6 M7 Hlx Hpn Hsh HX (fun _ _ => eq_refl) (fun _ _ _ _ _ => eq_refl)) as NO.
      pose proof (ne_kid_same g r c1 F1 s2 tvl _ o' (KVer v p) x nowhere (eq [KVer v p]) (LbNode LMrr) t S2 eq_refl eq_refl M3 M2 Ha Hapk Hlow M4 Hwk M5 M6 M7 Hlx Hpn Hsh HX (fun _ _ => eq_refl) (fun _ _ _ _ _ => eq_refl)) as NK.
      destruct (NO us ou (sd_based _ _ _ _ _ _ _ U2) (not_eq_sym Hne2)) as [B3 SB3].
      pose proof (ne_plus g r c1 F1 s2 tvl _ o' (KVer v p) x nowhere (eq [KVer v p]) (LbNode LMrr) t S2 eq_refl eq_refl M3 M2 Ha Hapk Hlow M4 Hwk M5 M6 M7 Hlx Hpn Hsh HX (fun _ _ => eq_refl) (fun _ _ _ _ _ => eq_refl)) as NP.
      assert (Ht0 : is_Some (s_heap s !! tvl)) by by eexists. assert (Hu0 : is_Some (s_heap s !! us)) by (eexists; apply (wo_ready_u _ _ _ _ W)).
      exists x, (edited s2 tvl o'), o'. split; [done|]. split; [|split; [|split; [|split]]].
      + split.
        * eapply fresh_rest; [apply W2|done|apply S3].
        * done.
        * eapply side_same; [done|done|done].
        * done.
        * apply W.
        * intros k y k' y' Hy Hy'. apply (sb_apart (s_heap s2)); [by eapply NK| |].
          -- intros q z Hq. apply (SB3 (k' :: q) z). rewrite (rd_reach _ _ _ _ _ (wo_ready_u _ _ _ _ W2)), Hy'. done.
          -- cbn [o' o_body] in Hy. rewrite M2 in Hy. case_decide; [|by eapply (wo_cross _ _ _ _ W2)]. injection Hy as <-. apply ap_sym, Hap. by eapply wo_able_u.
      + cbn [o' o_body]. rewrite M2, decide_True by done. done.
      + destruct Hkx as (ox & Hox & Hkx). exists ox. split; [|done]. rewrite (NK (KVer v p) x (eq_trans (M2 _) (decide_True _ _ eq_refl)) [] x eq_refl). done.
      + right. eapply plus_ext; [|intros q; by apply (qu_look _ _ _ _ HQ)|reflexivity|exact NP]. intros q. rewrite Hlk. by destruct q.
      + intros q. rewrite (same_look O _ _ _ SB3 q). by apply (qu_look _ _ _ _ HQ).
  Qed.

  (** *** The version list of a dataset *)
  Lemma st_list fuel u s ot ou X : world s ot ou X -> uuid_ok u ->
    exists x s' ou', exec (dataset_version_list fuel us u true s) g = ((Ok (Some x), s'), g) /\ world s' ot ou' X /\
      dget (kids_of (o_body ou')) (KUuid u) = Some x /\ is_kind (s_heap s') x (KdVl false) /\
      (forall k y kd, dget (kids_of (o_body ot)) k = Some y -> is_kind (s_heap s) y kd -> is_kind (s_heap s') y kd) /\
      with_part [] (KUuid u) [] (only (LbVl false [])) (look O (s_heap s) us) (look O (s_heap s') us) /\ forall q, look O (s_heap s') tvl q = look O (s_heap s) tvl q.
  Proof using All.
    intros W Hu. pose proof (wo_ready_u _ _ _ _ W) as R. destruct (wo_body_u _ _ _ _ W) as (hx & d & -> & Hm & Ho).
    unfold dataset_version_list, uuids. rewrite (x_bind _ _ s), (x_bind _ _ s), (x_mapped_noop _ _ _ _ _ Ho Hm). cbn beta iota.
    rewrite x_bind, (x_uuid_entries _ _ _ _ _ Ho). cbn beta iota. rewrite x_ret. cbn beta iota. destruct (dget d u) as [x|] eqn:Ed.
    - assert (Hd : dget (kids_of (BUset d)) (KUuid u) = Some x) by by rewrite kids_uuids.
      pose proof (wo_able_u _ _ _ _ _ _ W Hd) as Ha. destruct (rd_seen _ _ _ _ _ R _ _ Hd) as (lb & Hs & Hpo). destruct Hpo as (_ & rs & ->).
      assert (Hkx : is_kind (s_heap s) x (KdVl false)). { destruct (able_some _ _ _ _ Ha) as [ox Hox]. exists ox. split; [done|]. symmetry. by apply (look_kind _ _ _ _ _ Hox Hs). }
      destruct (able_read fuel s x Ha) as (s' & E & HQ). exists x, s', (Obj hx (BUset d)).
      rewrite bool_decide_true by (apply dget_is_Some; by rewrite Ed). unfold get_version_list. rewrite (x_bind _ _ s), (x_bind _ _ s), (x_mapped_noop _ _ _ _ _ Ho Hm). cbn beta iota.
      rewrite x_bind, (x_uuid_entries _ _ _ _ _ Ho). cbn beta iota. rewrite Ed, x_bind, E. cbn beta iota. rewrite x_ret. cbn beta iota. rewrite x_ret.
      split; [done|]. split; [by eapply wo_quiet|]. split; [done|]. split; [by eapply quiet_kind|]. split; [intros k y kd _; by apply quiet_kind|].
      assert (Hu0 : is_Some (s_heap s !! us)) by by eexists. assert (Ht0 : is_Some (s_heap s !! tvl)) by (eexists; apply (wo_ready_t _ _ _ _ W)). split; [left|].
      + split; [exists (LbVl false rs); cbn [app]; rewrite (rd_look _ _ _ _ _ R); cbn [o_body]; by rewrite Hd|]. intros q. by apply (qu_look _ _ _ _ HQ).
      + intros q. by apply (qu_look _ _ _ _ HQ).
    - rewrite bool_decide_false by (intros Hin; apply dget_is_Some in Hin; rewrite Ed in Hin; by destruct Hin).
      rewrite x_bind, TreeEditFacts.x_new. cbn beta iota. change (PSt _ _ _ _ _ _) with (GraftFacts.grown s (fresh_obj (BVlist false []))).
      destruct (wo_grown s _ _ _ (BVlist false []) W eq_refl) as (HQ & W2 & Ha & Hap & Hne & Hlk & Hkx & Hre); [by intros ? ? [= _ <-]|done|]. set (s2 := GraftFacts.grown s (fresh_obj (BVlist false []))) in *. set (x := s_next s) in *.
      assert (Ho2 : s_heap s2 !! us = Some (Obj hx (BUset d))) by apply (wo_ready_u _ _ _ _ W2).
      rewrite x_bind, (set_list_one us hx d u x s2 g Ho2). cbn beta iota. rewrite x_ret.
      change (with_heap s2 _) with (edited s2 us (Obj (hd_saved ∅ hx) (BUset (dset d u x)))). set (o' := Obj (hd_saved ∅ hx) (BUset (dset d u x))).
      assert (M2 : forall k, dget (kids_of (BUset (dset d u x))) k = if decide (KUuid u = k) then Some x else dget (kids_of (BUset d)) k).
      { intros k. destruct (decide (KUuid u = k)) as [<-|Hn]; [by rewrite kids_uuids, dget_dset_eq|]. destruct k as [| | | |u2]; try (by rewrite !no_kid by done). rewrite !kids_uuids, dget_dset_ne by congruence. done. }
      assert (M3 : dget (kids_of (BUset d)) (KUuid u) = None) by by rewrite kids_uuids.
      assert (M4 : NoDup (dkeys (kids_of (BUset (dset d u x))))). { apply kids_us_keys, dset_nodup, kids_us_keys. by apply (rd_ok _ _ _ _ _ R us _ Ho). }
      assert (Hapk : forall k y, dget (kids_of (BUset d)) k = Some y -> apart (s_heap s2) y x) by (intros k y Hy; apply Hap; by eapply wo_able_u).
      assert (Hlow : forall q y, reach (s_heap s2) x q = Some y -> ~ is_top s2 y). { intros q y ->%Hre (oy & Hoy & Hky). destruct Hkx as (ox & Hox & Hkx). rewrite Hox in Hoy. injection Hoy as <-. rewrite Hkx in Hky. by destruct Hky. }
      assert (Hwk : forall k vs0, o_body o' = BVlist k vs0 -> well_keyed vs0) by by intros k vs0 [=].
      assert (Hlx : look O (s_heap s2) x [] = Seen (LbVl false [])) by by rewrite Hlk.
      assert (Hsh : shaped nowhere (look O (s_heap s2) x)) by (eapply shaped_ext; [|apply shaped_leaf]; intros q; symmetry; apply Hlk).
      assert (HX : forall q : list key, nowhere q -> nowhere q \/ q = []) by by intros q [].
      pose proof (wo_t _ _ _ _ W2) as S2. pose proof (wo_u _ _ _ _ W2) as U2. pose proof (wo_ne _ _ _ _ W2) as Hne2.
      assert (Hpn : part_ok (label_of (o_body o')) (KUuid u) (LbVl false [])) by (split; [done|by eexists]).
      assert (HF : forall cl, LbVl false [] = LbNode cl -> nowhere [KUuid u]) by by intros cl [=].
      assert (HLs : forall v q rs, label_of (o_body (Obj hx (BUset d))) = LbVl true rs -> KUuid u = KVer v q -> LbVl false [] = LbNode LMrr) by by intros v q rs [=].
      pose proof (ne_side g r c2 F2 s2 us _ o' (KUuid u) x nowhere nowhere (LbVl false []) [] U2 eq_refl eq_refl M3 M2 Ha Hapk Hlow M4 Hwk I eq_refl (fun _ _ H => H) Hlx Hpn Hsh HX HF HLs) as S3.
      pose proof (ne_other g r c2 F2 s2 us _ o' (KUuid u) x nowhere nowhere (LbVl false []) [] U2 eq_refl eq_refl M3 M2 Ha Hapk Hlow M4 Hwk I eq_refl (fun _ _ H => H) Hlx Hpn Hsh HX HF HLs) as NO.
      pose proof (ne_kid_same g r c2 F2 s2 us _ o' (KUuid u) x nowhere nowhere (LbVl false []) [] U2 eq_refl eq_refl M3 M2 Ha Hapk Hlow M4 Hwk I eq_refl (fun _ _ H => H) Hlx Hpn Hsh HX HF HLs) as NK.
      destruct (NO tvl ot (sd_based _ _ _ _ _ _ _ S2) Hne2) as [B3 SB3].
      assert (SK : forall k y, dget (kids_of (o_body ot)) k = Some y -> same_below (s_heap s2) (s_heap (edited s2 us o')) y).
      { intros k y Hy q z Hq. apply (SB3 (k :: q) z). rewrite (rd_reach _ _ _ _ _ (wo_ready_t _ _ _ _ W2)), Hy. done. }
      pose proof (ne_plus g r c2 F2 s2 us _ o' (KUuid u) x nowhere nowhere (LbVl false []) [] U2 eq_refl eq_refl M3 M2 Ha Hapk Hlow M4 Hwk I eq_refl (fun _ _ H => H) Hlx Hpn Hsh HX HF HLs) as NP.
      assert (Hu0 : is_Some (s_heap s !! us)) by by eexists. assert (Ht0 : is_Some (s_heap s !! tvl)) by (eexists; apply (wo_ready_t _ _ _ _ W)).
      exists x, (edited s2 us o'), o'. split; [done|]. split; [|split; [|split; [|split; [|split]]]].
      + split.
        * eapply fresh_rest; [apply W2|done|apply S3].
        * eapply side_same; [done|done|done].
        * done.
        * apply W.
        * done.
        * intros k y k' y' Hy Hy'. apply (sb_apart (s_heap s2)); [by eapply SK|by eapply NK|].
          cbn [o' o_body] in Hy'. rewrite M2 in Hy'. case_decide; [|by eapply (wo_cross _ _ _ _ W2)]. injection Hy' as <-. apply Hap. by eapply wo_able_t.
      + cbn [o' o_body]. rewrite M2, decide_True by done. done.
      + destruct Hkx as (ox & Hox & Hkx). exists ox. split; [|done]. rewrite (NK (KUuid u) x (eq_trans (M2 _) (decide_True _ _ eq_refl)) [] x eq_refl). done.
      + intros k y kd Hy Hk. apply (quiet_kind _ _ _ _ HQ) in Hk as (oy & Hoy & Hk). exists oy. split; [|done]. by rewrite (SK k y Hy [] y eq_refl).
      + right. eapply plus_ext; [|intros q; by apply (qu_look _ _ _ _ HQ)|reflexivity|exact NP]. intros q. rewrite Hlk. by destruct q.
      + intros q. rewrite (same_look O _ _ _ SB3 q). by apply (qu_look _ _ _ _ HQ).
  Qed.

  (** *** The root record of the dataset *)
  Lemma no_path_parts : all_parts (record_path no_path) = [root_record_name].
  Proof using. vm_compute. reflexivity. Qed.
  Lemma rr_good : good_name root_record_name.
  Proof using. exact res_good. Qed.
  Lemma rr_storable : storable_name root_record_name.
  Proof using. split; [done|]. split; [|vm_compute; split_and!; intuition discriminate].
    apply List.Forall_forall. intros x Hx. apply scalarb_spec. assert (Hf : forallb scalarb root_record_name = true) by (vm_compute; reflexivity). rewrite forallb_forall in Hf. by apply Hf. Qed.
  Lemma shaped_fill P c k lb : shaped (eq P) c -> c (P ++ [k]) = Seen lb -> shaped nowhere c.
  Proof using. intros [H1 H2 H3] Hk. split; [|done|done]. intros p cl Hp Hn. destruct (H1 p cl Hp Hn) as [<-|?]; right; eauto. Qed.
  Lemma able_quiet s s' (x : loc) : quiet O r s s' -> able O r s x -> able O r s' x.
  Proof using. intros HQ Ha. pose proof (able_some _ _ _ _ Ha) as Hs. destruct Ha as [HT H1]. split; [by eapply qu_tidy|by eapply qu_one]. Qed.
  Lemma st_record fuel v p u w s ot ou x : world s ot ou (eq [KVer v p]) -> dget (kids_of (o_body ot)) (KVer v p) = Some x -> is_kind (s_heap s) x (KdNode LMrr) -> uuid_ok u -> scalar_str w ->
    exists m s', exec (tree_record fuel x no_path u w true s) g = ((Ok (Some m), s'), g) /\ world s' ot ou nowhere /\
      reach (s_heap s') x [KName root_record_name] = Some m /\ is_kind (s_heap s') m KdMrr /\
      (forall k y kd, dget (kids_of (o_body ou)) k = Some y -> is_kind (s_heap s) y kd -> is_kind (s_heap s') y kd) /\
      with_part [KVer v p] (KName root_record_name) [] (new_record u w) (look O (s_heap s) tvl) (look O (s_heap s') tvl) /\ forall q, look O (s_heap s') us q = look O (s_heap s) us q.
  Proof using All.
    intros W Hx Hkx Hu Hw. pose proof (wo_able_t _ _ _ _ _ _ W Hx) as Ha.
    destruct (walk_quiet r g Hrem Hr fuel [root_record_name] s x (proj1 Ha)) as (s1 & res & E1 & HQ1 & Hres). pose proof (wo_quiet _ _ _ _ _ HQ1 W) as W1. pose proof (able_quiet _ _ _ HQ1 Ha) as Ha1. pose proof (quiet_kind _ _ _ _ HQ1 Hkx) as Hkx1.
    unfold tree_record, dataset_in, get_object_at_path. rewrite no_path_parts. rewrite (x_bind _ _ s), (x_bind _ _ s), E1. cbn beta iota. rewrite x_ret. cbn beta iota. destruct res as [m|]; cbn [is_some map] in *.
    - destruct Hres as [Hm Hlk].
      assert (Ham : able O r s1 m) by by eapply able_reach. destruct (look_root _ _ _ _ (proj1 Ham)) as [lb Hlb].
      assert (Ht1 : look O (s_heap s1) tvl [KVer v p; KName root_record_name] = Seen lb).
      { rewrite (rd_look _ _ _ _ _ (wo_ready_t _ _ _ _ W1)), Hx. rewrite (qu_look _ _ _ _ HQ1) by by eapply able_some. change [KName root_record_name] with ([KName root_record_name] ++ []). by rewrite Hlk. }
      assert (Ht0 : look O (s_heap s1) tvl [KVer v p] = Seen (LbNode LMrr)).
      { rewrite (rd_look _ _ _ _ _ (wo_ready_t _ _ _ _ W1)), Hx. destruct (look_root _ _ _ _ (proj1 Ha1)) as [lbx Hlbx]. rewrite Hlbx. destruct Hkx1 as (ox & Hox & Hkx1). pose proof (look_kind _ _ _ _ _ Hox Hlbx) as HK. rewrite Hkx1 in HK. destruct lbx; try done. by injection HK as ->. }
      assert (exists i v0, lb = LbMrr i v0) as (i & v0 & ->) by by apply (sh_tree _ _ (sd_shaped _ _ _ _ _ _ _ (wo_t _ _ _ _ W1)) [KVer v p] root_record_name lb Ht0 Ht1).
      assert (Hkm : is_kind (s_heap s1) m KdMrr). { destruct (able_some _ _ _ _ Ham) as [om Hom]. exists om. split; [done|]. symmetry. by apply (look_kind _ _ _ _ _ Hom Hlb). }
      destruct (walk_quiet r g Hrem Hr fuel [root_record_name] s1 x (proj1 Ha1)) as (s2 & res2 & E2 & HQ2 & Hres2). cbn [map] in Hres2.
      destruct res2 as [m2|]; [|exfalso; specialize (Hres2 []); cbn [app] in Hres2; rewrite (rd_look _ _ _ _ _ (wo_ready_t _ _ _ _ W1)), Hx in Ht1; congruence].
      assert (m2 = m) as ->. { apply (qu_reach r g s1 s2 _ HQ2) in Hm. destruct Hres2 as [Hm2 _]. congruence. }
      pose proof (wo_quiet _ _ _ _ _ HQ2 W1) as W2. pose proof (able_quiet _ _ _ HQ2 Ham) as Ham2. pose proof (quiet_kind _ _ _ _ HQ2 Hkm) as Hkm2.
      destruct (able_ensure fuel s2 m KdMrr Ham2 Hkm2) as (b & s3 & o3 & E3 & HQ3 & _). pose proof (wo_quiet _ _ _ _ _ HQ3 W2) as W3.
      exists m, s3. unfold get_metadata_root_record, get_object_at_path. rewrite no_path_parts. rewrite x_bind, E2. cbn beta iota. destruct Hkm2 as (om & Hom & Hkm2).
      rewrite x_bind, x_getobj, Hom. cbn beta iota. destruct om as [hm bm]. destruct bm; try done. cbn [o_body]. rewrite x_bind, E3. cbn beta iota. rewrite x_ret.
      assert (HQ : quiet O r s s3) by (by eapply qu_trans; [|eapply qu_trans]).
      assert (Hu0 : is_Some (s_heap s !! us)) by (eexists; apply (wo_ready_u _ _ _ _ W)). assert (Ht0' : is_Some (s_heap s !! tvl)) by (eexists; apply (wo_ready_t _ _ _ _ W)).
      split; [done|]. split; [|split; [|split; [|split; [|split]]]].
      + destruct W3 as [G1 G2 G3 G4 G5 G6]. split; try done. destruct G2 as [T1 T2 T3]. split; [done|done|]. eapply (shaped_fill _ _ (KName root_record_name)); [exact T3|]. cbn [app].
        rewrite (qu_look _ _ _ _ HQ3), (qu_look _ _ _ _ HQ2); [exact Ht1|..]; eexists; [apply (wo_ready_t _ _ _ _ W1)|apply (wo_ready_t _ _ _ _ W2)].
      + apply (qu_reach r g s2 s3 _ HQ3). by apply (qu_reach r g s1 s2 _ HQ2).
      + eapply quiet_kind; [exact HQ3|]. by eapply quiet_kind.
      + intros k y kd _ Hy. eapply quiet_kind; [exact HQ3|]. eapply quiet_kind; [exact HQ2|]. by eapply quiet_kind.
      + left. split; [eexists; cbn [app]; rewrite <- (qu_look _ _ _ _ HQ1) by done; exact Ht1|]. intros q. by apply (qu_look _ _ _ _ HQ).
      + intros q. by apply (qu_look _ _ _ _ HQ).
    - destruct (record_quiet r Hrem Hr s1 g u w (wo_fresh _ _ _ _ W1) Hu Hw) as (HQ2 & Ham & Hap & Hlkm & Hkm). rewrite x_bind, x_record. cbn beta iota.
      set (s2 := rec_state s1 u w) in *. set (m := rec_loc s1) in *. pose proof (able_quiet _ _ _ HQ2 Ha1) as Ha2. pose proof (quiet_kind _ _ _ _ HQ2 Hkx1) as (ox & Hox & Hkx2). destruct (kind_node ox LMrr Hkx2) as [d0 Ex]. destruct ox as [hx bx]. cbn in Ex. injection Ex as ->.
      destruct (get_child_quiet r g Hrem Hr fuel s2 x hx LMrr d0 (proj1 Ha2) Hox) as (s3 & hx3 & d & HQ3 & Hox3 & Hm3 & Eg).
      pose proof (wo_quiet _ _ _ _ _ HQ2 W1) as W2. pose proof (wo_quiet _ _ _ _ _ HQ3 W2) as W3. pose proof (able_quiet _ _ _ HQ3 Ha2) as Ha3. pose proof (able_quiet _ _ _ HQ3 Ham) as Ham3.
      assert (Hap3 : forall a, able O r s1 a -> apart (s_heap s3) a m). { intros a Haa. apply (gs_apart _ _ (qu_good _ _ _ _ HQ3)); [eapply able_some; by apply (able_quiet _ _ _ HQ2)|by eapply able_some|]. by apply Hap. }
      assert (Hlk3 : forall q, look O (s_heap s3) m q = new_record u w q). { intros q. rewrite (qu_look _ _ _ _ HQ3) by by eapply able_some. apply Hlkm. }
      assert (Hnone : dget d root_record_name = None).
      { destruct (dget d root_record_name) as [y|] eqn:Ed; [|done]. exfalso. assert (Hre : reach (s_heap s3) x [KName root_record_name] = Some y) by (cbn [reach]; rewrite Hox3; cbn [o_hdr o_body]; by rewrite Hm3, kids_names, Ed).
        destruct (look_root _ _ _ _ (proj1 (able_reach _ _ _ _ _ _ Ha3 Hre))) as [lb Hlb].
        assert (EL : look O (s_heap s3) x [KName root_record_name] = Seen lb). { rewrite (look_kids _ _ _ _ _ _ Hox3 Hm3). cbn [o_body]. rewrite kids_names, Ed. done. }
        rewrite (qu_look _ _ _ _ HQ3), (qu_look _ _ _ _ HQ2), (qu_look _ _ _ _ HQ1) in EL by (by eapply able_some). specialize (Hres []). cbn [app] in Hres. congruence. }
      unfold add_dataset, add_child_at. rewrite no_path_parts. cbn [length add_child_at_n]. rewrite no_path_parts. rewrite (x_bind _ _ s2), (x_bind _ _ s2), Eg. cbn beta iota. rewrite Hnone. rewrite x_bind, x_ret. cbn beta iota.
      rewrite (x_add_child _ _ _ _ _ _ _ _ _ rr_good Hox3 Hm3), Hnone. cbn beta iota. rewrite x_ret.
      change (with_heap s3 _) with (edited s3 x (Obj (hd_saved ∅ hx3) (BNode LMrr (dset d root_record_name m)))).
      assert (Hapx : apart (s_heap s3) x m) by by apply Hap3.
      assert (Hl0 : look O (s_heap s3) m [] = Seen (LbMrr (Some u) (Some w))) by by rewrite Hlk3.
      pose proof (graft_edits r g s3 x x [] hx3 LMrr d root_record_name m _ Ha3 eq_refl Hox3 Hm3 Hnone rr_storable Ham3 Hapx Hl0 eq_refl) as HE.
      set (o' := Obj (hd_saved ∅ hx3) (BNode LMrr (dset d root_record_name m))) in *.
      assert (Hno : dget (kids_of (BNode LMrr d)) (KName root_record_name) = None) by by rewrite kids_names.
      assert (Hk2 : forall k, dget (kids_of (BNode LMrr (dset d root_record_name m))) k = if decide (KName root_record_name = k) then Some m else dget (kids_of (BNode LMrr d)) k).
      { intros k. destruct (decide (KName root_record_name = k)) as [<-|Hn]; [by rewrite kids_names, dget_dset_eq|]. destruct k as [e| | | |]; try (by rewrite !no_kid by done). rewrite !kids_names, dget_dset_ne by congruence. done. }
      assert (Hnew : forall k1 x1, k1 <> KVer v p -> dget (kids_of (o_body ot)) k1 = Some x1 -> apart (s_heap s3) m x1) by (intros k1 x1 _ Hx1; apply ap_sym, Hap3; by eapply wo_able_t).
      assert (Hsh : shaped nowhere (look O (s_heap s3) m)).
      { eapply (shaped_ext _ (new_record u w)); [intros q; symmetry; apply Hlk3|]. split.
        - intros [|[] [|]] cl Hp; try done.
        - intros [|[] [|]] e lb Hp; try done.
        - intros [|[] [|]] rs v1 q lb Hp; try done. }
      pose proof (wo_t _ _ _ _ W3) as S3. pose proof (wo_u _ _ _ _ W3) as U3.
      assert (HX : forall q : list key, [KVer v p] = q -> nowhere q \/ q = [KVer v p]) by (intros q <-; by right).
      assert (HF : forall cl, LbMrr (Some u) (Some w) <> LbNode cl) by done.
      assert (HTr : forall e, KName root_record_name = KName e -> (e = root_record_name <-> exists i v1, LbMrr (Some u) (Some w) = LbMrr i v1)) by (intros e [= <-]; split; [by eexists _, _|done]).
      assert (HLs : forall rs, label_of (o_body (Obj hx3 (BNode LMrr d))) <> LbVl true rs) by done.
      pose proof (np_side g r c1 F1 s3 tvl ot (KVer v p) x _ o' (KName root_record_name) m _ nowhere _ [] S3 Hx HE Hnew Hno eq_refl Hk2 eq_refl (fun H => H) Hl0 Hsh HX HF HTr HLs) as S4.
      pose proof (np_other g r c1 F1 s3 tvl ot (KVer v p) x _ o' (KName root_record_name) m _ nowhere (LbMrr None None) [] S3 Hx HE Hnew Hno eq_refl Hk2 eq_refl (fun H => H)) as NO.
      destruct (NO us ou (sd_based _ _ _ _ _ _ _ U3)) as [B4 SB4]; [intros k2 x2 Hx2; by eapply (wo_cross _ _ _ _ W3)|].
      assert (SK : forall k y, dget (kids_of (o_body ou)) k = Some y -> same_below (s_heap s3) (s_heap (edited s3 x o')) y).
      { intros k y Hy q z Hq. apply (SB4 (k :: q) z). rewrite (rd_reach _ _ _ _ _ (wo_ready_u _ _ _ _ W3)), Hy. done. }
      pose proof (np_plus g r c1 F1 s3 tvl ot (KVer v p) x _ o' (KName root_record_name) m _ nowhere (LbMrr None None) [] S3 Hx HE Hnew Hno eq_refl Hk2 eq_refl (fun H => H)) as NP.
      assert (HQ : quiet O r s s3) by (by eapply qu_trans; [|eapply qu_trans]).
      assert (Hu0 : is_Some (s_heap s !! us)) by (eexists; apply (wo_ready_u _ _ _ _ W)). assert (Ht0' : is_Some (s_heap s !! tvl)) by (eexists; apply (wo_ready_t _ _ _ _ W)).
      exists m, (edited s3 x o'). split; [done|]. split; [|split; [|split; [|split; [|split]]]].
      + split.
        * eapply fresh_rest; [apply W3|done|apply S4].
        * done.
        * by eapply side_same.
        * apply W.
        * apply W.
        * intros k y k' y' Hy Hy'. destruct (decide (k = KVer v p)) as [->|Hn].
          -- assert (y = x) as -> by congruence. eapply et_apart; [exact HE|by eapply (wo_cross _ _ _ _ W3)|]. intros k2 c2' [= <- <-]. apply ap_sym, Hap3. by eapply wo_able_u.
          -- apply (sb_apart (s_heap s3)); [|by eapply SK|by eapply (wo_cross _ _ _ _ W3)]. eapply et_same; [exact HE|]. by eapply (rd_two _ _ _ _ _ (wo_ready_t _ _ _ _ W3)); [exact Hx|exact Hy|congruence].
      + cbn [reach]. rewrite et_obj'. cbn [o' o_hdr o_body hd_saved h_mapped]. rewrite Hm3, kids_names, dget_dset_eq. done.
      + apply (quiet_kind _ _ _ _ HQ3) in Hkm as (om & Hom & Hkm). exists om. split; [|done]. unfold edited. cbn [s_heap with_heap]. rewrite heap_insert, decide_False; [done|]. intros ->. rewrite Hox3 in Hom. injection Hom as <-. done.
      + intros k y kd Hy Hk. apply (quiet_kind _ _ _ _ HQ1), (quiet_kind _ _ _ _ HQ2), (quiet_kind _ _ _ _ HQ3) in Hk as (oy & Hoy & Hk). exists oy. split; [|done]. by rewrite (SK k y Hy [] y eq_refl).
      + right. eapply plus_ext; [exact Hlk3|intros q; by apply (qu_look _ _ _ _ HQ)|reflexivity|exact NP].
      + intros q. rewrite (same_look O _ _ _ SB4 q). by apply (qu_look _ _ _ _ HQ).
  Qed.

  (** *** The record in the version list *)
  (** Both top nodes may share the record [m], which is new in the version list [vl]. *)
  Definition shares (s : pst) (ot ou : obj) (u : uuid) (v : pystr) (p : ppath) (m : loc) : Prop := exists vl ov,
    dget (kids_of (o_body ou)) (KUuid u) = Some vl /\ s_heap s !! vl = Some ov /\ h_mapped (o_hdr ov) = true /\ h_saved (o_hdr ov) = ∅ /\
    dget (kids_of (o_body ov)) (KVer v p) = Some m /\ reach (s_heap s) tvl [KVer v p; KName root_record_name] = Some m /\
    (forall k x q, dget (kids_of (o_body ot)) k = Some x -> reach (s_heap s) x q <> Some vl) /\
    (forall k x k' y, dget (kids_of (o_body ot)) k = Some x -> dget (kids_of (o_body ov)) k' = Some y -> k' <> KVer v p -> apart (s_heap s) x y) /\
    (forall k x k' y, dget (kids_of (o_body ot)) k = Some x -> dget (kids_of (o_body ou)) k' = Some y -> k' <> KUuid u -> apart (s_heap s) x y).
  Record ended (s : pst) (ot ou : obj) (u : uuid) (v : pystr) (p : ppath) (m : loc) : Prop := {
    en_fresh : fresh r s;
    en_t : side g r c1 s tvl ot nowhere;
    en_u : side g r c2 s us ou nowhere;
    en_kt : kind_of (o_body ot) = KdVl true;
    en_ku : kind_of (o_body ou) = KdUs;
    en_found : reach (s_heap s) tvl [KVer v p; KName root_record_name] = Some m;
    en_kind : is_kind (s_heap s) m KdMrr;
    en_listed : exists y, reach (s_heap s) us [KUuid u; KVer v p] = Some y;
    en_cross : (forall k x k' x', dget (kids_of (o_body ot)) k = Some x -> dget (kids_of (o_body ou)) k' = Some x' -> apart (s_heap s) x x') \/ shares s ot ou u v p m;
  }.
  Lemma st_register fuel u v p t s ot ou x vl m : world s ot ou nowhere -> dget (kids_of (o_body ot)) (KVer v p) = Some x -> reach (s_heap s) x [KName root_record_name] = Some m -> is_kind (s_heap s) m KdMrr ->
    dget (kids_of (o_body ou)) (KUuid u) = Some vl -> is_kind (s_heap s) vl (KdVl false) -> args_ok v t p ->
    exists s', exec (register_record fuel vl v t p m s) g = ((Ok tt, s'), g) /\ ended s' ot ou u v p m /\
      with_part [KUuid u] (KVer v p) t (look O (s_heap s) m) (look O (s_heap s) us) (look O (s_heap s') us) /\ forall q, look O (s_heap s') tvl q = look O (s_heap s) tvl q.
  Proof using All.
    intros W Hx Hm Hkm Hvl Hkv (Hv & Ht & Hp & Hp2). assert (Hu0 : is_Some (s_heap s !! us)) by (eexists; apply (wo_ready_u _ _ _ _ W)). assert (Ht0 : is_Some (s_heap s !! tvl)) by (eexists; apply (wo_ready_t _ _ _ _ W)).
    pose proof (wo_able_u _ _ _ _ _ _ W Hvl) as Ha.
    destruct (able_ensure fuel s vl _ Ha Hkv) as (b & s1 & o1 & E1 & HQ1 & Ho1 & Hm1 & Hk1). pose proof (wo_quiet _ _ _ _ _ HQ1 W) as W1. pose proof (able_quiet _ _ _ HQ1 Ha) as Ha1.
    pose proof (qu_reach r g s s1 _ HQ1 _ _ Hm) as Hm1'. pose proof (quiet_kind _ _ _ _ HQ1 Hkm) as Hkm1. pose proof (wo_able_t _ _ _ _ _ _ W1 Hx) as Hax. pose proof (able_reach _ _ _ _ _ _ Hax Hm1') as Ham.
    destruct o1 as [hx b1]. destruct b1 as [| | | |k vs|]; try done. cbn in Hk1, Hm1. injection Hk1 as ->.
    assert (Hwk : well_keyed vs) by by apply (td_keyed _ _ _ _ (proj1 Ha1) [] vl hx false vs eq_refl).
    assert (Hlb : label_ok (label_of (BVlist false vs))). { destruct (td_complete _ _ _ _ (proj1 Ha1) []) as (_ & HC & _). apply HC. by rewrite (look_top _ _ _ _ Ho1 Hm1). }
    assert (Hf1 : reach (s_heap s1) tvl [KVer v p; KName root_record_name] = Some m) by by rewrite (rd_reach _ _ _ _ _ (wo_ready_t _ _ _ _ W1)), Hx.
    unfold register_record. rewrite x_bind, (x_has_load _ _ _ _ _ _ _ _ _ _ _ E1 Ho1 Hm1 Hwk). cbn beta iota. destruct (record_of vs v p) as [rr|] eqn:Er; cbn [is_some].
    - exists s1. rewrite x_ret. split; [done|]. assert (Hr1 : reach (s_heap s1) us [KUuid u; KVer v p] = Some (elt_loc (vr_elt rr))).
      { rewrite (rd_reach _ _ _ _ _ (wo_ready_u _ _ _ _ W1)), Hvl. cbn [reach]. rewrite Ho1. cbn [o_hdr o_body]. rewrite Hm1, kids_vget by by apply keyed_ok. unfold vget. unfold record_of in Er. by rewrite Er. }
      split; [|split; [left; split|]].
      2:{ cbn [app]. rewrite <- (qu_look _ _ _ _ HQ1) by done. rewrite (rd_look _ _ _ _ _ (wo_ready_u _ _ _ _ W1)), Hvl, (look_kids _ _ _ _ _ _ Ho1 Hm1). cbn [o_body]. rewrite kids_vget by by apply keyed_ok. unfold vget. unfold record_of in Er. rewrite Er.
          assert (Hae : able O r s1 (elt_loc (vr_elt rr))). { eapply able_reach; [exact Ha1|]. rewrite (rd_reach _ _ _ _ _ (wo_ready_u _ _ _ _ W1)), Hvl in Hr1. exact Hr1. }
          cbn [is_ktree andb]. apply (look_root _ _ _ _ (proj1 Hae)). }
      2:{ intros q. by apply (qu_look _ _ _ _ HQ1). }
      2:{ intros q. by apply (qu_look _ _ _ _ HQ1). }
      split; try apply W1; try done.
      + exists (elt_loc (vr_elt rr)). rewrite (rd_reach _ _ _ _ _ (wo_ready_u _ _ _ _ W1)), Hvl. cbn [reach]. rewrite Ho1. cbn [o_hdr o_body]. rewrite Hm1, kids_vget by by apply keyed_ok. unfold vget. unfold record_of in Er. by rewrite Er.
      + left. apply (wo_cross _ _ _ _ W1).
    - destruct (vs_more false vs v p t (EMrr m) Hwk Er Hv Ht Hp Hp2 Hlb) as (M1 & M2 & M3 & M4 & M5 & M6 & M7 & M8). set (vs' := vs_set vs v p (VRec t p (EMrr m))) in *. cbn [elt_loc] in M2.
      assert (Hapm : apart (s_heap s1) vl m).
      { apply ap_sym. intros q1 q2 z H1 H2. apply (wo_cross _ _ _ _ W1 _ _ _ _ Hx Hvl (KName root_record_name :: q1) q2 z); [|done]. change (KName root_record_name :: q1) with ([KName root_record_name] ++ q1). by rewrite reach_app, Hm1'. }
      pose proof (set_one fuel vl hx false vs (VCall v t p (EMrr m)) s1 g Ho1 Hm1) as ES. cbn [vc_version vc_time vc_path vc_elt] in ES. change (call_record _) with (VRec t p (EMrr m)) in ES. fold vs' in ES.
      set (o' := Obj (hd_saved ∅ hx) (BVlist false vs')) in *. change (with_heap s1 _) with (edited s1 vl o') in ES.
      destruct (op_version r g Hrem Hr s1 vl vl [] hx (BVlist false vs) Ha1 eq_refl Ho1 Hm1 fuel v t p (EMrr m) (Ok tt) (edited s1 vl o') g) as [_ (o2 & new & HE & Es & Hnew & _)]; [|done|done|done|].
      { cbn [op_ok is_etree]. split_and!; try done; [by eexists _, (Obj hx (BVlist false vs))|]. by exists m. }
      assert (o2 = o') as ->. { pose proof (f_equal (fun z => s_heap z !! vl) Es) as E0. cbv beta in E0. rewrite !et_obj' in E0. by injection E0 as <-. }
      assert (Hd' : dget (kids_of (o_body o')) (KVer v p) = Some m) by (cbn [o' o_body]; rewrite M2, decide_True; done).
      destruct (et_kids _ _ _ _ _ _ _ _ _ HE _ _ Hd') as [Hd0| ->]; [cbn [o_body] in Hd0; congruence|].
      rewrite ES. pose proof (wo_t _ _ _ _ W1) as S1. pose proof (wo_u _ _ _ _ W1) as U1.
      destruct (root_label _ _ _ _ _ (proj1 Ham) Hkm1) as (lbm & Hl0 & Hlk & _). destruct lbm as [| | |i0 v0| |]; try done.
      assert (Hapk : forall k2 y, dget (kids_of (o_body ou)) k2 = Some y -> apart (s_heap s1) m y).
      { intros k2 y Hy q1 q2 z H1 H2. apply (wo_cross _ _ _ _ W1 _ _ _ _ Hx Hy (KName root_record_name :: q1) q2 z); [|done]. change (KName root_record_name :: q1) with ([KName root_record_name] ++ q1). by rewrite reach_app, Hm1'. }
      assert (Hnw : forall k1 x1, k1 <> KUuid u -> dget (kids_of (o_body ou)) k1 = Some x1 -> apart (s_heap s1) m x1) by (intros k1 x1 _; apply Hapk).
      assert (Hsh : shaped nowhere (look O (s_heap s1) m)).
      { assert (EL : forall q, look O (s_heap s1) tvl (KVer v p :: KName root_record_name :: q) = look O (s_heap s1) m q).
        { intros q. rewrite (rd_look _ _ _ _ _ (wo_ready_t _ _ _ _ W1)), Hx. cbn [reach] in Hm1'. destruct (s_heap s1 !! x) as [ox|] eqn:Eox; [|done]. destruct (h_mapped (o_hdr ox)) eqn:Emx; [|done].
          rewrite (look_kids _ _ _ _ _ _ Eox Emx). destruct (dget (kids_of (o_body ox)) (KName root_record_name)) as [z|]; [|done]. injection Hm1' as ->. done. }
        pose proof (sd_shaped _ _ _ _ _ _ _ S1) as [T1 T2 T3]. split.
        - intros q cl. rewrite <- EL. intros Hq Hn. destruct (T1 _ cl Hq ltac:(done)) as [[]|(k2 & lb & Hk2)]. right. exists k2, lb. by rewrite <- EL.
        - intros q e lb. rewrite <- !EL. apply (T2 (KVer v p :: KName root_record_name :: q)).
        - intros q rs v1 q1 lb. rewrite <- !EL. apply (T3 (KVer v p :: KName root_record_name :: q)). }
      assert (HX : forall q : list key, nowhere q -> nowhere q \/ q = [KUuid u]) by by intros q [].
      assert (HF : forall cl, LbMrr i0 v0 <> LbNode cl) by done.
      assert (HTr : forall e, KVer v p = KName e -> (e = root_record_name <-> exists i v1, LbMrr i0 v0 = LbMrr i v1)) by by intros e [=].
      assert (HLs : forall rs, label_of (o_body (Obj hx (BVlist false vs))) <> LbVl true rs) by by intros rs [=].
      assert (Hpk : part_ok (label_of (o_body ou)) (KUuid u) (label_of (BVlist false vs)) -> part_ok (label_of (o_body ou)) (KUuid u) (label_of (BVlist false vs'))).
      { pose proof (wo_ku _ _ _ _ W) as Hku. destruct (o_body ou); try done. intros [H1 _]. split; [done|]. by eexists. }
      pose proof (np_side g r c2 F2 s1 us ou (KUuid u) vl _ o' (KVer v p) m _ nowhere _ t U1 Hvl HE Hnw M3 eq_refl M2 M6 Hpk Hl0 Hsh HX HF HTr HLs) as U2.
      pose proof (np_other g r c2 F2 s1 us ou (KUuid u) vl _ o' (KVer v p) m _ nowhere (LbMrr None None) t U1 Hvl HE Hnw M3 eq_refl M2 M6 Hpk) as NO.
      destruct (NO tvl ot (sd_based _ _ _ _ _ _ _ S1)) as [B2 SB2]; [intros k2 x2 Hx2; apply ap_sym; by eapply (wo_cross _ _ _ _ W1)|].
      pose proof (side_same _ _ _ _ _ _ _ _ B2 SB2 S1) as S2. set (s2 := edited s1 vl o') in *.
      assert (SK : forall k y, dget (kids_of (o_body ot)) k = Some y -> same_below (s_heap s1) (s_heap s2) y).
      { intros k y Hy q z Hq. apply (SB2 (k :: q) z). rewrite (rd_reach _ _ _ _ _ (wo_ready_t _ _ _ _ W1)), Hy. done. }
      assert (Hf2 : reach (s_heap s2) tvl [KVer v p; KName root_record_name] = Some m) by by rewrite (sb_reach_eq _ _ _ _ SB2).
      pose proof (np_plus g r c2 F2 s1 us ou (KUuid u) vl _ o' (KVer v p) m _ nowhere (LbMrr None None) t U1 Hvl HE Hnw M3 eq_refl M2 M6 Hpk) as NP.
      exists s2. split; [done|]. split; [|split].
      2:{ right. eapply plus_ext; [intros q; apply (qu_look _ _ _ _ HQ1)|intros q; by apply (qu_look _ _ _ _ HQ1)|reflexivity|exact NP]. destruct Hkm as (om & Hom & _). by eexists. }
      2:{ intros q. rewrite (same_look O _ _ _ SB2 q). by apply (qu_look _ _ _ _ HQ1). }
      split; try done.
      + eapply fresh_rest; [apply W1|done|apply U2].
      + apply W.
      + apply W.
      + destruct Hkm1 as (om & Hom & Hkm1). exists om. split; [|done]. by rewrite (SB2 _ _ Hf1).
      + exists m. rewrite (rd_reach _ _ _ _ _ (proj1 (sd_based _ _ _ _ _ _ _ U2))), Hvl. cbn [reach]. unfold s2. rewrite et_obj'. cbn [o' o_hdr hd_saved h_mapped]. by rewrite Hm1, Hd'.
      + right. exists vl, o'. split; [done|]. split; [apply et_obj'|]. split; [done|]. split; [done|]. split; [done|]. split; [done|]. split; [|split].
        * intros k y q Hy Hq. rewrite (sb_reach_eq _ _ _ _ (SK k y Hy)) in Hq. apply (wo_cross _ _ _ _ W1 _ _ _ _ Hy Hvl q [] vl Hq eq_refl).
        * intros k y k' y' Hy Hy' Hn. cbn [o' o_body] in Hy'. rewrite M2, decide_False in Hy' by congruence.
          assert (Hre : reach (s_heap s1) vl [k'] = Some y') by (cbn [reach]; rewrite Ho1; cbn [o_hdr o_body]; by rewrite Hm1, Hy').
          assert (Hap0 : apart (s_heap s1) y y'). { intros q1 q2 z H1 H2. apply (wo_cross _ _ _ _ W1 _ _ _ _ Hy Hvl q1 (k' :: q2) z H1). change (k' :: q2) with ([k'] ++ q2). by rewrite reach_app, Hre. }
          apply (sb_apart (s_heap s1)); [by eapply SK| |done].
          apply up_same. intros q Hq. assert (HU : [] = k' :: q); [|done]. apply (td_unshared _ _ _ _ (proj1 Ha1) [] (k' :: q) vl eq_refl). change (k' :: q) with ([k'] ++ q). by rewrite reach_app, Hre.
        * intros k y k' y' Hy Hy' Hn. apply (sb_apart (s_heap s1)); [by eapply SK| |by eapply (wo_cross _ _ _ _ W1)]. eapply et_same; [exact HE|]. apply (rd_two _ _ _ _ _ (wo_ready_u _ _ _ _ W1) (KUuid u) k'); [done|done|congruence].
  Qed.

  (** *** All of them *)
  Lemma st_ask fuel u v p now s ot ou : world s ot ou nowhere -> uuid_ok u -> args_ok v (now 2%nat) p -> args_ok v (now 3%nat) p ->
    exists m s' ot' ou', exec (get_metadata_root_record_from_top_nodes fuel tvl us u v p no_path None None true now s) g = ((Ok (Some m), s'), g) /\ ended s' ot' ou' u v p m /\
      recorded u v p (now 2%nat) (now 3%nat) (look O (s_heap s) tvl) (look O (s_heap s) us) (look O (s_heap s') tvl) (look O (s_heap s') us).
  Proof using All.
    intros W Hu Ha2 Ha3.
    destruct (st_tree fuel v p (now 2%nat) s ot ou W Ha2) as (x & s1 & ot1 & E1 & W1 & Hx & Hkx & A1 & B1).
    destruct (st_list fuel u s1 ot1 ou _ W1 Hu) as (vl & s2 & ou2 & E2 & W2 & Hvl & Hkv & HK2 & B2 & A2).
    destruct (st_record fuel v p u v s2 ot1 ou2 x W2 Hx (HK2 _ _ _ Hx Hkx) Hu (proj1 Ha2)) as (m & s3 & E3 & W3 & Hm & Hkm & HK3 & A3 & B3).
    destruct (st_register fuel u v p (now 3%nat) s3 ot1 ou2 x vl m W3 Hx Hm Hkm Hvl (HK3 _ _ _ Hvl Hkv) Ha3) as (s4 & E4 & EN & B4 & A4).
    exists m, s4, ot1, ou2. split; [|split; [done|]].
    2:{ exists (look O (s_heap s1) tvl), (look O (s_heap s2) us). split_and!.
        - done.
        - eapply part_ext; [reflexivity|exact A2|intros q; symmetry; apply A4|exact A3].
        - eapply part_ext; [reflexivity|exact B1|reflexivity|exact B2].
        - eapply part_ext; [|exact B3|reflexivity|exact B4]. intros q. cbv beta. rewrite A4. rewrite (rd_look _ _ _ _ _ (wo_ready_t _ _ _ _ W3)), Hx. symmetry.
          change (KName root_record_name :: q) with ([KName root_record_name] ++ q). cbn [reach] in Hm. destruct (s_heap s3 !! x) as [ox|] eqn:Eox; [|done]. destruct (h_mapped (o_hdr ox)) eqn:Emx; [|done].
          cbn [app]. rewrite (look_kids _ _ _ _ _ _ Eox Emx). destruct (dget (kids_of (o_body ox)) (KName root_record_name)) as [z|]; [|done]. injection Hm as ->. done. }
    unfold get_metadata_root_record_from_top_nodes. rewrite bool_decide_true by done. unfold obind.
    rewrite (x_bind _ _ s), (x_bind _ _ s), E1. cbn beta iota. rewrite x_ret. cbn beta iota. rewrite x_bind, E2. cbn beta iota. rewrite x_bind. change (MetadataPath [AStr []]) with no_path. rewrite E3. cbn beta iota. rewrite x_bind, E4. cbn beta iota. by rewrite x_ret.
  Qed.
End World.
