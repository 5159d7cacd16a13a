(** Elements that are written and purged, and lists of elements: proofs for C57,
    C20 and C31. *)
From Verif Require Import Base BaseFacts Path Spec_Path PathFacts Json Refs RefsFacts Meta Spec_Meta MetaFacts GitText Spec_Git Git GitFacts Spec_Store State BlobCache ObjRef Objects Spec_Objects Spec_Look Spec_Heap Spec_Versions Spec_Write ExecFacts LoadFacts PeekFacts TreeFacts TreeEditFacts VersionFacts PartFacts LookFacts ReadFacts Spec_Content ContentFacts WriteFacts StoreFacts SaveFacts WriteBackFacts WriteAllFacts ReadBackFacts PurgeFacts EditFacts RealmFacts GraftFacts AddFacts ListFacts Spec_History AnyWriteFacts UseFacts FrameFacts SessionFacts DatasetFacts HistoryFacts Spec_Outcome Spec_Parts RunAllFacts Spec_Unget.

(** ** What [purge] changes *)
Section Only.
  Context `{Env}.
  Context (h0 : heap) (S : loc -> Prop).
  Notation any := (fun _ : cmd => True).
  Implicit Types (s : pst).
  Definition kept s : Prop := (forall y : loc, ~ S y -> s_heap s !! y = h0 !! y) /\
    forall (x : loc) o z, S x -> s_heap s !! x = Some o -> h_mapped (o_hdr o) = true -> In z (sub_objects (o_body o)) -> S z.
  Lemma kept_get {A : Type} (l : loc) (f : obj -> M pst A) : (forall o s, kept s -> s_heap s !! l = Some o -> pall any (fun rs => kept (snd rs)) (f o s)) -> mall any kept (mbind (getobj l) f).
  Proof.
    intros Hf s Hs. unfold getobj, mbind. cbn [pbind mget]. destruct (s_heap s !! l) as [o|] eqn:Ho; cbn; [by apply Hf|done].
  Qed.
  Lemma kept_set (l : loc) f : S l -> (forall o, sub_objects (o_body (f o)) = [] \/ (sub_objects (o_body (f o)) = sub_objects (o_body o) /\ (h_mapped (o_hdr (f o)) = true -> h_mapped (o_hdr o) = true))) ->
    mall any kept (mlet o <- getobj l; setobj l (f o)).
  Proof.
    intros Hl Hf. apply kept_get. intros o s [H1 H2] Ho. cbn. split.
    - intros y Hy. cbn. rewrite heap_insert, decide_False; [by apply H1|]. by intros <-.
    - intros x o' z Hx Ho' Hm Hz. cbn in Ho'. rewrite heap_insert in Ho'. destruct (decide (l = x)) as [<-|Hn].
      + injection Ho' as <-. destruct (Hf o) as [E|[E E']]; rewrite E in Hz; [done|]. apply (H2 l o z); auto.
      + by apply (H2 x o' z).
  Qed.
  Lemma kept_purge f : forall l, S l -> mall any kept (purge f l).
  Proof.
    induction f as [|f IH]; intros l Hl; [apply mall_raise|]. cbn [purge]. apply kept_get. intros o s Hs Ho.
    destruct (h_mapped (o_hdr o)) eqn:Hm; [|done]. destruct (decide _); [done|].
    assert (HB : forall b, sub_objects b = [] -> mall any kept (set_body l b)). { intros b Hb. unfold set_body. apply kept_set; [done|]. intros o'. by left. }
    assert (HS : forall z, In z (sub_objects (o_body o)) -> S z) by (intros z; by apply (proj2 Hs l o z)).
    assert (HP : pall any (fun rs => kept (snd rs)) ((purge_impl (purge f) l) s)).
    { unfold purge_impl. unfold getobj at 1, mbind at 1. cbn [pbind mget]. rewrite Ho. cbn [pbind]. unfold mret. cbn [pbind fst snd].
      destruct (o_body o) as [m|t|c d|i v [m|] t|k vs|us]; cbn [sub_objects] in HS.
      - by apply HB.
      - by apply HB.
      - refine (mall_bind _ _ _ _ _ _ s Hs); [|intros; by apply HB]. apply mall_iter. intros x Hx. by apply IH, HS.
      - refine (mall_bind _ _ _ _ _ _ s Hs); [apply IH, HS; by left|]. intros _. apply mall_bind; [|intros; by apply HB].
        destruct t; [|apply mall_ret]. apply IH, HS. cbn. auto.
      - done.
      - refine (mall_bind _ _ _ _ _ _ s Hs); [|intros; by apply HB]. apply mall_iter. intros x Hx. apply IH, HS. cbn. by apply in_map_iff; exists x.
      - refine (mall_bind _ _ _ _ _ _ s Hs); [|intros; by apply HB]. apply mall_iter. intros x Hx. by apply IH, HS. }
    unfold mbind. apply pall_bind. eapply pall_mono; [done| |exact HP]. intros [[u|e] s1] H1; cbn [fst snd] in *; [|done].
    unfold set_hdr. apply kept_set; [done| |done]. intros o'. right. split; [done|]. done.
  Qed.
End Only.

(** ** A part is written and purged *)
Section Unget.
  Context `{Env}.
  Context (r : pystr) (Hrem : is_remote r = false) (Hr : r <> []).
  Lemma purge_only fuel x s g a s' g' : heap_ok s -> exec (purge fuel x s) g = ((a, s'), g') -> forall y, (forall p, reach (s_heap s) x p <> Some y) -> s_heap s' !! y = s_heap s !! y.
  Proof.
    intros Hok He y Hy. set (S := fun z => exists p, reach (s_heap s) x p = Some z).
    assert (Hk : kept (s_heap s) S s) by (split; [done|by apply reach_closed]).
    pose proof (pall_exec _ _ _ g (kept_purge (s_heap s) S fuel x (ex_intro _ [] eq_refl) s Hk)) as [HH _]. rewrite He in HH. cbn [fst snd] in HH. apply HH. intros (p & Hp). by apply (Hy p).
  Qed.
  Lemma out_part fuel fuel2 l o k x ox force m s g ref s1 g1 s2 g2 : fresh r s -> able (objs_of g r) r s l -> s_heap s !! l = Some o -> h_mapped (o_hdr o) = true ->
    (forall k' y, dget (kids_of (o_body o)) k' = Some y -> is_ktree k' = false) -> dget (kids_of (o_body o)) k = Some x -> s_heap s !! x = Some ox -> kind_of (o_body ox) <> KdVl true ->
    Spec_Write.writes fuel x (Some r) force m -> exec (m s) g = ((Ok ref, s1), g1) -> exec (purge fuel2 x s1) g1 = ((Ok tt, s2), g2) ->
    g2 = g1 /\ fresh r s2 /\ (forall q, look (objs_of g2 r) (s_heap s2) l q = look (objs_of g r) (s_heap s) l q) /\
    (exists ox2, s_heap s2 !! x = Some ox2 /\ h_mapped (o_hdr ox2) = false) /\ able (objs_of g2 r) r s2 x /\
    forall y, (forall p, reach (s_heap s) x p <> Some y) -> s_heap s2 !! y = s_heap s !! y.
  Proof using Hrem Hr.
    intros (Hok & Hc & Hu) Ha Ho Hm HK Hd Hox Hkx Hw E1 E2.
    assert (HR : reach (s_heap s) l [k] = Some x) by (cbn [reach]; by rewrite Ho, Hm, Hd).
    destruct (able_reach _ _ _ _ _ _ Ha HR) as [HTx HOx].
    destruct (written r Hr fuel x force m s g ref s1 g1 ox Hw Hc Hu HTx Hox Hkx E1) as ((W1 & W2 & W3) & (HTx1 & Hmk & _) & HLx & _).
    destruct (written_before r Hr fuel x force m s g ref s1 g1 Hw Hc Hu E1) as (HG & Hc1 & Hu1).
    pose proof (write_one_realm r Hr fuel x force m s g _ s1 g1 x Hw E1 HOx) as HOx1.
    assert (Hok1 : heap_ok s1) by by eapply frame_heap_ok.
    destruct (purge_quiet (objs_of g1 r) r fuel2 x [] x s1 g1 (Ok tt) s2 g2 Hr HTx1 HOx1 eq_refl E2) as (-> & (h' & Eh) & Hdr & HTx2 & HOx2 & HLx2).
    pose proof (purge_only fuel2 x s1 g1 (Ok tt) s2 g1 Hok1 E2) as HP.
    assert (HRR : forall a p, reach (s_heap s1) a p = reach (s_heap s) a p) by (intros a p; apply fo_reach; by apply fr_on).
    assert (HS : forall y, (forall p, reach (s_heap s) x p <> Some y) -> s_heap s2 !! y = s_heap s !! y).
    { intros y Hy. rewrite HP; [by apply W3|]. intros p. rewrite HRR. apply Hy. }
    destruct Ha as [HT H1]. pose proof (td_unshared _ _ _ _ HT) as HU.
    assert (Hl2 : s_heap s2 !! l = Some o).
    { rewrite HS; [done|]. intros p Hp. assert (Hq : reach (s_heap s) l (k :: p) = Some l) by (change (k :: p) with ([k] ++ p); by rewrite reach_app, HR). by specialize (HU [] (k :: p) l eq_refl Hq). }
    split; [done|]. split; [split; [apply (td_heap _ _ _ _ HTx2)|]; subst s2; split; [exact Hc1|exact Hu1]|]. split; [|split; [|split; [done|done]]].
    - intros [|k' q]; [by rewrite (look_top _ _ _ _ Hl2 Hm), (look_top _ _ _ _ Ho Hm)|].
      rewrite (look_kids _ _ _ _ _ _ Hl2 Hm), (look_kids _ _ _ _ _ _ Ho Hm). destruct (dget (kids_of (o_body o)) k') as [y|] eqn:Ek; [|done]. rewrite (HK _ _ Ek). cbn [andb].
      destruct (decide (k' = k)) as [->|Hne]; [assert (y = x) as -> by congruence; by rewrite HLx2, HLx|].
      assert (Hy : reach (s_heap s) l [k'] = Some y) by (cbn [reach]; by rewrite Ho, Hm, Ek).
      assert (HAp : apart (s_heap s) y x). { intros p p' z Hp Hp'. assert (HE : [k'] ++ p = [k] ++ p'); [|by injection HE as ->]. apply (HU _ _ z); by rewrite reach_app, ?Hy, ?HR. }
      assert (HTy0 : tidy (objs_of g r) r s y) by exact (tidy_reach _ _ _ _ _ _ HT Hy).
      destruct (write_elsewhere r r fuel x force m s g (Ok ref) s1 g1 y Hr Hw Hc HTy0 HAp E1) as (_ & _ & _ & HTy & HLy).
      rewrite <- HLy. apply fo_look, sb_fo. intros p z Hp. apply HP. intros p' Hp'. rewrite HRR in Hp, Hp'. by apply (HAp p p' z).
    - destruct (purge_run PurgeFacts.safe safe_dropped fuel2 x s1 g1 Hok1) as (res1 & s3 & Hx & _ & Hd1 & Hres1); [|apply purgeable_safe|].
      { destruct (tidy_root _ _ _ _ HTx1) as (o1 & Ho1 & _). by exists o1. }
      rewrite Hx in E2. injection E2 as -> ->. destruct (tidy_root _ _ _ _ HTx1) as (o1 & Ho1 & _). destruct (dr_get _ _ _ _ _ Hd1 Ho1) as (o2 & Ho2 & _). exists o2. split; [done|]. by apply Hres1.
  Qed.
  (** the class of an element *)
  Lemma not_top O s l o k x ox : tidy O r s l -> s_heap s !! l = Some o -> h_mapped (o_hdr o) = true -> is_ktree k = false -> dget (kids_of (o_body o)) k = Some x -> s_heap s !! x = Some ox ->
    kind_of (o_body ox) <> KdVl true.
  Proof.
    intros HT Ho Hm Hk Hd Hox E.
    assert (HR : reach (s_heap s) l [k] = Some x) by (cbn [reach]; by rewrite Ho, Hm, Hd).
    destruct (root_label O r s x (kind_of (o_body ox)) (tidy_reach _ _ _ _ _ _ HT HR)) as (lb & Hl & Hkd & _); [by exists ox|]. rewrite E in Hkd.
    assert (HL : look O (s_heap s) l ([] ++ [k]) = Seen lb) by (cbn [app]; rewrite (look_kids _ _ _ _ _ _ Ho Hm), Hd, Hk; done).
    destruct (td_complete _ _ _ _ HT []) as (_ & _ & HP). destruct (HP k lb HL) as (lb0 & H0 & HPo). rewrite (look_top _ _ _ _ Ho Hm) in H0. injection H0 as <-.
    destruct lb as [| | | |b rs|]; try discriminate Hkd. injection Hkd as ->. destruct (o_body o), k; cbn in HPo; try done; [by destruct HPo|by destruct HPo as (? & [=])|by destruct HPo as (? & ? & _ & [])|by destruct HPo as (_ & ? & [=])].
  Qed.
  Lemma let_go_part fuel fuel2 l o k x force m s g ref s1 g1 s2 g2 : fresh r s -> able (objs_of g r) r s l -> s_heap s !! l = Some o -> h_mapped (o_hdr o) = true ->
    (forall k' y, dget (kids_of (o_body o)) k' = Some y -> is_ktree k' = false) -> dget (kids_of (o_body o)) k = Some x ->
    Spec_Write.writes fuel x (Some r) force m -> exec (m s) g = ((Ok ref, s1), g1) -> exec (purge fuel2 x s1) g1 = ((Ok tt, s2), g2) -> let_go r l x s g s2 g2.
  Proof using Hrem Hr.
    intros Hf Ha Ho Hm HK Hd Hw E1 E2. destruct Ha as [HT H1].
    assert (HR : reach (s_heap s) l [k] = Some x) by (cbn [reach]; by rewrite Ho, Hm, Hd).
    pose proof (tidy_reach _ _ _ _ _ _ HT HR) as HTx. destruct (tidy_root _ _ _ _ HTx) as (ox & Hox & _).
    destruct (out_part fuel fuel2 l o k x ox force m s g ref s1 g1 s2 g2 Hf (conj HT H1) Ho Hm HK Hd Hox (not_top _ _ _ _ _ _ _ HT Ho Hm (HK _ _ Hd) Hd Hox) Hw E1 E2) as (-> & Hf2 & HL & Hu & [HTx2 _] & HS).
    destruct (written_before r Hr fuel x force m s g ref s1 g1 Hw (proj1 (proj2 Hf)) (proj2 (proj2 Hf)) E1) as (HG & _ & _).
    split_and!; try done. intros fuel1 fuel3 q. exists (look (objs_of g r) (s_heap s) x q).
    destruct (visit_quiet r g Hrem Hr fuel1 q s x HTx) as (s4 & Hx4 & _). destruct (visit_quiet r g1 Hrem Hr fuel3 q s2 x HTx2) as (s5 & Hx5 & _). rewrite Hx4, Hx5. split; [done|]. cbn [fst]. f_equal.
    specialize (HL (k :: q)). assert (Hl2 : s_heap s2 !! l = Some o).
    { rewrite HS; [done|]. intros p Hp. assert (Hq : reach (s_heap s) l (k :: p) = Some l) by (change (k :: p) with ([k] ++ p); by rewrite reach_app, HR). by specialize (td_unshared _ _ _ _ HT [] (k :: p) l eq_refl Hq). }
    rewrite (look_kids _ _ _ _ _ _ Hl2 Hm), (look_kids _ _ _ _ _ _ Ho Hm), Hd, (HK _ _ Hd) in HL. cbn [andb] in HL. exact HL.
  Qed.
  (** a write without destination *)
  Lemma write_home fuel x ox force s g : s_heap s !! x = Some ox -> h_mapped (o_hdr ox) = true -> h_realm (o_hdr ox) = Some r -> exec (write_out fuel x None force s) g = exec (write_out fuel x (Some r) force s) g.
  Proof using Hr.
    clear Hrem. intros Hox Hm Hh. destruct fuel as [|f]; [done|]. cbn [write_out]. rewrite !x_bind, !x_getobj, Hox. cbn beta iota. rewrite Hm, Hh. cbn [negb]. destruct r as [|c r']; [done|]. done.
  Qed.
  Lemma unget_element_lemma fuel l hx k vs v p s g s' g' : fresh r s -> able (objs_of g r) r s l -> s_heap s !! l = Some (Obj hx (BVlist k vs)) -> h_mapped hx = true ->
    exec (unget_versioned_element fuel l v p (Some r) s) g = ((Ok tt, s'), g') ->
    exists vr, record_of vs v p = Some vr /\ let_go r l (elt_loc (vr_elt vr)) s g s' g'.
  Proof using Hrem Hr.
    intros Hf Ha Ho Hm He. unfold unget_versioned_element, versions in He. rewrite x_bind, x_bind, x_getobj, Ho in He. cbn [o_body] in He. rewrite x_ret in He. cbn [snd] in He. unfold record_of.
    destruct (dget vs v) as [d|] eqn:Ev; [|discriminate He]. destruct (dget d p) as [vr|] eqn:Ep; [|discriminate He]. exists vr. split; [done|].
    assert (Hkd : dget (kids_of (BVlist k vs)) (KVer v p) = Some (elt_loc (vr_elt vr))).
    { rewrite kids_vget; [unfold vget; by rewrite Ev, Ep|]. apply keyed_ok. by apply (td_keyed _ _ _ _ (proj1 Ha) [] l hx k vs eq_refl). }
    rewrite x_bind in He. destruct (exec (elt_write_out fuel (vr_elt vr) (Some r) s) g) as [[[ref|e] s1] g1] eqn:E1; [|discriminate He]. cbn beta iota in He.
    apply (let_go_part fuel fuel l _ (KVer v p) (elt_loc (vr_elt vr)) false (elt_write_out fuel (vr_elt vr) (Some r)) s g ref s1 g1 s' g' Hf Ha Ho Hm); [|done| |done|done].
    - intros k' y Hy. destruct k'; try done. by rewrite no_kid in Hy.
    - destruct (vr_elt vr); constructor.
  Qed.
  Lemma unget_metadata_lemma fuel l hx c d n x s g s' g' : fresh r s -> able (objs_of g r) r s l -> s_heap s !! l = Some (Obj hx (BNode c d)) -> h_mapped hx = true ->
    dget d n = Some x -> exec (unget_metadata fuel x (Some r) s) g = ((Ok tt, s'), g') -> let_go r l x s g s' g'.
  Proof using Hrem Hr.
    intros Hf Ha Ho Hm Hd He. unfold unget_metadata in He. rewrite x_bind in He.
    destruct (exec (write_out fuel x (Some r) false s) g) as [[[ref|e] s1] g1] eqn:E1; [|discriminate He]. cbn beta iota in He.
    apply (let_go_part fuel fuel l _ (KName n) x false (write_out fuel x (Some r) false) s g ref s1 g1 s' g' Hf Ha Ho Hm); [|by cbn [o_body]; rewrite kids_names|constructor|done|done].
    intros k' y Hy. destruct k'; try done. by rewrite no_kid in Hy.
  Qed.
  Lemma unget_list_lemma fuel l hx us u x ox s g s' g' : fresh r s -> able (objs_of g r) r s l -> s_heap s !! l = Some (Obj hx (BUset us)) -> h_mapped hx = true ->
    dget us u = Some x -> s_heap s !! x = Some ox -> h_realm (o_hdr ox) = Some r ->
    exec (unget_version_list fuel l u s) g = ((Ok tt, s'), g') -> let_go r l x s g s' g'.
  Proof using Hrem Hr.
    intros Hf Ha Ho Hm Hu Hox Hh He. unfold unget_version_list, uuid_entries in He. rewrite x_bind, x_bind, x_getobj, Ho in He. cbn [o_body] in He. rewrite x_ret in He. rewrite Hu in He. rewrite x_bind in He.
    destruct (h_mapped (o_hdr ox)) eqn:Em.
    2: { destruct fuel as [|f]; [discriminate He|]. cbn [write_out] in He. rewrite x_bind, x_getobj, Hox in He. cbn beta iota in He. rewrite Em in He. cbn [negb] in He. unfold massert in He. rewrite Hh in He. cbn [is_some] in He.
         rewrite x_bind, x_ret in He. destruct (h_ref (o_hdr ox)); cbn [is_some] in He; [|discriminate He]. rewrite x_bind, x_ret in He. unfold is_saved_on in He. rewrite x_bind, x_bind in He. cbn in He. rewrite Hox in He. discriminate He. }
    rewrite (write_home _ _ _ _ _ _ Hox Em Hh) in He.
    destruct (exec (write_out fuel x (Some r) false s) g) as [[[ref|e] s1] g1] eqn:E1; [|discriminate He]. cbn beta iota in He.
    apply (let_go_part fuel fuel l _ (KUuid u) x false (write_out fuel x (Some r) false) s g ref s1 g1 s' g' Hf Ha Ho Hm); [|by cbn [o_body]; rewrite kids_uuids|constructor|done|done].
    intros k' y Hy. destruct k'; try done. by rewrite no_kid in Hy.
  Qed.
  (** what can be written and purged is *)
  Lemma part_returns fuel x ox m s g : fresh r s -> able (objs_of g r) r s x -> s_heap s !! x = Some ox -> kind_of (o_body ox) <> KdVl true ->
    fitting fuel x r false (look (objs_of g r) (s_heap s) x) m -> removable r fuel x s g ->
    (exists s' g', exec ((m ;;; purge fuel x) s) g = ((Ok tt, s'), g')) \/ collision r m s g.
  Proof using Hrem Hr.
    intros (Hh & Hc & Hu) [HT H1] Hox Hk Hm (Hg & Hs & Hd & Hn & Hw & Hsh).
    destruct (C35_written_lemma r Hr Hrem fuel x false m s g Hm Hg Hc Hu HT Hs Hd Hn Hsh) as [(ref & s1 & g1 & E1)|HC]; [left|by right].
    assert (Hwr : Spec_Write.writes fuel x (Some r) false m) by (destruct Hm; constructor).
    destruct (C51_lemma r Hr Hrem fuel x false m s g ref s1 g1 ox Hwr Hc Hu HT H1 Hox Hk E1 fuel g1 Hw Hsh ltac:(reflexivity)) as (s2 & o2 & E2 & _).
    exists s2, g1. by rewrite x_bind, E1.
  Qed.
  Lemma element_returns fuel l hx k vs v p vr s g : fresh r s -> able (objs_of g r) r s l -> s_heap s !! l = Some (Obj hx (BVlist k vs)) -> h_mapped hx = true ->
    record_of vs v p = Some vr -> (forall t, vr_elt vr = ETree t -> look (objs_of g r) (s_heap s) t [] = Seen (LbNode LMrr)) -> removable r fuel (elt_loc (vr_elt vr)) s g ->
    (exists s' g', exec (unget_versioned_element fuel l v p (Some r) s) g = ((Ok tt, s'), g')) \/ collision r (elt_write_out fuel (vr_elt vr) (Some r)) s g.
  Proof using Hrem Hr.
    intros Hf Ha Ho Hm Hv Ht HR. unfold unget_versioned_element, versions. rewrite x_bind, x_bind, x_getobj, Ho. cbn [o_body]. rewrite x_ret. cbn [snd]. unfold record_of in Hv.
    destruct (dget vs v) as [d|] eqn:Ev; [|discriminate Hv]. rewrite Hv.
    assert (Hkd : dget (kids_of (BVlist k vs)) (KVer v p) = Some (elt_loc (vr_elt vr))).
    { rewrite kids_vget; [unfold vget; by rewrite Ev, Hv|]. apply keyed_ok. by apply (td_keyed _ _ _ _ (proj1 Ha) [] l hx k vs eq_refl). }
    assert (HRx : reach (s_heap s) l [KVer v p] = Some (elt_loc (vr_elt vr))) by (cbn [reach]; rewrite Ho; cbn [o_hdr o_body]; by rewrite Hm, Hkd).
    pose proof (able_reach _ _ _ _ _ _ Ha HRx) as Hax. destruct (tidy_root _ _ _ _ (proj1 Hax)) as (ox & Hox & _).
    apply (part_returns fuel _ ox _ s g Hf Hax Hox); [by eapply (not_top _ _ _ _ (KVer v p)); [exact (proj1 Ha)|exact Ho|done|done|exact Hkd|exact Hox]| |done].
    destruct (vr_elt vr) as [t|t]; [|constructor]. constructor. by apply Ht.
  Qed.
  Lemma metadata_returns fuel l hx c d n x s g : fresh r s -> able (objs_of g r) r s l -> s_heap s !! l = Some (Obj hx (BNode c d)) -> h_mapped hx = true ->
    dget d n = Some x -> removable r fuel x s g ->
    (exists s' g', exec (unget_metadata fuel x (Some r) s) g = ((Ok tt, s'), g')) \/ collision r (write_out fuel x (Some r) false) s g.
  Proof using Hrem Hr.
    intros Hf Ha Ho Hm Hd HR.
    assert (Hkd : dget (kids_of (BNode c d)) (KName n) = Some x) by by rewrite kids_names.
    assert (HRx : reach (s_heap s) l [KName n] = Some x) by (cbn [reach]; rewrite Ho; cbn [o_hdr o_body]; by rewrite Hm, Hkd).
    pose proof (able_reach _ _ _ _ _ _ Ha HRx) as Hax. destruct (tidy_root _ _ _ _ (proj1 Hax)) as (ox & Hox & _).
    apply (part_returns fuel _ ox _ s g Hf Hax Hox); [by eapply (not_top _ _ _ _ (KName n)); [exact (proj1 Ha)|exact Ho|done|done|exact Hkd|exact Hox]|constructor|done].
  Qed.
  Lemma list_returns fuel l hx us u x ox s g : fresh r s -> able (objs_of g r) r s l -> s_heap s !! l = Some (Obj hx (BUset us)) -> h_mapped hx = true ->
    dget us u = Some x -> s_heap s !! x = Some ox -> h_mapped (o_hdr ox) = true -> h_realm (o_hdr ox) = Some r -> removable r fuel x s g ->
    (exists s' g', exec (unget_version_list fuel l u s) g = ((Ok tt, s'), g')) \/ collision r (write_out fuel x (Some r) false) s g.
  Proof using Hrem Hr.
    intros Hf Ha Ho Hm Hd Hox Hmx Hhx HR. unfold unget_version_list, uuid_entries. rewrite x_bind, x_bind, x_getobj, Ho. cbn [o_body]. rewrite x_ret, Hd.
    assert (Hkd : dget (kids_of (BUset us)) (KUuid u) = Some x) by by rewrite kids_uuids.
    assert (HRx : reach (s_heap s) l [KUuid u] = Some x) by (cbn [reach]; rewrite Ho; cbn [o_hdr o_body]; by rewrite Hm, Hkd).
    pose proof (able_reach _ _ _ _ _ _ Ha HRx) as Hax.
    destruct (part_returns fuel _ ox (write_out fuel x (Some r) false) s g Hf Hax Hox) as [(s' & g' & He)|HC]; [by eapply (not_top _ _ _ _ (KUuid u)); [exact (proj1 Ha)|exact Ho|done|done|exact Hkd|exact Hox]|constructor|done| |by right].
    left. exists s', g'. rewrite x_bind in He. by rewrite x_bind, (write_home _ _ _ _ _ _ Hox Hmx Hhx).
  Qed.
End Unget.

Lemma remote_realms_lemma r : is_remote r = true <-> remote_realm r.
Proof.
  assert (HS : forall p x, startswith p x = true <-> exists rest, x = p ++ rest).
  { induction p as [|c p IH]; intros x; [cbn; split; [by exists x|done]|]. destruct x as [|d x]; cbn; [split; [done|by intros (? & [=])]|].
    rewrite andb_true_iff, IH. split; [intros [->%N.eqb_eq (rest & ->)]; by exists rest|intros (rest & [= -> ->]); split; [apply N.eqb_refl|by exists rest]]. }
  unfold is_remote, remote_realm. rewrite existsb_exists. split.
  - intros (p & Hp & Hs). apply HS in Hs as (rest & ->). by exists p, rest.
  - intros (p & rest & Hp & ->). exists p. split; [done|]. apply HS. by exists rest.
Qed.

(** ** [get_versioned_elements] *)
Section Elements.
  Context `{Env}.
  Lemma x_read_loaded fuel l o s g : s_heap s !! l = Some o -> h_mapped (o_hdr o) = true -> exec (read_in fuel l s) g = ((Ok tt, s), g).
  Proof. intros Ho Hm. unfold read_in. by rewrite x_bind, x_getobj, Ho, Hm. Qed.
  Lemma loaded_elements fuel s g (d : pydict ppath vrec) : (forall p vr, In (p, vr) d -> exists o, s_heap s !! elt_loc (vr_elt vr) = Some o /\ h_mapped (o_hdr o) = true) ->
    exec (mmap (fun vr => elt_read_in fuel (vr_elt vr) ;;; mret vr) (dvals d) s) g = ((Ok (dvals d), s), g).
  Proof.
    induction d as [|[p vr] d IH]; intros Hd; [done|]. cbn [dvals map snd mmap]. destruct (Hd p vr) as (o & Ho & Hm); [by left|].
    rewrite (x_bind _ _ s), (x_bind _ _ s). change (elt_read_in fuel (vr_elt vr)) with (read_in fuel (elt_loc (vr_elt vr))). rewrite (x_read_loaded _ _ _ _ _ Ho Hm). cbn beta iota. rewrite x_ret. cbn beta iota. rewrite x_bind. change (map snd d) with (dvals d). rewrite IH by (intros; by eapply Hd; right). cbn beta iota. by rewrite x_ret.
  Qed.
  Lemma elements_lemma fuel l hx k vs v s g : s_heap s !! l = Some (Obj hx (BVlist k vs)) -> h_mapped hx = true -> well_keyed vs ->
    (forall p vr, record_of vs v p = Some vr -> exists o, s_heap s !! elt_loc (vr_elt vr) = Some o /\ h_mapped (o_hdr o) = true) ->
    (exists rs, exec (get_versioned_elements fuel l v s) g = ((Ok rs, s), g) /\ NoDup (map vr_path rs) /\ forall vr, In vr rs <-> record_of vs v (vr_path vr) = Some vr) \/
    (exec (get_versioned_elements fuel l v s) g = ((Err KeyError, s), g) /\ forall p, record_of vs v p = None).
  Proof.
    intros Ho Hm [Hv Hd] Hl. unfold get_versioned_elements, ensure_mapped. rewrite x_bind, x_bind, x_getobj, Ho. cbn [o_hdr]. rewrite Hm. rewrite x_ret. cbn beta iota. unfold versions. rewrite x_bind, x_bind, x_getobj, Ho. cbn [o_body]. rewrite x_ret. cbn [snd]. unfold record_of in *.
    destruct (dget vs v) as [d|] eqn:Ev; [left|by right].
    assert (Hin : In (v, d) vs) by by apply dget_Some_In. destruct (Hd v d Hin) as [Hn Hp]. exists (dvals d). split; [|split].
    - apply loaded_elements. intros p vr Hpv. apply (Hl p). by apply TreeFacts.In_dget.
    - replace (map vr_path (dvals d)) with (dkeys d); [done|]. unfold dkeys, dvals. rewrite map_map. apply map_ext_in. intros [p vr] Hpv. cbn. symmetry. by apply Hp.
    - intros vr. unfold dvals. rewrite in_map_iff. split.
      + intros ([p vr'] & <- & Hpv). cbn. rewrite (Hp p vr' Hpv). by apply TreeFacts.In_dget.
      + intros Hg. exists (vr_path vr, vr). split; [done|]. by apply dget_Some_In.
  Qed.
End Elements.
