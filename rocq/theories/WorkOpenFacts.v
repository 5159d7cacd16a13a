(** Loading the top nodes, and the whole way: proofs for C55. *)
From Verif Require Import Base BaseFacts Path Spec_Path PathFacts Json Refs RefsFacts Meta Spec_Meta MetaFacts GitText Spec_Git Git GitFacts Spec_Store State BlobCache ObjRef Objects Spec_Objects Spec_Look Spec_Heap Spec_Versions Spec_Write ExecFacts LoadFacts PeekFacts TreeFacts TreeEditFacts VersionFacts PartFacts LookFacts ReadFacts Spec_Content ContentFacts WriteFacts StoreFacts SaveFacts WriteBackFacts WriteAllFacts ReadBackFacts PurgeFacts EditFacts RealmFacts GraftFacts AddFacts ListFacts Spec_History AnyWriteFacts UseFacts FrameFacts SessionFacts DatasetFacts HistoryFacts
  Common Spec_Common CommonFacts Spec_Publish Spec_Demand Spec_Workflow TopFacts PublishFacts WorkFacts WorkStepFacts WorkWriteFacts.

Section Open.
  Context `{Env}.
  Context (r : pystr) (g : gstate) (Hrem : is_remote r = false) (Hr : r <> []).
  Notation O := (objs_of g r).

  Lemma read_more fuel s (l : loc) k c n h : heap_ok s -> s_heap s !! l = Some (kid_obj r (k, ref_of c n)) -> top_kind k c ->
    object_id n = false -> n <> none_location -> refs_of g r !! n = Some h -> complete (look_stored O k (ref_of c h)) ->
    exists s' ol, exec (read_in fuel l s) g = ((Ok tt, s'), g) /\ heap_ok s' /\ s_heap s' !! l = Some ol /\ r ∈ h_saved (o_hdr ol) /\ NoDup (sub_objects (o_body ol)) /\
      (forall y, In y (sub_objects (o_body ol)) -> (s_next s <= y)%N /\ (y < s_next s')%N) /\ s_caches s' = s_caches s /\ (s_next s <= s_next s')%N /\
      forall (x : loc) o, x <> l -> s_heap s !! x = Some o -> s_heap s' !! x = Some o.
  Proof using All.
    intros Hok Ho Hc Hn Hnn Hh Hco.
    assert (Hs : exists b ks, stored O k (ref_of c h) = Ok (b, ks)).
    { destruct (look_stored_ok O k (ref_of c h) []) as [[b ks] Hs]; [apply Hco|]. eauto. }
    destruct Hs as (b & ks & Hs). pose proof (kind_empty k) as Hke.
    unfold kid_obj in Ho. cbn [fst snd] in Ho.
    assert (HN : is_none_reference (ref_of c n) = false) by (unfold is_none_reference; apply bool_decide_eq_false_2; by intros [= ->]).
    assert (Hm : h_mapped (kid_hdr r (ref_of c n)) = false) by done.
    assert (Hsv : r ∈ h_saved (kid_hdr r (ref_of c n))) by (unfold kid_hdr; cbn [h_saved]; rewrite HN; destruct r; [done|]; by apply elem_of_singleton).
    destruct (x_read_named r g Hrem Hr fuel s l _ (empty_body k) c n h b ks Ho) as (s' & x' & Hx & Hg & Hm' & Hsv'); rewrite ?Hke; try done; [by apply (Hok l _ Ho)|apply blank_empty|].
    assert (Hx2 : exec (ensure_mapped fuel l s) g = ((Ok true, s'), g)).
    { unfold ensure_mapped. rewrite x_bind, x_getobj, Ho. cbn beta iota. cbn [o_hdr]. rewrite Hm. rewrite x_bind, Hx. cbn beta iota.
      unfold set_hdr. rewrite x_bind, x_bind, x_getobj, (gr_self _ _ _ _ _ _ Hg). cbn beta iota. unfold setobj. cbn [exec o_hdr o_body]. cbn beta iota. rewrite x_ret.
      rewrite with_heap_id; [done|]. rewrite (gr_self _ _ _ _ _ _ Hg). unfold hd_mapped. rewrite <- Hm'. by destruct x'. }
    destruct (ld_ensure s l _ fuel g _ s' g Hok Ho Hx2) as [_ HD]. specialize (HD Hm). cbn beta iota in HD. destruct HD as [_ HD].
    pose proof (ld_good s l s' _ Hok Ho Hm HD) as HG. destruct HD as [_ (ol & Hol & _ & (P1 & P2 & P3) & _)].
    pose proof Hol as Hol'. rewrite (gr_self _ _ _ _ _ _ Hg) in Hol'. injection Hol' as <-.
    eexists _, _. split; [exact Hx|]. split; [apply HG|]. split; [exact Hol|]. split; [cbn [o_hdr]; by rewrite Hsv'|]. split; [done|]. split; [intros y Hy; specialize (P1 y Hy); lia|].
    split; [apply (gr_rest _ _ _ _ _ _ Hg)|]. split; [rewrite (gr_next _ _ _ _ _ _ Hg); lia|].
    intros x o Hxl Hxo. rewrite (gr_old _ _ _ _ _ _ Hg); [done|done|]. by apply (Hok x o).
  Qed.
  Lemma top_more fuel s h1 h2 : heap_ok s -> refs_of g r !! TREE_VERSION_LIST = Some h1 -> refs_of g r !! UUID_SET = Some h2 -> sound g r ->
    exists tvl us s' ot ou, exec (get_top_level_metadata_objects fuel r s) g = ((Ok (Some (tvl, us)), s'), g) /\ s_caches s' = s_caches s /\
      s_heap s' !! tvl = Some ot /\ s_heap s' !! us = Some ou /\ r ∈ h_saved (o_hdr ot) /\ r ∈ h_saved (o_hdr ou) /\
      NoDup (sub_objects (o_body ot)) /\ NoDup (sub_objects (o_body ou)) /\ forall x y, In x (sub_objects (o_body ot)) -> In y (sub_objects (o_body ou)) -> x <> y.
  Proof using All.
    intros Hok H1 H2 HS. destruct names_ok as (N1 & N2 & N3 & N4).
    assert (C1 : complete (look_stored O (KdVl true) (ref_of (ps "TreeVersionList") h1))) by (apply HS; exists h1; by left).
    assert (C2 : complete (look_stored O KdUs (ref_of (ps "UUIDSet") h2))) by (apply HS; exists h2; by right).
    unfold get_top_level_metadata_objects. rewrite x_bind, (ReadFacts.x_new r g Hrem (KdVl true) tree_version_list_reference). cbn beta iota. fold (s_new r s (KdVl true) tree_version_list_reference).
    destruct (new_facts r s (KdVl true) tree_version_list_reference Hok) as (Ok1 & F1 & A1 & K1). set (s1 := s_new r s _ _) in *.
    rewrite x_bind, (ReadFacts.x_new r g Hrem KdUs uuid_set_reference). cbn beta iota. fold (s_new r s1 KdUs uuid_set_reference).
    destruct (new_facts r s1 KdUs uuid_set_reference Ok1) as (Ok2 & F2 & A2 & K2). set (s2 := s_new r s1 _ _) in *.
    assert (Hca : s_caches s2 = s_caches s) by done.
    set (tvl := s_next s) in *. set (us := s_next s1) in *.
    assert (Hne : tvl <> us) by (unfold tvl, us, s1, s_new; cbn; lia). clearbody s2 s1.
    destruct (read_more fuel s2 tvl (KdVl true) (ps "TreeVersionList") TREE_VERSION_LIST h1 Ok2 (K2 _ _ A1)) as (s3 & ot & X3 & Ok3 & O3 & S3 & D3 & R3 & Ca3 & Nx3 & K3); try done; [by left|].
    destruct (read_more fuel s3 us KdUs (ps "UUIDSet") UUID_SET h2 Ok3) as (s4 & ou & X4 & Ok4 & O4 & S4 & D4 & R4 & Ca4 & Nx4 & K4); try done; [by apply K3|by right|].
    exists tvl, us, s4, ot, ou. split.
    { rewrite x_try, x_bind, X3. cbn beta iota. rewrite x_bind, X4. cbn beta iota. by rewrite x_ret. }
    split; [congruence|]. split; [by apply K4|]. split_and!; try done.
    intros x y Hx Hy ->. specialize (R3 y Hx). specialize (R4 y Hy). lia.
  Qed.

  (** An opened top node. *)
  Lemma kid_full k ref x k' ref' : full (look_stored O k ref) -> complete (look_stored O k' ref') -> (forall p, look_stored O k ref (x :: p) = look_stored O k' ref' p) -> is_none_reference ref' = false.
  Proof.
    intros Hf Hc HL. destruct (is_none_reference ref') eqn:En; [|done]. exfalso.
    destruct (Hc []) as (C1 & _). destruct (look_stored_ok _ _ _ _ C1) as [[b ks] Hs]. pose proof Hs as Hs'. unfold stored in Hs'. rewrite En in Hs'. destruct k' as [| |c| | |]; try done. destruct (jis_str _ _); [|done]. injection Hs' as <- <-.
    destruct (Hf [x] c) as (kk & lb & Hk); [rewrite HL; cbn [look_stored]; by rewrite Hs|done|]. cbn [app] in Hk. rewrite HL in Hk. cbn [look_stored] in Hk. by rewrite Hs in Hk.
  Qed.
  Lemma open_side s l o k ref : heap_ok s -> opened r g (s_heap s) l k ref -> topk k -> complete (look_stored O k ref) -> well_formed (look_stored O k ref) -> full (look_stored O k ref) ->
    s_heap s !! l = Some o -> r ∈ h_saved (o_hdr o) -> NoDup (sub_objects (o_body o)) -> side g r (look_stored O k ref) s l o nowhere /\ kind_of (o_body o) = k /\
    (forall kk x, dget (kids_of (o_body o)) kk = Some x -> forall q y, reach (s_heap s) x q = Some y -> y = x) /\ (forall q, look O (s_heap s) l q = look_stored O k ref q) /\ all_saved r (s_heap s) l.
  Proof using All.
    intros Hok Hop Hk Hc Hwf Hf Ho Hsv Hnd. pose proof (opened_look r g Hrem Hr _ _ _ _ Hop Hc Hk) as HL.
    pose proof (fun x a => opened_kid r g Hrem Hr _ _ _ _ x o Hop Hc Hk Ho a) as HK.
    destruct Hop as (hx & n & b & ks & Ho' & Hm & Hkb & Hs & HKs). assert (o = Obj hx (shift n b)) as -> by congruence. cbn [o_body o_hdr] in *.
    assert (HR : forall kk x, dget (kids_of (shift n b)) kk = Some x -> forall q y, reach (s_heap s) x q = Some y -> q = [] /\ y = x).
    { intros kk x Hd q y Hq. destruct (HK kk x Hd) as (k' & ref' & Hx & _). destruct q as [|k2 q]; [by injection Hq as ->|]. cbn [reach] in Hq. rewrite Hx in Hq. done. }
    assert (HKL : forall kk x, dget (kids_of (shift n b)) kk = Some x -> exists k' ref', s_heap s !! x = Some (kid_obj r (k', ref')) /\ fits (k', ref') /\ complete (look_stored O k' ref') /\ is_none_reference ref' = false).
    { intros kk x Hd. destruct (HK kk x Hd) as (k' & ref' & H1 & H2 & H3 & H4). exists k', ref'. split_and!; try done. eapply (kid_full k ref kk); [done|done|]. intros p. by rewrite <- HL. }
    assert (Hkk : kind_of (shift n b) = k) by by rewrite shift_kind.
    assert (HV : all_saved r (s_heap s) l).
    { intros q y oy Hq Hy. destruct q as [|k2 q]; [injection Hq as <-; rewrite Ho in Hy; by injection Hy as <-|]. cbn [reach] in Hq. rewrite Ho in Hq. cbn [o_hdr o_body] in Hq. rewrite Hm in Hq.
      destruct (dget (kids_of (shift n b)) k2) as [x|] eqn:Ed; [|done]. apply (HR _ _ Ed) in Hq as [_ ->]. destruct (HKL k2 x Ed) as (k' & ref' & H1 & _ & _ & Hnn). rewrite H1 in Hy. injection Hy as <-. unfold kid_obj, kid_hdr. cbn. rewrite Hnn. destruct r; [done|]. by apply elem_of_singleton. }
    split; [|split; [done|split; [intros kk x Hd q y Hq; by apply (HR kk x Hd q y)|done]]].
    split; [split; [split|]| |].
    - done.
    - done.
    - done.
    - cbn [o_body]. by rewrite Hkk.
    - intros kk x Hd. destruct (HKL kk x Hd) as (k' & ref' & H1 & H2 & H3 & _). by eapply (unmapped_tidy r g Hrem Hr).
    - intros k1 k2 x x' Hd Hd' Hn p q y Hp Hq. apply (HR _ _ Hd) in Hp as [_ ->]. apply (HR _ _ Hd') in Hq as [_ ->]. apply Hn. eapply dget_inj; [|exact Hd|exact Hd']. cbn [o_body]. by rewrite sub_kids.
    - intros kk vs Hb. cbn [o_body] in Hb. destruct b; try done. cbn in Hb. injection Hb as <- <-. apply shift_keyed. by eapply stored_keyed.
    - cbn [o_body]. rewrite shift_label. destruct (Hc []) as (_ & C2 & _). apply C2. cbn [look_stored]. by rewrite Hs.
    - intros kk x lb Hd Hl. cbn [o_body] in *. destruct (HK kk x Hd) as (k' & ref' & H1 & _ & _ & H4). destruct (Hc []) as (_ & _ & C3). destruct (C3 kk lb) as (lb0 & E0 & Hp).
      { cbn [app]. rewrite <- HL, H4. rewrite <- Hl. cbn [look]. rewrite H1. unfold kid_obj. cbn. by rewrite kind_empty. }
      cbn [look_stored] in E0. rewrite Hs in E0. injection E0 as <-. by rewrite shift_label.
    - intros kk x Hd q y oy Hq Hy Hne. cbn [o_body] in Hd. apply (HR _ _ Hd) in Hq as [_ ->]. destruct (HKL kk x Hd) as (k' & ref' & H1 & _ & _ & Hnn). rewrite H1 in Hy. injection Hy as <-. unfold kid_obj, kid_hdr in *. cbn in *. rewrite Hnn in *. destruct r; [done|]. split; [by apply elem_of_singleton|done].
    - split; [intros p lb Hp; exists lb; rewrite HL; split; [done|apply grows_refl]|]. by left.
    - eapply shaped_ext; [|by apply neat_shaped]. intros p. by rewrite HL.
  Qed.


  Lemma open_world fuel s h1 h2 : fresh r s -> refs_of g r !! TREE_VERSION_LIST = Some h1 -> refs_of g r !! UUID_SET = Some h2 -> neat g r ->
    exists tvl us s' ot ou, exec (get_top_level_metadata_objects fuel r s) g = ((Ok (Some (tvl, us)), s'), g) /\
      world r g tvl us (look_stored O (KdVl true) (ref_of (ps "TreeVersionList") h1)) (look_stored O KdUs (ref_of (ps "UUIDSet") h2)) s' ot ou nowhere /\
      (forall q, look O (s_heap s') tvl q = look_stored O (KdVl true) (ref_of (ps "TreeVersionList") h1) q) /\ (forall q, look O (s_heap s') us q = look_stored O KdUs (ref_of (ps "UUIDSet") h2) q) /\
      all_saved r (s_heap s') tvl /\ all_saved r (s_heap s') us.
  Proof using All.
    intros (Hok & Hca & Hno) H1 H2 HN. assert (HS : sound g r) by (intros k ref HP; apply (HN k ref HP)).
    destruct (HN (KdVl true) (ref_of (ps "TreeVersionList") h1)) as [W1 L1]; [exists h1; by left|]. destruct (HN KdUs (ref_of (ps "UUIDSet") h2)) as [W2 L2]; [exists h2; by right|].
    destruct (top_open r g Hrem Hr fuel s h1 h2 Hok H1 H2 HS) as (tvl & us & s' & X & Ok' & _ & _ & Hne & _ & P1 & P2).
    destruct (top_more fuel s h1 h2 Hok H1 H2 HS) as (tvl' & us' & s2 & ot & ou & X2 & Hc & Ht & Hu & St & Su & Nt & Nu & Ha).
    rewrite X in X2. injection X2 as <- <- <-.
    destruct (open_side s' tvl ot _ _ Ok' P1) as (S1 & K1 & R1 & L1' & V1); try done; [by left|apply W1|].
    destruct (open_side s' us ou _ _ Ok' P2) as (S2 & K2 & R2 & L2' & V2); try done; [by right|apply W2|].
    exists tvl, us, s', ot, ou. split; [done|]. split; [|done]. split; try done.
    - split; [done|]. unfold caches_ok in *. by rewrite Hc.
    - intros k x k' x' Hx Hx' p q y Hp Hq. apply (R1 _ _ Hx) in Hp. apply (R2 _ _ Hx') in Hq. subst x x'.
      apply (Ha y y); [| |done]; rewrite <- sub_kids; by eapply (in_map snd _ (_, _)), dget_Some_In.
  Qed.
  Lemma top_none fuel s : heap_ok s -> refs_of g r !! TREE_VERSION_LIST = None ->
    exists s', exec (get_top_level_metadata_objects fuel r s) g = ((Ok None, s'), g) /\ heap_ok s' /\ s_caches s' = s_caches s.
  Proof using All.
    intros Hok Hno. destruct names_ok as (N1 & N2 & N3 & N4).
    unfold get_top_level_metadata_objects. rewrite x_bind, (ReadFacts.x_new r g Hrem (KdVl true) tree_version_list_reference). cbn beta iota. fold (s_new r s (KdVl true) tree_version_list_reference).
    destruct (new_facts r s (KdVl true) tree_version_list_reference Hok) as (Ok1 & F1 & A1 & K1). set (s1 := s_new r s _ _) in *.
    rewrite x_bind, (ReadFacts.x_new r g Hrem KdUs uuid_set_reference). cbn beta iota. fold (s_new r s1 KdUs uuid_set_reference).
    destruct (new_facts r s1 KdUs uuid_set_reference Ok1) as (Ok2 & F2 & A2 & K2). set (s2 := s_new r s1 _ _) in *.
    assert (Hca : s_caches s2 = s_caches s) by done. set (tvl := s_next s) in *. clearbody s2 s1.
    destruct (read_missing r g Hrem Hr fuel s2 tvl (KdVl true) (ps "TreeVersionList") TREE_VERSION_LIST Ok2 (K2 _ _ A1)) as (s3 & X3 & Ok3 & K3); try done; [by left|].
    exists s3. split; [rewrite x_try, x_bind, X3; cbn beta iota; by rewrite x_ret|]. split; [done|]. rewrite <- Hca.
    pose proof (K2 _ _ A1) as Ho. assert (X4 : exec (ensure_mapped fuel tvl s2) g = ((Err RuntimeError, s3), g)).
    { unfold ensure_mapped. rewrite x_bind, x_getobj, Ho. cbn beta iota. unfold kid_obj, kid_hdr. cbn [o_hdr fst snd h_mapped]. rewrite x_bind, X3. done. }
    destruct (ld_ensure s2 tvl _ fuel g _ s3 g Ok2 Ho X4) as [_ [HD _]]; [done|]. apply (rd_rest _ _ _ HD).
  Qed.
  Lemma new_side s (l : loc) b : heap_ok s -> s_heap s !! l = Some (fresh_obj b) -> topk (kind_of b) -> kids_of b = [] -> (forall k vs, b = BVlist k vs -> vs = []) -> label_ok (label_of b) ->
    side g r (fun _ => Absent) s l (fresh_obj b) nowhere.
  Proof using All.
    intros Hok Ho Hk Hb Hv Hl.
    assert (Hd : forall kk x, dget (kids_of (o_body (fresh_obj b))) kk <> Some x) by (intros kk x; cbn [fresh_obj o_body]; by rewrite Hb).
    split; [split; [split|]| |]; try done.
    - by intros kk x Hx%Hd.
    - by intros kk k' x x' Hx%Hd.
    - intros kk vs E. cbn in E. specialize (Hv _ _ E). subst vs. apply wk_nil.
    - by intros kk x lb Hx%Hd.
    - by intros kk x Hx%Hd.
    - split; [done|]. right. exists [], l. split; [done|]. by exists (fresh_obj b).
    - eapply shaped_ext; [|apply (shaped_leaf (label_of b))]. intros [|kk q]; cbn [look leaf]; rewrite Ho; cbn; [done|]. by rewrite Hb.
  Qed.
  Lemma new_world fuel s : fresh r s -> refs_of g r !! TREE_VERSION_LIST = None ->
    exists s1, exec (get_top_level_metadata_objects fuel r s) g = ((Ok None, s1), g) /\
    exists tvl us s2 s' ot ou, (forall g', exec (new_obj (BVlist true []) None None s1) g' = ((Ok tvl, s2), g')) /\ (forall g', exec (new_obj (BUset []) None None s2) g' = ((Ok us, s'), g')) /\
      world r g tvl us (fun _ => Absent) (fun _ => Absent) s' ot ou nowhere /\ (forall q, look O (s_heap s') tvl q = only (LbVl true []) q) /\ (forall q, look O (s_heap s') us q = only LbUs q).
  Proof using All.
    intros (Hok & Hca & Hno) H1. destruct (top_none fuel s Hok H1) as (s1 & X & Ok1 & Hc). exists s1. split; [done|].
    set (s2 := GraftFacts.grown s1 (fresh_obj (BVlist true []))). set (s' := GraftFacts.grown s2 (fresh_obj (BUset []))).
    assert (Ok2 : heap_ok s2) by (apply gw_ok; try done; by intros ? ? [= _ <-]). assert (Ok3 : heap_ok s') by (by apply gw_ok).
    exists (s_next s1), (s_next s2), s2, s', (fresh_obj (BVlist true [])), (fresh_obj (BUset [])).
    split; [intros g'; by rewrite TreeEditFacts.x_new|]. split; [intros g'; by rewrite TreeEditFacts.x_new|].
    assert (Ht : s_heap s' !! s_next s1 = Some (fresh_obj (BVlist true []))) by (unfold s'; rewrite gw_old; [apply gw_self|done|]; eexists; apply gw_self).
    split; [|split].
    2:{ intros [|k q]; cbn [look only]; by rewrite Ht. }
    2:{ intros [|k q]; cbn [look only]; unfold s'; by rewrite gw_self. }
    split; try done.
    - split; [done|]. unfold caches_ok in *. change (s_caches s') with (s_caches s1). by rewrite Hc.
    - apply new_side; try done; [by left|by intros ? ? [= _ <-]].
    - apply new_side; try done; [|by right]. apply gw_self.
  Qed.
End Open.

Lemma reach_plain O h p : forall l y, reach h l p = Some y -> List.Forall (fun k => is_ktree k = false) p -> forall q, look O h l (p ++ q) = look O h y q.
Proof.
  induction p as [|k p IH]; intros l y Hp HF q; cbn [app]; [by injection Hp as ->|]. cbn [reach look] in *. apply List.Forall_cons_iff in HF as [Hk HF].
  destruct (h !! l) as [o|]; [|done]. destruct (h_mapped (o_hdr o)); [|done]. destruct (dget _ k) as [x|]; [|done]. rewrite Hk. cbn [andb]. by apply IH.
Qed.

Section Whole.
  Context `{Env}.
  Lemma publishes_within g r k c c0 c' : publishes g r k c -> publishes g r k c0 -> within c c' -> within c0 c'.
  Proof.
    intros P P0 HW. assert (HE : forall q, c q = c0 q); [|by eapply (within_ext c c0)]. intros q.
    destruct P as [(ref & (h & HP) & E)|[HN E]], P0 as [(ref0 & (h0 & HP0) & E0)|[HN0 E0]].
    - rewrite E, E0. destruct HP as [(-> & Hh & ->)|(-> & Hh & ->)], HP0 as [(Hk & Hh0 & ->)|(Hk & Hh0 & ->)]; try discriminate Hk; rewrite Hh in Hh0; by injection Hh0 as <-.
    - destruct (HN0 ref). by exists h.
    - destruct (HN ref0). by exists h0.
    - by rewrite E, E0.
  Qed.
  Lemma askable_ok u v p now n : askable u v p -> times now -> args_ok v (now n) p.
  Proof. intros (_ & H1 & H2 & H3) HT. by split_and!. Qed.
  Lemma asked_world r g fuel u v p now s : is_remote r = false -> r <> [] -> fresh r s -> neat g r -> paired g r -> askable u v p -> times now ->
    exists tvl us m s' ot ou c1 c2 d1 d2, exec (get_top_nodes_and_metadata_root_record fuel r u v p no_path None None true now s) g = ((Ok (Some (tvl, us, Some m)), s'), g) /\
      publishes g r (KdVl true) c1 /\ publishes g r KdUs c2 /\ full c1 /\ full c2 /\ ended r g tvl us c1 c2 s' ot ou u v p m /\
      starts g r (KdVl true) d1 /\ starts g r KdUs d2 /\ recorded u v p (now 2%nat) (now 3%nat) d1 d2 (look (objs_of g r) (s_heap s') tvl) (look (objs_of g r) (s_heap s') us).
  Proof.
    intros Hrem Hr Hf HN HB Ha Hti. pose proof (askable_ok _ _ _ _ 2%nat Ha Hti) as Ha2. pose proof (askable_ok _ _ _ _ 3%nat Ha Hti) as Ha3. destruct Ha as [Hu _]. unfold paired in HB.
    destruct (refs_of g r !! TREE_VERSION_LIST) as [h1|] eqn:E1.
    - destruct (refs_of g r !! UUID_SET) as [h2|] eqn:E2; [|by destruct HB as [_ HB]; discriminate HB].
      destruct (open_world r g Hrem Hr fuel s h1 h2 Hf E1 E2 HN) as (tvl & us & s1 & ot & ou & X & W & L1 & L2 & _).
      assert (P1 : published g r (KdVl true) (ref_of (ps "TreeVersionList") h1)) by (exists h1; by left). assert (P2 : published g r KdUs (ref_of (ps "UUIDSet") h2)) by (exists h2; by right).
      destruct (HN _ _ P1) as [_ F1]. destruct (HN _ _ P2) as [_ F2].
      destruct (st_ask r g Hrem Hr tvl us _ _ F1 F2 fuel u v p now s1 ot ou W Hu Ha2 Ha3) as (m & s' & ot' & ou' & X2 & EN & RC).
      exists tvl, us, m, s', ot', ou', (look_stored (objs_of g r) (KdVl true) (ref_of (ps "TreeVersionList") h1)), (look_stored (objs_of g r) KdUs (ref_of (ps "UUIDSet") h2)), (look (objs_of g r) (s_heap s1) tvl), (look (objs_of g r) (s_heap s1) us). split.
      { unfold get_top_nodes_and_metadata_root_record. rewrite x_bind, X. cbn beta iota. rewrite x_bind, x_ret. cbn beta iota. rewrite x_bind, X2. cbn beta iota. by rewrite x_ret. }
      split; [left; by eexists|]. split; [left; by eexists|]. split; [done|]. split; [done|]. split; [exact EN|]. split; [|split; [|exact RC]]; left; eexists; split; [exact P1|exact L1|exact P2|exact L2].
    - assert (E2 : refs_of g r !! UUID_SET = None) by by apply HB.
      destruct (new_world r g Hrem Hr fuel s Hf E1) as (s1 & X & tvl & us & s2 & s3 & ot & ou & X1 & X2 & W & L1 & L2).
      assert (F : full (fun _ => Absent)) by done.
      destruct (st_ask r g Hrem Hr tvl us _ _ F F fuel u v p now s3 ot ou W Hu Ha2 Ha3) as (m & s' & ot' & ou' & X3 & EN & RC).
      assert (Q1 : forall ref, ~ published g r (KdVl true) ref) by (intros ref (h & [(_ & Hh & _)|(Hk & _)]); congruence).
      assert (Q2 : forall ref, ~ published g r KdUs ref) by (intros ref (h & [(Hk & _)|(_ & Hh & _)]); congruence).
      exists tvl, us, m, s', ot', ou', (fun _ => Absent), (fun _ => Absent), (look (objs_of g r) (s_heap s3) tvl), (look (objs_of g r) (s_heap s3) us). split.
      { unfold get_top_nodes_and_metadata_root_record. rewrite x_bind, X. cbn beta iota. rewrite !(x_bind _ _ s1), X1. cbn beta iota. rewrite x_bind, X2. cbn beta iota. rewrite x_ret. cbn beta iota. rewrite x_bind, X3. cbn beta iota. by rewrite x_ret. }
      split; [by right|]. split; [by right|]. split; [done|]. split; [done|]. split; [exact EN|]. split; [|split; [|exact RC]]; right; split; [exact Q1|exact L1|exact Q2|exact L2].
  Qed.
  Lemma C55_lemma r g fuel u v p now s : is_remote r = false -> r <> [] -> fresh r s -> neat g r -> paired g r -> askable u v p -> times now ->
    exists tvl us m s1, exec (get_top_nodes_and_metadata_root_record fuel r u v p no_path None None true now s) g = ((Ok (Some (tvl, us, Some m)), s1), g) /\
    forall f1 f2 ref1 s2 g1 ref2 s3 g2,
      exec (write_out f1 tvl (Some r) false s1) g = ((Ok ref1, s2), g1) -> exec (write_out f2 us (Some r) false s2) g1 = ((Ok ref2, s3), g2) ->
      fresh r s3 /\ neat g2 r /\ exists c1 c2 c1' c2', starts g r (KdVl true) c1 /\ starts g r KdUs c2 /\
        (exists ref, published g2 r (KdVl true) ref /\ forall q, look_stored (objs_of g2 r) (KdVl true) ref q = c1' q) /\
        (exists ref, published g2 r KdUs ref /\ forall q, look_stored (objs_of g2 r) KdUs ref q = c2' q) /\
        recorded u v p (now 2%nat) (now 3%nat) c1 c2 c1' c2' /\
        (exists i w, c1' [KVer v p; KName root_record_name] = Seen (LbMrr i w)) /\ (exists lb, c2' [KUuid u; KVer v p] = Seen lb).
  Proof.
    intros Hrem Hr Hf HN HB Ha Ht. destruct (asked_world r g fuel u v p now s Hrem Hr Hf HN HB Ha Ht) as (tvl & us & m & s1 & ot & ou & c1 & c2 & d1 & d2 & X & P1 & P2 & F1 & F2 & EN & D1 & D2 & RC).
    exists tvl, us, m, s1. split; [done|]. intros f1 f2 ref1 s2 g1 ref2 s3 g2 E1 E2.
    destruct (both_writes r Hr tvl us c1 c2 f1 f2 s1 g ot ou u v p m ref1 s2 g1 ref2 s3 g2 EN P1 P2 E1 E2) as (Hf3 & h1 & h2 & R1 & R2 & L1 & L2).
    pose proof (en_t _ _ _ _ _ _ _ _ _ _ _ _ _ EN) as ST. pose proof (en_u _ _ _ _ _ _ _ _ _ _ _ _ _ EN) as SU.
    pose proof (rd_complete _ _ _ _ _ (proj1 (sd_based _ _ _ _ _ _ _ ST))) as CT. pose proof (rd_complete _ _ _ _ _ (proj1 (sd_based _ _ _ _ _ _ _ SU))) as CU.
    split; [done|]. split.
    { intros k ref (h & [(-> & Hh & ->)|(-> & Hh & ->)]).
      - rewrite R1 in Hh. injection Hh as <-. apply shaped_neat; [by eapply complete_ext|]. eapply shaped_ext; [intros q; symmetry; apply L1|]. apply ST.
      - rewrite R2 in Hh. injection Hh as <-. apply shaped_neat; [by eapply complete_ext|]. eapply shaped_ext; [intros q; symmetry; apply L2|]. apply SU. }
    eexists d1, d2, _, _. split; [done|]. split; [done|].
    split. { eexists. split; [exists h1; by left|]. exact L1. }
    split. { eexists. split; [exists h2; by right|]. exact L2. }
    split; [exact RC|]. split.
    - pose proof (en_found _ _ _ _ _ _ _ _ _ _ _ _ _ EN) as HF. destruct (en_kind _ _ _ _ _ _ _ _ _ _ _ _ _ EN) as (om & Hom & Hkm).
      pose proof (reach_plain (objs_of g r) _ _ _ _ HF) as HL. specialize (HL ltac:(by repeat constructor) []). cbn [app] in HL.
      destruct (CT [KVer v p; KName root_record_name]) as (CB & _). rewrite HL in CB |- *. destruct (look (objs_of g r) (s_heap s1) m []) as [| |lb] eqn:El; [by apply look_seen in El|done|].
      pose proof (look_kind _ _ _ _ _ Hom El) as Hk. rewrite Hkm in Hk. destruct lb; try discriminate Hk. by eexists _, _.
    - destruct (en_listed _ _ _ _ _ _ _ _ _ _ _ _ _ EN) as (y & HF).
      pose proof (reach_plain (objs_of g r) _ _ _ _ HF) as HL. specialize (HL ltac:(by repeat constructor) []). cbn [app] in HL.
      destruct (CU [KUuid u; KVer v p]) as (CB & _). rewrite HL in CB |- *. destruct (look (objs_of g r) (s_heap s1) y []) as [| |lb] eqn:El; [by apply look_seen in El|done|]. by eexists.
  Qed.
End Whole.
