(** Finding what is published: proofs for C55 and C56. *)
From Verif Require Import Base BaseFacts Path Spec_Path PathFacts Json Refs RefsFacts Meta Spec_Meta MetaFacts GitText Spec_Git Git GitFacts Spec_Store State BlobCache ObjRef Objects Spec_Objects Spec_Look Spec_Heap Spec_Versions Spec_Write ExecFacts LoadFacts PeekFacts TreeFacts TreeEditFacts VersionFacts PartFacts LookFacts ReadFacts Spec_Content ContentFacts WriteFacts StoreFacts SaveFacts WriteBackFacts WriteAllFacts ReadBackFacts PurgeFacts EditFacts RealmFacts GraftFacts AddFacts ListFacts Spec_History AnyWriteFacts UseFacts FrameFacts SessionFacts DatasetFacts HistoryFacts
  Common Spec_Common CommonFacts Spec_Publish Spec_Demand Spec_Workflow TopFacts PublishFacts WorkFacts WorkStepFacts WorkWriteFacts WorkOpenFacts.

Section Find.
  Context `{Env}.
  Context (r : pystr) (g : gstate) (Hrem : is_remote r = false) (Hr : r <> []).
  Context (tvl us : loc) (c1 c2 : content) (F1 : full c1) (F2 : full c2).
  Notation O := (objs_of g r).
  Notation world := (world r g tvl us c1 c2).

  Lemma find_tree fuel v p t auto s ot ou X q lb0 : world s ot ou X -> look O (s_heap s) tvl (KVer v p :: q) = Seen lb0 ->
    exists x s', exec (version_tree fuel tvl v p t auto s) g = ((Ok (Some x), s'), g) /\ quiet O r s s' /\
      dget (kids_of (o_body ot)) (KVer v p) = Some x /\ is_kind (s_heap s') x (KdNode LMrr).
  Proof using All.
    intros W Hsee. pose proof (wo_ready_t _ _ _ _ _ _ _ _ _ _ W) as R. rewrite (rd_look _ _ _ _ _ R) in Hsee.
    destruct (wo_body_t _ _ _ _ _ _ _ _ _ _ W) as (hx & vs & -> & Hm & Hw & Ho & Hlb). cbn [o_body] in Hsee.
    rewrite kids_vget in Hsee by by apply keyed_ok. unfold vget in Hsee.
    unfold version_tree. rewrite x_bind, (x_has _ _ _ _ _ _ _ _ _ Ho Hm Hw). cbn beta iota. destruct (record_of vs v p) as [rr|] eqn:Er; [|unfold record_of in Er; by rewrite Er in Hsee]. cbn [is_some].
    assert (Hd : dget (kids_of (BVlist true vs)) (KVer v p) = Some (elt_loc (vr_elt rr))) by (rewrite kids_vget by (by apply keyed_ok); unfold vget; unfold record_of in Er; by rewrite Er).
    pose proof (wo_able_t _ _ _ _ _ _ _ _ _ _ _ _ W Hd) as Ha. destruct (rd_seen _ _ _ _ _ R _ _ Hd) as (lb & Hs & Hpo).
    assert (lb = LbNode LMrr) as ->.
    { eapply (sh_list _ _ (sd_shaped _ _ _ _ _ _ _ (wo_t _ _ _ _ _ _ _ _ _ _ W)) []); [exact (rd_nil _ _ _ _ _ R)|]. cbn [app]. rewrite (rd_look _ _ _ _ _ R). cbn [o_body]. by rewrite Hd. }
    destruct Hpo as (t0 & b0 & Hin & _ & ->). apply in_map_iff in Hin as ([v1 r1] & [= -> <- _ He] & Hin). apply records_in in Hin; [|done]. cbn [snd fst] in *.
    assert (r1 = rr) as ->.
    { unfold record_of in Hin, Er. destruct (dget vs v) as [dd|] eqn:Ed; [|done]. cbn in *. congruence. }
    destruct (vr_elt rr) as [x|x] eqn:Ee; [|done]. cbn [elt_loc] in *.
    assert (Hkx : is_kind (s_heap s) x (KdNode LMrr)). { destruct (able_some _ _ _ _ Ha) as [ox Hox]. exists ox. split; [done|]. symmetry. by apply (look_kind _ _ _ _ _ Hox Hs). }
    destruct (able_read r g Hrem Hr fuel s x Ha) as (s' & E & HQ). exists x, s'.
    rewrite x_bind, (x_get_version _ _ _ _ _ _ _ _ _ _ Ho Hm Er). unfold elt_read_in. rewrite Ee. cbn [elt_loc]. rewrite x_bind, E. cbn beta iota. rewrite x_ret. cbn beta iota. rewrite Ee, x_ret.
    split; [done|]. split; [done|]. split; [done|]. by eapply (quiet_kind r g).
  Qed.
  Lemma find_list fuel u auto s ot ou X q lb0 : world s ot ou X -> look O (s_heap s) us (KUuid u :: q) = Seen lb0 ->
    exists x s', exec (dataset_version_list fuel us u auto s) g = ((Ok (Some x), s'), g) /\ quiet O r s s' /\
      dget (kids_of (o_body ou)) (KUuid u) = Some x /\ is_kind (s_heap s') x (KdVl false).
  Proof using All.
    intros W Hsee. pose proof (wo_ready_u _ _ _ _ _ _ _ _ _ _ W) as R. rewrite (rd_look _ _ _ _ _ R) in Hsee.
    destruct (wo_body_u _ _ _ _ _ _ _ _ _ _ W) as (hx & d & -> & Hm & Ho). cbn [o_body] in Hsee. rewrite kids_uuids in Hsee.
    unfold dataset_version_list, uuids. rewrite (x_bind _ _ s), (x_bind _ _ s), (x_mapped_noop _ _ _ _ _ Ho Hm). cbn beta iota.
    rewrite x_bind, (x_uuid_entries _ _ _ _ _ Ho). cbn beta iota. rewrite x_ret. cbn beta iota. destruct (dget d u) as [x|] eqn:Ed; [|done].
    assert (Hd : dget (kids_of (BUset d)) (KUuid u) = Some x) by by rewrite kids_uuids.
    pose proof (wo_able_u _ _ _ _ _ _ _ _ _ _ _ _ W Hd) as Ha. destruct (rd_seen _ _ _ _ _ R _ _ Hd) as (lb & Hs & Hpo). destruct Hpo as (_ & rs & ->).
    assert (Hkx : is_kind (s_heap s) x (KdVl false)). { destruct (able_some _ _ _ _ Ha) as [ox Hox]. exists ox. split; [done|]. symmetry. by apply (look_kind _ _ _ _ _ Hox Hs). }
    destruct (able_read r g Hrem Hr fuel s x Ha) as (s' & E & HQ). exists x, s'.
    rewrite bool_decide_true by (apply dget_is_Some; by rewrite Ed). unfold get_version_list. rewrite (x_bind _ _ s), (x_bind _ _ s), (x_mapped_noop _ _ _ _ _ Ho Hm). cbn beta iota.
    rewrite x_bind, (x_uuid_entries _ _ _ _ _ Ho). cbn beta iota. rewrite Ed, x_bind, E. cbn beta iota. rewrite x_ret. cbn beta iota. rewrite x_ret.
    split; [done|]. split; [done|]. split; [done|]. by eapply (quiet_kind r g).
  Qed.
  Lemma find_record fuel v p u w auto s ot ou X x i w0 : world s ot ou X -> dget (kids_of (o_body ot)) (KVer v p) = Some x -> look O (s_heap s) tvl [KVer v p; KName root_record_name] = Seen (LbMrr i w0) ->
    exists m s', exec (tree_record fuel x no_path u w auto s) g = ((Ok (Some m), s'), g) /\ quiet O r s s' /\
      reach (s_heap s') x [KName root_record_name] = Some m /\ forall q, look O (s_heap s') m q = look O (s_heap s) x (KName root_record_name :: q).
  Proof using All.
    intros W Hx Hsee. pose proof (wo_ready_t _ _ _ _ _ _ _ _ _ _ W) as R. rewrite (rd_look _ _ _ _ _ R), Hx in Hsee. pose proof (wo_able_t _ _ _ _ _ _ _ _ _ _ _ _ W Hx) as Ha.
    destruct (walk_quiet r g Hrem Hr fuel [root_record_name] s x (proj1 Ha)) as (s1 & res & E1 & HQ1 & Hres). pose proof (able_quiet r g _ _ _ HQ1 Ha) as Ha1.
    unfold tree_record, dataset_in, get_object_at_path. rewrite no_path_parts. rewrite (x_bind _ _ s), (x_bind _ _ s), E1. cbn beta iota. rewrite x_ret. cbn beta iota. cbn [map app] in Hres. destruct res as [m|]; [|by rewrite Hres in Hsee]. cbn [is_some].
    destruct Hres as [Hm Hlk]. assert (Ham : able O r s1 m) by by eapply able_reach.
    assert (Hkm : is_kind (s_heap s1) m KdMrr). { destruct (able_some _ _ _ _ Ham) as [om Hom]. exists om. split; [done|]. rewrite Hlk in Hsee. symmetry. by apply (look_kind _ _ _ _ _ Hom Hsee). }
    destruct (walk_quiet r g Hrem Hr fuel [root_record_name] s1 x (proj1 Ha1)) as (s2 & res2 & E2 & HQ2 & Hres2). cbn [map app] in Hres2.
    destruct res2 as [m2|]; [|exfalso; specialize (Hres2 []); rewrite (qu_look _ _ _ _ HQ1) in Hres2 by (by eapply able_some); congruence].
    assert (m2 = m) as ->. { apply (qu_reach r g s1 s2 _ HQ2) in Hm. destruct Hres2 as [Hm2 _]. congruence. }
    pose proof (able_quiet r g _ _ _ HQ2 Ham) as Ham2. pose proof (quiet_kind r g _ _ _ _ HQ2 Hkm) as Hkm2.
    destruct (able_ensure r g Hrem Hr fuel s2 m KdMrr Ham2 Hkm2) as (b & s3 & o3 & E3 & HQ3 & _).
    exists m, s3. unfold get_metadata_root_record, get_object_at_path. rewrite no_path_parts. rewrite x_bind, E2. cbn beta iota. destruct Hkm2 as (om & Hom & Hkm2).
    rewrite x_bind, x_getobj, Hom. cbn beta iota. destruct om as [hm bm]. destruct bm; try done. cbn [o_body]. rewrite x_bind, E3. cbn beta iota. rewrite x_ret.
    split; [done|]. split; [by eapply qu_trans; [|eapply qu_trans]|]. split.
    - apply (qu_reach r g s2 s3 _ HQ3). by apply (qu_reach r g s1 s2 _ HQ2).
    - intros q. rewrite (qu_look _ _ _ _ HQ3), (qu_look _ _ _ _ HQ2), Hlk by (by eapply able_some). done.
  Qed.
  Lemma find_registered fuel u v p t s ot ou X vl m lb0 : world s ot ou X -> dget (kids_of (o_body ou)) (KUuid u) = Some vl -> is_kind (s_heap s) vl (KdVl false) ->
    look O (s_heap s) us [KUuid u; KVer v p] = Seen lb0 ->
    exists s', exec (register_record fuel vl v t p m s) g = ((Ok tt, s'), g) /\ quiet O r s s'.
  Proof using All.
    intros W Hvl Hkv Hsee. pose proof (wo_ready_u _ _ _ _ _ _ _ _ _ _ W) as R. rewrite (rd_look _ _ _ _ _ R), Hvl in Hsee. pose proof (wo_able_u _ _ _ _ _ _ _ _ _ _ _ _ W Hvl) as Ha.
    destruct (able_ensure r g Hrem Hr fuel s vl _ Ha Hkv) as (b & s1 & o1 & E1 & HQ1 & Ho1 & Hm1 & Hk1). pose proof (able_quiet r g _ _ _ HQ1 Ha) as Ha1.
    destruct o1 as [hx b1]. destruct b1 as [| | | |k vs|]; try done. cbn in Hk1, Hm1. injection Hk1 as ->.
    assert (Hwk : well_keyed vs) by by apply (td_keyed _ _ _ _ (proj1 Ha1) [] vl hx false vs eq_refl).
    rewrite <- (qu_look _ _ _ _ HQ1) in Hsee by by eapply able_some. rewrite (look_kids _ _ _ _ _ _ Ho1 Hm1) in Hsee. cbn [o_body] in Hsee. rewrite kids_vget in Hsee by by apply keyed_ok. unfold vget in Hsee.
    unfold register_record. rewrite x_bind, (x_has_load _ _ _ _ _ _ _ _ _ _ _ E1 Ho1 Hm1 Hwk). cbn beta iota. destruct (record_of vs v p) as [rr|] eqn:Er; [|unfold record_of in Er; by rewrite Er in Hsee]. cbn [is_some].
    exists s1. by rewrite x_ret.
  Qed.
  Lemma find_ask fuel u v p auto now s ot ou i w lb : world s ot ou nowhere ->
    look O (s_heap s) tvl [KVer v p; KName root_record_name] = Seen (LbMrr i w) -> look O (s_heap s) us [KUuid u; KVer v p] = Seen lb ->
    exists m s', exec (get_metadata_root_record_from_top_nodes fuel tvl us u v p no_path None None auto now s) g = ((Ok (Some m), s'), g) /\ quiet O r s s' /\
      forall q, look O (s_heap s') m q = look O (s_heap s) tvl (KVer v p :: KName root_record_name :: q).
  Proof using All.
    intros W H1 H2. assert (Ht : is_Some (s_heap s !! tvl)) by (eexists; apply (wo_ready_t _ _ _ _ _ _ _ _ _ _ W)). assert (Hu : is_Some (s_heap s !! us)) by (eexists; apply (wo_ready_u _ _ _ _ _ _ _ _ _ _ W)).
    destruct (find_tree fuel v p (now 2%nat) auto s ot ou _ _ _ W H1) as (x & s1 & E1 & Q1 & Hx & Hkx).
    pose proof (wo_quiet r g tvl us c1 c2 F1 F2 _ _ _ _ _ Q1 W) as W1. rewrite <- (qu_look _ _ _ _ Q1) in H1, H2 by done.
    destruct (find_list fuel u auto s1 ot ou _ _ _ W1 H2) as (vl & s2 & E2 & Q2 & Hvl & Hkv).
    pose proof (wo_quiet r g tvl us c1 c2 F1 F2 _ _ _ _ _ Q2 W1) as W2. assert (Ht1 : is_Some (s_heap s1 !! tvl)) by (eexists; apply (wo_ready_t _ _ _ _ _ _ _ _ _ _ W1)). assert (Hu1 : is_Some (s_heap s1 !! us)) by (eexists; apply (wo_ready_u _ _ _ _ _ _ _ _ _ _ W1)).
    rewrite <- (qu_look _ _ _ _ Q2) in H1, H2 by done.
    destruct (find_record fuel v p u v auto s2 ot ou _ x i w W2 Hx H1) as (m & s3 & E3 & Q3 & Hm & Hl).
    pose proof (wo_quiet r g tvl us c1 c2 F1 F2 _ _ _ _ _ Q3 W2) as W3. assert (Hu2 : is_Some (s_heap s2 !! us)) by (eexists; apply (wo_ready_u _ _ _ _ _ _ _ _ _ _ W2)). rewrite <- (qu_look _ _ _ _ Q3) in H2 by done.
    destruct (find_registered fuel u v p (now 3%nat) s3 ot ou _ vl m lb W3 Hvl) as (s4 & E4 & Q4); [by eapply (quiet_kind r g)|done|].
    exists m, s4. split; [|split].
    - unfold get_metadata_root_record_from_top_nodes. rewrite bool_decide_true by done. unfold obind.
      rewrite (x_bind _ _ s), (x_bind _ _ s), E1. cbn beta iota. rewrite x_ret. cbn beta iota. rewrite x_bind, E2. cbn beta iota. rewrite x_bind. change (MetadataPath [AStr []]) with no_path. rewrite E3. cbn beta iota. rewrite x_bind, E4. cbn beta iota. by rewrite x_ret.
    - eapply qu_trans; [exact Q1|]. eapply qu_trans; [exact Q2|]. by eapply qu_trans.
    - assert (Ham : able O r s3 m) by (eapply able_reach; [|exact Hm]; by eapply wo_able_t).
      intros q. rewrite (qu_look _ _ _ _ Q4) by by eapply able_some. rewrite Hl. rewrite <- (qu_look _ _ _ _ Q1), <- (qu_look _ _ _ _ Q2) by done.
      rewrite (rd_look _ _ _ _ _ (wo_ready_t _ _ _ _ _ _ _ _ _ _ W2)), Hx. done.
  Qed.
End Find.

Section Found.
  Context `{Env}.
  (** A record that is published is found, whatever [auto_create]. *)
  Lemma found_lemma r g fuel u v p auto now s c1 c2 i w lb : is_remote r = false -> r <> [] -> fresh r s -> neat g r -> publishes g r (KdVl true) c1 -> publishes g r KdUs c2 ->
    c1 [KVer v p; KName root_record_name] = Seen (LbMrr i w) -> c2 [KUuid u; KVer v p] = Seen lb ->
    exists tvl us m s1, exec (get_top_nodes_and_metadata_root_record fuel r u v p no_path None None auto now s) g = ((Ok (Some (tvl, us, Some m)), s1), g) /\ fresh r s1 /\
      (forall q, look (objs_of g r) (s_heap s1) tvl q = c1 q) /\ (forall q, look (objs_of g r) (s_heap s1) us q = c2 q) /\
      all_saved r (s_heap s1) tvl /\ all_saved r (s_heap s1) us /\
      forall q, look (objs_of g r) (s_heap s1) m q = c1 (KVer v p :: KName root_record_name :: q).
  Proof.
    intros Hrem Hr Hf HN P1 P2 H1 H2.
    destruct P1 as [(ref1 & (h1 & [(_ & R1 & ->)|(Hk & _)]) & C1)|[_ C1]]; [|discriminate Hk|by rewrite C1 in H1].
    destruct P2 as [(ref2 & (h2 & [(Hk & _)|(_ & R2 & ->)]) & C2)|[_ C2]]; [discriminate Hk| |by rewrite C2 in H2].
    destruct (open_world r g Hrem Hr fuel s h1 h2 Hf R1 R2 HN) as (tvl & us & s1 & ot & ou & X & W & L1 & L2 & V1 & V2).
    destruct (HN (KdVl true) (ref_of (ps "TreeVersionList") h1)) as [W1 F1]; [exists h1; by left|]. destruct (HN KdUs (ref_of (ps "UUIDSet") h2)) as [W2 F2]; [exists h2; by right|].
    rewrite C1, <- L1 in H1. rewrite C2, <- L2 in H2.
    destruct (find_ask r g Hrem Hr tvl us _ _ F1 F2 fuel u v p auto now s1 ot ou i w lb W H1 H2) as (m & s2 & X2 & HQ & Hm).
    assert (Ht : is_Some (s_heap s1 !! tvl)) by (eexists; apply (wo_ready_t _ _ _ _ _ _ _ _ _ _ W)). assert (Hu : is_Some (s_heap s1 !! us)) by (eexists; apply (wo_ready_u _ _ _ _ _ _ _ _ _ _ W)).
    pose proof (wo_quiet r g tvl us _ _ F1 F2 _ _ _ _ _ HQ W) as WQ.
    exists tvl, us, m, s2. split.
    { unfold get_top_nodes_and_metadata_root_record. rewrite x_bind, X. cbn beta iota. rewrite x_bind, x_ret. cbn beta iota. rewrite x_bind, X2. cbn beta iota. by rewrite x_ret. }
    split; [apply WQ|]. split; [intros q; by rewrite (qu_look _ _ _ _ HQ), L1, C1|]. split; [intros q; by rewrite (qu_look _ _ _ _ HQ), L2, C2|].
    split; [apply (qu_saved _ _ _ _ HQ); [done|eapply complete_ext; [exact L1|apply W1]|eapply full_ext; [exact L1|done]|done]|].
    split; [apply (qu_saved _ _ _ _ HQ); [done|eapply complete_ext; [exact L2|apply W2]|eapply full_ext; [exact L2|done]|done]|].
    intros q. by rewrite Hm, L1, C1.
  Qed.
End Found.

(** ** Sequences of processes *)
Lemma part_within Q k t n c c' : with_part Q k t n c c' -> within c c'.
Proof. intros [[_ HE]|HP]; [|by eapply plus_within]. intros q lb Hq. exists lb. rewrite HE. split; [done|apply grows_refl]. Qed.
Lemma recorded_within u v p t t' c1 c2 c1' c2' : recorded u v p t t' c1 c2 c1' c2' -> within c1 c1' /\ within c2 c2'.
Proof. intros (a & b & H1%part_within & H2%part_within & H3%part_within & H4%part_within). split; by eapply within_trans. Qed.
Section Rounds.
  Context `{Env}.
  Lemma publishes_same g r k c c' : publishes g r k c -> publishes g r k c' -> forall q, c q = c' q.
  Proof.
    intros P P0 q. destruct P as [(ref & (h & HP) & E)|[HN E]], P0 as [(ref0 & (h0 & HP0) & E0)|[HN0 E0]].
    - rewrite E, E0. destruct HP as [(-> & Hh & ->)|(-> & Hh & ->)], HP0 as [(Hk & Hh0 & ->)|(Hk & Hh0 & ->)]; try discriminate Hk; rewrite Hh in Hh0; by injection Hh0 as <-.
    - destruct (HN0 ref). by exists h.
    - destruct (HN ref0). by exists h0.
    - by rewrite E, E0.
  Qed.
  Lemma publishes_some g r k : exists c, publishes g r k c.
  Proof.
    destruct (refs_of g r !! TREE_VERSION_LIST) as [h1|] eqn:E1; destruct (refs_of g r !! UUID_SET) as [h2|] eqn:E2;
      destruct (decide (k = KdVl true)) as [->|N1]; try destruct (decide (k = KdUs)) as [->|N2];
      try (by (exists (look_stored (objs_of g r) (KdVl true) (ref_of (ps "TreeVersionList") h1)); left; eexists; split; [exists h1; by left|done]));
      try (by (exists (look_stored (objs_of g r) KdUs (ref_of (ps "UUIDSet") h2)); left; eexists; split; [exists h2; by right|done]));
      exists (fun _ => Absent); right; (split; [|done]); intros ref (h & [(Hk & Hh & _)|(Hk & Hh & _)]); congruence.
  Qed.
  Lemma starts_within g r k d c c' : starts g r k d -> publishes g r k c -> within d c' -> within c c'.
  Proof.
    intros [HP|[HN _]] Pc HW.
    - eapply publishes_within; [left; exact HP|done|done].
    - destruct Pc as [(ref & HP & _)|[_ HA]]; [by destruct (HN ref)|]. intros q lb Hq. by rewrite HA in Hq.
  Qed.
  Lemma round_lemma r g u v p g' : is_remote r = false -> r <> [] -> neat g r -> paired g r -> round r g (u, v, p) g' ->
    neat g' r /\ paired g' r /\ (forall k c c', publishes g r k c -> publishes g' r k c' -> within c c') /\
    exists c1 c2 i w lb, publishes g' r (KdVl true) c1 /\ publishes g' r KdUs c2 /\ c1 [KVer v p; KName root_record_name] = Seen (LbMrr i w) /\ c2 [KUuid u; KVer v p] = Seen lb.
  Proof.
    intros Hrem Hr HN HB (fuel & f1 & f2 & now & s & tvl & us & m & s1 & g0 & ref1 & s2 & g1 & ref2 & s3 & Hf & Ha & Ht & X & E1 & E2).
    destruct (C55_lemma r g fuel u v p now s Hrem Hr Hf HN HB Ha Ht) as (tvl' & us' & m' & s1' & X' & HC). rewrite X in X'. injection X' as -> -> _ -> ->.
    destruct (HC f1 f2 ref1 s2 g1 ref2 s3 g' E1 E2) as (_ & HN' & c1 & c2 & c1' & c2' & D1 & D2 & (r1 & P1 & L1) & (r2 & P2 & L2) & RC & (i & w & Hi) & lb & Hlb).
    apply recorded_within in RC as [W1 W2].
    assert (Q1 : publishes g' r (KdVl true) c1') by (left; exists r1; split; [done|]; intros q; by rewrite L1). assert (Q2 : publishes g' r KdUs c2') by (left; exists r2; split; [done|]; intros q; by rewrite L2).
    split; [done|]. split.
    { destruct P1 as (h1 & [(_ & R1 & _)|(Hk & _)]); [|discriminate Hk]. destruct P2 as (h2 & [(Hk & _)|(_ & R2 & _)]); [discriminate Hk|]. unfold paired. by rewrite R1, R2. }
    split; [|by exists c1', c2', i, w, lb].
    intros k c c' Hc Hc'. destruct Hc as [(ref & Hp & Hc)|[_ HA]]; [|intros q lb0 Hq; by rewrite HA in Hq].
    assert (Hk : k = KdVl true \/ k = KdUs) by (destruct Hp as (h & [(-> & _)|(-> & _)]); auto). assert (Pc : publishes g r k c) by (left; by exists ref).
    destruct Hk as [-> | ->].
    - eapply within_ext; [reflexivity|exact (publishes_same _ _ _ _ _ Q1 Hc')|]. exact (starts_within _ _ _ _ _ _ D1 Pc W1).
    - eapply within_ext; [reflexivity|exact (publishes_same _ _ _ _ _ Q2 Hc')|]. exact (starts_within _ _ _ _ _ _ D2 Pc W2).
  Qed.
  Lemma rounds_lemma r l : is_remote r = false -> r <> [] -> forall g g', neat g r -> paired g r -> rounds r g l g' ->
    neat g' r /\ paired g' r /\ (forall k c c', publishes g r k c -> publishes g' r k c' -> within c c') /\
    forall u v p, In (u, v, p) l -> exists c1 c2 i w lb, publishes g' r (KdVl true) c1 /\ publishes g' r KdUs c2 /\ c1 [KVer v p; KName root_record_name] = Seen (LbMrr i w) /\ c2 [KUuid u; KVer v p] = Seen lb.
  Proof.
    intros Hrem Hr g g' HN HB HR. revert HN HB. induction HR as [g|g [[u v] p] g1 l g' HR1 HR IH]; intros HN HB.
    - split; [done|]. split; [done|]. split; [|by intros u v p []]. intros k c c' Hc Hc'. eapply within_ext; [reflexivity|exact (publishes_same _ _ _ _ _ Hc Hc')|]. apply within_refl.
    - destruct (round_lemma r g u v p g1 Hrem Hr HN HB HR1) as (HN1 & HB1 & HW1 & c1 & c2 & i & w & lb & Q1 & Q2 & H1 & H2).
      destruct (IH HN1 HB1) as (HN' & HB' & HW' & HI). split; [done|]. split; [done|]. split.
      + intros k c c' Hc Hc'. destruct (publishes_some g1 r k) as (cm & Hcm). eapply within_trans; [by eapply HW1|by eapply HW'].
      + intros u2 v2 p2 [[= <- <- <-]|Hin]; [|by apply HI].
        destruct (publishes_some g' r (KdVl true)) as (d1 & D1). destruct (publishes_some g' r KdUs) as (d2 & D2).
        destruct (HW' _ _ _ Q1 D1 _ _ H1) as (lb1 & E1 & G1). destruct (HW' _ _ _ Q2 D2 _ _ H2) as (lb2 & E2 & _). destruct lb1; try discriminate G1.
        by eexists d1, d2, _, _, lb2.
  Qed.
End Rounds.
