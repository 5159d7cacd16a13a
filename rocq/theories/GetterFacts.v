(** What the getters return in histories: proofs for C58. *)
From Verif Require Import Base BaseFacts Path Spec_Path PathFacts Json Refs RefsFacts Meta Spec_Meta MetaFacts GitText Spec_Git Git GitFacts Spec_Store State BlobCache ObjRef Objects Spec_Objects Spec_Look Spec_Heap Spec_Versions Spec_Write ExecFacts LoadFacts PeekFacts TreeFacts TreeEditFacts VersionFacts PartFacts LookFacts ReadFacts Spec_Content ContentFacts WriteFacts StoreFacts SaveFacts WriteBackFacts WriteAllFacts ReadBackFacts PurgeFacts EditFacts RealmFacts GraftFacts AddFacts ListFacts Spec_History AnyWriteFacts UseFacts FrameFacts SessionFacts DatasetFacts HistoryFacts Spec_Outcome Spec_Parts RunAllFacts Spec_Unget UngetFacts SettleFacts Spec_Getters.

Section Getter.
  Context `{Env} (r : pystr) (g : gstate) (Hrem : is_remote r = false) (Hr : r <> []).
  Notation O := (objs_of g r).
  Lemma tidy_displays s x c : tidy O r s x -> displays s g x c <-> forall q, look O (s_heap s) x q = c q.
  Proof using Hrem Hr.
    intros HT. split.
    - intros Hd q. destruct (visit_quiet r g Hrem Hr 0 q s x HT) as (s' & E & _). specialize (Hd 0%nat q). rewrite E in Hd. by injection Hd.
    - intros Hl fuel q. destruct (visit_quiet r g Hrem Hr fuel q s x HT) as (s' & E & _). rewrite E. cbn [fst]. by rewrite Hl.
  Qed.
  Lemma walk_gets fuel s y c path : tidy O r s y -> (forall q, look O (s_heap s) y q = c q) ->
    exists s1 x, exec (get_object_at_path fuel y path s) g = ((Ok x, s1), g) /\ quiet O r s s1 /\
    match x with
    | None => c (names path) = Absent
    | Some x => exists lb o, c (names path) = Seen lb /\ s_heap s1 !! x = Some o /\ label_kind lb = kind_of (o_body o) /\ reach (s_heap s1) y (names path) = Some x /\
                tidy O r s1 x /\ forall q, look O (s_heap s1) x q = under c (names path) q
    end.
  Proof using Hrem Hr.
    intros HT Hc. destruct (walk_quiet r g Hrem Hr fuel (all_parts path) s y HT) as (s1 & x & E & HQ & Hx). exists s1, x. split; [exact E|]. split; [exact HQ|]. destruct x as [x|].
    - destruct Hx as [Hx HL]. assert (HT1 : tidy O r s1 y) by (eapply qu_tidy; [exact HQ|by eapply tidy_some|done]).
      pose proof (tidy_reach _ _ _ _ _ _ HT1 Hx) as HTx. destruct (tidy_root _ _ _ _ HTx) as (o & Ho & _ & Hb).
      assert (HU : forall q, look O (s_heap s1) x q = under c (names path) q) by (intros q; unfold under; by rewrite <- Hc, HL).
      pose proof (HU []) as H0. unfold under in H0. rewrite app_nil_r in H0. destruct (look O (s_heap s1) x []) as [| |lb] eqn:El; [by apply look_seen in El|done|].
      exists lb, o. split_and!; try done. by eapply look_kind.
    - specialize (Hx []). by rewrite app_nil_r, Hc in Hx.
  Qed.
  Lemma gets_part s1 s2 y c p x lb : tidy O r s1 x -> quiet O r s1 s2 -> c p = Seen lb -> reach (s_heap s1) y p = Some x -> (forall q, look O (s_heap s1) x q = under c p q) ->
    part_at y c p s2 g x.
  Proof using Hrem Hr.
    intros HT HQ Hc Hx HL. split; [by rewrite Hc|]. split; [by eapply qu_reach|]. pose proof (tidy_some r g _ _ HT) as Hs.
    apply tidy_displays; [by eapply qu_tidy|]. intros q. by rewrite (qu_look _ _ _ _ HQ).
  Qed.
  (** a part of a loaded object *)
  Lemma kid_part s s1 s2 y c o k x : tidy O r s y -> (forall q, look O (s_heap s) y q = c q) -> quiet O r s s1 -> s_heap s1 !! y = Some o -> h_mapped (o_hdr o) = true ->
    dget (kids_of (o_body o)) k = Some x -> is_ktree k && hollow_at O (s_heap s1) x = false -> quiet O r s1 s2 -> part_at y c [k] s2 g x.
  Proof using Hrem Hr.
    intros HT Hc HQ Ho Hm Hd Hh HQ2. assert (HT1 : tidy O r s1 y) by (eapply qu_tidy; [exact HQ|by eapply tidy_some|done]).
    pose proof (tidy_kid _ _ _ _ _ _ _ HT1 Ho Hm Hd) as HTx.
    assert (HL : forall q, look O (s_heap s1) x q = under c [k] q).
    { intros q. unfold under. cbn [app]. rewrite <- Hc, <- (qu_look _ _ _ _ HQ) by (by eapply tidy_some). by rewrite (not_ktree_look O _ y k q x o Ho Hm Hd), Hh. }
    destruct (look O (s_heap s1) x []) as [| |lb] eqn:El; [by apply look_seen in El|by destruct (td_complete _ _ _ _ HTx []) as [? _]|].
    eapply (gets_part s1 s2 y c [k] x lb); [done|done| |cbn [reach]; by rewrite Ho, Hm, Hd|done]. specialize (HL []). unfold under in HL. cbn [app] in HL. congruence.
  Qed.
  Lemma no_kid s s1 y c o k : tidy O r s y -> (forall q, look O (s_heap s) y q = c q) -> quiet O r s s1 -> s_heap s1 !! y = Some o -> h_mapped (o_hdr o) = true ->
    dget (kids_of (o_body o)) k = None -> c [k] = Absent.
  Proof using Hrem Hr.
    intros HT Hc HQ Ho Hm Hd. rewrite <- Hc, <- (qu_look _ _ _ _ HQ) by (by eapply tidy_some). cbn [look]. by rewrite Ho, Hm, Hd.
  Qed.
  (** the object is loaded *)
  Lemma load_gets fuel s y c : tidy O r s y -> (forall q, look O (s_heap s) y q = c q) ->
    exists b s1 o, exec (ensure_mapped fuel y s) g = ((Ok b, s1), g) /\ quiet O r s s1 /\ s_heap s1 !! y = Some o /\ h_mapped (o_hdr o) = true /\ c [] = Seen (label_of (o_body o)) /\ tidy O r s1 y.
  Proof using Hrem Hr.
    intros HT Hc. destruct (tidy_root _ _ _ _ HT) as (o & Ho & Hh & Hlk).
    destruct (ensure_quiet r g Hrem Hr fuel s y o (td_heap _ _ _ _ HT) Ho Hh Hlk) as (b & s1 & o1 & E & HQ & Ho1 & Hm1 & _). exists b, s1, o1. split_and!; try done.
    - rewrite <- Hc, <- (qu_look _ _ _ _ HQ) by (by eexists). cbn [look]. by rewrite Ho1, Hm1.
    - eapply qu_tidy; [exact HQ|by eexists|done].
  Qed.
  Lemma read_part fuel s1 y o k x : tidy O r s1 y -> s_heap s1 !! y = Some o -> h_mapped (o_hdr o) = true -> dget (kids_of (o_body o)) k = Some x ->
    exists s2, exec (read_in fuel x s1) g = ((Ok tt, s2), g) /\ quiet O r s1 s2.
  Proof using Hrem Hr.
    intros HT Ho Hm Hd. destruct (tidy_part r g s1 y o k x HT Ho Hm Hd) as (ox & Hox & Hhx & Hlx). exact (read_in_quiet r g Hrem Hr fuel s1 x ox (td_heap _ _ _ _ HT) Hox Hhx Hlx).
  Qed.
  Lemma records_of vs v : NoDup (dkeys vs) ->
    List.filter (fun x => bool_decide (x.1.1.1 = v)) (map shown (vs_records vs)) = map (fun rr => shown (v, rr)) (match dget vs v with Some d => dvals d | None => [] end).
  Proof using.
    unfold vs_records, dkeys. induction vs as [|[w d] vs IH]; [done|]. cbn [map fst snd concat dget]. intros [Hn Hnd]%NoDup_cons. rewrite map_app, List.filter_app, (IH Hnd).
    assert (Hd : List.filter (fun x => bool_decide (x.1.1.1 = v)) (map shown (map (fun pr : ppath * vrec => (w, snd pr)) d)) = if decide (w = v) then map (fun rr => shown (v, rr)) (dvals d) else []).
    { unfold dvals. rewrite !map_map. clear. induction d as [|[p rr] d IH]; [by destruct (decide (w = v))|]. cbn [map List.filter]. rewrite IH. cbn [shown fst snd]. destruct (decide (w = v)) as [->|Hne].
      - by rewrite bool_decide_eq_true_2.
      - by rewrite bool_decide_eq_false_2. }
    rewrite Hd. destruct (decide (w = v)) as [->|Hne]; [|done]. assert (dget vs v = None) as -> by by apply dget_None. apply app_nil_r.
  Qed.
  Lemma read_parts fuel y o (rs : list vrec) : (forall rr, In rr rs -> exists k, dget (kids_of (o_body o)) k = Some (elt_loc (vr_elt rr))) -> h_mapped (o_hdr o) = true ->
    forall s1, tidy O r s1 y -> s_heap s1 !! y = Some o ->
    exists s2, exec (mmap (fun rr => elt_read_in fuel (vr_elt rr) ;;; mret rr) rs s1) g = ((Ok rs, s2), g) /\ quiet O r s1 s2.
  Proof using Hrem Hr.
    intros Hrs Hm. induction rs as [|rr rs IH]; intros s1 HT Ho; cbn [mmap].
    - exists s1. rewrite x_ret. split; [done|]. apply qu_refl, (td_heap _ _ _ _ HT).
    - destruct (Hrs rr) as [k Hk]; [by left|]. destruct (read_part fuel s1 y o k _ HT Ho Hm Hk) as (s2 & E2 & HQ2). rewrite (x_bind _ _ s1), (x_bind _ _ s1). unfold elt_read_in at 1. rewrite E2, x_ret.
      assert (Ho2 : s_heap s2 !! y = Some o) by (destruct (lo_obj _ _ (gs_loads _ _ (qu_good _ _ _ _ HQ2)) y o Ho) as (o' & H1 & _ & H2); by rewrite H1, (H2 Hm)).
      destruct (IH ltac:(intros; apply Hrs; by right) s2 ltac:(eapply qu_tidy; [exact HQ2|by eexists|done]) Ho2) as (s3 & E3 & HQ3).
      exists s3. rewrite x_bind, E3, x_ret. split; [done|]. by eapply qu_trans.
  Qed.
  Lemma getter_lemma fuel s y c A (m : M pst A) P a s' g' : tidy O r s y -> displays s g y c -> getter fuel y c A m P -> exec (m s) g = ((a, s'), g') -> P s' g' a.
  Proof using Hrem Hr.
    intros HT Hd HG He. rewrite (tidy_displays _ _ _ HT) in Hd. destruct HG as [path|path|path|path|i v Hl|i v Hl|t rs Hl|t rs v p Hl|t rs v Hl|t rs Hl|Hl|u Hl].
    - destruct (walk_gets fuel s y c path HT Hd) as (s1 & x & E & HQ & Hx). rewrite E in He. injection He as <- <- <-. destruct x as [x|]; [|done].
      destruct Hx as (lb & o & H1 & H2 & H3 & H4 & H5 & H6). eapply gets_part; [done| |done|done|done]. apply qu_refl, (td_heap _ _ _ _ H5).
    - unfold get_metadata in He. destruct (walk_gets fuel s y c path HT Hd) as (s1 & x & E & HQ & Hx). rewrite x_bind, E in He. destruct x as [x|]; [|rewrite x_ret in He; by injection He as <- <- <-].
      destruct Hx as (lb & o & H1 & H2 & H3 & H4 & H5 & H6). rewrite x_bind, x_getobj, H2 in He. destruct (tidy_root _ _ _ _ H5) as (o' & Ho' & Hh & Hb). assert (o' = o) as -> by congruence.
      destruct (ensure_quiet r g Hrem Hr fuel s1 x o (td_heap _ _ _ _ H5) Ho' Hh Hb) as (b & s2 & o2 & E2 & HQ2 & _).
      destruct (o_body o) as [mm| | | | |] eqn:Eb; cbn [kind_of] in H3.
      2-6: rewrite x_raise in He; injection He as <- <- <-; split; [done|]; exists lb; split; [done|]; intros m ->; discriminate H3.
      rewrite x_bind, E2, x_ret in He. injection He as <- <- <-. split; [destruct lb; try discriminate H3; by eexists|]. by eapply gets_part.
    - unfold dataset_in in He. destruct (walk_gets fuel s y c (record_path path) HT Hd) as (s1 & x & E & HQ & Hx). rewrite x_bind, E, x_ret in He. injection He as <- <- <-.
      eexists. split; [done|]. destruct x as [x|]; cbn [is_some]; [|by rewrite Hx]. destruct Hx as (lb & _ & -> & _). done.
    - unfold get_metadata_root_record in He. destruct (walk_gets fuel s y c (record_path path) HT Hd) as (s1 & x & E & HQ & Hx). rewrite x_bind, E in He. destruct x as [x|]; [|rewrite x_ret in He; by injection He as <- <- <-].
      destruct Hx as (lb & o & H1 & H2 & H3 & H4 & H5 & H6). rewrite x_bind, x_getobj, H2 in He. destruct (tidy_root _ _ _ _ H5) as (o' & Ho' & Hh & Hb). assert (o' = o) as -> by congruence.
      destruct (ensure_quiet r g Hrem Hr fuel s1 x o (td_heap _ _ _ _ H5) Ho' Hh Hb) as (b & s2 & o2 & E2 & HQ2 & _).
      destruct (o_body o) as [| | |ii vv mm tt| |] eqn:Eb; cbn [kind_of] in H3.
      1-3,5-6: rewrite x_raise in He; injection He as <- <- <-; split; [done|]; exists lb; split; [done|]; intros i v ->; discriminate H3.
      rewrite x_bind, E2, x_ret in He. injection He as <- <- <-. split; [destruct lb; try discriminate H3; by eexists _, _|]. by eapply gets_part.
    - destruct (load_gets fuel s y c HT Hd) as (b & s1 & o & E & HQ & Ho & Hm & Hc & HT1). destruct o as [hx bx]. cbn [o_hdr o_body] in *. rewrite Hc in Hl. destruct bx as [| | |i1 v1 m1 t1| |]; try discriminate Hl.
      unfold get_file_tree, mrr_parts in He. rewrite x_bind, E, x_bind, x_bind, x_getobj, Ho in He. cbn [o_body] in He. rewrite x_ret in He.
      assert (HK : dget (kids_of (BMrr i1 v1 m1 t1)) KTree = t1).
      { cbn [kids_of]. rewrite dget_app. destruct m1; cbn; rewrite ?decide_False by done; destruct t1; cbn; by rewrite ?decide_True. }
      destruct t1 as [t1|]; [|rewrite x_ret in He; injection He as <- <- <-; exact (no_kid s s1 y c _ KTree HT Hd HQ Ho Hm HK)].
      destruct (read_part fuel s1 y _ KTree t1 HT1 Ho Hm HK) as (s2 & E2 & HQ2). rewrite x_bind, E2, x_ret in He. injection He as <- <- <-.
      destruct (is_ktree KTree && hollow_at O (s_heap s1) t1) eqn:Eh; [right|left; exact (kid_part s s1 s2 y c _ _ _ HT Hd HQ Ho Hm HK Eh HQ2)]. split.
      + rewrite <- Hd, <- (qu_look _ _ _ _ HQ) by (by eapply tidy_some). by rewrite (not_ktree_look O _ y KTree [] t1 _ Ho Hm HK), Eh.
      + assert (HR : reach (s_heap s1) y [KTree] = Some t1) by (cbn [reach]; rewrite Ho; cbn [o_hdr o_body]; by rewrite Hm, HK).
        split; [by apply (qu_reach r g _ _ _ HQ2)|]. pose proof (tidy_kid _ _ _ _ _ _ _ HT1 Ho Hm HK) as HTx. pose proof (tidy_some r g _ _ HTx) as Hsx.
        exists (look O (s_heap s1) t1). split; [apply tidy_displays; [by eapply qu_tidy|]; intros q; by apply (qu_look _ _ _ _ HQ2)|].
        apply hollow_at_iff in Eh as (cl & H0 & Hn). destruct (td_tree _ _ _ _ HT1 [] y hx i1 v1 m1 t1 eq_refl Ho) as (ht & dt & Ht). pose proof (look_kind _ _ _ _ _ Ht H0) as Hk. cbn [label_kind o_body kind_of] in Hk. injection Hk as ->.
        split; [done|]. intros k. destruct (td_complete _ _ _ _ HTx []) as (_ & _ & C3). cbn [app] in C3. specialize (C3 k). destruct (td_complete _ _ _ _ HTx [k]) as (C1 & _).
        destruct (look O (s_heap s1) t1 [k]) as [| |lb'] eqn:Ek; [done|done|]. destruct (C3 _ eq_refl) as (lb & E0 & HP). rewrite H0 in E0. injection E0 as <-. destruct k; cbn [part_ok] in HP; try done. by rewrite Hn in Ek.
    - destruct (load_gets fuel s y c HT Hd) as (b & s1 & o & E & HQ & Ho & Hm & Hc & HT1). destruct o as [hx bx]. cbn [o_hdr o_body] in *. rewrite Hc in Hl. destruct bx as [| | |i1 v1 m1 t1| |]; try discriminate Hl.
      unfold get_dataset_level_metadata, mrr_parts in He. rewrite x_bind, E, x_bind, x_bind, x_getobj, Ho in He. cbn [o_body] in He. rewrite x_ret in He.
      destruct m1 as [m1|].
      + assert (HK : dget (kids_of (BMrr i1 v1 (Some m1) t1)) KMeta = Some m1) by (cbn [kids_of app dget]; by rewrite decide_True).
        destruct (read_part fuel s1 y _ KMeta m1 HT1 Ho Hm HK) as (s2 & E2 & HQ2). rewrite x_bind, E2, x_ret in He. injection He as <- <- <-. exact (kid_part s s1 s2 y c _ _ _ HT Hd HQ Ho Hm HK eq_refl HQ2).
      + rewrite x_raise in He. injection He as <- <- <-. split; [done|]. eapply (no_kid s s1 y c _ KMeta HT Hd HQ Ho Hm). cbn [o_body kids_of app]. destruct t1; [|done]. cbn. by rewrite decide_False.
    - destruct (load_gets fuel s y c HT Hd) as (b & s1 & o & E & HQ & Ho & Hm & Hc & HT1). destruct o as [hx bx]. cbn [o_hdr o_body] in *. rewrite Hc in Hl. destruct bx as [| | | |k1 vs1|]; try discriminate Hl.
      unfold versions_and_prefix_paths, versions in He. rewrite x_bind, E, x_bind, x_bind, x_getobj, Ho in He. cbn [o_body] in He. rewrite !x_ret in He. injection He as <- <- <-.
      cbn [label_of] in Hl. injection Hl as <- <-. cbn [snd]. f_equal. by rewrite map_map.
    - destruct (load_gets fuel s y c HT Hd) as (b & s1 & o & E & HQ & Ho & Hm & Hc & HT1). destruct o as [hx bx]. cbn [o_hdr o_body] in *. rewrite Hc in Hl. destruct bx as [| | | |k1 vs1|]; try discriminate Hl.
      pose proof (td_keyed _ _ _ _ HT1 [] y hx k1 vs1 eq_refl Ho) as Hw.
      unfold get_versioned_element, get_version_record, versions in He. rewrite x_bind, E, x_bind, x_bind, (x_mapped _ _ _ _ _ Ho Hm), x_bind, x_bind, x_getobj, Ho in He. cbn [o_body] in He. rewrite x_ret in He. cbn [snd] in He.
      pose proof (kids_vget k1 vs1 v p (wk_ok _ Hw)) as HK. unfold vget in HK. cbn [label_of] in Hl. injection Hl as <- <-.
      destruct (dget vs1 v) as [d|] eqn:E1; [destruct (dget d p) as [rr|] eqn:E3|]; cbn [option_map] in HK.
      + rewrite x_ret in He. unfold elt_read_in in He. destruct (read_part fuel s1 y _ (KVer v p) _ HT1 Ho Hm HK) as (s2 & E2 & HQ2). rewrite x_bind, E2, x_ret in He. injection He as <- <- <-.
        apply dget_Some_In in E1, E3. split; [by eapply (proj2 (proj2 Hw _ _ E1))|]. split; [|exact (kid_part s s1 s2 y c _ _ _ HT Hd HQ Ho Hm HK eq_refl HQ2)].
        apply (in_map shown _ (v, rr)). unfold vs_records. apply in_concat. eexists. split; [apply in_map; exact E1|]. cbn [fst snd]. apply (in_map (fun pr => (v, snd pr)) d (p, rr) E3).
      + rewrite x_raise in He. injection He as <- <- <-. split; [done|]. exact (no_kid s s1 y c _ _ HT Hd HQ Ho Hm HK).
      + rewrite x_raise in He. injection He as <- <- <-. split; [done|]. exact (no_kid s s1 y c _ _ HT Hd HQ Ho Hm HK).
    - destruct (load_gets fuel s y c HT Hd) as (b & s1 & o & E & HQ & Ho & Hm & Hc & HT1). destruct o as [hx bx]. cbn [o_hdr o_body] in *. rewrite Hc in Hl. destruct bx as [| | | |k1 vs1|]; try discriminate Hl.
      pose proof (td_keyed _ _ _ _ HT1 [] y hx k1 vs1 eq_refl Ho) as Hw. cbn [label_of] in Hl. injection Hl as <- <-.
      unfold get_versioned_elements, versions in He. rewrite x_bind, E, x_bind, x_bind, x_getobj, Ho in He. cbn [o_body] in He. rewrite x_ret in He. cbn [snd] in He.
      change (map _ (vs_records vs1)) with (map shown (vs_records vs1)). rewrite (records_of vs1 v (proj1 Hw)).
      destruct (dget vs1 v) as [d|] eqn:Ev.
      + assert (HK : forall rr, In rr (dvals d) -> dget (kids_of (BVlist k1 vs1)) (KVer v (vr_path rr)) = Some (elt_loc (vr_elt rr))).
        { intros rr Hi. unfold dvals in Hi. apply in_map_iff in Hi as ([p0 r0] & <- & Hi). cbn [snd]. apply dget_Some_In in Ev as Hvd. destruct (proj2 Hw _ _ Hvd) as [Hnd Hp]. rewrite (Hp _ _ Hi).
          rewrite (kids_vget k1 vs1 v p0 (wk_ok _ Hw)). unfold vget. by rewrite Ev, (In_dget _ _ _ Hnd Hi). }
        destruct (read_parts fuel y (Obj hx (BVlist k1 vs1)) (dvals d) ltac:(intros rr Hi; eexists; exact (HK rr Hi)) Hm s1 HT1 Ho) as (s2 & E2 & HQ2). rewrite E2 in He. injection He as <- <- <-.
        split; [done|]. intros rr Hi. exact (kid_part s s1 s2 y c _ _ _ HT Hd HQ Ho Hm (HK rr Hi) eq_refl HQ2).
      + rewrite x_raise in He. injection He as <- <- <-. split; [done|]. intros p. eapply (no_kid s s1 y c _ _ HT Hd HQ Ho Hm). cbn [o_body]. rewrite (kids_vget k1 vs1 v p (wk_ok _ Hw)). unfold vget. by rewrite Ev.
    - destruct (load_gets fuel s y c HT Hd) as (b & s1 & o & E & HQ & Ho & Hm & Hc & HT1). destruct o as [hx bx]. cbn [o_hdr o_body] in *. rewrite Hc in Hl. destruct bx as [| | | |k1 vs1|]; try discriminate Hl.
      pose proof (td_keyed _ _ _ _ HT1 [] y hx k1 vs1 eq_refl Ho) as Hw.
      unfold versioned_elements, versions in He. rewrite x_bind, E, x_bind, x_bind, x_getobj, Ho in He. cbn [o_body] in He. rewrite !x_ret in He. cbn [snd] in He. injection He as <- <- <-.
      cbn [label_of] in Hl. injection Hl as <- <-. eexists. split; [done|]. split; [done|]. intros v rr Hi. unfold vs_records in Hi. apply in_concat in Hi as (l0 & Hl0 & Hi). apply in_map_iff in Hl0 as ([v0 d] & <- & H0).
      cbn [fst snd] in Hi. apply in_map_iff in Hi as ([p0 r0] & [= <- <-] & Hi). cbn [snd].
      destruct (proj2 Hw _ _ H0) as [Hnd Hp]. rewrite (Hp _ _ Hi).
      assert (HK : dget (kids_of (BVlist k1 vs1)) (KVer v0 p0) = Some (elt_loc (vr_elt r0))).
      { rewrite (kids_vget k1 vs1 v0 p0 (wk_ok _ Hw)). unfold vget. rewrite (In_dget _ _ _ (proj1 Hw) H0), (In_dget _ _ _ Hnd Hi). done. }
      eapply (kid_part s s1 s1 y c _ _ _ HT Hd HQ Ho Hm HK eq_refl); apply qu_refl, (td_heap _ _ _ _ HT1).
    - destruct (load_gets fuel s y c HT Hd) as (b & s1 & o & E & HQ & Ho & Hm & Hc & HT1). destruct o as [hx bx]. cbn [o_hdr o_body] in *. rewrite Hc in Hl. destruct bx as [| | | | |us1]; try discriminate Hl.
      unfold uuids, uuid_entries in He. rewrite x_bind, E, x_bind, x_bind, x_getobj, Ho in He. cbn [o_body] in He. rewrite !x_ret in He. injection He as <- <- <-.
      eexists. split; [done|]. destruct (td_heap _ _ _ _ HT1 y _ Ho) as (_ & _ & _ & Hnd). cbn [o_body kids_of] in Hnd. unfold dkeys in Hnd. rewrite map_map in Hnd. cbn [fst] in Hnd. split.
      { rewrite <- (map_map fst KUuid) in Hnd. by apply NoDup_fmap_1 in Hnd. }
      intros u. rewrite <- elem_of_list_In. pose proof (kids_uuids us1 u) as HK. destruct (dget us1 u) as [x|] eqn:Eu.
      + split; [|intros _; apply dget_Some_In in Eu; apply elem_of_list_In, in_map_iff; by exists (u, x)].
        intros _. assert (HP : part_at y c [KUuid u] s1 g x) by (eapply (kid_part s s1 s1 y c _ _ _ HT Hd HQ Ho Hm HK eq_refl); apply qu_refl, (td_heap _ _ _ _ HT1)). by destruct HP.
      + apply dget_None in Eu. split; [done|]. intros Hn. exfalso. apply Hn. exact (no_kid s s1 y c _ _ HT Hd HQ Ho Hm HK).
    - destruct (load_gets fuel s y c HT Hd) as (b & s1 & o & E & HQ & Ho & Hm & Hc & HT1). destruct o as [hx bx]. cbn [o_hdr o_body] in *. rewrite Hc in Hl. destruct bx as [| | | | |us1]; try discriminate Hl.
      unfold get_version_list, uuid_entries in He. rewrite x_bind, E, x_bind, x_bind, x_getobj, Ho in He. cbn [o_body] in He. rewrite x_ret in He.
      pose proof (kids_uuids us1 u) as HK. destruct (dget us1 u) as [x|] eqn:Eu.
      + destruct (read_part fuel s1 y _ (KUuid u) x HT1 Ho Hm HK) as (s2 & E2 & HQ2). rewrite x_bind, E2, x_ret in He. injection He as <- <- <-. exact (kid_part s s1 s2 y c _ _ _ HT Hd HQ Ho Hm HK eq_refl HQ2).
      + rewrite x_raise in He. injection He as <- <- <-. split; [done|]. exact (no_kid s s1 y c _ _ HT Hd HQ Ho Hm HK).
  Qed.
End Getter.

Section GetterHistory.
  Context `{Env}.
  Lemma getter_use fuel y c A (m : M pst A) P : getter fuel y c A m P -> use_call fuel y A m.
  Proof. by destruct 1; constructor. Qed.
  Lemma C58_lemma (r : pystr) : is_remote r = false -> r <> [] -> forall es s g R, history r es s g R ->
    exists C, accounts es R C /\ forall l, l ∈ R -> displays s g l (C l) /\
    forall p y, reach (s_heap s) l p = Some y -> (exists c, displays s g y c) /\
    forall c, displays s g y c -> forall fuel A (m : M pst A) P a s' g', getter fuel y c A m P -> exec (m s) g = ((a, s'), g') ->
    P s' g' a /\ history r (es ++ [EUse]) s' g' R.
  Proof.
    intros Hrem Hr es s g R HH. destruct (history_lemma r Hrem Hr es s g R HH) as (C & HA & HC). exists C. split; [done|]. intros l Hl. split; [intros fuel q; by apply HC|].
    intros p y Hp. destruct (history_able r es s g R l p y Hrem Hr HH Hl Hp) as (_ & HT & _). split.
    - exists (look (objs_of g r) (s_heap s) y). by apply (tidy_displays r g Hrem Hr).
    - intros c Hc fuel A m P a s' g' HG He. split; [by eapply (getter_lemma r g Hrem Hr)|].
      exact (hist_step _ _ _ _ _ _ _ _ HH (do_use _ _ _ _ fuel l p y _ _ _ _ _ Hl Hp (getter_use _ _ _ _ _ _ HG) He)).
  Qed.
  Lemma history_displays (r : pystr) es s g R l p y : is_remote r = false -> r <> [] -> history r es s g R -> l ∈ R -> reach (s_heap s) l p = Some y -> displays s g y (look (objs_of g r) (s_heap s) y).
  Proof. intros Hrem Hr HH Hl Hp. destruct (history_able r es s g R l p y Hrem Hr HH Hl Hp) as (_ & HT & _). by apply (tidy_displays r g Hrem Hr). Qed.
End GetterHistory.
