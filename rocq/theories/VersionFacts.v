(** A version list is a map from versions and prefix paths to elements (C20). *)
From Verif Require Import Base BaseFacts Path Json Refs Meta GitText Git GitFacts State BlobCache ObjRef Objects ExecFacts Spec_Look Spec_Heap Spec_Versions Spec_Write WriteFacts LoadFacts PeekFacts TreeEditFacts TreeFacts.

Section Versions.
  Context `{Env}.
  Lemma wk_ok vs : well_keyed vs -> vs_ok vs.
  Proof. intros [H1 H2]. split; [done|]. intros v d Hd. by apply H2 in Hd as [? _]. Qed.
  Lemma wk_set vs v p r : vr_path r = p -> well_keyed vs -> well_keyed (vs_set vs v p r).
  Proof.
    intros Hr [H1 H2]. assert (Hd0 : NoDup (dkeys (match dget vs v with Some d => d | None => [] end)) /\ forall p r, In (p, r) (match dget vs v with Some d => d | None => [] end) -> vr_path r = p).
    { destruct (dget vs v) as [d|] eqn:E; [|split; [apply NoDup_nil_2|done]]. apply dget_Some_In in E. by apply H2 in E. }
    destruct Hd0 as [Hn Hp]. unfold vs_set. split; [by apply dset_nodup|]. intros v' d Hin. apply In_dget in Hin; [|by apply dset_nodup]. rewrite dget_dset in Hin.
    destruct (decide (v = v')) as [<-|Hne]; [|by apply dget_Some_In, H2 in Hin]. injection Hin as <-. split; [by apply dset_nodup|].
    intros p' r' Hin. apply In_dget in Hin; [|by apply dset_nodup]. rewrite dget_dset in Hin. case_decide; [congruence|]. by apply dget_Some_In, Hp in Hin.
  Qed.
  Lemma records_flat vs : well_keyed vs -> map (fun r => (fst r, vr_path (snd r))) (vs_records vs) = dkeys (vs_flat (fun r => r) vs) /\
    map snd (vs_records vs) = map snd (vs_flat (fun r => r) vs).
  Proof.
    intros [_ H2]. unfold vs_records, vs_flat, dkeys. rewrite !concat_map, !map_map. split; f_equal; apply map_ext_in; intros [v d] Hin; cbn; rewrite !map_map; [|done].
    apply map_ext_in. intros [p r] Hpr. cbn. f_equal. by eapply H2.
  Qed.
  Lemma records_in vs v r : well_keyed vs -> In (v, r) (vs_records vs) <-> record_of vs v (vr_path r) = Some r.
  Proof.
    intros Hw. pose proof Hw as [H1 H2]. unfold vs_records, record_of. rewrite In_concat. split.
    - intros (ys & Hys & Hin). apply in_map_iff in Hys as ([v' d] & <- & Hd). cbn in Hin. apply in_map_iff in Hin as ([p r'] & [= -> ->] & Hpr). cbn in Hpr.
      rewrite (In_dget _ _ _ H1 Hd). destruct (H2 _ _ Hd) as [Hn Hp]. rewrite (Hp _ _ Hpr). by apply In_dget.
    - destruct (dget vs v) as [d|] eqn:Ed; [|done]. intros Hr. apply dget_Some_In in Ed, Hr. eexists. split; [apply in_map_iff; exists (v, d); split; [reflexivity|done]|].
      cbn. apply in_map_iff. by exists (vr_path r, r).
  Qed.
  Lemma set_one fuel l hx k vs c s g : s_heap s !! l = Some (Obj hx (BVlist k vs)) -> h_mapped hx = true ->
    exec (set_versioned_element fuel l (vc_version c) (vc_time c) (vc_path c) (vc_elt c) s) g =
      ((Ok tt, with_heap s (<[l := Obj (hd_saved ∅ hx) (BVlist k (vs_set vs (vc_version c) (vc_path c) (call_record c)))]> (s_heap s))), g).
  Proof.
    intros Hl Hm. unfold set_versioned_element. rewrite x_bind, (x_mapped_noop _ _ _ _ _ Hl Hm). cbn beta iota. rewrite x_bind, (x_touch _ _ _ _ Hl). cbn beta iota. cbn [o_hdr o_body].
    unfold versions. rewrite !x_bind, x_getobj. cbn [s_heap with_heap]. rewrite heap_insert, decide_True by done. cbn beta iota. cbn [o_body]. rewrite x_ret. cbn beta iota. cbn [fst snd].
    unfold set_body. rewrite x_bind, x_getobj. cbn [s_heap with_heap]. rewrite heap_insert, decide_True by done. cbn. unfold with_heap. cbn. rewrite heap_ins2. done.
  Qed.
  Lemma C20_sets fuel l k calls : forall hx vs s g, s_heap s !! l = Some (Obj hx (BVlist k vs)) -> h_mapped hx = true -> well_keyed vs ->
    exists s' hx' vs', exec (set_elements fuel l calls s) g = ((Ok tt, s'), g) /\ s_heap s' !! l = Some (Obj hx' (BVlist k vs')) /\ h_mapped hx' = true /\ well_keyed vs' /\
      (calls <> [] -> h_saved hx' = ∅) /\ (forall x, x <> l -> s_heap s' !! x = s_heap s !! x) /\
      forall v p, record_of vs' v p = last_record calls v p (record_of vs v p).
  Proof.
    unfold set_elements. induction calls as [|c cs IH]; intros hx vs s g Hl Hm Hw; [by exists s, hx, vs|].
    cbn [miter]. rewrite x_bind, (set_one _ _ _ _ _ _ _ _ Hl Hm). cbn beta iota. set (s1 := with_heap s _).
    assert (Hl1 : s_heap s1 !! l = Some (Obj (hd_saved ∅ hx) (BVlist k (vs_set vs (vc_version c) (vc_path c) (call_record c))))) by (cbn; rewrite heap_insert; by rewrite decide_True).
    destruct (IH _ _ s1 g Hl1) as (s' & hx' & vs' & He & H1 & H2 & H3 & H4 & H5 & H6); [done|by apply wk_set|]. exists s', hx', vs'. split_and!; try done.
    - intros _. destruct cs as [|c2 cs]; [|by apply H4]. cbn in He. injection He as <-. rewrite Hl1 in H1. injection H1 as <- _. done.
    - intros x Hx. rewrite H5 by done. cbn. rewrite heap_insert. by rewrite decide_False.
    - intros v p. rewrite H6. cbn [last_record]. f_equal. pose proof (vget_set vs (vc_version c) (vc_path c) (call_record c) v p) as HV. unfold vget in HV. unfold record_of. rewrite HV.
      repeat case_decide; try done; naive_solver.
  Qed.
  Lemma x_versions l hx k vs s g : s_heap s !! l = Some (Obj hx (BVlist k vs)) -> exec (versions l s) g = ((Ok (k, vs), s), g).
  Proof. intros Hl. unfold versions. rewrite x_bind, x_getobj, Hl. done. Qed.
  Lemma C20_lemma fuel l hx k vs calls s g : s_heap s !! l = Some (Obj hx (BVlist k vs)) -> h_mapped hx = true -> well_keyed vs ->
    exists s', exec (set_elements fuel l calls s) g = ((Ok tt, s'), g) /\
    (forall x, x <> l -> s_heap s' !! x = s_heap s !! x) /\
    forall fuel2 g2, exists vps ves,
      exec (versions_and_prefix_paths fuel2 l s') g2 = ((Ok vps, s'), g2) /\ NoDup vps /\
      (forall v p, In (v, p) vps <-> last_record calls v p (record_of vs v p) <> None) /\
      exec (version_list_len l s') g2 = ((Ok (length vps), s'), g2) /\
      exec (versioned_elements fuel2 l s') g2 = ((Ok ves, s'), g2) /\
      map (fun vr => (fst vr, vr_path (snd vr))) ves = vps /\
      (forall v r, In (v, r) ves <-> last_record calls v (vr_path r) (record_of vs v (vr_path r)) = Some r) /\
      forall v p, match last_record calls v p (record_of vs v p) with
        | None => exec (get_versioned_element fuel2 l v p s') g2 = ((Err KeyError, s'), g2)
        | Some r => forall o, s_heap s' !! elt_loc (vr_elt r) = Some o -> h_mapped (o_hdr o) = true ->
            exec (get_versioned_element fuel2 l v p s') g2 = ((Ok r, s'), g2)
        end.
  Proof.
    intros Hl Hm Hw. destruct (C20_sets fuel l k calls hx vs s g Hl Hm Hw) as (s' & hx' & vs' & He & H1 & H2 & H3 & _ & H5 & H6).
    exists s'. split; [done|]. split; [done|]. intros fuel2 g2. exists (map (fun r => (fst r, vr_path (snd r))) (vs_records vs')), (vs_records vs').
    pose proof (x_versions l hx' k vs' s' g2 H1) as Hv. pose proof (x_mapped_noop fuel2 l _ s' g2 H1 H2) as Hno. destruct (records_flat vs' H3) as [Hk _].
    pose proof (wk_ok _ H3) as Hok. split_and!.
    - unfold versions_and_prefix_paths. rewrite x_bind, Hno. cbn beta iota. rewrite x_bind, Hv. done.
    - rewrite Hk. by apply flat_nodup.
    - intros v p. rewrite Hk, <- H6, <- elem_of_list_In. pose proof (flat_get (fun r => r) vs' v p (proj1 Hok)) as Hf. change (record_of vs' v p) with (vget vs' v p).
      destruct (vget vs' v p) as [r|] eqn:E; cbn in Hf.
      + split; [done|]. intros _. apply dget_Some_In in Hf. apply elem_of_list_In. by eapply dkeys_in.
      + apply dget_None in Hf. split; [done|]. by intros [].
    - unfold version_list_len. rewrite x_bind, Hv. cbn beta iota. rewrite x_ret. cbn [snd]. by rewrite map_length.
    - unfold versioned_elements. rewrite x_bind, Hno. cbn beta iota. rewrite x_bind, Hv. done.
    - done.
    - intros v r. rewrite <- H6. by apply records_in.
    - intros v p. rewrite <- H6. unfold record_of.
      assert (Hg : exec (get_version_record fuel2 l v p s') g2 = ((match dget vs' v with None => Err KeyError | Some d => match dget d p with None => Err KeyError | Some r => Ok r end end, s'), g2)).
      { unfold get_version_record. rewrite x_bind, Hno. cbn beta iota. rewrite x_bind, Hv. cbn beta iota. cbn [snd]. destruct (dget vs' v) as [d|]; [|done]. by destruct (dget d p). }
      unfold get_versioned_element. rewrite x_bind, Hno. cbn beta iota. rewrite x_bind, Hg. destruct (dget vs' v) as [d|]; [|done]. destruct (dget d p) as [r|]; [|done]. cbn beta iota.
      intros o Ho Hmo. unfold elt_read_in, read_in. rewrite !x_bind, x_getobj, Ho. cbn beta iota. rewrite Hmo, x_ret. done.
  Qed.
End Versions.
