(** Reading the published objects by the names of their git references. *)
From Verif Require Import Base BaseFacts Path Json Refs Meta GitText Spec_Git Git GitFacts Spec_Store State BlobCache ObjRef Objects Spec_Objects Spec_Look Spec_Heap Spec_Versions
  ExecFacts WriteFacts LoadFacts PeekFacts TreeFacts LookFacts ReadFacts Spec_Content VersionFacts ContentFacts ReadBackFacts Spec_Publish Common.

Section Top.
  Context `{Env}.
  Context (r : pystr) (g : gstate) (Hrem : is_remote r = false) (Hr : r <> []).
  Notation O := (objs_of g r).

  Section Name.
    Context (n h : pystr) (Hn : object_id n = false) (Hh : refs_of g r !! n = Some h) (Hi : object_id h = true).
    Lemma read_name rp : local_repo g r = Some rp -> read_obj rp n = read_obj rp h.
    Proof using All.
      unfold local_repo. rewrite Hrem. intros E. unfold read_obj, resolve. unfold refs_of in Hh. rewrite E in Hh. by rewrite Hn, Hi, Hh.
    Qed.
    Lemma x_bret {S A B : Type} (a : A) (f : A -> M S B) s g0 : exec (mbind (mret a) f s) g0 = exec (f a s) g0.
    Proof. by rewrite x_bind, x_ret. Qed.
    Lemma x_cong {S A B : Type} (m1 m2 : M S A) (f : A -> M S B) s g0 : exec (m1 s) g0 = exec (m2 s) g0 -> exec (mbind m1 f s) g0 = exec (mbind m2 f s) g0.
    Proof. intros E. by rewrite !x_bind, E. Qed.
    Lemma x_cong2 {S A B : Type} (m : M S A) (f1 f2 : A -> M S B) s g0 : (forall a s1 g1, exec (m s) g0 = ((Ok a, s1), g1) -> exec (f1 a s1) g1 = exec (f2 a s1) g1) ->
      exec (mbind m f1 s) g0 = exec (mbind m f2 s) g0.
    Proof. intros E. rewrite !x_bind. destruct (exec (m s) g0) as [[[a|e] s1] g1]; [|done]. by apply E. Qed.
    Lemma x_load_str_name {S : Type} (s : S) b : O !! h = Some (Blob b) -> exec (git_load_str r n s) g = exec (git_load_str r h s) g.
    Proof using All.
      intros Hb. unfold git_load_str, adapt_for_remote. rewrite Hrem, !x_bret. apply x_cong. rewrite !x_checked. cbn [git].
      destruct (local_repo g r) as [rp|] eqn:E; [|done]. rewrite (read_name rp E). unfold read_obj, resolve. rewrite Hi.
      unfold local_repo in E. rewrite Hrem in E. unfold objs_of in Hb. rewrite E in Hb. by rewrite Hb.
    Qed.
    Lemma x_load_name {S : Type} (s : S) b : O !! h = Some (Blob b) -> exec (git_load_json r n s) g = exec (git_load_json r h s) g.
    Proof using All. intros Hb. unfold git_load_json, adapt_for_remote. rewrite Hrem, !x_bret. by eapply x_cong, x_load_str_name. Qed.
    Lemma x_ls_name {S : Type} (s : S) : exec (git_ls_tree r n s) g = exec (git_ls_tree r h s) g.
    Proof using All.
      unfold git_ls_tree, adapt_for_remote. rewrite Hrem, !x_bret, !x_checked. cbn [git].
      destruct (local_repo g r) as [rp|] eqn:E; [|done]. by rewrite (read_name rp E).
    Qed.
    Lemma map_in_name s (l : loc) x b0 c : s_heap s !! l = Some (Obj x b0) -> (kind_of b0 = KdVl true /\ exists b, O !! h = Some (Blob b)) \/ kind_of b0 = KdUs ->
      exec (map_in_impl l r (ref_of c n) s) g = exec (map_in_impl l r (ref_of c h) s) g.
    Proof using All.
      intros Ho Hk. unfold map_in_impl. apply x_cong2. intros o s1 g1 E. rewrite x_getobj, Ho in E. injection E as <- <- <-. cbn [o_body].
      destruct b0 as [| | | |kk vs|us]; try (exfalso; clear -Hk; destruct Hk as [[Hk _]|Hk]; discriminate Hk).
      - unfold loc_of, ref_of. cbn [r_loc]. rewrite !x_bret. destruct Hk as [[_ [b Hb]]|Hk]; [|done]. by eapply x_cong, x_load_name.
      - apply x_cong2. intros [] s1 g1 E.
        assert (g1 = g) as ->. { unfold set_body in E. rewrite x_bind, x_getobj, Ho in E. cbn beta iota in E. unfold setobj in E. cbn [exec] in E. congruence. }
        unfold loc_of, ref_of. cbn [r_loc]. rewrite !x_bret. apply x_cong, x_ls_name.
    Qed.
  End Name.
  Definition top_kind (k : kd) (c : pystr) : Prop := (k = KdVl true /\ c = ps "TreeVersionList") \/ (k = KdUs /\ c = ps "UUIDSet").
  Lemma x_read_named fuel s (l : loc) x b0 c n h b ks : s_heap s !! l = Some (Obj x b0) -> (l < s_next s)%N -> blank b0 ->
    h_mapped x = false -> h_realm x = Some r -> h_ref x = Some (ref_of c n) -> r ∈ h_saved x -> top_kind (kind_of b0) c ->
    object_id n = false -> n <> none_location -> refs_of g r !! n = Some h -> stored O (kind_of b0) (ref_of c h) = Ok (b, ks) ->
    exists s' x', exec (read_in fuel l s) g = ((Ok tt, s'), g) /\ grown r s l (Obj x' (shift (s_next s) b)) ks s' /\ h_mapped x' = true /\ h_saved x' = h_saved x.
  Proof using All.
    intros Ho Hl Hb Hm Hrl Hrf Hsv Hc Hn Hnn Hh Hs.
    assert (HN : is_none_reference (ref_of c n) = false) by (unfold is_none_reference; apply bool_decide_eq_false_2; by intros [= ->]).
    assert (HNh : is_none_reference (ref_of c h) = false).
    { destruct (is_none_reference (ref_of c h)) eqn:En; [|done]. unfold stored in Hs. rewrite En in Hs. destruct Hc as [[Hk _]|[Hk _]]; by rewrite Hk in Hs. }
    assert (HV : forall y, (if jis_str (r_class (ref_of c y)) (ps "FileTree") || jis_str (r_class (ref_of c y)) (ps "DatasetTree") then Ref (JStr (ps "MTreeNode")) (r_loc (ref_of c y)) else ref_of c y) = ref_of c y)
      by (intros y; destruct Hc as [[_ ->]|[_ ->]]; reflexivity).
    assert (HC : forall y, jis_str (r_class (ref_of c y)) (type_name_of b0) = true).
    { intros y. destruct b0 as [| | | |[]|]; destruct Hc as [[Hk ->]|[Hk ->]]; try discriminate Hk; reflexivity. }
    assert (Hs' : stored_body O (kind_of b0) (ref_of c h) = Ok (b, ks)).
    { unfold stored in Hs. rewrite HNh in Hs. destruct (jis_str _ _); [done|discriminate Hs]. }
    assert (Hi : object_id h = true /\ ((kind_of b0 = KdVl true /\ exists t, O !! h = Some (Blob t)) \/ kind_of b0 = KdUs)).
    { unfold stored_body in Hs'. cbn [ref_of ref_loc r_loc rbind] in Hs'. destruct Hc as [[Hk ->]|[Hk ->]]; rewrite Hk in *.
      - apply rbind_inv in Hs' as (tx & Ht & _). unfold load_text, store in Ht. destruct (object_id h); [|done]. destruct (O !! h) as [[bb|]|]; try done. split; [done|]. left. eauto.
      - apply rbind_inv in Hs' as (tx & Ht & _). unfold load_lines, store in Ht. destruct (object_id h); [|done]. split; [done|by right]. }
    destruct Hi as [Hi Hk]. unfold read_in. rewrite x_bind, x_getobj, Ho. cbn beta iota. cbn [o_hdr o_body]. rewrite Hm, Hrl, Hrf, HN.
    unfold in_saved. cbn [o_hdr]. rewrite bool_decide_eq_true_2 by done.
    rewrite x_bind. unfold map_in. rewrite x_bind, x_getobj, Ho. cbn beta iota. cbn [o_body]. rewrite x_bind. unfold set_hdr. rewrite x_bind, x_getobj, Ho. cbn beta iota.
    unfold setobj at 1. cbn [exec]. cbn beta iota. rewrite HV.
    set (s1 := with_heap s _). assert (Ho1 : s_heap s1 !! l = Some (Obj (hd_ref (Some (ref_of c n)) x) b0)) by (unfold s1; cbn; by rewrite heap_insert, decide_True).
    rewrite x_bind, x_assert, HC. cbn beta iota. rewrite (map_in_name n h Hn Hh Hi s1 l _ b0 c Ho1 Hk).
    destruct (x_map_in_impl r g Hrem s1 l _ b0 _ _ b ks Ho1 Hl eq_refl Hb HNh Hs') as (s2 & Hx & Hg2). rewrite Hx. cbn beta iota.
    assert (Hg2' : forall o, grown r s1 l o ks s2 -> grown r s l o ks s2).
    { intros o [H1 H2 H3 H4 H5]. split; try done. intros y Hy Hlt. rewrite H5 by done. unfold s1. cbn. by rewrite heap_insert, decide_False. }
    apply Hg2' in Hg2. rewrite x_bind, x_getobj, (gr_self _ _ _ _ _ _ Hg2). cbn beta iota. unfold setobj. cbn [exec].
    eexists _, _. split; [reflexivity|]. split; [by eapply grown_set|]. split; [done|]. cbn [hd_mapped h_saved o_hdr]. rewrite decide_False; [done|]. destruct Hk as [[-> _]| ->]; discriminate.
  Qed.
  (** [l] was loaded from [ref], its parts are not loaded. *)
  Definition opened (h : heap) (l : loc) (k : kd) (ref : reference) : Prop := exists x n b ks,
    h !! l = Some (Obj x (shift n b)) /\ h_mapped x = true /\ kind_of b = k /\ stored O k ref = Ok (b, ks) /\
    forall i kr, ks !! i = Some kr -> h !! ((n + N.of_nat i)%N : loc) = Some (kid_obj r kr).
  Lemma unmapped_tidy s (x : loc) k ref : heap_ok s -> s_heap s !! x = Some (kid_obj r (k, ref)) -> complete (look_stored O k ref) ->
    (k = KdNode LMrr -> r_class ref <> JStr (ps "FileTree")) -> tidy O r s x.
  Proof using All.
    intros Hok Hself Hc Hf.
    assert (HR : forall p y, reach (s_heap s) x p = Some y -> p = [] /\ y = x).
    { intros [|key p] y Hp; cbn [reach] in Hp; [by injection Hp as <-|]. rewrite Hself in Hp. unfold kid_obj, kid_hdr in Hp. cbn in Hp. done. }
    assert (HL : forall q, look O (s_heap s) x q = look_stored O k ref q).
    { intros q. destruct q; cbn [look]; rewrite Hself; unfold kid_obj; cbn; by rewrite kind_empty. }
    split; [done| | | | | | |].
    - intros p q y Hp Hq. apply HR in Hp as [-> ->]. by apply HR in Hq as [-> _].
    - intros p y o Hp Ho Hm. apply HR in Hp as [-> ->]. rewrite Hself in Ho. injection Ho as <-. unfold kid_obj, kid_hdr. cbn. split_and!; [done| |].
      + intros m. destruct k; cbn; try done. by intros [= <-].
      + exists ref. split; [done|]. destruct (is_none_reference ref); [by left|right]. destruct r as [|c0 r0]; [done|]; by apply elem_of_singleton.
    - intros p y hx kk vs Hp Ho. apply HR in Hp as [-> ->]. rewrite Hself in Ho. injection Ho as <- Hb. destruct k; try done. cbn in Hb. injection Hb as <- <-. apply wk_nil.
    - intros p y o ref' Hp Ho Hk Hrf. apply HR in Hp as [-> ->]. rewrite Hself in Ho. injection Ho as <-. unfold kid_obj in Hk. cbn in Hk, Hrf. rewrite kind_empty in Hk. injection Hrf as <-. by apply Hf.
    - intros p y hx i v m t Hp Ho. apply HR in Hp as [-> ->]. rewrite Hself in Ho. unfold kid_obj in Ho. injection Ho as _ Hb. by destruct k.
    - intros p y o Hp Ho Hm. apply HR in Hp as [-> ->]. rewrite Hself in Ho. injection Ho as <-. exists ref. split; [done|]. intros q. unfold kid_obj. cbn. by rewrite kind_empty.
    - eapply complete_ext; [|exact Hc]. done.
  Qed.
  Lemma opened_kid h l k ref x o : opened h l k ref -> complete (look_stored O k ref) -> k = KdVl true \/ k = KdUs -> h !! l = Some o -> forall a, dget (kids_of (o_body o)) x = Some a ->
    exists k' ref', h !! a = Some (kid_obj r (k', ref')) /\ fits (k', ref') /\ complete (look_stored O k' ref') /\ forall p, look O h l (x :: p) = look_stored O k' ref' p.
  Proof using All.
    intros (hx & n & b & ks & Ho & Hm & Hk & Hs & HK) Hc Hkk Ho' a Ha. rewrite Ho in Ho'. injection Ho' as <-. cbn [o_body] in Ha. rewrite shift_kids, dget_shift in Ha.
    destruct (dget (kids_of b) x) as [i|] eqn:Ei; [|done]. cbn in Ha. injection Ha as <-.
    assert (Hx : is_ktree x = false). { apply kids_fit in Ei. destruct b; try (by rewrite <- Hk in Hkk; destruct Hkk); by destruct x. }
    destruct (part ks i) as [[k' ref']|] eqn:Ep.
    2:{ destruct (Hc [x]) as (C1 & _). cbn [look_stored] in C1. by rewrite Hs, Ei, Ep in C1. }
    assert (Hh : h !! ((n + i)%N : loc) = Some (kid_obj r (k', ref'))). { specialize (HK (N.to_nat i) (k', ref') Ep). by rewrite N2Nat.id in HK. }
    assert (HL : forall p, look_stored O k ref (x :: p) = look_stored O k' ref' p). { intros p. cbn [look_stored]. by rewrite Hs, Ei, Ep, Hx. }
    exists k', ref'. split; [done|]. split; [|split].
    - pose proof (stored_fit _ _ _ _ _ Hs) as Hft. rewrite List.Forall_forall in Hft. by eapply Hft, elem_of_list_In, elem_of_list_lookup_2.
    - intros p. destruct (Hc (x :: p)) as (C1 & C2 & C3). rewrite HL in C1, C2. split; [done|]. split; [done|]. intros q lb' Hq. destruct (C3 q lb') as (lb & H1 & H2); [cbn [app]; by rewrite HL|]. rewrite HL in H1. eauto.
    - intros p. cbn [look]. rewrite Ho. cbn [o_hdr o_body]. rewrite Hm, shift_kids, dget_shift, Ei. cbn [option_map]. rewrite Hx. cbn [andb].
      destruct p; cbn [look]; rewrite Hh; unfold kid_obj; cbn; by rewrite kind_empty.
  Qed.
  Lemma opened_look h l k ref : opened h l k ref -> complete (look_stored O k ref) -> k = KdVl true \/ k = KdUs -> forall p, look O h l p = look_stored O k ref p.
  Proof using All.
    intros Hop Hc Hk p. pose proof Hop as (hx & n & b & ks & Ho & Hm & Hkb & Hs & HK). destruct p as [|x p].
    - cbn [look look_stored]. rewrite Ho. cbn [o_hdr o_body]. by rewrite Hm, Hs, shift_label.
    - destruct (dget (kids_of (shift n b)) x) as [a|] eqn:Ea.
      + destruct (opened_kid h l k ref x _ Hop Hc Hk Ho a Ea) as (k' & ref' & H1 & H2 & H3 & H4). rewrite H4. cbn [look_stored]. rewrite Hs.
        rewrite shift_kids, dget_shift in Ea. destruct (dget (kids_of b) x) as [i|] eqn:Ei; [|done]. cbn in Ea. injection Ea as <-.
        assert (Hx : is_ktree x = false). { apply kids_fit in Ei. destruct b; try (by rewrite <- Hkb in Hk; destruct Hk); by destruct x. }
        destruct (part ks i) as [[k2 ref2]|] eqn:Ep.
        * specialize (HK (N.to_nat i) (k2, ref2) Ep). rewrite N2Nat.id, H1 in HK. injection HK as E1 E2 E3. unfold kid_obj in H1. rewrite Hx. cbn [andb].
          assert (k2 = k') as ->. { rewrite <- (kind_empty k2), <- E3. cbn. by rewrite kind_empty. }
          cbn in E1. by subst ref2.
        * destruct (Hc [x]) as (C1 & _). cbn [look_stored] in C1. by rewrite Hs, Ei, Ep in C1.
      + cbn [look look_stored]. rewrite Ho. cbn [o_hdr o_body]. rewrite Hm, Ea, Hs. rewrite shift_kids, dget_shift in Ea. by destruct (dget (kids_of b) x).
  Qed.
  Lemma visit_top fuel s l k ref p : heap_ok s -> opened (s_heap s) l k ref -> complete (look_stored O k ref) -> k = KdVl true \/ k = KdUs ->
    exists s', exec (visit fuel l p s) g = ((Ok (look_stored O k ref p), s'), g).
  Proof using All.
    intros Hok Hop Hc Hk. rewrite <- (opened_look _ _ _ _ Hop Hc Hk). pose proof Hop as (hx & n & b & ks & Ho & Hm & Hkb & Hs & HK).
    assert (HE : forall f, exec (ensure_mapped f l s) g = ((Ok false, s), g)) by (intros f; unfold ensure_mapped; rewrite x_bind, x_getobj, Ho; cbn beta iota; cbn [o_hdr]; by rewrite Hm, x_ret).
    destruct p as [|x p]; cbn [visit].
    - rewrite x_bind, HE. cbn beta iota. rewrite x_bind, x_getobj, Ho. cbn beta iota. rewrite x_ret. exists s. cbn [look]. rewrite Ho. cbn [o_hdr o_body]. by rewrite Hm.
    - assert (HN : dget (kids_of (shift n b)) x = None -> look O (s_heap s) l (x :: p) = Absent). { intros Hd. cbn [look]. rewrite Ho. cbn [o_hdr o_body]. by rewrite Hm, Hd. }
      assert (HD : forall a, dget (kids_of (shift n b)) x = Some a -> exists s1 s2, exec (read_in fuel a s) g = ((Ok tt, s1), g) /\ exec (visit fuel a p s1) g = ((Ok (look O (s_heap s) l (x :: p)), s2), g)).
      { intros a Ha. destruct (opened_kid _ _ _ _ x _ Hop Hc Hk Ho a Ha) as (k' & ref' & H1 & H2 & H3 & H4).
        pose proof (unmapped_tidy s a k' ref' Hok H1 H3 H2) as HT. destruct (tidy_root _ _ s a HT) as (oa & Hoa & Hha & Hla).
        destruct (read_in_quiet r g Hrem Hr fuel s a oa Hok Hoa Hha Hla) as (s1 & Hx1 & HQ1). destruct (visit_quiet r g Hrem Hr fuel p s1 a) as (s2 & Hx2 & _).
        { eapply qu_tidy; [exact HQ1|by eexists|done]. }
        exists s1, s2. split; [done|]. rewrite Hx2. do 3 f_equal. rewrite (qu_look _ _ _ _ HQ1) by by eexists. rewrite H4. destruct p; cbn [look]; rewrite H1; unfold kid_obj; cbn; by rewrite kind_empty. }
      assert (HG : key_fits x (shift n b) = false -> exists s', exec ((mlet r0 <- (ensure_mapped fuel l ;;; mret None); match r0 with None => mret Absent | Some l' => visit fuel l' p end) s) g = ((Ok (look O (s_heap s) l (x :: p)), s'), g)).
      { intros Hf. rewrite x_bind, x_bind, HE. cbn beta iota. rewrite x_ret. cbn beta iota. rewrite x_ret. exists s. rewrite HN; [done|]. destruct (dget (kids_of (shift n b)) x) eqn:E; [|done]. apply kids_fit in E. congruence. }
      rewrite x_bind. unfold step_to. rewrite x_bind, x_getobj, Ho. cbn beta iota. cbn [o_body].
      rewrite x_bind in HG.
      assert (Hbs : (exists kk vs, shift n b = BVlist kk vs) \/ exists us, shift n b = BUset us).
      { rewrite <- (shift_kind n) in Hkb. destruct (shift n b); cbn in Hkb; rewrite <- Hkb in Hk; destruct Hk as [Hk|Hk]; try discriminate Hk; [left; eauto|right; eauto]. }
      destruct Hbs as [(kk & vs & Eb)|(us & Eb)]; rewrite Eb in *.
      + destruct x as [nm| | |v p0|u]; try (by apply HG).
        unfold get_versioned_element, get_version_record, versions. rewrite x_try, x_bind, x_bind, HE. cbn beta iota.
        rewrite x_bind, x_bind, HE. cbn beta iota. rewrite x_bind, x_bind, x_getobj, Ho. cbn beta iota. cbn [o_body]. rewrite x_ret. cbn beta iota. cbn [snd].
        assert (Hv : vs_ok vs). { apply wk_ok. destruct b; try discriminate Eb. cbn in Eb. injection Eb as <- <-. apply shift_keyed. by eapply stored_keyed. }
        pose proof (kids_vget kk vs v p0 Hv) as Hd. unfold vget in Hd. destruct (dget vs v) as [d|]; [destruct (dget d p0) as [rr|]|]; cbn [option_map] in Hd.
        * rewrite x_ret. cbn beta iota. unfold elt_read_in. destruct (HD _ Hd) as (s1 & s2 & Hx1 & Hx2). rewrite x_bind, Hx1. cbn beta iota. rewrite x_ret, x_ret. by exists s2.
        * rewrite x_raise, x_ret. cbn beta iota. rewrite x_ret. exists s. by rewrite HN.
        * rewrite x_raise, x_ret. cbn beta iota. rewrite x_ret. exists s. by rewrite HN.
      + destruct x as [nm| | |v p0|u]; try (by apply HG).
        unfold get_version_list, uuid_entries. rewrite x_try, x_bind, x_bind, HE. cbn beta iota. rewrite x_bind, x_bind, x_getobj, Ho. cbn beta iota. cbn [o_body]. rewrite x_ret. cbn beta iota.
        rewrite kids_uuids in *. destruct (dget us u) as [a|] eqn:Ed.
        * destruct (HD _ eq_refl) as (s1 & s2 & Hx1 & Hx2). rewrite x_bind, Hx1. cbn beta iota. rewrite x_ret, x_ret. by exists s2.
        * rewrite x_raise, x_ret. cbn beta iota. rewrite x_ret. exists s. by rewrite HN.
  Qed.
  Lemma read_opened fuel s (l : loc) k c n h : heap_ok s -> s_heap s !! l = Some (kid_obj r (k, ref_of c n)) -> top_kind k c ->
    object_id n = false -> n <> none_location -> refs_of g r !! n = Some h -> complete (look_stored O k (ref_of c h)) ->
    exists s', exec (read_in fuel l s) g = ((Ok tt, s'), g) /\ heap_ok s' /\
      (forall h', (forall (x : loc) o, x = l \/ s_heap s !! x = None -> s_heap s' !! x = Some o -> h' !! x = Some o) -> opened h' l k (ref_of c h)) /\
      forall (x : loc) o, x <> l -> s_heap s !! x = Some o -> s_heap s' !! x = Some o.
  Proof using All.
    intros Hok Ho Hc Hn Hnn Hh Hco.
    assert (Hs : exists b ks, stored O k (ref_of c h) = Ok (b, ks)).
    { destruct (look_stored_ok O k (ref_of c h) []) as [[b ks] Hs]; [apply Hco|]. eauto. }
    destruct Hs as (b & ks & Hs). pose proof (kind_empty k) as Hke.
    unfold kid_obj in Ho. cbn [fst snd] in Ho.
    assert (HN : is_none_reference (ref_of c n) = false) by (unfold is_none_reference; apply bool_decide_eq_false_2; by intros [= ->]).
    assert (Hm : h_mapped (kid_hdr r (ref_of c n)) = false) by done.
    destruct (x_read_named fuel s l _ (empty_body k) c n h b ks Ho) as (s' & x' & Hx & Hg & Hm' & _); rewrite ?Hke; try done; [by apply (Hok l _ Ho)|apply blank_empty| |].
    { unfold kid_hdr. cbn [h_saved]. rewrite HN. destruct r; [done|]. by apply elem_of_singleton. }
    assert (Hx2 : exec (ensure_mapped fuel l s) g = ((Ok true, s'), g)).
    { unfold ensure_mapped. rewrite x_bind, x_getobj, Ho. cbn beta iota. cbn [o_hdr]. rewrite Hm. rewrite x_bind, Hx. cbn beta iota.
      unfold set_hdr. rewrite x_bind, x_bind, x_getobj, (gr_self _ _ _ _ _ _ Hg). cbn beta iota. unfold setobj. cbn [exec o_hdr o_body]. cbn beta iota. rewrite x_ret.
      rewrite with_heap_id; [done|]. rewrite (gr_self _ _ _ _ _ _ Hg). unfold hd_mapped. rewrite <- Hm'. by destruct x'. }
    destruct (ld_ensure s l _ fuel g _ s' g Hok Ho Hx2) as [_ HD]. specialize (HD Hm). cbn beta iota in HD. destruct HD as [_ HD].
    pose proof (ld_good s l s' _ Hok Ho Hm HD) as HG.
    exists s'. split; [done|]. split; [apply HG|]. split.
    - intros h' Hh'. exists x', (s_next s), b, ks. split; [apply Hh'; [by left|apply Hg]|]. split; [done|]. split; [|split; [done|]].
      2:{ intros i kr Hi. apply Hh'; [right|by apply Hg]. destruct (s_heap s !! ((s_next s + N.of_nat i)%N : loc)) as [o|] eqn:E; [|done]. destruct (Hok _ _ E) as [E2 _]. exfalso. clear - E2. unfold loc in *. lia. }
      destruct HD as [_ (ol & Hol & _ & _ & Hk)]. rewrite (gr_self _ _ _ _ _ _ Hg) in Hol. injection Hol as <-. rewrite Ho in Hk. cbn in Hk. injection Hk as Hk. by rewrite shift_kind, Hke in Hk.
    - intros x o Hxl Hxo. rewrite (gr_old _ _ _ _ _ _ Hg); [done|done|]. by apply (Hok x o).
  Qed.
  (** Allocation. *)
  Definition s_new (s : pst) (k : kd) (ref : reference) : pst :=
    PSt (<[s_next s := kid_obj r (k, ref)]> (s_heap s)) (N.succ (s_next s)) (s_caches s) (s_orefs s) (s_legacy s) (s_locks s).
  Lemma new_facts s k ref : heap_ok s -> heap_ok (s_new s k ref) /\ s_heap s !! s_next s = None /\ s_heap (s_new s k ref) !! s_next s = Some (kid_obj r (k, ref)) /\
    forall (x : loc) o, s_heap s !! x = Some o -> s_heap (s_new s k ref) !! x = Some o.
  Proof.
    intros Hok. assert (Hf : s_heap s !! s_next s = None). { destruct (s_heap s !! s_next s) as [o|] eqn:E; [|done]. destruct (Hok _ _ E) as [HH _]. lia. }
    assert (HO : forall (x : loc) o, s_heap s !! x = Some o -> s_heap (s_new s k ref) !! x = Some o).
    { intros x o Hx. unfold s_new. cbn [s_heap]. rewrite heap_insert, decide_False; [done|]. intros <-. congruence. }
    split; [|split; [done|split; [|done]]].
    - intros x o. unfold s_new. cbn [s_heap s_next]. rewrite heap_insert. case_decide as Hx.
      + intros [= <-]. subst x. unfold kid_obj. cbn. split_and!; [lia| | |].
        * intros y Hy. by destruct k.
        * intros _. by destruct k.
        * destruct k; cbn; apply NoDup_nil_2.
      + intros Ho. destruct (Hok x o Ho) as (H1 & H2 & H3 & H4). split_and!; [lia| |done|done].
        intros y Hy. destruct (H2 y Hy) as [oy Hoy]. exists oy. by apply HO.
    - unfold s_new. cbn [s_heap]. by rewrite heap_insert, decide_True.
  Qed.
  Lemma ok_blank s (l : loc) hx b : heap_ok s -> is_Some (s_heap s !! l) -> sub_objects b = [] -> kids_of b = [] -> heap_ok (with_heap s (<[l := Obj hx b]> (s_heap s))).
  Proof.
    intros Hok [ol Hl] Hb Hk x o. cbn [s_heap with_heap s_next]. rewrite heap_insert. case_decide as E.
    - subst x. intros [= <-]. cbn [o_hdr o_body]. rewrite Hb, Hk. split_and!; [by apply (Hok l ol)|done|done|apply NoDup_nil_2].
    - intros Ho. destruct (Hok x o Ho) as (A1 & A2 & A3 & A4). split_and!; try done. intros y Hy. rewrite heap_insert. case_decide; [by eexists|by apply A2].
  Qed.
  Lemma read_missing fuel s (l : loc) k c n : heap_ok s -> s_heap s !! l = Some (kid_obj r (k, ref_of c n)) -> top_kind k c ->
    object_id n = false -> n <> none_location -> refs_of g r !! n = None ->
    exists s', exec (read_in fuel l s) g = ((Err RuntimeError, s'), g) /\ heap_ok s' /\ forall (x : loc) o, x <> l -> s_heap s !! x = Some o -> s_heap s' !! x = Some o.
  Proof using All.
    intros Hok Ho Hc Hn Hnn Hh. unfold kid_obj in Ho. cbn [fst snd] in Ho.
    assert (HN : is_none_reference (ref_of c n) = false) by (unfold is_none_reference; apply bool_decide_eq_false_2; by intros [= ->]).
    assert (HV : forall y, (if jis_str (r_class (ref_of c y)) (ps "FileTree") || jis_str (r_class (ref_of c y)) (ps "DatasetTree") then Ref (JStr (ps "MTreeNode")) (r_loc (ref_of c y)) else ref_of c y) = ref_of c y)
      by (intros y; destruct Hc as [[_ ->]|[_ ->]]; reflexivity).
    assert (HC : forall y, jis_str (r_class (ref_of c y)) (type_name_of (empty_body k)) = true) by (intros y; destruct Hc as [[-> ->]|[-> ->]]; reflexivity).
    assert (Hsv : r ∈ h_saved (kid_hdr r (ref_of c n))). { unfold kid_hdr. cbn [h_saved]. rewrite HN. destruct r; [done|]. by apply elem_of_singleton. }
    assert (HR : forall rp, local_repo g r = Some rp -> read_obj rp n = None).
    { intros rp E. unfold local_repo in E. rewrite Hrem in E. unfold refs_of in Hh. rewrite E in Hh. unfold read_obj, resolve. by rewrite Hn, Hh. }
    unfold read_in. rewrite x_bind, x_getobj, Ho. cbn beta iota. cbn [o_hdr o_body]. unfold kid_hdr at 1 2 3. cbn [h_mapped h_realm h_ref]. rewrite HN.
    unfold in_saved. cbn [o_hdr]. rewrite bool_decide_eq_true_2 by done.
    rewrite x_bind. unfold map_in. rewrite x_bind, x_getobj, Ho. cbn beta iota. cbn [o_body]. rewrite x_bind. unfold set_hdr. rewrite x_bind, x_getobj, Ho. cbn beta iota.
    unfold setobj at 1. cbn [exec]. cbn beta iota. rewrite HV.
    set (s1 := with_heap s _). assert (Ho1 : s_heap s1 !! l = Some (Obj (hd_ref (Some (ref_of c n)) (kid_hdr r (ref_of c n))) (empty_body k))) by (unfold s1; cbn; by rewrite heap_insert, decide_True).
    assert (HO1 : forall (x : loc) o, x <> l -> s_heap s !! x = Some o -> s_heap s1 !! x = Some o) by (intros x o Hx Hxo; unfold s1; cbn; by rewrite heap_insert, decide_False).
    assert (Hok1 : heap_ok s1) by (apply ok_blank; [done|by eexists|by destruct k|by destruct k]).
    rewrite x_bind, x_assert, HC. cbn beta iota. unfold map_in_impl. rewrite x_bind, x_getobj, Ho1. cbn beta iota. cbn [o_body].
    destruct Hc as [[-> ->]|[-> ->]]; cbn [empty_body].
    - rewrite x_bind. unfold loc_of, ref_of. cbn [r_loc]. rewrite x_ret. cbn beta iota. rewrite x_bind. unfold git_load_json, git_load_str, adapt_for_remote. rewrite Hrem.
      rewrite x_bret, x_bind, Hrem, x_bret, x_bind, x_checked. cbn [git]. destruct (local_repo g r) as [rp|] eqn:E; [rewrite (HR rp eq_refl)|]; cbn [fst snd]; cbn beta iota; by exists s1.
    - rewrite x_bind. unfold set_body. rewrite x_bind, x_getobj, Ho1. cbn beta iota. unfold setobj. cbn [exec]. cbn beta iota.
      rewrite x_bind. unfold loc_of, ref_of. cbn [r_loc]. rewrite x_ret. cbn beta iota. rewrite x_bind. unfold git_ls_tree, adapt_for_remote. rewrite Hrem.
      rewrite x_bret, x_checked. cbn [git].
      assert (HO2 : forall b (x : loc) o, x <> l -> s_heap s !! x = Some o -> s_heap (with_heap s1 (<[l := b]> (s_heap s1))) !! x = Some o).
      { intros b x o Hx Hxo. cbn [with_heap s_heap]. rewrite heap_insert, decide_False by done. by apply HO1. }
      destruct (local_repo g r) as [rp|] eqn:E; [rewrite (HR rp eq_refl)|]; cbn [fst snd]; cbn beta iota; eexists; (split; [reflexivity|]); (split; [apply ok_blank; [done|by eexists|done|done]|apply HO2]).
  Qed.

  Lemma names_ok : object_id TREE_VERSION_LIST = false /\ TREE_VERSION_LIST <> none_location /\ object_id UUID_SET = false /\ UUID_SET <> none_location.
  Proof. split_and!; try (vm_compute; reflexivity); intros E; vm_compute in E; discriminate E. Qed.
  Lemma top_open fuel s h1 h2 : heap_ok s -> refs_of g r !! TREE_VERSION_LIST = Some h1 -> refs_of g r !! UUID_SET = Some h2 -> sound g r ->
    exists tvl us s', exec (get_top_level_metadata_objects fuel r s) g = ((Ok (Some (tvl, us)), s'), g) /\ heap_ok s' /\
      s_heap s !! tvl = None /\ s_heap s !! us = None /\ tvl <> us /\ (forall (x : loc) o, s_heap s !! x = Some o -> s_heap s' !! x = Some o) /\
      opened (s_heap s') tvl (KdVl true) (ref_of (ps "TreeVersionList") h1) /\ opened (s_heap s') us KdUs (ref_of (ps "UUIDSet") h2).
  Proof using All.
    intros Hok H1 H2 HS. destruct names_ok as (N1 & N2 & N3 & N4).
    assert (C1 : complete (look_stored O (KdVl true) (ref_of (ps "TreeVersionList") h1))) by (apply HS; exists h1; by left).
    assert (C2 : complete (look_stored O KdUs (ref_of (ps "UUIDSet") h2))) by (apply HS; exists h2; by right).
    unfold get_top_level_metadata_objects. rewrite x_bind, (ReadFacts.x_new r g Hrem (KdVl true) tree_version_list_reference). cbn beta iota. fold (s_new s (KdVl true) tree_version_list_reference).
    destruct (new_facts s (KdVl true) tree_version_list_reference Hok) as (Ok1 & F1 & A1 & K1). set (s1 := s_new s _ _) in *.
    rewrite x_bind, (ReadFacts.x_new r g Hrem KdUs uuid_set_reference). cbn beta iota. fold (s_new s1 KdUs uuid_set_reference).
    destruct (new_facts s1 KdUs uuid_set_reference Ok1) as (Ok2 & F2 & A2 & K2). set (s2 := s_new s1 _ _) in *.
    set (tvl := s_next s) in *. set (us := s_next s1) in *.
    assert (Hne : tvl <> us) by (unfold tvl, us, s1, s_new; cbn; lia).
    destruct (read_opened fuel s2 tvl (KdVl true) (ps "TreeVersionList") TREE_VERSION_LIST h1 Ok2 (K2 _ _ A1)) as (s3 & X3 & Ok3 & P3 & K3); try done; [by left|].
    destruct (read_opened fuel s3 us KdUs (ps "UUIDSet") UUID_SET h2 Ok3) as (s4 & X4 & Ok4 & P4 & K4); try done; [by apply K3|by right|].
    exists tvl, us, s4. split.
    { rewrite x_try, x_bind, X3. cbn beta iota. rewrite x_bind, X4. cbn beta iota. by rewrite x_ret. }
    split; [done|]. split; [done|]. split.
    { destruct (s_heap s !! us) as [o|] eqn:E; [|done]. apply K1 in E. congruence. }
    split; [done|]. split; [|split; [|by apply P4]].
    - intros x o Hx. assert (x <> tvl) by (intros ->; congruence). assert (x <> us) by (intros ->; apply K1 in Hx; congruence). apply K4; [done|]. apply K3; [done|]. by apply K2, K1.
    - apply P3. intros x o Hx Hxo. apply K4; [|done]. intros ->. destruct Hx as [Hx|Hx]; congruence.
  Qed.
  Lemma top_absent fuel s : heap_ok s -> refs_of g r !! TREE_VERSION_LIST = None \/ (refs_of g r !! UUID_SET = None /\ sound g r) ->
    exists s', exec (get_top_level_metadata_objects fuel r s) g = ((Ok None, s'), g) /\ heap_ok s' /\ forall (x : loc) o, s_heap s !! x = Some o -> s_heap s' !! x = Some o.
  Proof using All.
    intros Hok HA. destruct names_ok as (N1 & N2 & N3 & N4).
    unfold get_top_level_metadata_objects. rewrite x_bind, (ReadFacts.x_new r g Hrem (KdVl true) tree_version_list_reference). cbn beta iota. fold (s_new s (KdVl true) tree_version_list_reference).
    destruct (new_facts s (KdVl true) tree_version_list_reference Hok) as (Ok1 & F1 & A1 & K1). set (s1 := s_new s _ _) in *.
    rewrite x_bind, (ReadFacts.x_new r g Hrem KdUs uuid_set_reference). cbn beta iota. fold (s_new s1 KdUs uuid_set_reference).
    destruct (new_facts s1 KdUs uuid_set_reference Ok1) as (Ok2 & F2 & A2 & K2). set (s2 := s_new s1 _ _) in *.
    set (tvl := s_next s) in *. set (us := s_next s1) in *.
    assert (Hne : tvl <> us) by (unfold tvl, us, s1, s_new; cbn; lia).
    assert (HX : forall (x : loc) o, s_heap s !! x = Some o -> x <> tvl /\ x <> us) by (intros x o Hx; split; intros ->; [|apply K1 in Hx]; congruence).
    destruct (refs_of g r !! TREE_VERSION_LIST) as [h1|] eqn:E1.
    - destruct HA as [HA|[HA HS]]; [discriminate HA|].
      assert (C1 : complete (look_stored O (KdVl true) (ref_of (ps "TreeVersionList") h1))) by (apply HS; exists h1; by left).
      destruct (read_opened fuel s2 tvl (KdVl true) (ps "TreeVersionList") TREE_VERSION_LIST h1 Ok2 (K2 _ _ A1)) as (s3 & X3 & Ok3 & _ & K3); try done; [by left|].
      destruct (read_missing fuel s3 us KdUs (ps "UUIDSet") UUID_SET Ok3) as (s4 & X4 & Ok4 & K4); try done; [by apply K3|by right|].
      exists s4. split; [rewrite x_try, x_bind, X3; cbn beta iota; rewrite x_bind, X4; cbn beta iota; by rewrite x_ret|]. split; [done|].
      intros x o Hx. destruct (HX x o Hx). apply K4; [done|]. apply K3; [done|]. by apply K2, K1.
    - destruct (read_missing fuel s2 tvl (KdVl true) (ps "TreeVersionList") TREE_VERSION_LIST Ok2 (K2 _ _ A1)) as (s3 & X3 & Ok3 & K3); try done; [by left|].
      exists s3. split; [rewrite x_try, x_bind, X3; cbn beta iota; by rewrite x_ret|]. split; [done|].
      intros x o Hx. destruct (HX x o Hx). apply K3; [done|]. by apply K2, K1.
  Qed.
  Lemma C45_opened_lemma fuel s h1 h2 : heap_ok s -> refs_of g r !! TREE_VERSION_LIST = Some h1 -> refs_of g r !! UUID_SET = Some h2 -> sound g r ->
    exists tvl us s', exec (get_top_level_metadata_objects fuel r s) g = ((Ok (Some (tvl, us)), s'), g) /\ heap_ok s' /\
      s_heap s !! tvl = None /\ s_heap s !! us = None /\ tvl <> us /\ (forall (x : loc) o, s_heap s !! x = Some o -> s_heap s' !! x = Some o) /\
      forall fuel2 p, fst (fst (exec (visit fuel2 tvl p s') g)) = Ok (look_stored O (KdVl true) (ref_of (ps "TreeVersionList") h1) p) /\
                      fst (fst (exec (visit fuel2 us p s') g)) = Ok (look_stored O KdUs (ref_of (ps "UUIDSet") h2) p).
  Proof using All.
    intros Hok H1 H2 HS. destruct (top_open fuel s h1 h2 Hok H1 H2 HS) as (tvl & us & s' & X & Ok' & F1 & F2 & Hne & K & P1 & P2).
    exists tvl, us, s'. repeat (split; [done|]). intros fuel2 p. split.
    - destruct (visit_top fuel2 s' tvl _ _ p Ok' P1) as (s2 & E); [apply HS; exists h1; by left|by left|]. by rewrite E.
    - destruct (visit_top fuel2 s' us _ _ p Ok' P2) as (s2 & E); [apply HS; exists h2; by right|by right|]. by rewrite E.
  Qed.
  Lemma C45_lookup_lemma fuel u v prefix tree_path sub_u sub_v now s : heap_ok s -> refs_of g r !! TREE_VERSION_LIST = None \/ (refs_of g r !! UUID_SET = None /\ sound g r) ->
    exists s', exec (get_top_nodes_and_metadata_root_record fuel r u v prefix tree_path sub_u sub_v false now s) g = ((Ok None, s'), g) /\
      forall (x : loc) o, s_heap s !! x = Some o -> s_heap s' !! x = Some o.
  Proof using All.
    intros Hok HA. destruct (top_absent fuel s Hok HA) as (s' & X & _ & K). exists s'. split; [|done].
    unfold get_top_nodes_and_metadata_root_record. rewrite x_bind, X. cbn beta iota. rewrite x_bret. by rewrite x_ret.
  Qed.
End Top.
