(** Copying one object of each class. *)
From Verif Require Import Base BaseFacts Path Spec_Path PathFacts Json Refs Meta Spec_Meta GitText Spec_Git Git GitFacts Spec_Store State BlobCache ObjRef Objects Spec_Look Spec_Heap Spec_Versions Spec_Write ExecFacts CacheFacts WriteFacts LoadFacts PeekFacts TreeFacts TreeEditFacts VersionFacts LookFacts ReadFacts Spec_Content ContentFacts StoreFacts SaveFacts WriteBackFacts WriteAllFacts ReadBackFacts PurgeFacts RealmFacts EditFacts GraftFacts HomeFacts Spec_Copy CopyFacts CopyRunFacts.

Section CopyKind.
  Context `{Env}.
  Context (a b : pystr) (Ha : a <> []) (Hrem : is_remote a = false) (Hb : b <> []).
  Implicit Types (s : pst) (g : gstate).
  Local Notation nopath := (MetadataPath [AStr []]).

  Lemma ke_refl s g : heap_ok s -> ready b s -> keeps b s g s g.
  Proof. intros Hok Hr. split; try done. apply stays_refl. Qed.
  Lemma linv_new {A : Type} (zf : A -> loc) s g bd : heap_ok s -> ready b s -> kids_of bd = [] -> linv a b s g (s_next s) zf (grown s (fresh_obj bd)) g bd [].
  Proof.
    intros Hok Hr Hk. split.
    - split; try done; [by apply gw_ok|cbn; lia|]. intros z o Ho. exists o. split; [rewrite gw_old; [done|done|by exists o]|apply still_refl].
    - apply gw_self.
    - lia.
    - intros w. rewrite <- sub_kids, Hk. done.
    - apply NoDup_nil_2.
    - done.
  Qed.
  Lemma kid_kind s g l o k z : tidy (objs_of g a) a s l -> s_heap s !! l = Some o -> h_mapped (o_hdr o) = true -> dget (kids_of (o_body o)) k = Some z ->
    tidy (objs_of g a) a s z /\ ~ kind_at s z (KdVl true).
  Proof.
    intros HT Ho Hm Hd. split; [by eapply tidy_kid|]. intros (oz & Hoz & Hk). destruct (is_ktree k) eqn:Ek.
    - destruct k; try done. assert (exists i0 v0 m0, o_body o = BMrr i0 v0 m0 (Some z)) as (i0 & v0 & m0 & Eb0).
      { destruct (o_body o) as [m|t|c d|i0 v0 m0 t0|kk vs|us] eqn:Eo; cbn [kids_of] in Hd; try done.
        - exfalso. apply dget_Some_In, in_map_iff in Hd as (? & [= ] & _).
        - exists i0, v0, m0. destruct m0, t0; cbn in Hd; rewrite ?decide_False in Hd by done; rewrite ?decide_True in Hd by done; try done; by injection Hd as ->.
        - exfalso. apply dget_Some_In, in_concat in Hd as (q & Hq & Hd). apply in_map_iff in Hq as (w & <- & _). apply in_map_iff in Hd as (? & [= ] & _).
        - exfalso. apply dget_Some_In, in_map_iff in Hd as (? & [= ] & _). }
      destruct (td_tree _ _ _ _ HT [] l (o_hdr o) i0 v0 m0 z eq_refl) as (hz & d & Hz'). { rewrite Ho, <- Eb0. by destruct o. }
      rewrite Hoz in Hz'. injection Hz' as ->. done.
    - destruct (tidy_kid_label _ _ _ _ _ _ _ HT Ho Hm Hd Ek) as (ox & lb & Hx & _ & Hlb & Hp). assert (ox = oz) as -> by congruence. rewrite Hk in Hlb.
      destruct lb; try done. injection Hlb as ->. destruct (label_of (o_body o)), k; try done; cbn in Hp.
      + by destruct Hp as (? & ?).
      + by destruct Hp as (? & ?).
      + by destruct Hp as (? & ? & ? & ?).
      + by destruct Hp as (? & ? & ?).
  Qed.

  Section Kind.
    Context (f fuel : nat).
    Context (Hrec : forall z s g y s' g', tidy (objs_of g a) a s z -> ready b s -> ~ kind_at s z (KdVl true) ->
      exec (deepcopy f z (Some b) nopath s) g = ((Ok y, s'), g') -> copies a b s g z y s' g').
    Context (pre : ppath) (Hpre : prefix_ok pre).

    Lemma meta_copy s g l o m y s' g' : tidy (objs_of g a) a s l -> s_heap s !! l = Some o -> h_mapped (o_hdr o) = true -> ready b s -> o_body o = BMeta m ->
      exec ((mlet x <- new_obj (BMeta m) None None; finish_copy fuel x (Some b)) s) g = ((Ok y, s'), g') -> good_copy a b pre s g l y s' g'.
    Proof using Hb Hpre.
      intros HT Ho Hm Hr Hbd He. rewrite x_bind, TreeEditFacts.x_new in He. cbn beta iota in He. pose proof (td_heap _ _ _ _ HT) as Hok.
      eapply (wrap_up a b Hb fuel pre s g l o (s_next s) (A := loc) id (fun _ => KMeta) [] []); [done|done|done|done|by rewrite Hbd|by apply (linv_new id s g (BMeta m))|done| | |done| |exact He].
      - by rewrite Hbd.
      - by rewrite Hbd.
      - done.
    Qed.

    Definition up_node (bd : body) (e : pystr * loc) (y : loc) : body := match bd with BNode c dd => BNode c (dset dd (fst e) y) | _ => bd end.
    Lemma fold_node c (d : list (pystr * loc)) : forall ys dd, length ys = length d -> NoDup (dkeys dd ++ map fst d) ->
      fold_left (fun bd ey => up_node bd (fst ey) (snd ey)) (zip d ys) (BNode c dd) = BNode c (dd ++ map (fun ey => (fst (fst ey), snd ey)) (zip d ys)).
    Proof using.
      induction d as [|[n z] d IH]; intros [|y ys] dd Hl Hnd; cbn in Hl; try done; [by rewrite app_nil_r|].
      change (zip ((n, z) :: d) (y :: ys)) with ((n, z, y) :: zip d ys). cbn [fold_left map fst snd up_node].
      assert (Hf : n ∉ dkeys dd). { apply NoDup_app in Hnd as (_ & Hnd & _). intros Hn. apply (Hnd n Hn). cbn. by left. }
      rewrite dset_fresh by done. rewrite IH; [by rewrite <- app_assoc|by injection Hl|]. unfold dkeys. rewrite map_app, <- app_assoc. exact Hnd.
    Qed.
    Lemma x_add_fresh (x : loc) c dd n y s g u s' g' : s_heap s !! x = Some (fresh_obj (BNode c dd)) -> exec (add_child fuel x n y s) g = ((Ok u, s'), g') ->
      s' = with_heap s (<[x := fresh_obj (BNode c (dset dd n y))]> (s_heap s)) /\ g' = g.
    Proof using.
      intros Hx He. unfold add_child in He. apply xi_bind in He as (u1 & ? & ? & E & He). apply xi_assert in E as (_ & <- & <-).
      apply xi_bind in He as (u2 & ? & ? & E & He). apply xi_assert in E as (_ & <- & <-). rewrite x_bind, (x_mapped_noop _ _ _ _ _ Hx eq_refl) in He. cbn beta iota in He.
      rewrite x_bind, (x_children _ _ _ _ _ _ Hx) in He. cbn beta iota in He. cbn [fst snd] in He. destruct (dmem dd n); [by rewrite x_raise in He|].
      rewrite x_bind, (x_touch _ _ _ _ Hx) in He. cbn beta iota in He. unfold set_body in He. rewrite x_bind, x_getobj in He. cbn [s_heap with_heap] in He. rewrite heap_insert, decide_True in He by done.
      cbn in He. unfold with_heap in He. cbn in He. rewrite heap_ins2 in He. injection He as _ <- <-. done.
    Qed.
    Lemma node_copy s g l o c d y s' g' : tidy (objs_of g a) a s l -> s_heap s !! l = Some o -> h_mapped (o_hdr o) = true -> ready b s -> o_body o = BNode c d ->
      exec ((mlet x <- new_obj (BNode c []) None None;
             miter (fun nl : pystr * loc => mlet y <- deepcopy f (snd nl) (Some b) nopath; add_child fuel x (fst nl) y) d ;;;
             finish_copy fuel x (Some b)) s) g = ((Ok y, s'), g') -> good_copy a b pre s g l y s' g'.
    Proof using All.
      intros HT Ho Hm Hr Hbd He. rewrite x_bind, TreeEditFacts.x_new in He. cbn beta iota in He. pose proof (td_heap _ _ _ _ HT) as Hok.
      assert (Hnd : NoDup (map fst d)). { pose proof (proj2 (proj2 (proj2 (Hok l o Ho)))) as Hn. rewrite Hbd in Hn. by apply (kids_node_keys d c) in Hn. }
      apply xi_bind in He as (u & s1 & g1 & E1 & He).
      assert (Hkid : forall e, In e d -> dget (kids_of (o_body o)) (KName (fst e)) = Some (snd e)).
      { intros e He0. apply TreeFacts.In_dget; [apply (Hok l o Ho)|]. rewrite Hbd. cbn [kids_of]. apply in_map_iff. by exists e. }
      match type of E1 with exec (miter ?F0 _ _) _ = _ => set (F := F0) in E1 end.
      assert (P1 : forall e, In e d -> tidy (objs_of g a) a s (snd e) /\ ~ kind_at s (snd e) (KdVl true)).
      { intros e He0. eapply kid_kind; [done|done|done|by apply Hkid]. }
      edestruct (copy_loop a b f s g (s_next s) Hrec (A := pystr * loc) snd up_node F (fun bd => exists dd, bd = BNode c dd) d Hok P1) as (ys & Hlen & HI & Hn & HL); [| | | | |exact E1|].
      - intros e s2 g2 u2 s3 g3 _ E. apply xi_bind in E as (y1 & s4 & g4 & E2 & E). exists y1, s4, g4. split; [done|]. intros bd [dd ->] _ Hx.
        destruct (x_add_fresh _ _ _ _ _ _ _ _ _ _ Hx E) as [-> ->]. split_and!; [done|done|]. cbn. eauto.
      - intros bd e w _ [dd ->] Hnd0. cbn [up_node]. split.
        + intros v. cbn [sub_objects]. apply dset_in_snd.
        + apply kids_node_keys, dset_nodup. by apply (kids_node_keys dd c) in Hnd0.
      - exists []. reflexivity.
      - apply NoDup_nil_2.
      - by apply linv_new.
      - cbn [app] in HL. rewrite (fold_node c d ys [] Hlen) in * by done. cbn [app] in *.
        eapply (wrap_up a b Hb fuel pre s g l o (s_next s) snd (fun e => KName (fst e)) d ys); [done|done|done|done|by rewrite Hbd|exact HL|done| | | | |exact He].
        + by rewrite Hbd.
        + by rewrite Hbd.
        + cbn [kids_of]. by rewrite map_map.
        + done.
    Qed.

    Definition up_uset (bd : body) (e : uuid * loc) (y : loc) : body := match bd with BUset dd => BUset (dset dd (fst e) y) | _ => bd end.
    Lemma fold_uset (d : list (uuid * loc)) : forall ys dd, length ys = length d -> NoDup (dkeys dd ++ map fst d) ->
      fold_left (fun bd ey => up_uset bd (fst ey) (snd ey)) (zip d ys) (BUset dd) = BUset (dd ++ map (fun ey => (fst (fst ey), snd ey)) (zip d ys)).
    Proof using.
      induction d as [|[n z] d IH]; intros [|y ys] dd Hl Hnd; cbn in Hl; try done; [by rewrite app_nil_r|].
      change (zip ((n, z) :: d) (y :: ys)) with ((n, z, y) :: zip d ys). cbn [fold_left map fst snd up_uset].
      assert (Hf : n ∉ dkeys dd). { apply NoDup_app in Hnd as (_ & Hnd & _). intros Hn. apply (Hnd n Hn). cbn. by left. }
      rewrite dset_fresh by done. rewrite IH; [by rewrite <- app_assoc|by injection Hl|]. unfold dkeys. rewrite map_app, <- app_assoc. exact Hnd.
    Qed.
    Lemma uset_copy s g l o d y s' g' : tidy (objs_of g a) a s l -> s_heap s !! l = Some o -> h_mapped (o_hdr o) = true -> ready b s -> o_body o = BUset d ->
      exec ((mlet x <- new_obj (BUset []) None None;
             miter (fun ul : uuid * loc => mlet y <- deepcopy f (snd ul) (Some b) nopath; mlet us' <- uuid_entries x; set_body x (BUset (dset us' (fst ul) y))) d ;;;
             finish_copy fuel x (Some b)) s) g = ((Ok y, s'), g') -> good_copy a b pre s g l y s' g'.
    Proof using All.
      intros HT Ho Hm Hr Hbd He. rewrite x_bind, TreeEditFacts.x_new in He. cbn beta iota in He. pose proof (td_heap _ _ _ _ HT) as Hok.
      assert (Hnd : NoDup (map fst d)). { pose proof (proj2 (proj2 (proj2 (Hok l o Ho)))) as Hn. rewrite Hbd in Hn. by apply kids_us_keys in Hn. }
      apply xi_bind in He as (u & s1 & g1 & E1 & He).
      assert (Hkid : forall e, In e d -> dget (kids_of (o_body o)) (KUuid (fst e)) = Some (snd e)).
      { intros e He0. apply TreeFacts.In_dget; [apply (Hok l o Ho)|]. rewrite Hbd. cbn [kids_of]. apply in_map_iff. by exists e. }
      match type of E1 with exec (miter ?F0 _ _) _ = _ => set (F := F0) in E1 end.
      assert (P1 : forall e, In e d -> tidy (objs_of g a) a s (snd e) /\ ~ kind_at s (snd e) (KdVl true)).
      { intros e He0. eapply kid_kind; [done|done|done|by apply Hkid]. }
      edestruct (copy_loop a b f s g (s_next s) Hrec (A := uuid * loc) snd up_uset F (fun bd => exists dd, bd = BUset dd) d Hok P1) as (ys & Hlen & HI & Hn & HL); [| | | | |exact E1|].
      - intros e s2 g2 u2 s3 g3 _ E. apply xi_bind in E as (y1 & s4 & g4 & E2 & E). exists y1, s4, g4. split; [done|]. intros bd [dd ->] _ Hx.
        unfold uuid_entries in E. rewrite x_bind, x_bind, x_getobj, Hx in E. cbn beta iota in E. cbn [fresh_obj o_body] in E. rewrite x_ret in E. cbn beta iota in E.
        rewrite (WriteFacts.x_set_body _ _ _ _ _ Hx) in E. injection E as _ <- <-. split_and!; [done|done|]. cbn. eauto.
      - intros bd e w _ [dd ->] Hnd0. cbn [up_uset]. split.
        + intros v. cbn [sub_objects]. apply dset_in_snd.
        + apply kids_us_keys, dset_nodup. by apply kids_us_keys in Hnd0.
      - exists []. reflexivity.
      - apply NoDup_nil_2.
      - by apply linv_new.
      - cbn [app] in HL. rewrite (fold_uset d ys [] Hlen) in * by done. cbn [app] in *.
        eapply (wrap_up a b Hb fuel pre s g l o (s_next s) snd (fun e => KUuid (fst e)) d ys); [done|done|done|done|by rewrite Hbd|exact HL|done| | | | |exact He].
        + by rewrite Hbd.
        + by rewrite Hbd.
        + cbn [kids_of]. by rewrite map_map.
        + done.
    Qed.

    (** version lists *)
    Definition relt (e : elt) (y : loc) : elt := match e with ETree _ => ETree y | EMrr _ => EMrr y end.
    Definition moved_rec (e : (pystr * vrec) * loc) : pystr * vrec :=
      (fst (fst e), VRec (vr_time (snd (fst e))) (under pre (vr_path (snd (fst e)))) (relt (vr_elt (snd (fst e))) (snd e))).
    Definition up_vl (bd : body) (e : pystr * vrec) (y : loc) : body :=
      match bd with BVlist k dd => BVlist k (vs_set dd (fst e) (under pre (vr_path (snd e))) (snd (moved_rec (e, y)))) | _ => bd end.
    Lemma fold_vl k (D : list ((pystr * vrec) * loc)) : forall dd, fold_left (fun bd ey => up_vl bd (fst ey) (snd ey)) D (BVlist k dd) = BVlist k (setall (map moved_rec D) dd).
    Proof using. induction D as [|[r y] D IH]; intros dd; [done|]. cbn [fold_left map fst snd up_vl]. rewrite IH. done. Qed.
    Lemma sub_vs_set k dd v p r w : NoDup (dkeys dd) -> In w (sub_objects (BVlist k (vs_set dd v p r))) -> w = elt_loc (vr_elt r) \/ In w (sub_objects (BVlist k dd)).
    Proof using.
      intros Hnd. rewrite <- !sub_kids, !kids_flat, !map_map. cbn [snd]. intros Hw.
      assert (Hw2 : In w (map snd (dset (vs_flat (fun r => elt_loc (vr_elt r)) dd) (v, p) (elt_loc (vr_elt r))))).
      { revert Hw. rewrite <- !elem_of_list_In. intros Hw. change (w ∈ snd <$> vs_flat (fun r => elt_loc (vr_elt r)) (vs_set dd v p r)) in Hw. rewrite (flat_set (fun r => elt_loc (vr_elt r)) dd v p r Hnd) in Hw. exact Hw. }
      by apply dset_in_snd in Hw2.
    Qed.
    Definition moved_vs (vs : pydict pystr (pydict ppath vrec)) : pydict pystr (pydict ppath vrec) :=
      map (fun vd => (fst vd, map (fun pr => (under pre (fst pr), VRec (vr_time (snd pr)) (under pre (vr_path (snd pr))) (vr_elt (snd pr)))) (snd vd))) vs.
    Lemma moved_keyed vs : well_keyed vs -> (forall r, In r (vs_records vs) -> wfp (vr_path (snd r))) -> well_keyed (moved_vs vs).
    Proof using.
      intros [H1 H2] Hp. split.
      - unfold moved_vs, dkeys. rewrite map_map. exact H1.
      - intros v d Hin. apply in_map_iff in Hin as ([v0 d0] & [= <- <-] & Hin). cbn [snd] in *. destruct (H2 v0 d0 Hin) as [G1 G2]. split.
        + unfold dkeys in *. rewrite map_map. cbn [fst].
          assert (Hq : forall p, In p (map fst d0) -> p_root p = []).
          { intros p Hpi. apply in_map_iff in Hpi as ([p' r] & <- & Hpi). cbn. rewrite <- (G2 p' r Hpi). apply (Hp (v0, r)). unfold vs_records. apply in_concat.
            eexists. split; [apply in_map_iff; exists (v0, d0); done|]. apply in_map_iff. by exists (p', r). }
          rewrite <- (map_map fst (under pre)). revert G1 Hq. generalize (map fst d0). intros ps0. induction ps0 as [|p ps0 IH]; intros Hn Hq; [apply NoDup_nil_2|]. cbn [map].
          apply NoDup_cons in Hn as [Hn1 Hn2]. apply NoDup_cons. split; [|apply IH; [done|]; intros q Hqi; apply Hq; by right].
          intros Hpi. apply elem_of_list_In, in_map_iff in Hpi as (q & E & Hqi). apply Hn1. apply elem_of_list_In. assert (q = p) as <-; [|done].
          pose proof (Hq p (or_introl eq_refl)) as R1. pose proof (Hq q (or_intror Hqi)) as R2. unfold under in E. injection E as E. apply app_inv_head in E. destruct p, q. cbn in *. congruence.
        + intros p r Hin'. apply in_map_iff in Hin' as ([p0 r0] & [= <- <-] & Hin'). cbn. by rewrite (G2 p0 r0).
    Qed.
    Lemma moved_records vs : map rkey (vs_records (moved_vs vs)) = map (fun r => (fst r, under pre (vr_path (snd r)))) (vs_records vs).
    Proof using.
      unfold vs_records, moved_vs. rewrite !concat_map, !map_map. f_equal. apply map_ext. intros [v d]. cbn. rewrite !map_map. done.
    Qed.
    Lemma map_fst_zip {A B : Type} (l : list A) : forall (k : list B), length k = length l -> map fst (zip l k) = l.
    Proof using. induction l as [|x l IH]; intros [|y k] Hl; cbn in *; try done. by rewrite IH; [|injection Hl]. Qed.
    Lemma vl_copy s g l o k vs y s' g' : tidy (objs_of g a) a s l -> s_heap s !! l = Some o -> h_mapped (o_hdr o) = true -> ready b s -> o_body o = BVlist k vs -> k <> true ->
      exec ((mlet x <- new_obj (BVlist k []) None None;
             miter (fun r : pystr * vrec =>
                       mlet e <- match vr_elt (snd r) with
                                 | ETree y => mlet y' <- deepcopy f y (Some b) nopath; mret (ETree y')
                                 | EMrr y => mlet y' <- deepcopy f y (Some b) nopath; mret (EMrr y')
                                 end;
                       set_versioned_element fuel x (fst r) (vr_time (snd r)) (truediv pre (APath (vr_path (snd r)))) e) (vs_records vs) ;;;
             finish_copy fuel x (Some b)) s) g = ((Ok y, s'), g') -> good_copy a b pre s g l y s' g'.
    Proof using All.
      intros HT Ho Hm Hr Hbd Hkt He. rewrite x_bind, TreeEditFacts.x_new in He. cbn beta iota in He. pose proof (td_heap _ _ _ _ HT) as Hok.
      assert (Hwk : well_keyed vs). { eapply (td_keyed _ _ _ _ HT [] l (o_hdr o) k vs); [done|]. rewrite Ho, <- Hbd. by destruct o. }
      assert (Hwp : forall r, In r (vs_records vs) -> wfp (vr_path (snd r))).
      { intros r Hin. destruct (td_complete _ _ _ _ HT []) as (_ & C & _). specialize (C (label_of (o_body o))). cbn [look] in C. rewrite Ho, Hm in C. specialize (C eq_refl). rewrite Hbd in C. cbn [label_of label_ok] in C.
        destruct (C (fst r) (vr_path (snd r)) (vr_time (snd r)) (is_etree (vr_elt (snd r)))) as (_ & _ & Hp & _); [|by apply mpath_wf].
        apply in_map_iff. by exists r. }
      pose proof (mpath_wf _ (proj1 Hpre)) as Hwpre.
      apply xi_bind in He as (u & s1 & g1 & E1 & He).
      set (zf := fun r : pystr * vrec => elt_loc (vr_elt (snd r))). set (kf := fun r : pystr * vrec => KVer (fst r) (vr_path (snd r))).
      assert (Hkid : forall e, In e (vs_records vs) -> dget (kids_of (o_body o)) (kf e) = Some (zf e)).
      { intros e He0. apply TreeFacts.In_dget; [apply (Hok l o Ho)|]. rewrite Hbd, kids_records by done. apply in_map_iff. by exists e. }
      match type of E1 with exec (miter ?F0 _ _) _ = _ => set (F := F0) in E1 end.
      assert (P1 : forall e, In e (vs_records vs) -> tidy (objs_of g a) a s (zf e) /\ ~ kind_at s (zf e) (KdVl true)).
      { intros e He0. eapply kid_kind; [done|done|done|by apply Hkid]. }
      edestruct (copy_loop a b f s g (s_next s) Hrec (A := pystr * vrec) zf up_vl F (fun bd => exists dd, bd = BVlist k dd /\ well_keyed dd) (vs_records vs) Hok P1) as (ys & Hlen & HI & Hn & HL); [| | | | |exact E1|].
      - intros e s2 g2 u2 s3 g3 Hin E. apply xi_bind in E as (e1 & s4 & g4 & E2 & E).
        assert (exists y1, exec (deepcopy f (zf e) (Some b) nopath s2) g2 = ((Ok y1, s4), g4) /\ e1 = relt (vr_elt (snd e)) y1) as (y1 & E3 & ->).
        { unfold zf. destruct (vr_elt (snd e)); apply xi_bind in E2 as (y1 & ? & ? & E3 & E2); apply xi_ret in E2 as (<- & <- & <-); exists y1; done. }
        exists y1, s4, g4. split; [done|]. intros bd (dd & -> & Hw) _ Hx. rewrite (truediv_path pre _ Hwpre (Hwp e Hin)) in E.
        pose proof (set_one fuel (s_next s) _ k dd (VCall (fst e) (vr_time (snd e)) (under pre (vr_path (snd e))) (relt (vr_elt (snd e)) y1)) s4 g4 Hx eq_refl) as E4. cbn [vc_version vc_time vc_path vc_elt] in E4.
        unfold under in E4 at 1. rewrite E4 in E. injection E as _ <- <-. split_and!; [done|done|]. cbn [up_vl]. eexists. split; [done|]. by apply wk_set.
      - intros bd e w _ (dd & -> & Hw) Hnd0. cbn [up_vl]. split.
        + intros v Hv. apply sub_vs_set in Hv as [->|Hv]; [left|by right|apply Hw]. cbn. by destruct (vr_elt (snd e)).
        + apply kids_flat_keys, wk_ok. by apply wk_set.
      - exists []. split; [done|apply wk_nil].
      - apply NoDup_nil_2.
      - by apply linv_new.
      - cbn [app] in HL. rewrite fold_vl in *. destruct (relabel (moved_vs vs) (moved_keyed vs Hwk Hwp) (map moved_rec (zip (vs_records vs) ys))) as (vs0 & Hw0 & HL0 & _).
        { rewrite moved_records, map_map. rewrite <- (map_fst_zip (vs_records vs) ys Hlen) at 2. rewrite map_map. apply map_ext. done. }
        destruct (setall_rebuild vs0 Hw0 []) as (vs1 & F1 & F2 & Hw1 & _). { intros v Hv. by apply elem_of_nil in Hv. }
        rewrite HL0 in F1, F2. cbn [app] in F1. rewrite F1 in *.
        eapply (wrap_up a b Hb fuel pre s g l o (s_next s) zf kf (vs_records vs) ys); [done|done|done|done|rewrite Hbd; cbn; congruence|exact HL|done| | | | |exact He].
        + rewrite Hbd. cbn [label_of moved_label]. f_equal. rewrite F2, !map_map. rewrite <- (map_fst_zip (vs_records vs) ys Hlen) at 2. rewrite map_map. apply map_ext. intros [[v r] w]. cbn. by destruct (vr_elt r).
        + by rewrite Hbd, kids_records.
        + rewrite kids_records by done. rewrite F2, map_map. apply map_ext. intros [[v r] w]. unfold kf. cbn. by destruct (vr_elt r).
        + intros k0 vs2 [= _ <-]. done.
    Qed.

    (** metadata root records *)
    Lemma linv_add {A : Type} (zf : A -> loc) s0 g0 s g bd (D : list (A * loc)) : keeps b s0 g0 s g -> heap_ok s0 ->
      (forall w, In w (sub_objects bd) -> In w (map snd D)) -> NoDup (dkeys (kids_of bd)) -> NoDup (map snd D) ->
      (forall e y, In (e, y) D -> exists k, kind_at s0 (zf e) k /\ copy_at b s g y k (look (objs_of g0 a) (s_heap s0) (zf e))) ->
      linv a b s0 g0 (s_next s) zf (grown s (fresh_obj bd)) g bd D.
    Proof using All.
      intros HK Hok0 Hsub Hnk Hnd Hc. pose proof (ke_ok _ _ _ _ _ HK) as Hok.
      assert (Hok2 : heap_ok (grown s (fresh_obj bd))).
      { assert (Hs : forall z : loc, is_Some (s_heap s !! z) -> is_Some (s_heap (grown s (fresh_obj bd)) !! z)). { intros z Hz. by rewrite gw_old. }
        intros x o Hx. rewrite gw_get in Hx. cbn [s_next grown]. destruct (decide (s_next s = x)) as [<-|Hn].
        - injection Hx as <-. cbn [fresh_obj o_body o_hdr h_mapped]. split_and!; [lia| |done|done]. intros w Hw. apply Hs. apply Hsub, in_map_iff in Hw as ([e y] & <- & Hin).
          destruct (Hc e y Hin) as (k & _ & (oy & Hy & _)). by exists oy.
        - destruct (Hok x o Hx) as (H1 & H2 & H3 & H4). split_and!; try done; [lia|]. intros y Hy. apply Hs. by apply H2. }
      split; try done.
      - destruct HK as [B1 B2 B3 B4 B5 B6]. split; try done; [cbn; lia|]. intros z o Hz. destruct (B3 z o Hz) as (o' & Ho' & Hs). exists o'. split; [|done]. rewrite gw_old; [done|done|by exists o'].
      - apply gw_self.
      - apply HK.
      - intros e y Hin. destruct (Hc e y Hin) as (k & Hk & Hcy). assert (Hy : is_Some (s_heap s !! y)) by (destruct Hcy as (oy & Hy & _); by exists oy). split.
        + intros ->. destruct Hy as [oy Hy]. pose proof (proj1 (Hok _ _ Hy)). lia.
        + exists k. split; [done|]. eapply copy_frame; [exact Hcy|done|by apply gw_old].
    Qed.
    Lemma opt_copy (m : option loc) s g m' s' g' :
      exec ((match m with Some y => mlet y' <- deepcopy f y (Some b) nopath; mret (Some y') | None => mret None end) s) g = ((Ok m', s'), g') ->
      m = None /\ m' = None /\ s' = s /\ g' = g \/ exists z y, m = Some z /\ m' = Some y /\ exec (deepcopy f z (Some b) nopath s) g = ((Ok y, s'), g').
    Proof using.
      destruct m as [z|]; intros He.
      - apply xi_bind in He as (y & s1 & g1 & E & He). apply xi_ret in He as (<- & <- & <-). right. eauto 10.
      - apply xi_ret in He as (<- & <- & <-). by left.
    Qed.
    Lemma mrr_copy s g l o i v m t y s' g' : tidy (objs_of g a) a s l -> s_heap s !! l = Some o -> h_mapped (o_hdr o) = true -> ready b s -> o_body o = BMrr i v m t ->
      exec ((mlet m' <- match m with Some y => mlet y' <- deepcopy f y (Some b) nopath; mret (Some y') | None => mret None end;
             mlet t' <- match t with Some y => mlet y' <- deepcopy f y (Some b) nopath; mret (Some y') | None => mret None end;
             mlet x <- new_obj (BMrr i v m' t') None None;
             finish_copy fuel x (Some b)) s) g = ((Ok y, s'), g') -> good_copy a b pre s g l y s' g'.
    Proof using All.
      intros HT Ho Hm Hr Hbd He. pose proof (td_heap _ _ _ _ HT) as Hok.
      apply xi_bind in He as (m' & s1 & g1 & E1 & He). apply xi_bind in He as (t' & s2 & g2 & E2 & He). rewrite x_bind, TreeEditFacts.x_new in He. cbn beta iota in He.
      (* one optional part *)
      assert (Hopt : forall q k sa ga q' sb gb, keeps b s g sa ga -> (forall z, q = Some z -> dget (kids_of (o_body o)) k = Some z) ->
        exec ((match q with Some y => mlet y' <- deepcopy f y (Some b) nopath; mret (Some y') | None => mret None end) sa) ga = ((Ok q', sb), gb) ->
        keeps b sa ga sb gb /\ (q = None /\ q' = None \/ exists z w, q = Some z /\ q' = Some w /\ (s_next sa <= w)%N /\ exists kk, kind_at s z kk /\ copy_at b sb gb w kk (look (objs_of g a) (s_heap s) z))).
      { intros q k sa ga q' sb gb HK Hq Hx. destruct (opt_copy q sa ga q' sb gb Hx) as [(-> & -> & -> & ->)|(z & w & -> & -> & Hd)].
        - split; [apply ke_refl; apply HK|by left].
        - destruct (kid_kind s g l o k z HT Ho Hm (Hq z eq_refl)) as [HTz Hkz]. destruct (ke_tidy b _ _ _ _ _ _ HK HTz) as [HT1 HL1].
          assert (Hz : is_Some (s_heap s !! z)) by (destruct (tidy_root _ _ _ _ HTz) as (oz & Hoz & _); by exists oz).
          destruct (Hrec z sa ga w sb gb HT1) as (kk & Hk1 & HK1 & Hw & Hc); [apply HK|intros Hk2; apply Hkz; by eapply kind_keeps|done|].
          split; [done|]. right. exists z, w. split_and!; try done. exists kk. split; [by eapply kind_keeps|]. eapply copy_ext; [exact HL1|exact Hc]. }
      pose proof (ke_refl s g Hok Hr) as HK0.
      destruct (Hopt m KMeta s g m' s1 g1 HK0) as [HK1 C1]; [|done|]. { intros z ->. rewrite Hbd. cbn. by rewrite decide_True. }
      destruct (Hopt t KTree s1 g1 t' s2 g2 HK1) as [HK2 C2]; [|done|]. { intros z ->. rewrite Hbd. cbn. destruct m; cbn; rewrite ?decide_False by done; by rewrite decide_True. }
      pose proof (ke_trans b _ _ _ _ _ _ HK1 HK2) as HK.
      set (L := kids_of (BMrr i v m t)). set (ys := match m' with Some x => [x] | None => [] end ++ match t' with Some x => [x] | None => [] end).
      assert (Hlen : length ys = length L). { unfold ys, L. cbn [kids_of]. destruct C1 as [(-> & ->)|(? & ? & -> & -> & _)], C2 as [(-> & ->)|(? & ? & -> & -> & _)]; done. }
      assert (Hkz : kids_of (BMrr i v m' t') = map (fun ey => (moved_key pre (fst (fst ey)), snd ey)) (zip L ys)).
      { unfold ys, L. cbn [kids_of]. destruct C1 as [(-> & ->)|(? & ? & -> & -> & _)], C2 as [(-> & ->)|(? & ? & -> & -> & _)]; done. }
      assert (Hsnd : map snd (zip L ys) = ys). { unfold ys, L. cbn [kids_of]. destruct C1 as [(-> & ->)|(? & ? & -> & -> & _)], C2 as [(-> & ->)|(? & ? & -> & -> & _)]; done. }
      eapply (wrap_up a b Hb fuel pre s g l o (s_next s2) (snd (A := key)) fst L ys); [done|done|done|done|by rewrite Hbd| |done| | | | |exact He].
      - apply linv_add; try done.
        + intros w Hw. rewrite Hsnd. unfold ys. exact Hw.
        + clear. cbn [kids_of]. destruct m', t'; cbn; repeat constructor; set_solver.
        + rewrite Hsnd. unfold ys. destruct m' as [w1|], t' as [w2|]; cbn [app]; try (apply NoDup_singleton || apply NoDup_nil_2). apply NoDup_cons. split; [|apply NoDup_singleton].
          intros Hin%elem_of_list_singleton. subst w2. destruct C1 as [(_ & [=])|(? & ? & _ & [= <-] & _ & (? & _ & (ow & How & _)))], C2 as [(_ & [=])|(? & ? & _ & [= <-] & Hge & _)].
          pose proof (proj1 (ke_ok _ _ _ _ _ HK1 _ _ How)). lia.
        + intros [kk z] w Hin. cbn [snd].
          assert (Hc1 : forall z w, m = Some z -> m' = Some w -> exists k, kind_at s z k /\ copy_at b s2 g2 w k (look (objs_of g a) (s_heap s) z)).
          { intros z1 w1 -> ->. destruct C1 as [(? & [=])|(? & ? & [= <-] & [= <-] & _ & (k1 & Hk1 & Hc))]. exists k1. split; [done|]. eapply copy_keeps; [exact HK2|exact Hc]. }
          assert (Hc2 : forall z w, t = Some z -> t' = Some w -> exists k, kind_at s z k /\ copy_at b s2 g2 w k (look (objs_of g a) (s_heap s) z)).
          { intros z1 w1 -> ->. destruct C2 as [(? & [=])|(? & ? & [= <-] & [= <-] & _ & (k1 & Hk1 & Hc))]. exists k1. done. }
          unfold L, ys in Hin. cbn [kids_of] in Hin.
          destruct C1 as [(-> & ->)|(? & ? & -> & -> & _)], C2 as [(-> & ->)|(? & ? & -> & -> & _)]; cbn in Hin; repeat destruct Hin as [Hin|Hin]; try done; injection Hin as _ <- <-; eauto.
      - by rewrite Hbd.
      - rewrite Hbd. fold L. rewrite <- (map_id L) at 1. apply map_ext. by intros [].
      - done.
      - done.
    Qed.
  End Kind.
End CopyKind.
