(** Look-ups of root records return when objects have to be loaded first (C43). *)
From Verif Require Import Base BaseFacts Path Spec_Path PathFacts Json Refs Meta GitText Git GitFacts Spec_Store State BlobCache ObjRef Objects ExecFacts Common
  Spec_Look Spec_Heap Spec_Versions Spec_Dataset Spec_Write Spec_Content Spec_Common Spec_Demand WriteFacts LoadFacts PeekFacts TreeEditFacts VersionFacts TreeFacts DatasetFacts LookFacts ReadFacts ContentFacts WriteBackFacts CommonFacts CommonRunFacts Spec_Publish TopFacts.

Definition key_kind (O : store) (k : kd) (ref : reference) (x : key) (k' : kd) : Prop := exists b, look_stored O k ref [x] = Seen (label_of b) /\ kind_of b = k'.
Lemma wl_tail c x : well_formed c -> (forall lb, c [] = Seen lb -> True) -> well_formed (fun p => c (x :: p)).
Proof.
  intros [H1 H2 H3] _. split.
  - intros p. destruct (H1 (x :: p)) as (C1 & C2 & C3). split; [done|]. split; [done|]. intros k lb' Hq. destruct (C3 k lb' Hq) as (lb & A & B). eauto.
  - intros p e lb Hp Hq. by apply (H2 (x :: p)).
  - intros p rs v q lb Hp Hq. by apply (H3 (x :: p) rs v q).
Qed.
Lemma wl_ext (c c' : content) : (forall p, c p = c' p) -> well_formed c -> well_formed c'.
Proof.
  intros E [H1 H2 H3]. split.
  - intros p. destruct (H1 p) as (C1 & C2 & C3). rewrite E in C1, C2. split; [done|]. split; [done|]. intros k lb'. rewrite <- !E. apply C3.
  - intros p e lb. rewrite <- !E. apply H2.
  - intros p rs v q lb. rewrite <- !E. apply H3.
Qed.
Lemma shift_record n vs v p : record_of (shift_vs n vs) v p = option_map (shift_rec n) (record_of vs v p).
Proof.
  unfold record_of, shift_vs. set (w := fun d : pydict ppath vrec => map (fun pr => (fst pr, shift_rec n (snd pr))) d).
  change (match dget (map (fun vp => (fst vp, w (snd vp))) vs) v with Some d => dget d p | None => None end = option_map (shift_rec n) (match dget vs v with Some d => dget d p | None => None end)).
  rewrite (dget_map (fun x => x) w) by done. destruct (dget vs v) as [d|]; [|done]. cbn [option_map]. unfold w. by rewrite (dget_map (fun x => x) (shift_rec n)) by done.
Qed.
Section Demand.
  Context `{Env}.
  Context (r : pystr) (g : gstate) (Hrem : is_remote r = false) (Hr : r <> []).
  Implicit Types D : loc -> Prop.
  Notation O := (objs_of g r).
  Notation od := (on_demand O r).

  Lemma wl_kid k ref b ks x i : stored O k ref = Ok (b, ks) -> well_formed (look_stored O k ref) -> is_ktree x = false -> dget (kids_of b) x = Some i ->
    exists k' ref' b', part ks i = Some (k', ref') /\ well_formed (look_stored O k' ref') /\ look_stored O k ref [x] = Seen (label_of b') /\ kind_of b' = k'.
  Proof.
    intros Hs Hw Hx Hi. pose proof (wl_complete _ Hw) as Hc. destruct (part ks i) as [[k' ref']|] eqn:Ep.
    2:{ destruct (Hc [x]) as (C1 & _). cbn [look_stored] in C1. by rewrite Hs, Hi, Ep in C1. }
    assert (HL : forall p, look_stored O k ref (x :: p) = look_stored O k' ref' p). { intros p. cbn [look_stored]. by rewrite Hs, Hi, Ep, Hx. }
    destruct (look_stored_ok O k' ref' []) as [[b' ks'] Hs']; [rewrite <- HL; apply Hc|].
    exists k', ref', b'. split; [done|]. split; [|split].
    - eapply wl_ext; [exact HL|]. by apply wl_tail.
    - rewrite HL. cbn [look_stored]. by rewrite Hs'.
    - by eapply stored_kind.
  Qed.
  (** the parts that matter *)
  Definition main_kind (k : kd) : bool := match k with KdNode LMrr | KdVl true | KdUs => true | _ => false end.
  Definition and_kids D (n : loc) (b : body) : loc -> Prop := fun y => D y \/ (main_kind (kind_of b) = true /\ exists x i, dget (kids_of b) x = Some i /\ y = (n + i)%N).
  Lemma main_key b x i : main_kind (kind_of b) = true -> dget (kids_of b) x = Some i -> is_ktree x = false.
  Proof. intros Hm Hi. apply kids_fit in Hi. destruct b as [| |[]| |[]|]; try done; by destruct x. Qed.

  Lemma kids_ready D (h : heap) n b ks ref : stored O (kind_of b) ref = Ok (b, ks) -> well_formed (look_stored O (kind_of b) ref) ->
    (forall i kr, ks !! i = Some kr -> h !! ((n + N.of_nat i)%N : loc) = Some (kid_obj r kr)) ->
    (main_kind (kind_of b) = true -> forall x i, dget (kids_of b) x = Some i -> D (n + i)%N) ->
    parts_fit D h (shift n b) /\
    (main_kind (kind_of b) = true -> forall x i, dget (kids_of b) x = Some i -> exists o, h !! ((n + i)%N : loc) = Some o /\ if h_mapped (o_hdr o) then parts_fit D h (o_body o) else to_load O r o).
  Proof.
    intros Hs Hwl HK HD.
    assert (Hkid : main_kind (kind_of b) = true -> forall x i, dget (kids_of b) x = Some i -> exists k' ref' b', h !! ((n + i)%N : loc) = Some (kid_obj r (k', ref')) /\ well_formed (look_stored O k' ref') /\
      look_stored O (kind_of b) ref [x] = Seen (label_of b') /\ kind_of b' = k' /\ is_a D h (n + i)%N k').
    { intros Hmk x i Hxi. destruct (wl_kid _ _ _ _ _ _ Hs Hwl (main_key _ _ _ Hmk Hxi) Hxi) as (k' & ref' & b' & Hp & A1 & A2 & A3).
      assert (Hh : h !! ((n + i)%N : loc) = Some (kid_obj r (k', ref'))). { pose proof (HK _ _ Hp) as HKi. by rewrite N2Nat.id in HKi. }
      exists k', ref', b'. split; [done|]. split; [done|]. split; [done|]. split; [done|]. split; [by eapply HD|]. eexists. split; [exact Hh|]. apply kind_empty. }
    split.
    - pose proof (wl_complete _ Hwl []) as (_ & _ & HC). cbn [app] in HC.
      assert (HL0 : look_stored O (kind_of b) ref [] = Seen (label_of b)) by (cbn [look_stored]; by rewrite Hs).
      destruct b as [| |[] d| |[] vs|d]; cbn [shift parts_fit]; try done; cbn [kind_of] in *.
      + intros e x Hd. rewrite dget_shift in Hd. destruct (dget d e) as [i|] eqn:Ei; [|done]. injection Hd as <-. rewrite <- kids_names with (c := LMrr) in Ei.
        destruct (Hkid eq_refl _ _ Ei) as (k' & ref' & b' & A1 & A2 & A3 & A4 & A5). pose proof (wl_tree _ Hwl [] e (label_of b') HL0 A3) as HT.
        destruct (HC _ _ A3) as (lb & B1 & B2). rewrite HL0 in B1. injection B1 as <-. destruct B2 as [_ B2]. case_decide as E.
        * apply HT in E as (i' & v & E). destruct b'; try done. cbn in A4. by subst k'.
        * destruct b'; try done; cbn in B2, A4; subst; [done|]. exfalso. apply E, HT. by eexists _, _.
      + intros v p rr Hrr. rewrite shift_record in Hrr. destruct (record_of vs v p) as [r0|] eqn:E0; [|done]. injection Hrr as <-.
        assert (Hwk : well_keyed vs) by by eapply stored_keyed. pose proof (kids_vget true vs v p (wk_ok _ Hwk)) as Hd. change (vget vs v p) with (record_of vs v p) in Hd. rewrite E0 in Hd. cbn in Hd.
        destruct (Hkid eq_refl _ _ Hd) as (k' & ref' & b' & A1 & A2 & A3 & A4 & A5). pose proof (wl_list _ Hwl [] _ _ _ _ HL0 A3) as HT.
        destruct (HC _ _ A3) as (lb & B1 & B2). rewrite HL0 in B1. injection B1 as <-. destruct B2 as (ts & tr & B2 & B3). rewrite HT in B3. destruct B3 as [_ ->].
        apply in_map_iff in B2 as ([v' r1] & B2 & B4). cbn [fst snd] in B2. injection B2 as -> E1 _ E2. apply records_in in B4; [|done]. rewrite E1, E0 in B4. injection B4 as <-.
        destruct (vr_elt r0) as [i|i] eqn:Ee; [|done]. exists (n + i)%N. split; [cbn; by rewrite Ee|]. destruct b'; try done. cbn in HT, A4. injection HT as ->. by subst k'.
      + intros u x Hd. rewrite dget_shift in Hd. destruct (dget d u) as [i|] eqn:Ei; [|done]. injection Hd as <-. rewrite <- kids_uuids in Ei.
        destruct (Hkid eq_refl _ _ Ei) as (k' & ref' & b' & A1 & A2 & A3 & A4 & A5).
        destruct (HC _ _ A3) as (lb & B1 & B2). rewrite HL0 in B1. injection B1 as <-. destruct B2 as [_ [rs B2]]. destruct b'; try done. cbn in B2, A4. injection B2 as -> _. by subst k'.
    - intros Hmk x i Hxi. destruct (Hkid Hmk x i Hxi) as (k' & ref' & b' & A1 & A2 & _). eexists. split; [exact A1|]. cbn. split; [done|]. cbn. split; [by destruct k' ; intros ? [= <-]|].
      exists ref'. split; [done|]. rewrite kind_empty. split; [|done]. destruct (is_none_reference ref'); [by left|right]. destruct r as [|c0 r0]; [done|]; by apply elem_of_singleton.
  Qed.
  Lemma od_grown D s (l : loc) hx b0 ref b ks s' x' : wf s -> od D (s_heap s) -> D l -> s_heap s !! l = Some (Obj hx b0) -> 
    well_formed (look_stored O (kind_of b0) ref) -> stored O (kind_of b0) ref = Ok (b, ks) -> grown r s l (Obj x' (shift (s_next s) b)) ks s' ->
    (h_mapped x' = true \/ (h_mapped x' = false /\ to_load O r (Obj x' (shift (s_next s) b)))) ->
    exists D1, od D1 (s_heap s') /\ stay D (s_heap s) D1 (s_heap s') /\ parts_fit D1 (s_heap s') (shift (s_next s) b).
  Proof.
    intros Hw Hi Hl Ho Hwl Hs Hg Hm. set (n := s_next s) in *. set (D1 := and_kids D n b). pose proof (stored_kind _ _ _ _ _ Hs) as Hkb.
    assert (Hst : stay D (s_heap s) D1 (s_heap s')).
    { intros x k [Hx (o & Hox & Hkx)]. split; [by left|]. destruct (decide (x = l)) as [->|Hne].
      - eexists. split; [apply Hg|]. cbn. rewrite shift_kind. rewrite Ho in Hox. injection Hox as <-. cbn in Hkx. congruence.
      - exists o. rewrite (gr_old _ _ _ _ _ _ Hg); [done|done|]. by apply (proj1 Hw x o). }
    rewrite <- Hkb in Hs, Hwl. destruct (kids_ready D1 (s_heap s') n b ks ref Hs Hwl (gr_kids _ _ _ _ _ _ Hg)) as [Hpf Hkid]; [intros Hmk x i Hx; right; eauto|].
    exists D1. split; [|split; [done|done]]. intros y [Hy|[Hmk (x & i & Hxi & ->)]]; [|by apply (Hkid Hmk x)].
    destruct (decide (y = l)) as [->|Hne].
    - eexists. split; [apply Hg|]. cbn [o_hdr o_body]. by destruct Hm as [-> |[-> Hm]].
    - destruct (Hi y Hy) as (o & Hyo & Hfo). exists o. rewrite (gr_old _ _ _ _ _ _ Hg); [|done|by apply (proj1 Hw y o)]. split; [done|].
      destruct (h_mapped (o_hdr o)); [|done]. by eapply fit_stay.
  Qed.

  (** ** Loading *)
  Notation steps D s s1 D1 := (wf s1 /\ loads s s1 /\ od D1 (s_heap s1) /\ stay D (s_heap s) D1 (s_heap s1)).
  Lemma od_old D (x : loc) s o ref : heap_ok s -> s_heap s !! x = Some o -> h_mapped (o_hdr o) = false -> h_ref (o_hdr o) = Some ref -> to_load O r o ->
    exists b ks, h_realm (o_hdr o) = Some r /\ blank (o_body o) /\ (x < s_next s)%N /\ (is_none_reference ref = false -> r ∈ h_saved (o_hdr o)) /\
      well_formed (look_stored O (kind_of (o_body o)) ref) /\ stored O (kind_of (o_body o)) ref = Ok (b, ks).
  Proof.
    intros Hok Ho Hm Hrf (H1 & H2 & ref' & H3 & H4 & H5). rewrite Hrf in H3. injection H3 as <-. destruct (Hok x o Ho) as (A1 & A2 & A3 & _).
    destruct (look_stored_ok O (kind_of (o_body o)) ref []) as [[b ks] Hs]; [apply (wl_complete _ H5)|]. exists b, ks. split_and!; try done; [by split; [apply A3|]|].
    intros Hn. destruct H4 as [H4|]; [congruence|done].
  Qed.
  Lemma od_load D fuel (x : loc) k s : wf s -> od D (s_heap s) -> is_a D (s_heap s) x k ->
    exists b s1 D1, exec (ensure_mapped fuel x s) g = ((Ok b, s1), g) /\ steps D s s1 D1 /\
      exists hx bx, s_heap s1 !! x = Some (Obj hx bx) /\ h_mapped hx = true /\ kind_of bx = k /\ parts_fit D1 (s_heap s1) bx.
  Proof.
    intros Hw Hi [Hx ([hx bx] & Ho & Hk)]. destruct (Hi x Hx) as (o & Ho' & Hf). rewrite Ho in Ho'. injection Ho' as <-. cbn [o_hdr o_body] in *. destruct (h_mapped hx) eqn:Hm.
    - exists false, s, D. split; [by eapply x_mapped_noop|]. split; [split_and!; [done|apply lo_refl|done|by intros ? ? ?]|]. by exists hx, bx.
    - pose proof Hf as (_ & _ & ref & Hrf & _). destruct (od_old D x s _ ref (proj1 Hw) Ho Hm Hrf Hf) as (b & ks & A1 & A2 & A3 & A4 & A5 & A6). cbn [o_hdr o_body] in *.
      destruct (x_load r g Hrem fuel s x hx bx ref b ks Ho A3 A2 Hr Hm A1 Hrf A4 A6) as (s1 & x' & E & Hg & Hm' & _).
      destruct (od_grown D s x hx bx ref b ks s1 x' Hw Hi Hx Ho A5 A6 Hg (or_introl Hm')) as (D1 & B1 & B2 & B3).
      destruct (st_ensure _ _ _ _ _ _ _ Hw (mk_is_Some _ _ Ho) E) as (C1 & C2 & _). exists true, s1, D1. split; [done|]. split; [done|].
      eexists _, _. split; [apply Hg|]. split; [done|]. split; [|done]. rewrite shift_kind. rewrite <- Hk. by eapply stored_kind.
  Qed.
  Lemma od_read D fuel (x : loc) k s : wf s -> od D (s_heap s) -> is_a D (s_heap s) x k ->
    exists s1 D1, exec (read_in fuel x s) g = ((Ok tt, s1), g) /\ steps D s s1 D1.
  Proof.
    intros Hw Hi [Hx ([hx bx] & Ho & Hk)]. destruct (Hi x Hx) as (o & Ho' & Hf). rewrite Ho in Ho'. injection Ho' as <-. cbn [o_hdr o_body] in *. destruct (h_mapped hx) eqn:Hm.
    - exists s, D. split; [by eapply x_read_noop|]. split_and!; [done|apply lo_refl|done|by intros ? ? ?].
    - pose proof Hf as (Hrl & Hbm & ref & Hrf & Hsv & Hwl). destruct (od_old D x s _ ref (proj1 Hw) Ho Hm Hrf Hf) as (b & ks & A1 & A2 & A3 & A4 & A5 & A6). cbn [o_hdr o_body] in *.
      destruct (x_read_in r g Hrem fuel s x hx bx ref b ks Ho A3 A2 Hr Hm A1 Hrf A4 A6) as (s1 & x' & E & Hg & Hm' & Hfr).
      destruct (od_grown D s x hx bx ref b ks s1 x' Hw Hi Hx Ho A5 A6 Hg) as (D1 & B1 & B2 & B3).
      { destruct (is_none_reference ref) eqn:En; [|by left]. right. split; [done|]. destruct Hfr as (F1 & F2 & F3 & F4 & F5). split; [done|]. cbn [o_hdr o_body]. 
        assert (Hkb : kind_of b = kind_of bx) by by eapply stored_kind. split.
        - intros m Eb. exfalso. unfold stored in A6. rewrite En in A6. destruct (kind_of bx); try discriminate A6. destruct (jis_str _ _); [|discriminate A6]. injection A6 as <- <-. discriminate Eb.
        - exists ref. split; [destruct F2 as [F2|[_ F2]]; [done|congruence]|]. split; [by left|]. by rewrite shift_kind, Hkb. }
      destruct (st_read_in _ _ _ _ _ _ Hw (mk_is_Some _ _ Ho) E) as (C1 & C2). by exists s1, D1.
  Qed.

  (** ** Changes *)
  Lemma od_put D s l hx b b' : od D (s_heap s) -> D l -> s_heap s !! l = Some (Obj hx b) -> h_mapped hx = true -> kind_of b' = kind_of b -> parts_fit D (s_heap s) b' ->
    let h' := <[l := Obj (hd_saved ∅ hx) b']> (s_heap s) in od D h' /\ stay D (s_heap s) D h'.
  Proof.
    intros Hi Hl Ho Hm Hk Hf h'. assert (Hs : stay D (s_heap s) D h').
    { intros x k [Hx (o & Hox & Hkx)]. split; [done|]. unfold h'. rewrite heap_insert. case_decide as E; [|by exists o]. subst x. rewrite Ho in Hox. injection Hox as <-. eexists. split; [done|]. cbn in *. congruence. }
    split; [|done]. intros x Hx. destruct (Hi x Hx) as (o & Hox & Hfo). unfold h' at 1. rewrite heap_insert. case_decide as E.
    - subst x. rewrite Ho in Hox. injection Hox as <-. eexists. split; [done|]. cbn [o_hdr o_body hd_saved h_mapped]. rewrite Hm. by eapply fit_stay.
    - exists o. split; [done|]. destruct (h_mapped (o_hdr o)); [|done]. by eapply fit_stay.
  Qed.
  Lemma od_new D s b : od D (s_heap s) -> fresh s -> parts_fit D (s_heap s) b ->
    let h' := <[s_next s := Obj (Hdr None None true ∅) b]> (s_heap s) in
    od (and_new D (s_next s)) h' /\ stay D (s_heap s) (and_new D (s_next s)) h' /\ is_a (and_new D (s_next s)) h' (s_next s) (kind_of b).
  Proof.
    intros Hi Hfr Hf h'.
    assert (Hold : forall (x : loc) o, s_heap s !! x = Some o -> h' !! x = Some o).
    { intros x o Hx. unfold h'. rewrite heap_insert, decide_False; [done|]. intros <-. rewrite (Hfr (s_next s)) in Hx by lia. done. }
    assert (Hs : stay D (s_heap s) (and_new D (s_next s)) h').
    { intros x k [Hx (o & Hox & Hkx)]. split; [by left|]. exists o. split; [by apply Hold|done]. }
    split; [|split; [done|]].
    - intros x [Hx| ->].
      + destruct (Hi x Hx) as (o & Hox & Hfo). exists o. split; [by apply Hold|]. destruct (h_mapped (o_hdr o)); [|done]. by eapply fit_stay.
      + eexists. unfold h' at 1. rewrite heap_insert, decide_True by done. split; [done|]. cbn [o_hdr o_body h_mapped]. by eapply fit_stay.
    - split; [by right|]. eexists. unfold h'. rewrite heap_insert, decide_True by done. split; done.
  Qed.
  Lemma od_alloc D b s x s' g' : od D (s_heap s) -> fresh s -> parts_fit D (s_heap s) b -> exec (new_obj b None None s) g = ((Ok x, s'), g') ->
    exists D', od D' (s_heap s') /\ stay D (s_heap s) D' (s_heap s') /\ is_a D' (s_heap s') x (kind_of b) /\ g' = g.
  Proof. intros Hi Hf Hp He. rewrite TreeEditFacts.x_new in He. injection He as <- <- <-. destruct (od_new D s b Hi Hf Hp) as (A1 & A2 & A3). by exists (and_new D (s_next s)). Qed.
  Definition ogoes D (s : pst) (s' : pst) (Q : (loc -> Prop) -> Prop) : Prop :=
    exists D', od D' (s_heap s') /\ stay D (s_heap s) D' (s_heap s') /\ Q D'.

  Lemma is_a_some D h x k : is_a D h x k -> is_Some (h !! x).
  Proof. intros [_ (o & -> & _)]. by eexists. Qed.
  (** the version list of a dataset *)
  Lemma od_dvl_in D fuel us u hx d s : wf s -> od D (s_heap s) -> is_a D (s_heap s) us KdUs -> s_heap s !! us = Some (Obj hx (BUset d)) -> h_mapped hx = true -> parts_fit D (s_heap s) (BUset d) ->
    exists x s', exec (dataset_version_list fuel us u true s) g = ((Ok (Some x), s'), g) /\ ogoes D s s' (fun D' => is_a D' (s_heap s') x (KdVl false)).
  Proof.
    intros Hw Hi Hus Ho Hm Hf. unfold dataset_version_list, uuids, uuid_entries. rewrite !x_bind, (x_mapped_noop _ _ _ _ _ Ho Hm). cbn beta iota.
    rewrite !x_bind, x_getobj, Ho. cbn beta iota. cbn [o_body]. rewrite x_ret. cbn beta iota. rewrite x_ret. cbn beta iota.
    destruct (dget d u) as [x|] eqn:Ed.
    - pose proof (Hf u x Ed) as Hx. destruct (od_read D fuel x _ s Hw Hi Hx) as (s1 & D1 & E1 & W1 & L1 & O1 & S1).
      rewrite bool_decide_true by (apply dget_is_Some; by rewrite Ed). unfold get_version_list, uuid_entries. rewrite !x_bind, (x_mapped_noop _ _ _ _ _ Ho Hm). cbn beta iota.
      rewrite !x_bind, x_getobj, Ho. cbn beta iota. cbn [o_body]. rewrite x_ret. cbn beta iota. rewrite Ed, x_bind, E1. cbn beta iota. rewrite x_ret. cbn beta iota. rewrite x_ret.
      exists x, s1. split; [done|]. exists D1. split; [done|]. split; [done|]. by apply S1.
    - rewrite bool_decide_false by (intros Hin; apply dget_is_Some in Hin; rewrite Ed in Hin; by destruct Hin).
      rewrite x_bind, TreeEditFacts.x_new. cbn beta iota.
      destruct (od_new D s (BVlist false []) Hi (ok_fresh _ (proj1 Hw)) I) as (A1 & A2 & A3). cbn zeta in *. set (D2 := and_new D (s_next s)) in *. set (s2 := PSt _ _ _ _ _ _). change (<[s_next s:=_]> (s_heap s)) with (s_heap s2) in A1, A2, A3.
      assert (Ho2 : s_heap s2 !! us = Some (Obj hx (BUset d))).
      { cbn. rewrite heap_insert, decide_False; [done|]. intros E. rewrite <- E in Ho. rewrite (ok_fresh _ (proj1 Hw)) in Ho by lia. done. }
      unfold set_version_list. rewrite x_bind, x_bind, (x_touch _ _ _ _ Ho2). cbn beta iota. cbn [o_hdr o_body].
      unfold uuid_entries. rewrite !x_bind, x_getobj. cbn [s_heap with_heap]. rewrite heap_insert, decide_True by done. cbn beta iota. cbn [o_body]. rewrite x_ret. cbn beta iota.
      erewrite WriteFacts.x_set_body by (cbn; rewrite heap_insert, decide_True; done). cbn beta iota. rewrite x_ret. eexists _, _. split; [done|].
      unfold ogoes, with_heap. cbn [s_heap o_hdr]. rewrite heap_ins2. destruct (od_put D2 s2 us hx (BUset d) (BUset (dset d u (s_next s))) A1) as [B1 B2].
      + by apply A2 in Hus as [? _].
      + done.
      + done.
      + done.
      + intros u' x'. rewrite dget_dset. case_decide; [by intros [= <-]|]. intros Hd. by apply A2, (Hf u').
      + exists D2. split; [done|]. split; [by eapply stay_trans|]. by apply B2.
  Qed.
  (** the first thing that happens is loading: the rest may start from there *)
  Lemma ensure_first {A : Type} fuel l (k : M pst A) s s1 b : exec (ensure_mapped fuel l s) g = ((Ok b, s1), g) -> (exists o, s_heap s1 !! l = Some o /\ h_mapped (o_hdr o) = true) ->
    exec ((ensure_mapped fuel l ;;; k) s) g = exec ((ensure_mapped fuel l ;;; k) s1) g.
  Proof. intros E ([hx bx] & Ho & Hm). by rewrite !x_bind, E, (x_mapped_noop _ _ _ _ _ Ho Hm). Qed.
  Lemma od_dvl D fuel us u s : wf s -> od D (s_heap s) -> is_a D (s_heap s) us KdUs ->
    exists x s', exec (dataset_version_list fuel us u true s) g = ((Ok (Some x), s'), g) /\ ogoes D s s' (fun D' => is_a D' (s_heap s') x (KdVl false)).
  Proof.
    intros Hw Hi Hus. destruct (od_load D fuel us _ s Hw Hi Hus) as (b & s1 & D1 & E1 & (W1 & L1 & O1 & S1) & hx & bx & Ho & Hm & Hk & Hf). destruct bx as [| | | | |d]; try done.
    destruct (od_dvl_in D1 fuel us u hx d s1 W1 O1 (S1 _ _ Hus) Ho Hm Hf) as (x & s' & E & D' & Q1 & Q2 & Q3).
    assert (Heq : exec (dataset_version_list fuel us u true s) g = exec (dataset_version_list fuel us u true s1) g).
    { assert (E2 : exec (uuids fuel us s) g = exec (uuids fuel us s1) g) by (apply (ensure_first _ _ _ _ _ _ E1); by eexists).
      unfold dataset_version_list. by rewrite (x_bind _ _ s), (x_bind _ _ s1), E2. }
    exists x, s'. rewrite Heq. split; [done|]. exists D'. split; [done|]. split; [by eapply stay_trans|done].
  Qed.
  Lemma od_set D fuel l v t p e hx k vs s : od D (s_heap s) -> D l -> s_heap s !! l = Some (Obj hx (BVlist k vs)) -> h_mapped hx = true ->
    (k = true -> exists x, e = ETree x /\ is_a D (s_heap s) x (KdNode LMrr)) ->
    exists s', exec (set_versioned_element fuel l v t p e s) g = ((Ok tt, s'), g) /\ od D (s_heap s') /\ stay D (s_heap s) D (s_heap s').
  Proof.
    intros Hi Hl Ho Hm He. eexists. split; [exact (set_one fuel l hx k vs (VCall v t p e) s g Ho Hm)|]. cbn [s_heap with_heap]. apply (od_put D s l hx (BVlist k vs)); try done.
    destruct k; [|done]. destruct (He eq_refl) as (x & -> & Hx). intros v' p' rr Hrr. cbn in Hrr.
    pose proof (vget_set vs v p (VRec t p (ETree x)) v' p') as HV. unfold vget in HV. unfold record_of in Hrr. unfold call_record in Hrr. cbn in Hrr. rewrite HV in Hrr. case_decide.
    - injection Hrr as <-. by exists x.
    - destruct (Hi l Hl) as (o & Ho' & Hf). rewrite Ho in Ho'. injection Ho' as <-. cbn [o_hdr o_body] in Hf. rewrite Hm in Hf. by apply (Hf v' p').
  Qed.
  Lemma has_first fuel l v p s s1 b : exec (ensure_mapped fuel l s) g = ((Ok b, s1), g) -> (exists o, s_heap s1 !! l = Some o /\ h_mapped (o_hdr o) = true) ->
    exec (has_version fuel l v p s) g = exec (has_version fuel l v p s1) g.
  Proof. 
    intros E Ho. assert (E2 : exec (versions_and_prefix_paths fuel l s) g = exec (versions_and_prefix_paths fuel l s1) g) by exact (ensure_first _ _ _ _ _ _ E Ho).
    unfold has_version. by rewrite (x_bind _ _ s), (x_bind _ _ s1), E2.
  Qed.
  Lemma od_register D fuel l v t p m s : wf s -> od D (s_heap s) -> is_a D (s_heap s) l (KdVl false) ->
    exists s', exec (register_record fuel l v t p m s) g = ((Ok tt, s'), g) /\ ogoes D s s' (fun _ => True).
  Proof.
    intros Hw Hi Hl. destruct (od_load D fuel l _ s Hw Hi Hl) as (b & s1 & D1 & E1 & (W1 & L1 & O1 & S1) & hx & bx & Ho & Hm & Hk & _). destruct bx as [| | | |k vs|]; try done. cbn in Hk. injection Hk as ->.
    assert (Heq : exec (register_record fuel l v t p m s) g = exec (register_record fuel l v t p m s1) g).
    { unfold register_record. rewrite (x_bind _ _ s), (x_bind _ _ s1), (has_first _ _ _ _ _ _ _ E1) by by eexists. done. }
    rewrite Heq. destruct (record_of vs v p) as [rr|] eqn:Er.
    - exists s1. split; [|exists D1; by split_and!]. apply (rp_register _ _ _ _ _ _ (fun _ => True)); [done|]. by exists hx, false, vs, rr.
    - unfold register_record. rewrite x_bind, (rp_hasnt _ _ _ _ _ _ _ _ _ W1 Ho Hm Er). cbn beta iota.
      destruct (od_set D1 fuel l v t p (EMrr m) hx false vs s1 O1 (proj1 (S1 _ _ Hl)) Ho Hm) as (s' & E & Q1 & Q2); [done|]. exists s'. split; [done|]. exists D1. split; [done|]. split; [by eapply stay_trans|done].
  Qed.
  Lemma od_tree D fuel l v p t s : wf s -> od D (s_heap s) -> is_a D (s_heap s) l (KdVl true) ->
    exists x s', exec (version_tree fuel l v p t true s) g = ((Ok (Some x), s'), g) /\ ogoes D s s' (fun D' => is_a D' (s_heap s') x (KdNode LMrr)).
  Proof.
    intros Hw Hi Hl. destruct (od_load D fuel l _ s Hw Hi Hl) as (b & s1 & D1 & E1 & (W1 & L1 & O1 & S1) & hx & bx & Ho & Hm & Hk & Hf). destruct bx as [| | | |k vs|]; try done. cbn in Hk. injection Hk as ->.
    assert (Heq : exec (version_tree fuel l v p t true s) g = exec (version_tree fuel l v p t true s1) g).
    { unfold version_tree. rewrite (x_bind _ _ s), (x_bind _ _ s1), (has_first _ _ _ _ _ _ _ E1) by by eexists. done. }
    rewrite Heq. destruct (record_of vs v p) as [rr|] eqn:Er.
    - destruct (Hf v p rr Er) as (x & Hx & Hxx). destruct (od_read D1 fuel x _ s1 W1 O1 Hxx) as (s2 & D2 & E2 & W2 & L2 & O2 & S2).
      assert (Hin : in_list s1 l v p (is_tree x)) by by exists hx, true, vs, rr.
      unfold version_tree. rewrite x_bind, (rp_has _ _ _ _ _ _ _ W1 Hin). cbn beta iota. unfold get_versioned_element. rewrite !x_bind, (x_mapped_noop _ _ _ _ _ Ho Hm). cbn beta iota.
      assert (Eg : exec (get_version_record fuel l v p s1) g = ((Ok rr, s1), g)).
      { unfold get_version_record. rewrite x_bind, (x_mapped_noop _ _ _ _ _ Ho Hm). cbn beta iota. rewrite x_bind, (x_versions _ _ _ _ _ _ Ho). cbn beta iota. cbn [snd].
        unfold record_of in Er. destruct (dget vs v); [|done]. by rewrite Er. }
      rewrite x_bind, Eg. cbn beta iota. unfold elt_read_in. rewrite Hx. cbn [elt_loc]. rewrite x_bind, E2. cbn beta iota. rewrite x_ret. cbn beta iota. rewrite Hx, x_ret.
      exists x, s2. split; [done|]. exists D2. split; [done|]. split; [by eapply stay_trans|by apply S2].
    - unfold version_tree. rewrite x_bind, (rp_hasnt _ _ _ _ _ _ _ _ _ W1 Ho Hm Er). cbn beta iota. rewrite x_bind, TreeEditFacts.x_new. cbn beta iota.
      destruct (od_new D1 s1 (BNode LMrr []) O1 (ok_fresh _ (proj1 W1))) as (A1 & A2 & A3); [done|]. cbn zeta in *. set (D2 := and_new D1 (s_next s1)) in *. set (s2 := PSt _ _ _ _ _ _). change (<[s_next s1:=_]> (s_heap s1)) with (s_heap s2) in A1, A2, A3.
      assert (Ho2 : s_heap s2 !! l = Some (Obj hx (BVlist true vs))).
      { cbn. rewrite heap_insert, decide_False; [done|]. intros E. rewrite <- E in Ho. rewrite (ok_fresh _ (proj1 W1)) in Ho by lia. done. }
      destruct (od_set D2 fuel l v t p (ETree (s_next s1)) hx true vs s2 A1 (proj1 (A2 _ _ (S1 _ _ Hl))) Ho2 Hm) as (s3 & E3 & B1 & B2); [intros _; eexists; by split|].
      rewrite x_bind, E3. cbn beta iota. rewrite x_ret. eexists _, _. split; [done|]. exists D2. split; [done|]. split; [|by apply B2].
      eapply stay_trans; [exact S1|]. by eapply stay_trans.
  Qed.

  (** ** Paths of a dataset tree *)
  Lemma od_peek D h : od D h -> forall parts l y, is_a D h l (KdNode LMrr) -> ~ In root_record_name parts -> peek h l parts = Some (Some y) -> is_a D h y (KdNode LMrr).
  Proof.
    intros Hi. induction parts as [|e q IH]; intros l y Hl Hn; cbn [peek]; [by intros [= <-]|]. destruct Hl as [Hl ([hx b] & Ho & Hk)]. destruct (Hi l Hl) as (o & Ho' & Hf). rewrite Ho in Ho'. injection Ho' as <-.
    rewrite Ho. cbn [o_hdr o_body] in *. destruct b as [| |c d| | |]; try done. cbn in Hk. injection Hk as ->. destruct (h_mapped hx); [|done].
    destruct (dget d e) as [x|] eqn:Ed; [|done]. apply IH; [|intros ?; apply Hn; by right]. specialize (Hf e x Ed). cbn in Hf. rewrite decide_False in Hf; [done|]. intros ->. apply Hn. by left.
  Qed.
  Lemma od_child D fuel l e s : wf s -> od D (s_heap s) -> is_a D (s_heap s) l (KdNode LMrr) ->
    exists res s1 D1, exec (get_child fuel l e s) g = ((Ok res, s1), g) /\ steps D s s1 D1 /\ forall x, res = Some x -> is_a D1 (s_heap s1) x (if decide (e = root_record_name) then KdMrr else KdNode LMrr).
  Proof.
    intros Hw Hi Hl. destruct (od_load D fuel l _ s Hw Hi Hl) as (b & s1 & D1 & E1 & Hst & hx & bx & Ho & Hm & Hk & Hf). destruct bx as [| |c d| | |]; try done. cbn in Hk. injection Hk as ->.
    exists (dget d e), s1, D1. split; [unfold get_child; rewrite (ensure_first _ _ _ _ _ _ E1) by (by eexists); exact (x_get_child fuel l hx LMrr d e s1 g Ho Hm)|]. split; [done|]. intros x Hx. by apply Hf.
  Qed.
  Lemma od_walk fuel : forall parts D l s, wf s -> od D (s_heap s) -> is_a D (s_heap s) l (KdNode LMrr) -> ~ In root_record_name parts ->
    exists res s1 D1, exec (walk fuel l (parts ++ [root_record_name]) s) g = ((Ok res, s1), g) /\ steps D s s1 D1 /\ forall x, res = Some x -> is_a D1 (s_heap s1) x KdMrr.
  Proof.
    assert (HN : forall D l s, is_a D (s_heap s) l (KdNode LMrr) -> exec (is_mtreenode l s) g = ((Ok true, s), g)).
    { intros D l s [_ (o & Ho & Hk)]. rewrite (x_is_node _ _ _ _ Ho). unfold is_node. by destruct (o_body o). }
    induction parts as [|e q IH]; intros D l s Hw Hi Hl Hn; cbn [app walk].
    - destruct (od_child D fuel l root_record_name s Hw Hi Hl) as (res & s1 & D1 & E1 & Hst & Hx). rewrite x_bind, (HN D l s Hl). cbn beta iota. rewrite x_bind, E1. cbn beta iota.
      rewrite decide_True in Hx by done. exists res, s1, D1. split; [|done]. destruct res; by rewrite x_ret.
    - destruct (od_child D fuel l e s Hw Hi Hl) as (res & s1 & D1 & E1 & (W1 & L1 & O1 & S1) & Hx). rewrite x_bind, (HN D l s Hl). cbn beta iota. rewrite x_bind, E1. cbn beta iota.
      rewrite decide_False in Hx by (intros ->; apply Hn; by left). destruct res as [x|].
      + destruct (IH D1 x s1 W1 O1 (Hx x eq_refl)) as (res & s2 & D2 & E2 & (W2 & L2 & O2 & S2) & Hx2); [intros ?; apply Hn; by right|].
        exists res, s2, D2. split; [done|]. split; [|done]. split_and!; [done|by eapply lo_trans|done|by eapply stay_trans].
      + rewrite x_ret. exists None, s1, D1. by split_and!.
  Qed.
  Lemma od_add n : forall D fuel l child p q s s' g', od D (s_heap s) -> fresh s -> wfp p -> all_parts p = q ++ [root_record_name] -> ~ In root_record_name q ->
    peek (s_heap s) l (q ++ [root_record_name]) = Some None ->
    is_a D (s_heap s) l (KdNode LMrr) -> is_a D (s_heap s) child KdMrr -> exec (add_child_at_n n fuel l child p s) g = ((Ok tt, s'), g') -> ogoes D s s' (fun _ => g' = g).
  Proof.
    induction n as [|n IH]; intros D fuel l child p q s s' g' Hi Hfr Hp Hall Hnq Hpk Hl Hc He; cbn [add_child_at_n] in He; rewrite Hall in He.
    all: assert (Hg : good_names (q ++ [root_record_name])) by (rewrite <- Hall, wfp_all by done; apply Hp).
    all: pose proof Hl as [HDl ([hx b] & Ho & Hk)]; destruct (Hi l HDl) as (o & Ho' & Hf); rewrite Ho in Ho'; injection Ho' as <-; cbn [o_hdr o_body] in Hf, Hk; destruct b as [| |c d| | |]; try done; cbn in Hk; injection Hk as ->.
    all: assert (Hm : h_mapped hx = true) by (destruct q; cbn [app peek] in Hpk; rewrite Ho in Hpk; cbn [o_body o_hdr] in Hpk; by destruct (h_mapped hx)); rewrite Hm in Hf.
    all: destruct q as [|e q]; cbn [app] in He, Hg; cbn [app peek] in Hpk; rewrite Ho in Hpk; cbn [o_body o_hdr] in Hpk; rewrite Hm in Hpk.
    all: apply List.Forall_cons_iff in Hg as [Hge Hgr]; rewrite x_bind, (x_get_child _ _ _ _ _ _ _ _ Ho Hm) in He; cbn beta iota in He.
    1,3: apply xi_bind in He as (nd & s1 & g1 & E1 & He); destruct (dget d root_record_name) as [y|] eqn:Ed; [done|].
    1,2: apply xi_ret in E1 as (<- & <- & <-); rewrite (x_add_child _ _ _ _ _ _ _ _ _ Hge Ho Hm), Ed in He; injection He as <- <-; exists D.
    1,2: destruct (od_put D s l hx (BNode LMrr d) (BNode LMrr (dset d root_record_name child)) Hi (proj1 Hl) Ho Hm eq_refl) as [B1 B2]; [|split; [exact B1|split; [exact B2|done]]].
    1,2: intros e' x'; rewrite dget_dset; case_decide as Ee; [subst e'; intros [= <-]; by rewrite decide_True|apply Hf].
    all: assert (Hne : e <> root_record_name) by (intros ->; apply Hnq; by left).
    all: assert (Hq : ~ In root_record_name q) by (intros ?; apply Hnq; by right).
    all: assert (Hcons : exists e2 z, q ++ [root_record_name] = e2 :: z) by (destruct q; by eexists _, _); destruct Hcons as (e2 & z & Ez); rewrite Ez in He, Hgr; cbn beta iota in He.
    all: apply xi_bind in He as (y & s1 & g1 & E1 & He); apply xi_bind in He as (nd & s2 & g2 & E2 & He).
    { exfalso. destruct nd; done. }
    destruct (parts_again (e2 :: z) Hgr) as [Hall2 Hwf2]. rewrite <- Ez in Hall2 at 2.
    assert (Hy : g1 = g /\ fresh s1 /\ peek (s_heap s1) y (q ++ [root_record_name]) = Some None /\ ogoes D s s1 (fun D' => is_a D' (s_heap s1) y (KdNode LMrr))).
    { destruct (dget d e) as [y0|] eqn:Ed.
      - apply xi_ret in E1 as (<- & <- & <-). split; [done|]. split; [done|]. split; [done|]. exists D. split; [done|]. split; [by intros ? ? ?|]. specialize (Hf e y0 Ed). cbn in Hf. by rewrite decide_False in Hf.
      - rewrite x_bind, (x_children _ _ _ _ _ _ Ho) in E1. cbn beta iota in E1. rewrite x_bind, TreeEditFacts.x_new in E1. cbn beta iota in E1. cbn [fst] in E1.
        destruct (od_new D s (BNode LMrr []) Hi Hfr) as (A1 & A2 & A3); [done|]. cbn zeta in *. set (D2 := and_new D (s_next s)) in *. set (s3 := PSt _ _ _ _ _ _) in *. change (<[s_next s:=_]> (s_heap s)) with (s_heap s3) in A1, A2, A3.
        assert (Hln : l <> s_next s). { intros E. rewrite E in Ho. rewrite (Hfr (s_next s)) in Ho by lia. done. }
        assert (Ho3 : s_heap s3 !! l = Some (Obj hx (BNode LMrr d))).
        { cbn. rewrite heap_insert, decide_False; done. }
        rewrite x_bind, (x_add_child _ _ _ _ _ _ _ _ _ Hge Ho3 Hm), Ed in E1. cbn beta iota in E1. apply xi_ret in E1 as (<- & <- & <-). split; [done|]. split; [|split].
        + intros w Hw. cbn in Hw |- *. rewrite !heap_insert. case_decide as E; [subst w; rewrite Hfr in Ho by lia; done|]. case_decide; [lia|]. apply Hfr. lia.
        + rewrite Ez. cbn [peek]. cbn [s_heap with_heap]. rewrite heap_insert, decide_False by done. unfold s3. cbn [s_heap]. rewrite heap_insert, decide_True by done. done.
        + destruct (od_put D2 s3 l hx (BNode LMrr d) (BNode LMrr (dset d e (s_next s))) A1 (proj1 (A2 _ _ Hl)) Ho3 Hm eq_refl) as [B1 B2].
          * intros e' x'. rewrite dget_dset. case_decide as Ee; [subst e'; intros [= <-]; by rewrite decide_False|]. intros Hd. apply A2. by apply Hf.
          * exists D2. split; [done|]. split; [by eapply stay_trans|]. by apply B2. }
    destruct Hy as (-> & Hfr1 & Hpk1 & D1 & Hi1 & Hs1 & Hy1). pose proof Hy1 as [_ ([hy by_] & Hoy & Hky)]. rewrite (x_is_node _ _ _ _ Hoy) in E2. injection E2 as <- <- <-.
    destruct by_ as [| |cy dy| | |]; try done. cbn in He.
    destruct (IH D1 fuel y child _ q s1 s' g' Hi1 Hfr1 Hwf2 Hall2 Hq Hpk1 Hy1 (Hs1 _ _ Hc) He) as (D3 & C1 & C2 & ->). exists D3. split; [done|]. split; [by eapply stay_trans|done].
  Qed.
  Lemma od_record_in D fuel t p u v res s : wf s -> wfp p -> ~ In root_record_name (all_parts p) -> od D (s_heap s) -> is_a D (s_heap s) t (KdNode LMrr) ->
    peek (s_heap s) t (all_parts (record_path p)) = Some res -> (forall x, res = Some x -> is_a D (s_heap s) x KdMrr) ->
    exists x s', exec (tree_record fuel t p u v true s) g = ((Ok (Some x), s'), g) /\ ogoes D s s' (fun D' => is_a D' (s_heap s') x KdMrr).
  Proof.
    intros Hw Hp Hn Hi Ht Hrr Hrk. destruct (record_path_parts p Hp) as [HwR HR].
    unfold tree_record, dataset_in, get_object_at_path. rewrite !x_bind, (walk_peek _ _ _ _ _ _ Hrr). cbn beta iota. rewrite x_ret. cbn beta iota. destruct res as [x|]; cbn [is_some].
    - specialize (Hrk x eq_refl). unfold get_metadata_root_record, get_object_at_path. rewrite !x_bind, (walk_peek _ _ _ _ _ _ Hrr). cbn beta iota.
      pose proof Hrk as [_ ([hx bx] & Ho & Hk)]. rewrite x_bind, x_getobj, Ho. cbn beta iota. cbn [o_body] in *. destruct bx; try done.
      destruct (od_load D fuel x _ s Hw Hi Hrk) as (b & s1 & D1 & E1 & (W1 & L1 & O1 & S1) & _). rewrite x_bind, E1. cbn beta iota. rewrite x_ret. exists x, s1. split; [done|]. exists D1. split; [done|]. split; [done|by apply S1].
    - destruct (exec (new_root_record (Some u) (Some v) s) g) as [[[x|e] sC] gC] eqn:EC; [|done].
      assert (EC' := EC). unfold new_root_record in EC. apply xi_bind in EC as (xa & sA & gA & EA & EC).
      destruct (st_new _ _ _ _ _ _ Hw EA) as (HwA & HlA & _ & _ & _); [done|apply NoDup_nil_2|by apply bk_other|].
      destruct (od_alloc D (BMeta []) _ _ _ _ Hi (ok_fresh _ (proj1 Hw)) I EA) as (DA & A1 & A2 & A3 & ->). apply xi_bind in EC as (xb & sB & gB & EB & EC).
      destruct (st_new _ _ _ _ _ _ HwA EB) as (HwB & HlB & HnB & _ & _); [done|apply NoDup_nil_2|by apply bk_other|].
      destruct (od_alloc DA (BNode LMeta []) _ _ _ _ A1 (ok_fresh _ (proj1 HwA)) I EB) as (DB & B1 & B2 & B3 & ->).
      destruct (st_new _ _ _ _ _ _ HwB EC) as (HwC & HlC & _ & _ & _).
      { intros z. cbn. intros [<-|[<-|[]]]; [destruct (B2 _ _ A3) as [_ (o & -> & _)]; by eexists|by eexists]. }
      { cbn. apply NoDup_cons_2; [|apply NoDup_cons_2; [|apply NoDup_nil_2]]; rewrite ?elem_of_cons, ?elem_of_nil; intros Hin; repeat destruct Hin as [Hin|Hin]; done. }
      { by apply bk_other. }
      destruct (od_alloc DB (BMrr (Some u) (Some v) (Some xa) (Some xb)) _ _ _ _ B1 (ok_fresh _ (proj1 HwB)) I EC) as (DC & C1 & C2 & C3 & ->).
      cbn [kind_of] in C3. assert (Hst : stay D (s_heap s) DC (s_heap sC)) by (eapply stay_trans; [exact A2|]; eapply stay_trans; [exact B2|exact C2]).
      assert (Hlo : loads s sC) by (eapply lo_trans; [exact HlA|]; eapply lo_trans; [exact HlB|exact HlC]).
      pose proof (loads_peek _ _ Hlo _ _ _ Hrr) as HrC. pose proof (Hst _ _ Ht) as HtC.
      rewrite x_bind, EC'. cbn beta iota. unfold add_dataset, add_child_at.
      destruct (add_outcome (length (all_parts (record_path p))) fuel t x (record_path p) sC g None (proj1 HwC) HwR) as [_ Hadd].
      { rewrite HR. by destruct (all_parts p). }
      { done. }
      { destruct HtC as [_ ([ho [| |c d| | |]] & Ho & Hk)]; try done. by exists ho, c, d. }
      { done. }
      destruct (Hadd eq_refl) as (s4 & E4).
      { intros (q & z & y & Hq & Hz & Heq & Hpq & Hnode). rewrite HR in Heq. destruct z as [|z0 z] using rev_ind; [done|]. rewrite app_assoc in Heq. apply app_inj_tail in Heq as [Heq _].
        assert (Hy : is_a DC (s_heap sC) y (KdNode LMrr)). { eapply od_peek; [exact C1|exact HtC| |exact Hpq]. intros Hin. apply Hn. rewrite Heq. apply in_app_iff. by left. }
        destruct Hy as [_ ([ho [| |c d| | |]] & Ho & Hk)]; try done. apply Hnode. by exists ho, c, d. }
      rewrite x_bind, E4. cbn beta iota. rewrite x_ret. eexists _, _. split; [done|]. rewrite HR in HrC.
      destruct (od_add _ DC fuel t x (record_path p) (all_parts p) sC s4 g C1 (ok_fresh _ (proj1 HwC)) HwR HR Hn HrC HtC C3 E4) as (D4 & F1 & F2 & _).
      exists D4. split; [done|]. split; [by eapply stay_trans|]. by apply F2.
  Qed.
  Lemma od_record D fuel t p u v s : wf s -> wfp p -> ~ In root_record_name (all_parts p) -> od D (s_heap s) -> is_a D (s_heap s) t (KdNode LMrr) ->
    exists x s', exec (tree_record fuel t p u v true s) g = ((Ok (Some x), s'), g) /\ ogoes D s s' (fun D' => is_a D' (s_heap s') x KdMrr).
  Proof.
    intros Hw Hp Hn Hi Ht. destruct (record_path_parts p Hp) as [HwR HR]. destruct (od_walk fuel (all_parts p) D t s Hw Hi Ht Hn) as (res & s1 & D1 & E1 & (W1 & L1 & O1 & S1) & Hx). rewrite <- HR in E1.
    destruct (gs_walk fuel _ t s g _ _ _ (proj1 Hw) (is_a_some _ _ _ _ Ht) E1) as [_ [_ Hpk]].
    destruct (od_record_in D1 fuel t p u v res s1 W1 Hp Hn O1 (S1 _ _ Ht) Hpk Hx) as (x & s' & E & D' & Q1 & Q2 & Q3).
    exists x, s'. split; [|exists D'; split; [done|]; split; [by eapply stay_trans|done]].
    rewrite <- E. unfold tree_record, dataset_in, get_object_at_path. by rewrite (x_bind _ _ s), (x_bind _ _ s1), (x_bind _ _ s), (x_bind _ _ s1), E1, (walk_peek _ _ _ _ _ _ Hpk).
  Qed.
  Notation call := get_metadata_root_record_from_top_nodes.
  Lemma C43_returns_loading_lemma D fuel tvl us u v prefix q ru rv now s : heap_ok s -> lists_keyed s -> is_metadata_path q -> ~ In root_record_name (all_parts q) ->
    od D (s_heap s) -> is_a D (s_heap s) tvl (KdVl true) -> is_a D (s_heap s) us KdUs -> (q = no_path \/ is_Some ru /\ is_Some rv) ->
    exists m s' D', exec (call fuel tvl us u v prefix q ru rv true now s) g = ((Ok (Some m), s'), g) /\
      od D' (s_heap s') /\ (forall x k, is_a D (s_heap s) x k -> is_a D' (s_heap s') x k) /\ is_a D' (s_heap s') m KdMrr.
  Proof.
    intros H1 H2 Hq%mpath_wf Hn Hi Ht Hu Hrr. pose proof (conj H1 H2 : wf s) as Hw. unfold get_metadata_root_record_from_top_nodes. change (MetadataPath [AStr []]) with no_path. cbn zeta.
    assert (Hnp : ~ In root_record_name (all_parts no_path)) by (intros Hx; vm_compute in Hx; destruct Hx).
    (* the part for the record itself *)
    assert (Hend : forall D1 s1 tree p', wf s1 -> od D1 (s_heap s1) -> is_a D1 (s_heap s1) us KdUs -> is_a D1 (s_heap s1) tree (KdNode LMrr) ->
      exists m s' D', exec (obind (dataset_version_list fuel us u true) (fun vl => obind (tree_record fuel tree q u v true) (fun mrr => register_record fuel vl v (now 3%nat) p' mrr ;;; mret (Some mrr))) s1) g = ((Ok (Some m), s'), g) /\
        od D' (s_heap s') /\ stay D1 (s_heap s1) D' (s_heap s') /\ is_a D' (s_heap s') m KdMrr).
    { intros D1 s1 tree p' Hw1 Hi1 Hu1 Ht1. destruct (od_dvl D1 fuel us u s1 Hw1 Hi1 Hu1) as (vl & s2 & E2 & D2 & Hi2 & Hs2 & Hvl).
      destruct (st_dvl _ _ _ _ _ _ _ _ _ Hw1 (is_a_some _ _ _ _ Hu1) E2) as (Hw2 & _). unfold obind at 1. rewrite x_bind, E2. cbn beta iota.
      destruct (od_record D2 fuel tree q u v s2 Hw2 Hq Hn Hi2 (Hs2 _ _ Ht1)) as (m & s3 & E3 & D3 & Hi3 & Hs3 & Hm).
      destruct (st_record _ _ _ _ _ _ _ _ _ _ _ Hw2 Hq (is_a_some _ _ _ _ (Hs2 _ _ Ht1)) E3) as (Hw3 & _). unfold obind. rewrite x_bind, E3. cbn beta iota.
      destruct (od_register D3 fuel vl v (now 3%nat) p' m s3 Hw3 Hi3 (Hs3 _ _ Hvl)) as (s4 & E4 & D4 & Hi4 & Hs4 & _). rewrite x_bind, E4. cbn beta iota. rewrite x_ret.
      exists m, s4, D4. split; [done|]. split; [done|]. split; [|by apply Hs4]. eapply stay_trans; [exact Hs2|]. by eapply stay_trans; [exact Hs3|]. }
    unfold obind at 1. case_bool_decide as Hqn.
    - destruct (od_tree D fuel tvl v prefix (now 2%nat) s Hw Hi Ht) as (t & s1 & E1 & D1 & Hi1 & Hs1 & Hk1).
      destruct (st_tree _ _ _ _ _ _ _ _ _ _ _ Hw (is_a_some _ _ _ _ Ht) E1) as (Hw1 & _). unfold obind at 1. rewrite !x_bind, E1. cbn beta iota. rewrite x_ret. cbn beta iota.
      destruct (Hend D1 s1 t prefix Hw1 Hi1 (Hs1 _ _ Hu) Hk1) as (m & s' & D' & -> & A1 & A2 & A3). exists m, s', D'. split; [done|]. split; [done|]. split; [|done]. by eapply stay_trans.
    - destruct Hrr as [Hrr|[[ru' ->] [rv' ->]]]; [done|].
      destruct (od_dvl D fuel us ru' s Hw Hi Hu) as (rvl & s1 & E1 & D1 & Hi1 & Hs1 & Hk1). destruct (st_dvl _ _ _ _ _ _ _ _ _ Hw (is_a_some _ _ _ _ Hu) E1) as (Hw1 & _).
      unfold obind at 1. rewrite !x_bind, E1. cbn beta iota.
      destruct (od_tree D1 fuel tvl rv' prefix (now 0%nat) s1 Hw1 Hi1 (Hs1 _ _ Ht)) as (t & s2 & E2 & D2 & Hi2 & Hs2 & Hk2).
      destruct (st_tree _ _ _ _ _ _ _ _ _ _ _ Hw1 (is_a_some _ _ _ _ (Hs1 _ _ Ht)) E2) as (Hw2 & _). unfold obind at 1. rewrite x_bind, E2. cbn beta iota.
      destruct (od_record D2 fuel t no_path ru' rv' s2 Hw2 no_path_wf Hnp Hi2 Hk2) as (rm & s3 & E3 & D3 & Hi3 & Hs3 & Hk3).
      destruct (st_record _ _ _ _ _ _ _ _ _ _ _ Hw2 no_path_wf (is_a_some _ _ _ _ Hk2) E3) as (Hw3 & _). unfold obind at 1. rewrite x_bind, E3. cbn beta iota.
      destruct (od_register D3 fuel rvl rv' (now 1%nat) prefix rm s3 Hw3 Hi3) as (s4 & E4 & D4 & Hi4 & Hs4 & _); [by apply Hs3, Hs2|].
      destruct (st_register _ _ _ _ _ _ _ _ _ _ Hw3 (is_a_some _ _ _ _ (Hs3 _ _ (Hs2 _ _ Hk1))) (is_a_some _ _ _ _ Hk3) E4) as (Hw4 & _).
      rewrite x_bind, E4. cbn beta iota. rewrite x_ret. cbn beta iota.
      destruct (Hend D4 s4 t no_path Hw4 Hi4) as (m & s' & D' & -> & A1 & A2 & A3); [by apply Hs4, Hs3, Hs2, Hs1|by apply Hs4, Hs3|].
      exists m, s', D'. split; [done|]. split; [done|]. split; [|done]. intros x k Hx. by apply A2, Hs4, Hs3, Hs2, Hs1.
  Qed.

  (** ** From a repository *)
  Lemma opened_kind h l k ref : opened r g h l k ref -> k = KdVl true \/ k = KdUs -> well_formed (look_stored O k ref) ->
    exists E : loc -> Prop, forall D : loc -> Prop, (forall y, E y -> D y) -> D l -> is_a D h l k /\ forall y, y = l \/ E y -> exists o, h !! y = Some o /\ if h_mapped (o_hdr o) then parts_fit D h (o_body o) else to_load O r o.
  Proof.
    intros (hx & n & b & ks & Ho & Hm & Hk & Hs & HK) Hkk Hwl. exists (fun y => exists x i, dget (kids_of b) x = Some i /\ y = (n + i)%N). intros D HE Hl. rewrite <- Hk in Hs, Hwl.
    destruct (kids_ready D h n b ks ref Hs Hwl HK) as [Hpf Hkid]; [intros _ x i Hx; apply HE; eauto|]. split.
    - split; [done|]. eexists. split; [exact Ho|]. cbn. by rewrite shift_kind.
    - intros y [->|(x & i & Hxi & ->)].
      + eexists. split; [exact Ho|]. cbn [o_hdr o_body]. by rewrite Hm.
      + apply (Hkid ltac:(rewrite Hk; by destruct Hkk as [-> | ->]) x). done.
  Qed.
  Lemma kk_top fuel : mall (fun _ => True) lists_keyed (get_top_level_metadata_objects fuel r).
  Proof.
    unfold get_top_level_metadata_objects. apply mall_bind; [apply kk_new; by apply bk_vl, wk_nil|]. intros tvl. apply mall_bind; [apply kk_new; by apply bk_other|]. intros us.
    apply mall_try; [apply mall_bind; [apply kk_read_in|]; intros _; apply mall_bind; [apply kk_read_in|]; intros _; apply mall_ret|]. intros []; first [apply mall_ret|apply mall_raise].
  Qed.
  Lemma C43_repository_lemma fuel u v prefix q su sv now s : heap_ok s -> lists_keyed s -> well_published g r -> is_metadata_path q -> ~ In root_record_name (all_parts q) ->
    (q = no_path /\ su = None \/ is_Some su /\ is_Some sv) ->
    exists tvl us m s' D', exec (get_top_nodes_and_metadata_root_record fuel r u v prefix q su sv true now s) g = ((Ok (Some (tvl, us, Some m)), s'), g) /\
      heap_ok s' /\ lists_keyed s' /\ od D' (s_heap s') /\ is_a D' (s_heap s') tvl (KdVl true) /\ is_a D' (s_heap s') us KdUs /\ is_a D' (s_heap s') m KdMrr.
  Proof.
    intros Hok Hlk Hwp Hq Hn Hc. assert (HS : sound g r) by (intros k ref Hp; by apply wl_complete, Hwp).
    assert (HT : exists tvl us s1 D1, exec (mbind (get_top_level_metadata_objects fuel r) (fun top => match top with Some x => mret (Some x) | None => mlet tvl <- new_obj (BVlist true []) None None; mlet us <- new_obj (BUset []) None None; mret (Some (tvl, us)) end) s) g = ((Ok (Some (tvl, us)), s1), g) /\
      wf s1 /\ od D1 (s_heap s1) /\ is_a D1 (s_heap s1) tvl (KdVl true) /\ is_a D1 (s_heap s1) us KdUs).
    { destruct (refs_of g r !! TREE_VERSION_LIST) as [h1|] eqn:R1; [destruct (refs_of g r !! UUID_SET) as [h2|] eqn:R2|].
      1:{ destruct (top_open r g Hrem Hr fuel s h1 h2 Hok R1 R2 HS) as (tvl & us & s1 & X & Ok1 & _ & _ & _ & _ & P1 & P2).
          pose proof (kk_exec _ _ _ _ _ _ (kk_top fuel) Hlk X) as Hlk1.
          destruct (opened_kind _ _ _ _ P1) as [E1 HE1]; [by left|apply Hwp; exists h1; by left|]. destruct (opened_kind _ _ _ _ P2) as [E2 HE2]; [by right|apply Hwp; exists h2; by right|].
          set (D1 := fun y => (y = tvl \/ E1 y) \/ (y = us \/ E2 y)). destruct (HE1 D1) as [A1 A2]; [by intros; left; right|by left; left|]. destruct (HE2 D1) as [B1 B2]; [by intros; right; right|by right; left|].
          exists tvl, us, s1, D1. rewrite x_bind, X. cbn beta iota. rewrite x_ret. split; [done|]. split; [done|]. split; [|done]. intros y [Hy|Hy]; [by apply A2|by apply B2]. }
      all: destruct (top_absent r g Hrem Hr fuel s Hok) as (s0 & X & Ok0 & _); [first [by left|by right]|].
      all: pose proof (kk_exec _ _ _ _ _ _ (kk_top fuel) Hlk X) as Hlk0; rewrite x_bind, X; cbn beta iota.
      all: destruct (exec ((mlet tvl <- new_obj (BVlist true []) None None; mlet us <- new_obj (BUset []) None None; mret (Some (tvl, us))) s0) g) as [[res s2] g2] eqn:E.
      all: pose proof (conj Ok0 Hlk0 : wf s0) as W0.
      all: rewrite x_bind in E; destruct (exec (new_obj (BVlist true []) None None s0) g) as [[[tvl|e] sA] gA] eqn:EA; [|rewrite TreeEditFacts.x_new in EA; discriminate EA]; cbn beta iota in E.
      all: destruct (CommonFacts.st_new _ _ _ _ _ _ W0 EA) as (WA & _); [done|apply NoDup_nil_2|by apply bk_vl, wk_nil|].
      all: destruct (od_alloc (fun _ => False) (BVlist true []) _ _ _ _ (fun x (Hx : False) => match Hx with end) (ok_fresh _ Ok0) ltac:(done) EA) as (DA & A1 & A2 & A3 & ->).
      all: rewrite x_bind in E; destruct (exec (new_obj (BUset []) None None sA) g) as [[[us|e] sB] gB] eqn:EB; [|rewrite TreeEditFacts.x_new in EB; discriminate EB]; cbn beta iota in E.
      all: destruct (CommonFacts.st_new _ _ _ _ _ _ WA EB) as (WB & _); [done|apply NoDup_nil_2|by apply bk_other|].
      all: destruct (od_alloc DA (BUset []) _ _ _ _ A1 (ok_fresh _ (proj1 WA)) ltac:(done) EB) as (DB & B1 & B2 & B3 & ->); rewrite x_ret in E; injection E as <- <- <-.
      all: exists tvl, us, sB, DB; split_and!; try done; by apply B2. }
    destruct HT as (tvl & us & s1 & D1 & X & W1 & O1 & T1 & U1).
    assert (Hgo : forall u v ru rv, (q = no_path \/ is_Some ru /\ is_Some rv) -> exists m s' D', exec (call fuel tvl us u v prefix q ru rv true now s1) g = ((Ok (Some m), s'), g) /\
      wf s' /\ od D' (s_heap s') /\ is_a D' (s_heap s') tvl (KdVl true) /\ is_a D' (s_heap s') us KdUs /\ is_a D' (s_heap s') m KdMrr).
    { intros u0 v0 ru rv Hrr. destruct (C43_returns_loading_lemma D1 fuel tvl us u0 v0 prefix q ru rv now s1 (proj1 W1) (proj2 W1) Hq Hn O1 T1 U1 Hrr) as (m & s' & D' & E & Q1 & Q2 & Q3).
      exists m, s', D'. split; [done|]. pose proof (C43_others_lemma fuel tvl us u0 v0 prefix q ru rv true now s1 g _ s' g (proj1 W1) (proj2 W1) Hq (is_a_some _ _ _ _ T1) (is_a_some _ _ _ _ U1) E) as (A1 & A2 & _).
      split; [done|]. split; [done|]. split; [by apply Q2|]. split; [by apply Q2|done]. }
    unfold get_top_nodes_and_metadata_root_record. rewrite x_bind in X. rewrite x_bind. destruct (exec (get_top_level_metadata_objects fuel r s) g) as [[[top|e] s0] g0]; [|discriminate X]. cbn beta iota in X |- *.
    rewrite x_bind, X. cbn beta iota. rewrite x_bind. destruct Hc as [[-> ->]|[[su' ->] [sv' ->]]].
    - destruct (Hgo u v None None ltac:(by left)) as (m & s' & D' & E & Q). rewrite E. cbn beta iota. rewrite x_ret. exists tvl, us, m, s', D'. split; [done|]. destruct Q as ([? ?] & ? & ? & ? & ?). by split_and!.
    - destruct (Hgo su' sv' (Some u) (Some v)) as (m & s' & D' & E & Q); [right; split; by eexists|]. rewrite E. cbn beta iota. rewrite x_ret. exists tvl, us, m, s', D'. split; [done|]. destruct Q as ([? ?] & ? & ? & ? & ?). by split_and!.
  Qed.
  Lemma settled_asked fuel now tvl us : forall rest s s', asked fuel now tvl us g s rest s' -> heap_ok s -> lists_keyed s -> is_Some (s_heap s !! tvl) -> is_Some (s_heap s !! us) ->
    (forall a m, In (a, m) rest -> is_metadata_path (a_path a)) ->
    forall a m, is_metadata_path (a_path a) -> (forall fuel2 auto now2 g2, exec (ask fuel2 tvl us a auto now2 s) g2 = ((Ok (Some m), s), g2)) ->
    forall fuel2 auto now2 g2, exec (ask fuel2 tvl us a auto now2 s') g2 = ((Ok (Some m), s'), g2).
  Proof.
    intros rest s s' Ha. induction Ha as [s|s a1 m1 s1 rest s' E Ha IH]; intros H1 H2 H3 H4 Hp a m Hm Hs; [exact Hs|].
    pose proof (C43_others_lemma fuel tvl us _ _ _ _ _ _ true now s g _ s1 g H1 H2 (Hp _ _ (or_introl eq_refl)) H3 H4 E) as (B1 & B2 & [_ _ Hex] & _).
    assert (B3 : is_Some (s_heap s1 !! tvl)) by (destruct H3 as [o Ho]; destruct (Hex _ _ Ho) as (o' & Ho' & _); by exists o').
    assert (B4 : is_Some (s_heap s1 !! us)) by (destruct H4 as [o Ho]; destruct (Hex _ _ Ho) as (o' & Ho' & _); by exists o').
    apply (IH B1 B2 B3 B4); [intros a' m' Hin; apply (Hp a' m'); by right|done|]. intros fuel2 auto now2 g2.
    exact (C43_kept_lemma fuel tvl us _ _ _ _ _ _ auto now s g m s g H1 H2 Hm H3 H4 (Hs fuel auto now g) fuel _ _ _ _ _ _ true now g _ s1 g (Hp _ _ (or_introl eq_refl)) E fuel2 auto now2 g2).
  Qed.
  Lemma C52_lemma fuel now tvl us : forall asks D s, heap_ok s -> lists_keyed s -> od D (s_heap s) -> is_a D (s_heap s) tvl (KdVl true) -> is_a D (s_heap s) us KdUs ->
    List.Forall proper asks -> exists ms s', length ms = length asks /\ asked fuel now tvl us g s (combine asks ms) s' /\
      forall a m, In (a, m) (combine asks ms) -> forall fuel2 auto now2 g2, exec (ask fuel2 tvl us a auto now2 s') g2 = ((Ok (Some m), s'), g2).
  Proof.
    induction asks as [|a asks IH]; intros D s H1 H2 H3 H4 H5 Hp; [exists [], s; split_and!; [done|constructor|intros ? ? []]|].
    apply List.Forall_cons_iff in Hp as [(Pq & Pn & Pr) Hp].
    assert (Pr' : a_path a = no_path \/ is_Some (option_map fst (a_root a)) /\ is_Some (option_map snd (a_root a))) by (destruct Pr as [Pr|[[x y] ->]]; [by left|right; split; by eexists]).
    destruct (C43_returns_loading_lemma D fuel tvl us (a_id a) (a_version a) (a_prefix a) (a_path a) _ _ now s H1 H2 Pq Pn H3 H4 H5 Pr') as (m & s1 & D1 & E & Q1 & Q2 & _).
    pose proof (C43_others_lemma fuel tvl us _ _ _ _ _ _ true now s g _ s1 g H1 H2 Pq (is_a_some _ _ _ _ H4) (is_a_some _ _ _ _ H5) E) as (B1 & B2 & _).
    destruct (IH D1 s1 B1 B2 Q1 (Q2 _ _ H4) (Q2 _ _ H5) Hp) as (ms & s' & Hl & Ha & Hk). exists (m :: ms), s'. split; [simpl; by rewrite Hl|]. split; [by econstructor|].
    intros a' m' [[= <- <-]|Hin]; [|by apply Hk]. apply (settled_asked fuel now tvl us _ _ _ Ha B1 B2); [exact (is_a_some _ _ _ _ (Q2 _ _ H4))|exact (is_a_some _ _ _ _ (Q2 _ _ H5))| |exact Pq|].
    - intros a' m' Hin%in_combine_l. rewrite List.Forall_forall in Hp. by destruct (Hp _ Hin).
    - intros fuel2 auto now2 g2. exact (C43_repeat_lemma fuel tvl us _ _ _ _ _ _ true now s g m s1 g H1 H2 Pq (is_a_some _ _ _ _ H4) (is_a_some _ _ _ _ H5) E fuel2 auto now2 g2).
  Qed.
End Demand.
