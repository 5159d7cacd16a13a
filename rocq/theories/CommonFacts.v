(** Looking up root records from the top-level objects (C43, C44). *)
From Verif Require Import Base BaseFacts Path Spec_Path PathFacts Json Refs Meta GitText Git GitFacts State BlobCache ObjRef Objects ExecFacts Common
  Spec_Look Spec_Heap Spec_Versions Spec_Dataset Spec_Write Spec_Common WriteFacts LoadFacts PeekFacts TreeEditFacts VersionFacts TreeFacts DatasetFacts ContentFacts.

(** ** Extensions *)
Lemma ea_refl_trans (A : key -> Prop) o o1 o2 :
  (o1 = o \/ entries_added A o o1) -> (o2 = o1 \/ entries_added A o1 o2) -> o2 = o \/ entries_added A o o2.
Proof.
  intros [->|H1] [->|H2]; [by left|by right|by right|]. right. destruct H1 as (A1 & A2 & k & A3 & A4 & A5), H2 as (B1 & B2 & B3). split_and!.
  - rewrite B1, A1. done.
  - intros k'. destruct (B2 k') as [->|[B4 B5]]; [apply A2|]. destruct (A2 k') as [E|E]; [|by right]. right. split; [done|congruence].
  - exists k. split_and!; [done|done|]. destruct (B2 k) as [->|[_ B5]]; done.
Qed.
Lemma ea_mono (A B : key -> Prop) o o' : (forall k, A k -> B k) -> entries_added A o o' -> entries_added B o o'.
Proof. intros Hm (H1 & H2 & k & H3 & H4 & H5). split_and!; [done| |exists k; auto]. intros k'. destruct (H2 k') as [?|[? ?]]; auto. Qed.
Lemma ex_refl A s : extended A s s.
Proof. split; [done|lia|]. intros x o Ho. exists o. auto. Qed.
Lemma ex_mono (A B : loc -> key -> Prop) s s' : (forall x k, A x k -> B x k) -> extended A s s' -> extended B s s'.
Proof.
  intros Hm [H1 H2 H3]. split; [done|done|]. intros x o Ho. destruct (H3 x o Ho) as (o' & Ho' & Hk & Hl). exists o'. split_and!; [done|done|].
  intros Hm'. destruct (Hl Hm') as [->|Ha]; [by left|right]. eapply ea_mono; [|exact Ha]. apply Hm.
Qed.
Lemma ea_mapped A o o' : entries_added A o o' -> h_mapped (o_hdr o') = h_mapped (o_hdr o).
Proof. by intros (-> & _). Qed.
Lemma ex_trans A s1 s2 s3 : extended A s1 s2 -> extended A s2 s3 -> extended A s1 s3.
Proof.
  intros [A1 A2 A3] [B1 B2 B3]. split; [by eapply rs_trans|lia|]. intros x o Ho. destruct (A3 x o Ho) as (o1 & Ho1 & Hk1 & Hm1).
  destruct (B3 x o1 Ho1) as (o2 & Ho2 & Hk2 & Hm2). exists o2. split_and!; [done|congruence|]. intros Hm. specialize (Hm1 Hm).
  assert (Hmo : h_mapped (o_hdr o1) = true) by (destruct Hm1 as [->|Ha]; [done|]; by rewrite (ea_mapped _ _ _ Ha)).
  eapply ea_refl_trans; [exact Hm1|]. by apply Hm2.
Qed.
Lemma loads_ex A s s' : loads s s' -> extended A s s'.
Proof. intros [H1 H2 H3]. split; [done|done|]. intros x o Ho. destruct (H3 x o Ho) as (o' & ? & ? & ?). exists o'. auto. Qed.

Definition wf (s : pst) : Prop := heap_ok s /\ lists_keyed s.
(** what stays *)
Lemma ex_loaded A s s' (x : loc) o : extended A s s' -> s_heap s !! x = Some o -> h_mapped (o_hdr o) = true ->
  exists o', s_heap s' !! x = Some o' /\ kind_of (o_body o') = kind_of (o_body o) /\ h_mapped (o_hdr o') = true /\
    forall k e, entry_of (o_body o) k = Some e -> entry_of (o_body o') k = Some e.
Proof.
  intros [_ _ H3] Ho Hm. destruct (H3 x o Ho) as (o' & Ho' & Hk & Hl). exists o'. destruct (Hl Hm) as [->|Ha]; [done|]. split_and!; [done|done|by rewrite (ea_mapped _ _ _ Ha)|].
  destruct Ha as (_ & Ha & _). intros k e He. destruct (Ha k) as [->|[_ E]]; [done|congruence].
Qed.
Lemma ex_some A s s' x : extended A s s' -> is_Some (s_heap s !! x) -> is_Some (s_heap s' !! x).
Proof. intros [_ _ H3] [o Ho]. destruct (H3 x o Ho) as (o' & -> & _). by eexists. Qed.

(** entries and parts *)
Definition entry_loc (e : loc + vrec) : loc := match e with inl x => x | inr r => elt_loc (vr_elt r) end.
Lemma kids_entry (b : body) k : (forall kk vs, b = BVlist kk vs -> well_keyed vs) -> dget (kids_of b) k = option_map entry_loc (entry_of b k).
Proof.
  intros Hw. destruct (dget (kids_of b) k) as [x|] eqn:Ed.
  - pose proof (kids_fit _ _ _ Ed) as Hf. destruct b as [m|t|c d|i v m t|kk vs|us], k as [n| | |v' p|u]; try done; cbn [entry_of].
    + rewrite kids_names in Ed. by rewrite Ed.
    + cbn in Ed. destruct m, t; cbn in Ed; repeat case_decide; try done.
    + cbn in Ed. destruct m, t; cbn in Ed; repeat case_decide; try done.
    + rewrite kids_vget in Ed by by eapply wk_ok, Hw. unfold vget in Ed. unfold record_of. destruct (dget vs v') as [d|]; [|done]. by destruct (dget d p).
    + rewrite kids_uuids in Ed. by rewrite Ed.
  - destruct b as [m|t|c d|i v m t|kk vs|us], k as [n| | |v' p|u]; try done; cbn [entry_of].
    + rewrite kids_names in Ed. by rewrite Ed.
    + cbn in Ed. destruct m, t; cbn in Ed; repeat case_decide; try done.
    + cbn in Ed. destruct m, t; cbn in Ed; repeat case_decide; try done.
    + rewrite kids_vget in Ed by by eapply wk_ok, Hw. unfold vget in Ed. unfold record_of. destruct (dget vs v') as [d|]; [|done]. by destruct (dget d p).
    + rewrite kids_uuids in Ed. by rewrite Ed.
Qed.
Lemma wf_kids s (x : loc) o k : wf s -> s_heap s !! x = Some o -> dget (kids_of (o_body o)) k = option_map entry_loc (entry_of (o_body o) k).
Proof. intros [_ Hk] Ho. apply kids_entry. intros kk vs Hb. destruct o as [hx b]. cbn in Hb. subst b. by eapply Hk. Qed.
Lemma ex_reach A s s' : wf s -> wf s' -> extended A s s' -> forall p l x, reach (s_heap s) l p = Some x -> reach (s_heap s') l p = Some x.
Proof.
  intros Hw Hw' He. induction p as [|k p IH]; intros l x; cbn [reach]; [done|]. destruct (s_heap s !! l) as [o|] eqn:E; [|done].
  destruct (h_mapped (o_hdr o)) eqn:Em; [|done]. destruct (ex_loaded _ _ _ _ _ He E Em) as (o' & Ho' & _ & Hm' & Hs'). rewrite Ho', Hm'.
  rewrite (wf_kids _ _ _ _ Hw E), (wf_kids _ _ _ _ Hw' Ho'). destruct (entry_of (o_body o) k) as [e|] eqn:Ee; [|done]. rewrite (Hs' _ _ Ee). cbn. apply IH.
Qed.

(** ** Loading keeps version lists in order *)
Definition body_keyed (b : body) : Prop := forall k vs, b = BVlist k vs -> well_keyed vs.
Lemma set_keyed s l o : lists_keyed s -> body_keyed (o_body o) -> lists_keyed (with_heap s (<[l := o]> (s_heap s))).
Proof.
  intros Hk Ho x hx k vs. cbn. rewrite heap_insert. case_decide; [|apply Hk]. intros [= ->]. by eapply Ho.
Qed.
Section Keyed.
  Context `{Env}.
  Notation P := (fun _ : cmd => True).
  Lemma kk_get {A : Type} l (f : obj -> M pst A) : (forall o, body_keyed (o_body o) -> mall P lists_keyed (f o)) -> mall P lists_keyed (mbind (getobj l) f).
  Proof.
    intros Hf s Hs. unfold mbind, getobj. destruct (s_heap s !! l) as [o|] eqn:E; cbn; [|done]. apply Hf; [|done].
    intros k vs Hb. destruct o as [hx b]. cbn in Hb. subst b. by eapply Hs.
  Qed.
  Lemma kk_setobj l o : body_keyed (o_body o) -> mall P lists_keyed (setobj l o).
  Proof. intros Ho s Hs. by apply set_keyed. Qed.
  Lemma kk_set_hdr l f : mall P lists_keyed (set_hdr l f).
  Proof. apply kk_get. intros o Ho. by apply kk_setobj. Qed.
  Lemma kk_set_body l b : body_keyed b -> mall P lists_keyed (set_body l b).
  Proof. intros Hb. apply kk_get. intros o Ho. by apply kk_setobj. Qed.
  Lemma kk_new b x y : body_keyed b -> mall P lists_keyed (new_obj b x y).
  Proof.
    intros Hb. apply mall_bind; [apply mall_res|]. intros a s Hs. cbn. intros z hx k vs. cbn. rewrite heap_insert. case_decide; [|apply Hs]. intros [= ->]. subst b. by eapply Hb.
  Qed.
  Lemma kk_loc_of x : mall P lists_keyed (loc_of x).
  Proof. unfold loc_of. destruct (r_loc x); [apply mall_ret|apply mall_raise]. Qed.
  Lemma kk_steady {A : Type} (m : M pst A) : steady m -> mall P lists_keyed m.
  Proof. intros Hm s Hs. eapply pall_mono; [| |apply Hm]; [done|]. by intros a ->. Qed.
  Lemma bk_other b : (forall k vs, b <> BVlist k vs) -> body_keyed b.
  Proof. intros Hb k vs E. by destruct (Hb k vs). Qed.
  Lemma bk_vl k vs : well_keyed vs -> body_keyed (BVlist k vs).
  Proof. intros Hw ? ? [= <- <-]. done. Qed.
  Lemma kk_purge_impl rec l : (forall x, mall P lists_keyed (rec x)) -> mall P lists_keyed (purge_impl rec l).
  Proof.
    intros Hrec. apply kk_get. intros o Ho.
    destruct (o_body o) as [m|t|c d|i v m t|k vs|us]; try (apply kk_set_body, bk_other; done);
      try (apply mall_bind; [apply mall_iter; intros; apply Hrec|intros; apply kk_set_body; try (apply bk_other; done)]).
    - destruct m; [|apply mall_raise]. apply mall_bind; [apply Hrec|]. intros _.
      apply mall_bind; [destruct t; [apply Hrec|apply mall_ret]|]. intros. by apply kk_set_body, bk_other.
    - apply bk_vl, wk_nil.
  Qed.
  Lemma kk_purge fuel : forall l, mall P lists_keyed (purge fuel l).
  Proof.
    induction fuel as [|f IH]; intros l; [apply mall_raise|]. cbn [purge]. apply kk_get. intros o Ho.
    destruct (h_mapped (o_hdr o)); [|apply mall_ret]. destruct (decide _); [apply mall_raise|].
    apply mall_bind; [by apply kk_purge_impl|]. intros. apply kk_set_hdr.
  Qed.
  Lemma fold_keyed rs : forall vs, well_keyed vs -> well_keyed (fold_left (fun vs (r : pystr * vrec) => vs_set vs (fst r) (vr_path (snd r)) (snd r)) rs vs).
  Proof. induction rs as [|r rs IH]; intros vs Hv; [done|]. cbn. apply IH. by apply wk_set. Qed.
  Ltac other := apply bk_other; done.
  Lemma kk_map_in l r ref : mall P lists_keyed (map_in l r ref).
  Proof.
    unfold map_in. apply kk_get. intros o0 _. apply mall_bind; [apply kk_set_hdr|]. intros _.
    apply mall_bind; [apply mall_assert|]. intros _. match goal with |- mall _ _ (map_in_impl l r ?x) => generalize x end. intros ref'.
    unfold map_in_impl. apply kk_get. intros o _.
    destruct (o_body o) as [m|t|c d|i v m t|k vs|us].
    - apply mall_bind; [apply kk_loc_of|]. intros x. apply mall_bind; [apply kk_steady, st_load_str|]. intros t.
      apply mall_bind; [apply mall_res|]. intros ref2. apply mall_bind; [apply kk_loc_of|]. intros y.
      apply mall_bind; [apply kk_steady, st_load_str|]. intros t2. apply mall_bind; [apply mall_res|]. intros. apply kk_set_body. other.
    - apply mall_bind; [apply kk_loc_of|]. intros x. apply mall_bind; [apply kk_steady, st_load_str|]. intros. apply kk_set_body. other.
    - destruct (is_none_reference ref'); [apply kk_set_body; other|]. apply mall_bind; [apply kk_loc_of|]. intros x.
      apply mall_bind; [apply kk_steady, st_read_tree|].
      intros ls. apply mall_iter. intros ln _. apply mall_bind; [apply mall_res|]. intros [[ty h] nm].
      apply mall_bind; [repeat case_bool_decide; try (apply kk_new; destruct c; other); apply mall_raise|]. intros child.
      apply kk_get. intros o' _. destruct (o_body o'); try apply mall_raise. apply kk_set_body. other.
    - apply mall_bind; [apply kk_loc_of|]. intros x. apply mall_bind; [apply kk_steady, st_load_json|]. intros j.
      apply mall_bind; [apply mall_res|]. intros mj. apply mall_bind; [apply mall_res|]. intros mref.
      apply mall_bind; [destruct (is_none_reference mref); [apply mall_ret|apply mall_bind; [apply kk_new; other|intros; apply mall_ret]]|]. intros md.
      apply mall_bind; [apply mall_res|]. intros fj. apply mall_bind; [apply mall_res|]. intros fref.
      apply mall_bind; [destruct (is_none_reference fref); [apply mall_ret|apply mall_bind; [apply kk_new; other|intros; apply mall_ret]]|]. intros ft.
      apply mall_bind; [apply mall_res|]. intros uj. apply mall_bind; [apply mall_res|]. intros u.
      apply mall_bind; [apply mall_res|]. intros vj.
      destruct vj; try apply mall_raise; (apply mall_bind; [apply mall_res|]); intros; apply kk_setobj; other.
    - apply mall_bind; [apply kk_loc_of|]. intros x. apply mall_bind; [apply kk_steady, st_load_json|]. intros j.
      apply mall_bind; [apply mall_res|]. intros js. apply mall_bind; [|intros; apply kk_set_body, bk_vl, fold_keyed, wk_nil].
      apply mall_map. intros a _. unfold map_in_assoc. apply mall_bind; [apply mall_res|]. intros rj.
      apply mall_bind; [apply mall_res|]. intros ref1.
      apply mall_bind.
      { destruct (_ || _); [apply mall_bind; [apply kk_new; other|intros; apply mall_ret]|].
        destruct (jis_str _ _); [apply mall_bind; [apply kk_new; other|intros; apply mall_ret]|apply mall_raise]. }
      intros e. apply mall_bind; [apply mall_res|]. intros v. apply mall_bind; [apply mall_res|]. intros p.
      destruct v; try apply mall_raise. destruct p; try apply mall_raise.
      apply mall_bind; [apply mall_res|]. intros t. destruct t; try apply mall_raise. apply mall_ret.
    - apply mall_bind; [apply kk_set_body; other|]. intros _. apply mall_bind; [apply kk_loc_of|]. intros x.
      apply mall_bind; [apply kk_steady, st_ls_tree|].
      intros ls. apply mall_iter. intros ln _. apply mall_bind; [apply mall_res|]. intros [[[? ?] h] nm].
      apply mall_bind; [apply kk_new, bk_vl, wk_nil|]. intros vl. apply mall_bind; [apply mall_res|]. intros u.
      apply kk_get. intros o' _. destruct (o_body o'); try apply mall_raise. apply kk_set_body. other.
  Qed.
  Lemma kk_read_in fuel l : mall P lists_keyed (read_in fuel l).
  Proof.
    unfold read_in. apply kk_get. intros o _. destruct (h_mapped (o_hdr o)); [apply mall_ret|].
    destruct (h_realm (o_hdr o)) as [r|]; [|apply mall_raise]. destruct (h_ref (o_hdr o)) as [ref|]; [|apply mall_raise].
    destruct (is_none_reference ref).
    - apply mall_bind; [apply mall_assert|]. intros _. apply kk_purge_impl. apply kk_purge.
    - destruct (in_saved o (Some r)); [|apply mall_raise]. apply mall_bind; [apply kk_map_in|]. intros. apply kk_set_hdr.
  Qed.
  Lemma kk_ensure fuel l : mall P lists_keyed (ensure_mapped fuel l).
  Proof.
    unfold ensure_mapped. apply kk_get. intros o _. destruct (h_mapped (o_hdr o)); [apply mall_ret|].
    apply mall_bind; [apply kk_read_in|]. intros _. apply mall_bind; [apply kk_set_hdr|]. intros _. apply mall_ret.
  Qed.
  Lemma kk_exec {A : Type} (m : M pst A) s g r s' g' : mall P lists_keyed m -> lists_keyed s -> exec (m s) g = ((r, s'), g') -> lists_keyed s'.
  Proof. intros Hm Hs He. pose proof (pall_exec _ _ _ g (Hm s Hs)) as Hp. by rewrite He in Hp. Qed.
End Keyed.

(** ** Steps *)
Definition nothing (x : loc) (k : key) : Prop := False.
Lemma ex_any A s s' : extended nothing s s' -> extended A s s'.
Proof. by apply ex_mono. Qed.
Lemma put_ok s l hx b b' k0 : wf s -> s_heap s !! l = Some (Obj hx b) -> h_mapped hx = true -> kind_of b' = kind_of b ->
  (forall x, In x (sub_objects b') -> is_Some (s_heap s !! x)) -> NoDup (dkeys (kids_of b')) -> body_keyed b' ->
  entry_of b k0 = None -> entry_of b' k0 <> None -> (forall k, k <> k0 -> entry_of b' k = entry_of b k) ->
  wf (with_heap s (<[l := Obj (hd_saved ∅ hx) b']> (s_heap s))) /\
  extended (fun y k => y = l /\ k = k0) s (with_heap s (<[l := Obj (hd_saved ∅ hx) b']> (s_heap s))).
Proof.
  intros [Hok Hk] Hl Hm Hkd Hsub Hnd Hbk H0 H1 H2. split; [split|].
  - intros x o. cbn. rewrite heap_insert.
    assert (HS : forall y, is_Some (s_heap s !! y) -> is_Some (<[l := Obj (hd_saved ∅ hx) b']> (s_heap s) !! y)) by (intros y Hy; rewrite heap_insert; case_decide; [by eexists|done]).
    case_decide as Hx.
    + subst x. intros [= <-]. cbn. split_and!; [by apply (Hok l _ Hl)| |congruence|done]. intros y Hy. by apply HS, Hsub.
    + intros Ho. destruct (Hok x o Ho) as (? & B & ? & ?). split_and!; [done| |done|done]. intros y Hy. by apply HS, B.
  - by apply set_keyed.
  - split; [done|cbn; lia|]. intros x o Ho. cbn. rewrite heap_insert. case_decide as Hx.
    + subst x. rewrite Hl in Ho. injection Ho as <-. eexists. split; [done|]. split; [done|]. intros _. right. split; [done|]. cbn [o_body]. split.
      * intros k. destruct (decide (k = k0)) as [->|Hn]; [right; done|left; by apply H2].
      * by exists k0.
    + exists o. auto.
Qed.
Lemma alloc_ok s b : wf s -> (forall x, In x (sub_objects b) -> is_Some (s_heap s !! x)) -> NoDup (dkeys (kids_of b)) -> body_keyed b ->
  let s2 := PSt (<[s_next s := Obj (Hdr None None true ∅) b]> (s_heap s)) (N.succ (s_next s)) (s_caches s) (s_orefs s) (s_legacy s) (s_locks s) in
  wf s2 /\ loads s s2 /\ s_heap s2 !! s_next s = Some (Obj (Hdr None None true ∅) b).
Proof.
  intros [Hok Hk] Hsub Hnd Hbk s2. assert (Hself : s_heap s2 !! s_next s = Some (Obj (Hdr None None true ∅) b)) by (cbn; by rewrite heap_insert, decide_True).
  assert (Hold : forall (x : loc) o, s_heap s !! x = Some o -> s_heap s2 !! x = Some o).
  { intros x o Ho. cbn. rewrite heap_insert, decide_False; [done|]. pose proof (Hok x o Ho) as [Hlt _]. lia. }
  split; [split|split; [|done]].
  - intros x o. cbn. rewrite heap_insert. case_decide as Hx.
    + subst x. intros [= <-]. cbn. split_and!; [lia| |done|done]. intros y [oy Hy]%Hsub. rewrite heap_insert. case_decide; by eexists.
    + intros Ho. destruct (Hok x o Ho) as (? & B & ? & ?). split_and!; [lia| |done|done]. intros y [oy Hy]%B. rewrite heap_insert. case_decide; by eexists.
  - intros x hx k vs. cbn. rewrite heap_insert. case_decide; [|apply Hk]. intros [= <- ->]. by eapply Hbk.
  - split; [done|cbn; lia|]. intros x o Ho. exists o. split; [by apply Hold|done].
Qed.
Section Steps.
  Context `{Env}.
  Notation P := (fun _ : cmd => True).
  Lemma st_ensure fuel l s g b s' g' : wf s -> is_Some (s_heap s !! l) -> exec (ensure_mapped fuel l s) g = ((Ok b, s'), g') ->
    wf s' /\ loads s s' /\ exists o', s_heap s' !! l = Some o' /\ h_mapped (o_hdr o') = true.
  Proof.
    intros [Hok Hk] [o Ho] He. pose proof (kk_exec _ _ _ _ _ _ (kk_ensure fuel l) Hk He) as Hk'.
    destruct (ld_ensure s l o fuel g _ _ _ Hok Ho He) as [Hyes Hno]. destruct (h_mapped (o_hdr o)) eqn:Em.
    - destruct (Hyes eq_refl) as (-> & -> & _). split; [done|]. split; [apply lo_refl|]. by exists o.
    - destruct (Hno eq_refl) as [_ HD]. pose proof (ld_good s l s' o Hok Ho Em HD) as Hg. split; [split; [apply Hg|done]|]. split; [apply Hg|].
      destruct HD as [_ (o' & Ho' & Hm' & _)]. by exists o'.
  Qed.
  Lemma st_read_in fuel l s g s' g' : wf s -> is_Some (s_heap s !! l) -> exec (read_in fuel l s) g = ((Ok tt, s'), g') -> wf s' /\ loads s s'.
  Proof.
    intros [Hok Hk] [o Ho] He. pose proof (kk_exec _ _ _ _ _ _ (kk_read_in fuel l) Hk He) as Hk'.
    destruct (h_mapped (o_hdr o)) eqn:Em.
    { unfold read_in in He. rewrite x_bind, x_getobj, Ho in He. cbn beta iota in He. rewrite Em, x_ret in He. injection He as <- <-. split; [done|apply lo_refl]. }
    pose proof (li_read_in s l o fuel Hok Ho Em) as HR. eapply mw_exec in HR; [|exact He]. cbn in HR. destruct HR as (mp & Hrd & Hown).
    assert (Hlo : loads s s') by (eapply rd_own_loads; [intros x ox Hx; apply (Hok x ox Hx)|exact Ho|exact Em|exact Hrd|exact Hown]).
    split; [split; [|done]|done].
    destruct mp; [by eapply ld_good|].
    (* an empty reference *)
    destruct (Hok l o Ho) as (Hl & _ & Hsub & _). specialize (Hsub Em).
    unfold read_in in He. rewrite x_bind, x_getobj, Ho in He. cbn beta iota in He. rewrite Em in He.
    destruct (h_realm (o_hdr o)) as [r|]; [|done]. destruct (h_ref (o_hdr o)) as [ref|]; [|done].
    destruct (is_none_reference ref).
    - rewrite x_bind, x_assert in He. destruct (jis_str _ _); [|done]. cbn beta iota in He. unfold purge_impl in He. rewrite x_bind, x_getobj, Ho in He. cbn beta iota in He.
      assert (HS : forall b, sub_objects b = [] -> exec (set_body l b s) g = ((Ok tt, s'), g') -> heap_ok s').
      { intros b Hb. rewrite (WriteFacts.x_set_body _ _ _ _ _ Ho). intros [= <- <-]. intros x ox. cbn. rewrite heap_insert. case_decide as Hx.
        - subst x. intros [= <-]. cbn. rewrite Hb. split_and!; [done|done|done|]. rewrite <- sub_kids in Hb. apply map_eq_nil in Hb. unfold dkeys. rewrite Hb. apply NoDup_nil_2.
        - intros Hox. destruct (Hok x ox Hox) as (? & B & ? & ?). split_and!; [done| |done|done]. intros y Hy. rewrite heap_insert. case_decide; [by eexists|by apply B]. }
      destruct (o_body o) as [m|t|c d|i v m t|k vs|us] eqn:Eb; cbn in Hsub.
      + by eapply HS, He.
      + by eapply HS, He.
      + rewrite Hsub in He. cbn [miter] in He. rewrite x_bind, x_ret in He. cbn beta iota in He. by eapply HS, He.
      + destruct m; [done|]. cbn in He. done.
      + assert (Hv : vs_records vs = []) by by apply map_eq_nil in Hsub. rewrite Hv in He. cbn [miter] in He. rewrite x_bind, x_ret in He. cbn beta iota in He. by eapply HS, He.
      + rewrite Hsub in He. cbn [miter] in He. rewrite x_bind, x_ret in He. cbn beta iota in He. by eapply HS, He.
    - destruct (in_saved o (Some r)); [|done]. exfalso. apply xi_bind in He as ([] & s1 & g1 & _ & He). unfold set_hdr in He.
      rewrite x_bind, x_getobj in He. destruct (s_heap s1 !! l) as [o1|]; [|done]. cbn beta iota in He. cbn in He. injection He as <- <-.
      destruct Hown as (o' & Ho' & Hm' & _). cbn in Ho'. rewrite heap_insert, decide_True in Ho' by done. injection Ho' as <-. done.
  Qed.
  Lemma kk_get_child fuel l e : mall P lists_keyed (get_child fuel l e).
  Proof.
    unfold get_child. apply mall_bind; [apply kk_ensure|]. intros _. apply mall_bind; [|intros; apply mall_ret].
    apply kk_get. intros o _. destruct (o_body o); try apply mall_raise. apply mall_ret.
  Qed.
  Lemma kk_is_node l : mall P lists_keyed (is_mtreenode l).
  Proof. apply kk_get. intros. apply mall_ret. Qed.
  Lemma kk_walk fuel parts : forall l, mall P lists_keyed (walk fuel l parts).
  Proof.
    induction parts as [|e rest IH]; intros l; cbn [walk]; [apply mall_ret|]. apply mall_bind; [apply kk_is_node|]. intros [].
    - apply mall_bind; [apply kk_get_child|]. intros [x|]; [apply IH|apply mall_ret].
    - apply mall_ret.
  Qed.
  Lemma kk_add_child fuel l e c : mall P lists_keyed (add_child fuel l e c).
  Proof.
    unfold add_child. apply mall_bind; [apply mall_assert|]. intros _. apply mall_bind; [apply mall_assert|]. intros _. apply mall_bind; [apply kk_ensure|]. intros _.
    apply mall_bind; [apply kk_get; intros o _; destruct (o_body o); try apply mall_raise; apply mall_ret|]. intros cd. destruct (dmem _ _); [apply mall_raise|].
    apply mall_bind; [apply kk_set_hdr|]. intros _. by apply kk_set_body, bk_other.
  Qed.
  Lemma kk_add n : forall fuel l child p, mall P lists_keyed (add_child_at_n n fuel l child p).
  Proof.
    induction n as [|n IH]; intros fuel l child p; cbn [add_child_at_n]; (destruct (all_parts p) as [|e rest]; [apply mall_raise|]).
    all: apply mall_bind; [apply kk_get_child|]; intros ex.
    all: destruct rest as [|e2 rest]; [apply mall_bind; [destruct ex; [apply kk_is_node|apply mall_ret]|]; intros []; [apply mall_raise|apply kk_add_child]|].
    all: apply mall_bind; [destruct ex; [apply mall_ret|]; apply mall_bind; [apply kk_get; intros o _; destruct (o_body o); try apply mall_raise; apply mall_ret|]; intros cd;
      apply mall_bind; [by apply kk_new, bk_other|]; intros x; apply mall_bind; [apply kk_add_child|]; intros _; apply mall_ret|].
    all: intros x; apply mall_bind; [apply kk_is_node|]; intros []; [|apply mall_raise].
    - apply mall_raise.
    - apply IH.
  Qed.
  Lemma st_walk fuel parts l s g r s' g' : wf s -> is_Some (s_heap s !! l) -> exec (walk fuel l parts s) g = ((Ok r, s'), g') ->
    wf s' /\ loads s s' /\ peek (s_heap s') l parts = Some r.
  Proof.
    intros [Hok Hk] Hl He. pose proof (kk_exec _ _ _ _ _ _ (kk_walk fuel parts l) Hk He) as Hk'. apply gs_walk in He as [Hlo [Hg Hp]]; [|done|done].
    split; [split; [apply Hg|done]|done].
  Qed.
End Steps.

(** ** The four parts of the look-up *)
Section Parts.
  Context `{Env}.
  (** what they leave behind *)
  Definition in_set (s : pst) (us : loc) (u : uuid) (x : loc) : Prop :=
    exists hx d, s_heap s !! us = Some (Obj hx (BUset d)) /\ h_mapped hx = true /\ dget d u = Some x.
  Definition in_list (s : pst) (l : loc) (v : pystr) (p : ppath) (e : vrec -> Prop) : Prop :=
    exists hx k vs r, s_heap s !! l = Some (Obj hx (BVlist k vs)) /\ h_mapped hx = true /\ record_of vs v p = Some r /\ e r.
  Definition is_tree (x : loc) (r : vrec) : Prop := vr_elt r = ETree x.
  Definition in_tree (s : pst) (t : loc) (parts : list pystr) (m : loc) : Prop :=
    reach (s_heap s) t (map KName parts) = Some m /\ record_at (s_heap s) m.

  Lemma in_set_stays A s s' us u x : extended A s s' -> in_set s us u x -> in_set s' us u x.
  Proof.
    intros He (hx & d & Ho & Hm & Hd). destruct (ex_loaded _ _ _ _ _ He Ho Hm) as ([hx' b'] & Ho' & Hk & Hm' & Hs). cbn in *. destruct b' as [| | | | |d']; try done.
    exists hx', d'. split_and!; [done|done|]. specialize (Hs (KUuid u) (inl x)). cbn in Hs. rewrite Hd in Hs. specialize (Hs eq_refl). destruct (dget d' u); [|done]. cbn in Hs. congruence.
  Qed.
  Lemma in_list_stays A s s' l v p e : extended A s s' -> in_list s l v p e -> in_list s' l v p e.
  Proof.
    intros He (hx & k & vs & r & Ho & Hm & Hd & Hr). destruct (ex_loaded _ _ _ _ _ He Ho Hm) as ([hx' b'] & Ho' & Hk & Hm' & Hs). cbn in *. destruct b' as [| | | |k' vs'|]; try done.
    exists hx', k', vs', r. split_and!; [done|done| |done]. specialize (Hs (KVer v p) (inr r)). cbn in Hs. rewrite Hd in Hs. specialize (Hs eq_refl). destruct (record_of vs' v p); [|done]. cbn in Hs. congruence.
  Qed.
  Lemma record_stays A s s' m : extended A s s' -> record_at (s_heap s) m -> record_at (s_heap s') m.
  Proof.
    intros He (hx & i & v & mm & t & Ho & Hm). destruct (ex_loaded _ _ _ _ _ He Ho Hm) as ([hx' b'] & Ho' & Hk & Hm' & _). cbn in *. destruct b' as [| | |i' v' m' t'| |]; try done.
    by exists hx', i', v', m', t'.
  Qed.
  Lemma in_tree_stays A s s' t parts m : wf s -> wf s' -> extended A s s' -> in_tree s t parts m -> in_tree s' t parts m.
  Proof. intros Hw Hw' He [H1 H2]. split; [exact (ex_reach A s s' Hw Hw' He _ _ _ H1)|exact (record_stays A s s' m He H2)]. Qed.

  (** the version list of a dataset *)
  Lemma st_uuids fuel us s g ks s' g' : wf s -> is_Some (s_heap s !! us) -> exec (uuids fuel us s) g = ((Ok ks, s'), g') ->
    wf s' /\ loads s s' /\ exists hx d, s_heap s' !! us = Some (Obj hx (BUset d)) /\ h_mapped hx = true /\ ks = dkeys d.
  Proof.
    intros Hw Hs He. unfold uuids in He. apply xi_bind in He as (b & s1 & g1 & E1 & He). destruct (st_ensure _ _ _ _ _ _ _ Hw Hs E1) as (Hw1 & Hl1 & [hx bo] & Ho & Hm).
    unfold uuid_entries in He. rewrite !x_bind, x_getobj, Ho in He. cbn beta iota in He. cbn [o_body] in He. destruct bo as [| | | | |d]; try done. rewrite x_ret in He. cbn beta iota in He. rewrite x_ret in He. injection He as <- <- <-.
    split; [done|]. split; [done|]. by exists hx, d.
  Qed.
  Lemma st_dvl fuel us u auto s g r s' g' : wf s -> is_Some (s_heap s !! us) -> exec (dataset_version_list fuel us u auto s) g = ((Ok r, s'), g') ->
    wf s' /\ extended (fun x k => auto = true /\ x = us /\ k = KUuid u) s s' /\
    match r with Some x => in_set s' us u x /\ is_Some (s_heap s' !! x) | None => auto = false end.
  Proof.
    intros Hw Hs He. unfold dataset_version_list in He. apply xi_bind in He as (ks & s1 & g1 & E1 & He).
    destruct (st_uuids _ _ _ _ _ _ _ Hw Hs E1) as (Hw1 & Hl1 & hx & d & Ho & Hm & ->). case_bool_decide as Hin.
    - apply xi_bind in He as (x & s2 & g2 & E2 & He). apply xi_ret in He as (<- & <- & <-). unfold get_version_list in E2.
      rewrite x_bind, (x_mapped_noop _ _ _ _ _ Ho Hm) in E2. cbn beta iota in E2. unfold uuid_entries in E2. rewrite !x_bind, x_getobj, Ho in E2. cbn beta iota in E2. cbn [o_body] in E2. rewrite x_ret in E2. cbn beta iota in E2.
      destruct (dget d u) as [y|] eqn:Ed; [|done]. apply xi_bind in E2 as ([] & s3 & g3 & E3 & E2). apply xi_ret in E2 as (<- & <- & <-).
      assert (Hy : is_Some (s_heap s1 !! y)) by (apply (proj1 Hw1 us _ Ho); cbn; apply in_map_iff; exists (u, y); split; [done|by apply dget_Some_In]).
      destruct (st_read_in _ _ _ _ _ _ Hw1 Hy E3) as [Hw3 Hl3]. split; [done|]. split; [apply ex_any, loads_ex; by eapply lo_trans|]. split.
      + eapply in_set_stays; [by apply (loads_ex nothing)|]. by exists hx, d.
      + by eapply loads_some.
    - destruct auto.
      + apply xi_bind in He as (x & s2 & g2 & E2 & He). rewrite TreeEditFacts.x_new in E2. injection E2 as <- <- <-.
        destruct (alloc_ok s1 (BVlist false []) Hw1) as (Hw2 & Hl2 & Hn2); [done|apply NoDup_nil_2|apply bk_vl, wk_nil|]. cbn zeta in *. set (s2 := PSt _ _ _ _ _ _) in *.
        assert (Ho2 : s_heap s2 !! us = Some (Obj hx (BUset d))) by (destruct (lo_obj _ _ Hl2 us _ Ho) as (o' & Ho' & _ & Hsame); by rewrite <- (Hsame Hm)).
        apply xi_bind in He as ([] & s3 & g3 & E3 & He). apply xi_ret in He as (<- & <- & <-). unfold set_version_list in E3. rewrite x_bind, (x_touch _ _ _ _ Ho2) in E3. cbn beta iota in E3. cbn [o_hdr o_body] in E3.
        unfold uuid_entries in E3. rewrite !x_bind, x_getobj in E3. cbn [s_heap with_heap] in E3. rewrite heap_insert, decide_True in E3 by done. cbn beta iota in E3. cbn [o_body] in E3. rewrite x_ret in E3. cbn beta iota in E3.
        erewrite WriteFacts.x_set_body in E3 by (cbn; rewrite heap_insert, decide_True; done). unfold with_heap in E3. cbn [s_heap s_next s_caches s_orefs s_legacy s_locks o_hdr] in E3. rewrite heap_ins2 in E3. injection E3 as <- <-.
        assert (Hnone : dget d u = None) by (destruct (dget d u) eqn:Ed; [exfalso; apply Hin, dget_is_Some; by rewrite Ed|done]).
        destruct (put_ok s2 us hx (BUset d) (BUset (dset d u (s_next s1))) (KUuid u) Hw2 Ho2 Hm) as [Hw3 He3].
        * done.
        * intros y Hy. cbn in Hy. unfold dvals in Hy. apply dset_in_snd in Hy as [->|Hy]; [by eexists|]. by apply (proj1 Hw2 us _ Ho2).
        * apply kids_us_keys, dset_nodup. apply kids_us_keys. by apply (proj1 Hw2 us _ Ho2).
        * by apply bk_other.
        * cbn. by rewrite Hnone.
        * cbn. by rewrite dget_dset_eq.
        * intros [| | | |u'] Hk; try done. cbn. rewrite dget_dset_ne; [done|congruence].
        * split; [done|]. split.
          -- eapply ex_trans; [apply ex_any, loads_ex; by eapply lo_trans|]. eapply ex_mono; [|exact He3]. cbn. by intros ? ? [-> ->].
          -- split; [|eapply ex_some; [exact He3|by eexists]].
             eexists _, _. cbn. rewrite heap_insert, decide_True by done. split; [done|]. split; [done|]. apply dget_dset_eq.
      + apply xi_ret in He as (<- & <- & <-). split; [done|]. split; [by apply loads_ex|done].
  Qed.

  (** versions of a list *)
  Lemma st_has fuel l v p s g b s' g' : wf s -> is_Some (s_heap s !! l) -> exec (has_version fuel l v p s) g = ((Ok b, s'), g') ->
    wf s' /\ loads s s' /\ exists hx k vs, s_heap s' !! l = Some (Obj hx (BVlist k vs)) /\ h_mapped hx = true /\ well_keyed vs /\
      (b = true <-> record_of vs v p <> None).
  Proof.
    intros Hw Hs He. unfold has_version, versions_and_prefix_paths in He. apply xi_bind in He as (vps & s1 & g1 & E1 & He). apply xi_ret in He as (<- & <- & <-).
    apply xi_bind in E1 as (b1 & s2 & g2 & E2 & E1). destruct (st_ensure _ _ _ _ _ _ _ Hw Hs E2) as (Hw1 & Hl1 & [hx bo] & Ho & Hm).
    unfold versions in E1. rewrite !x_bind, x_getobj, Ho in E1. cbn beta iota in E1. cbn [o_body] in E1. destruct bo as [| | | |k vs|]; try done. rewrite x_ret in E1. cbn beta iota in E1. rewrite x_ret in E1. injection E1 as <- <- <-.
    split; [done|]. split; [done|]. exists hx, k, vs. assert (Hwk : well_keyed vs) by by eapply (proj2 Hw1). split_and!; [done|done|done|]. cbn [snd].
    rewrite bool_decide_eq_true, elem_of_list_In, in_map_iff. split.
    - intros ([v' r] & [= -> <-] & Hin). apply records_in in Hin; [|done]. by rewrite Hin.
    - destruct (record_of vs v p) as [r|] eqn:Er; [|done]. intros _. exists (v, r).
      assert (Hp : vr_path r = p). { unfold record_of in Er. destruct (dget vs v) as [d|] eqn:Ed; [|done]. apply dget_Some_In in Ed, Er. by eapply (proj2 Hwk). }
      cbn. split; [by rewrite Hp|]. apply records_in; [done|]. by rewrite Hp.
  Qed.
  (** adding a version *)
  Lemma st_set fuel l v t p e hx k vs s : wf s -> s_heap s !! l = Some (Obj hx (BVlist k vs)) -> h_mapped hx = true -> record_of vs v p = None -> is_Some (s_heap s !! elt_loc e) ->
    exists s', (forall g, exec (set_versioned_element fuel l v t p e s) g = ((Ok tt, s'), g)) /\ wf s' /\ extended (fun x k => x = l /\ k = KVer v p) s s' /\ in_list s' l v p (fun r => r = VRec t p e).
  Proof.
    intros Hw Ho Hm Hr Hin. assert (Hwk : well_keyed vs) by by eapply (proj2 Hw). set (r := VRec t p e). set (vs' := vs_set vs v p r).
    assert (Hwk' : well_keyed vs') by by apply wk_set.
    assert (Hget : forall v' p', record_of vs' v' p' = if decide ((v, p) = (v', p')) then Some r else record_of vs v' p').
    { intros v' p'. pose proof (vget_set vs v p r v' p') as HV. unfold vget in HV. unfold record_of. apply HV. }
    destruct (put_ok s l hx (BVlist k vs) (BVlist k vs') (KVer v p) Hw Ho Hm) as [Hw' He'].
    - done.
    - intros x Hx. rewrite sub_flat in Hx. apply in_map_iff in Hx as ([[v' p'] x'] & <- & Hx). apply In_dget in Hx; [|apply flat_nodup; by apply wk_ok].
      rewrite flat_get in Hx by apply Hwk'. unfold vget in Hx. specialize (Hget v' p'). unfold record_of in Hget. rewrite Hget in Hx. case_decide.
      + injection Hx as <-. done.
      + apply (proj1 Hw l _ Ho). cbn [o_body]. rewrite sub_flat. unfold option_map in Hx.
        assert (HV : dget (vs_flat (fun r => elt_loc (vr_elt r)) vs) (v', p') = Some x').
        { rewrite flat_get by apply Hwk. unfold vget. done. }
        apply in_map_iff. exists ((v', p'), x'). split; [done|]. by apply dget_Some_In.
    - apply kids_flat_keys. by apply wk_ok.
    - by apply bk_vl.
    - cbn. by rewrite Hr.
    - cbn. rewrite Hget, decide_True by done. done.
    - intros [| | |v' p'|] Hk; try done. cbn. rewrite Hget, decide_False; [done|congruence].
    - eexists. split; [|split; [exact Hw'|split; [exact He'|]]].
      + intros g. exact (set_one fuel l hx k vs (VCall v t p e) s g Ho Hm).
      + eexists _, _, _, r. cbn. rewrite heap_insert, decide_True by done. split; [done|]. split; [done|]. split; [rewrite Hget, decide_True; done|done].
  Qed.
  Lemma il_mono s l v p (e e' : vrec -> Prop) : (forall r, e r -> e' r) -> in_list s l v p e -> in_list s l v p e'.
  Proof. intros Hm (hx & k & vs & r & Ho & Hm' & Hr & He). exists hx, k, vs, r. auto. Qed.
  Lemma st_register fuel l v t p m s g s' g' : wf s -> is_Some (s_heap s !! l) -> is_Some (s_heap s !! m) -> exec (register_record fuel l v t p m s) g = ((Ok tt, s'), g') ->
    wf s' /\ extended (fun x k => x = l /\ k = KVer v p) s s' /\ exists r, in_list s' l v p (eq r) /\ (r = VRec t p (EMrr m) \/ loads s s').
  Proof.
    intros Hw Hs Hmm He. unfold register_record in He. apply xi_bind in He as (b & s1 & g1 & E1 & He).
    destruct (st_has _ _ _ _ _ _ _ _ _ Hw Hs E1) as (Hw1 & Hl1 & hx & k & vs & Ho & Hm & Hwk & Hb). destruct b.
    - apply xi_ret in He as (_ & <- & <-). split; [done|]. split; [by apply loads_ex|]. destruct (record_of vs v p) as [r|] eqn:Er; [exists r; split; [by exists hx, k, vs, r|by right]|].
      by destruct (proj1 Hb eq_refl).
    - assert (Hr : record_of vs v p = None). { destruct (record_of vs v p) eqn:Er; [|done]. assert (false = true); [|done]. by apply Hb. }
      destruct (st_set fuel l v t p (EMrr m) hx k vs s1 Hw1 Ho Hm Hr) as (s2 & E2 & Hw2 & He2 & Hi2); [by eapply loads_some|]. rewrite E2 in He. injection He as <- <-.
      split; [done|]. split; [eapply ex_trans; [by apply loads_ex|done]|]. eexists. split; [|by left]. eapply il_mono; [|exact Hi2]. by intros ? ->.
  Qed.
  Lemma st_tree fuel l v p t auto s g r s' g' : wf s -> is_Some (s_heap s !! l) -> exec (version_tree fuel l v p t auto s) g = ((Ok r, s'), g') ->
    wf s' /\ extended (fun x k => auto = true /\ x = l /\ k = KVer v p) s s' /\
    match r with
    | Some x => exists r, in_list s' l v p (eq r) /\ is_tree x r /\ is_Some (s_heap s' !! x) /\ (r = VRec t p (ETree x) \/ loads s s')
    | None => auto = false
    end.
  Proof.
    intros Hw Hs He. unfold version_tree in He. apply xi_bind in He as (b & s1 & g1 & E1 & He).
    destruct (st_has _ _ _ _ _ _ _ _ _ Hw Hs E1) as (Hw1 & Hl1 & hx & k & vs & Ho & Hm & Hwk & Hb). destruct b.
    - apply xi_bind in He as (r1 & s2 & g2 & E2 & He). destruct (record_of vs v p) as [r0|] eqn:Er; [|by destruct (proj1 Hb eq_refl)].
      unfold get_versioned_element in E2. rewrite x_bind, (x_mapped_noop _ _ _ _ _ Ho Hm) in E2. cbn beta iota in E2.
      assert (Eg : exec (get_version_record fuel l v p s1) g1 = ((Ok r0, s1), g1)).
      { unfold get_version_record. rewrite x_bind, (x_mapped_noop _ _ _ _ _ Ho Hm). cbn beta iota. rewrite x_bind, (x_versions _ _ _ _ _ _ Ho). cbn beta iota. cbn [snd].
        unfold record_of in Er. destruct (dget vs v); [|done]. by rewrite Er. }
      rewrite x_bind, Eg in E2. cbn beta iota in E2. apply xi_bind in E2 as ([] & s3 & g3 & E3 & E2). apply xi_ret in E2 as (<- & <- & <-). unfold elt_read_in in E3.
      assert (Hy : is_Some (s_heap s1 !! elt_loc (vr_elt r0))).
      { apply (proj1 Hw1 l _ Ho). cbn [o_body]. rewrite sub_flat. apply in_map_iff. exists ((v, p), elt_loc (vr_elt r0)). split; [done|]. apply dget_Some_In. rewrite flat_get by apply Hwk.
        unfold vget. unfold record_of in Er. by rewrite Er. }
      destruct (st_read_in _ _ _ _ _ _ Hw1 Hy E3) as [Hw3 Hl3]. destruct (vr_elt r0) as [x|x] eqn:Ee; [|done]. apply xi_ret in He as (<- & <- & <-).
      assert (Hl : loads s s3) by by eapply lo_trans. split; [done|]. split; [by apply ex_any, loads_ex|]. exists r0. split; [|split; [done|split; [exact (loads_some _ _ _ Hl3 Hy)|by right]]].
      eapply in_list_stays; [apply (loads_ex nothing); exact Hl3|]. by exists hx, k, vs, r0.
    - assert (Hr : record_of vs v p = None). { destruct (record_of vs v p) eqn:Er; [|done]. assert (false = true); [|done]. by apply Hb. }
      destruct auto.
      + apply xi_bind in He as (x & s2 & g2 & E2 & He). rewrite TreeEditFacts.x_new in E2. injection E2 as <- <- <-.
        destruct (alloc_ok s1 (BNode LMrr []) Hw1) as (Hw2 & Hl2 & Hn2); [done|apply NoDup_nil_2|by apply bk_other|]. cbn zeta in *. set (s2 := PSt _ _ _ _ _ _) in *.
        assert (Ho2 : s_heap s2 !! l = Some (Obj hx (BVlist k vs))) by (destruct (lo_obj _ _ Hl2 l _ Ho) as (o' & Ho' & _ & Hsame); by rewrite <- (Hsame Hm)).
        destruct (st_set fuel l v t p (ETree (s_next s1)) hx k vs s2 Hw2 Ho2 Hm Hr) as (s3 & E3 & Hw3 & He3 & Hi3); [by eexists|].
        apply xi_bind in He as ([] & s4 & g4 & E4 & He). rewrite E3 in E4. injection E4 as <- <-. apply xi_ret in He as (<- & <- & <-).
        split; [done|]. split; [|eexists; split; [eapply il_mono; [|exact Hi3]; by intros ? ->|split; [done|split; [eapply ex_some; [exact He3|by eexists]|by left]]]].
        eapply ex_trans; [apply ex_any, loads_ex; by eapply lo_trans|]. eapply ex_mono; [|exact He3]. cbn. by intros ? ? [-> ->].
      + apply xi_ret in He as (<- & <- & <-). split; [done|]. split; [by apply loads_ex|done].
  Qed.
  (** records of a tree *)
  Lemma lo_same s s' (x : loc) o : loads s s' -> s_heap s !! x = Some o -> h_mapped (o_hdr o) = true -> s_heap s' !! x = Some o.
  Proof. intros [_ _ Ho] Hx Hm. destruct (Ho x o Hx) as (o' & Ho' & _ & Hs). by rewrite Ho', (Hs Hm). Qed.
  Lemma ex_keep A s s' (x : loc) o : extended A s s' -> s_heap s !! x = Some o -> h_mapped (o_hdr o) = true ->
    (forall k, A x k -> forall b, kind_of b = kind_of (o_body o) -> entry_of b k = None) -> s_heap s' !! x = Some o.
  Proof.
    intros [_ _ Hob] Hx Hm Ha. destruct (Hob x o Hx) as (o' & Ho' & Hk & Hs). rewrite Ho'. f_equal. destruct (Hs Hm) as [->|(_ & _ & k & H1 & H2 & H3)]; [done|].
    destruct H3. by eapply Ha.
  Qed.
  Definition below (auto : bool) (h : heap) (t : loc) (parts : list pystr) (x : loc) (k : key) : Prop :=
    auto = true /\ exists pre e rest, parts = pre ++ e :: rest /\ reach h t (map KName pre) = Some x /\ k = KName e.
  Lemma added_ex s s' t child parts : wf s -> wf s' -> record_at (s_heap s) child -> added s s' t child parts ->
    extended (below true (s_heap s') t parts) s s' /\ in_tree s' t parts child /\
    exists pre e n, reach (s_heap s) t (map KName pre) = Some n /\ extended (fun z k => z = n /\ k = KName e) s s'.
  Proof.
    intros Hw Hw' Hrec [A1 A2 A3 A4 A5]. destruct A5 as (pre & e & rest & n & x & c & d & y & -> & B1 & B2 & B3 & B4 & B5 & B6 & _ & B7).
    assert (He : extended (fun z k => z = n /\ k = KName e) s s').
    { split; [exact A1|exact A2|]. intros z o Ho. destruct (decide (z = n)) as [->|Hne].
      - assert (o = Obj x (BNode c d)) as -> by congruence. eexists. split; [exact B5|]. split; [done|]. intros _. right. split; [done|]. cbn [o_body o_hdr]. split.
        + intros k. destruct (decide (k = KName e)) as [->|Hk]; [right; cbn; by rewrite B4|]. left. destruct k as [e'| | | |]; try done. cbn. rewrite dget_dset_ne; [done|congruence].
        + exists (KName e). cbn. rewrite B4, dget_dset_eq. done.
      - exists o. split; [|by auto]. rewrite B6; [done| |done]. apply (proj1 Hw z o Ho). }
    assert (Hn : reach (s_heap s') t (map KName pre) = Some n) by exact (ex_reach _ _ _ Hw Hw' He _ _ _ B1).
    split; [|split; [|by exists pre, e, n]].
    - eapply ex_mono; [|exact He]. intros z k [-> ->]. split; [done|]. by exists pre, e, rest.
    - split; [|by eapply record_stays]. rewrite map_app, reach_app, Hn. cbn [map reach]. rewrite B5. cbn [o_hdr o_body h_mapped hd_saved]. rewrite B3, dget_name, dget_dset_eq. apply peek_reach. by eapply chain_peek.
  Qed.
  Lemma st_new b s g x s' g' : wf s -> exec (new_obj b None None s) g = ((Ok x, s'), g') ->
    (forall y, In y (sub_objects b) -> is_Some (s_heap s !! y)) -> NoDup (dkeys (kids_of b)) -> body_keyed b ->
    wf s' /\ loads s s' /\ s_heap s' !! x = Some (Obj (Hdr None None true ∅) b) /\ s_heap s !! x = None /\ forall (z : loc) o, s_heap s !! z = Some o -> s_heap s' !! z = Some o.
  Proof.
    intros Hw He H1 H2 H3. rewrite TreeEditFacts.x_new in He. injection He as <- <- <-. destruct (alloc_ok s b Hw H1 H2 H3) as (A1 & A2 & A3). cbn zeta in *.
    assert (Hlt : forall (z : loc) o, s_heap s !! z = Some o -> z <> s_next s). { intros z o Hz ->. destruct (proj1 Hw _ _ Hz) as (Hlt & _). lia. }
    split_and!; [done|done|done| |].
    - destruct (s_heap s !! s_next s) as [o|] eqn:E; [|done]. by destruct (Hlt _ _ E).
    - intros z o Hz. cbn. rewrite heap_insert, decide_False; [done|]. intros <-. by destruct (Hlt _ _ Hz).
  Qed.
  Lemma reach_old s s' : heap_ok s -> (forall (z : loc) o, s_heap s !! z = Some o -> s_heap s' !! z = Some o) ->
    forall p l y, is_Some (s_heap s !! l) -> reach (s_heap s') l p = Some y -> is_Some (s_heap s !! y).
  Proof.
    intros Hok Hs. induction p as [|k p IH]; intros l y Hl; cbn [reach]; [by intros [= <-]|]. destruct Hl as [o Ho]. rewrite (Hs _ _ Ho). destruct (h_mapped (o_hdr o)); [|done].
    destruct (dget _ k) as [z|] eqn:Ed; [|done]. apply IH. apply (Hok l o Ho). by eapply kids_in_sub.
  Qed.
  Lemma st_record fuel t p u v auto s g r s' g' : wf s -> wfp p -> is_Some (s_heap s !! t) -> exec (tree_record fuel t p u v auto s) g = ((Ok r, s'), g') ->
    wf s' /\ extended (below auto (s_heap s') t (all_parts (record_path p))) s s' /\
    match r with Some m => in_tree s' t (all_parts (record_path p)) m /\ (empty_record (s_heap s') m u v \/ loads s s') | None => auto = false end.
  Proof.
    intros Hw Hp Hs He. unfold tree_record in He. apply xi_bind in He as (b & s0 & g0 & E1 & He). unfold dataset_in, get_object_at_path in E1.
    apply xi_bind in E1 as (c & s1 & g1 & E1 & E2). apply xi_ret in E2 as (<- & <- & <-). destruct (st_walk _ _ _ _ _ _ _ _ Hw Hs E1) as (Hw1 & Hl1 & Hp1).
    destruct c as [x|]; cbn [is_some] in He.
    - unfold get_metadata_root_record, get_object_at_path in He. rewrite x_bind, (walk_peek _ _ _ _ _ _ Hp1) in He. cbn beta iota in He.
      assert (Hx : is_Some (s_heap s1 !! x)) by (eapply peek_some; [apply Hw1|by eapply loads_some|exact Hp1]). pose proof Hx as [[hx bx] Ho].
      rewrite x_bind, x_getobj, Ho in He. cbn beta iota in He. cbn [o_body] in He. destruct bx as [| | |i w m tt| |]; try done.
      apply xi_bind in He as (b & s3 & g3 & E3 & He). apply xi_ret in He as (<- & <- & <-). destruct (st_ensure _ _ _ _ _ _ _ Hw1 Hx E3) as (Hw3 & Hl3 & [hx3 bx3] & Ho3 & Hm3).
      assert (Hl : loads s s3) by by eapply lo_trans. split; [done|]. split; [by apply loads_ex|]. split; [|by right]. split; [apply peek_reach; exact (loads_peek _ _ Hl3 _ _ _ Hp1)|].
      destruct (lo_obj _ _ Hl3 x _ Ho) as (o' & Ho' & Hk & _). rewrite Ho3 in Ho'. injection Ho' as <-. cbn in Hk. destruct bx3 as [| | |i' w' m' t'| |]; try done. by exists hx3, i', w', m', t'.
    - destruct auto; [|apply xi_ret in He as (<- & <- & <-); split; [done|]; split; [by apply loads_ex|done]].
      apply xi_bind in He as (x & sC & gC & EC & He). unfold new_root_record in EC. apply xi_bind in EC as (xa & sA & gA & EA & EC).
      destruct (st_new _ _ _ _ _ _ Hw1 EA) as (HwA & HlA & HnA & _ & HsA); [done|apply NoDup_nil_2|by apply bk_other|]. apply xi_bind in EC as (xb & sB & gB & EB & EC).
      destruct (st_new _ _ _ _ _ _ HwA EB) as (HwB & HlB & HnB & HxB & HsB); [done|apply NoDup_nil_2|by apply bk_other|].
      destruct (st_new _ _ _ _ _ _ HwB EC) as (HwC & HlC & HnC & _ & HsC).
      { intros z. cbn. intros [<-|[<-|[]]]; [eapply loads_some; [exact HlB|]|]; by eexists. }
      { cbn. apply NoDup_cons_2; [|apply NoDup_cons_2; [|apply NoDup_nil_2]]; rewrite ?elem_of_cons, ?elem_of_nil; intros Hin; repeat destruct Hin as [Hin|Hin]; done. }
      { by apply bk_other. }
      apply xi_bind in He as ([] & s4 & g4 & E4 & He). apply xi_ret in He as (<- & <- & <-).
      assert (Hsc : loads s sC) by (eapply lo_trans; [exact Hl1|]; eapply lo_trans; [exact HlA|]; eapply lo_trans; [exact HlB|exact HlC]).
      assert (HtC : is_Some (s_heap sC !! t)) by by eapply loads_some.
      unfold add_dataset, add_child_at in E4. pose proof (kk_exec _ _ _ _ _ _ (kk_add _ _ _ _ _) (proj2 HwC) E4) as Hk4.
      destruct (record_path_parts p Hp) as [HwR HR]. assert (Hn : node_at (s_heap sC) t).
      { destruct (all_parts (record_path p)) as [|e rest] eqn:Eall; [by destruct (all_parts p)|]. cbn [length add_child_at_n] in E4. rewrite Eall in E4.
        apply xi_bind in E4 as (ex & s5 & g5 & E5 & _). unfold get_child in E5. apply xi_bind in E5 as (b5 & s6 & g6 & E6 & E5).
        destruct (st_ensure _ _ _ _ _ _ _ HwC HtC E6) as (_ & Hl6 & [h6 b6] & Ho6 & _). apply xi_bind in E5 as (cd & s7 & g7 & E7 & _). unfold children in E7. rewrite x_bind, x_getobj, Ho6 in E7. cbn beta iota in E7. cbn [o_body] in E7.
        destruct HtC as [[hC bC] HoC]. destruct (lo_obj _ _ Hl6 t _ HoC) as (o' & Ho' & Hk & _). rewrite Ho6 in Ho'. injection Ho' as <-. cbn in Hk. destruct b6; try done. destruct bC; try done. by eexists _, _, _. }
      edestruct (add_run _ _ _ _ _ _ _ _ _ _ (proj1 HwC) HwR (le_n _) Hn E4) as (s5 & Hgs & Had).
      pose proof (gs_ok _ _ Hgs) as Hok5. assert (Hl5 : loads sC s5) by apply Hgs. assert (Hx5 : record_at (s_heap s5) x) by (eapply record_loads; [exact Hl5|]; by eexists _, _, _, _, _).
      assert (Hw4 : wf s4). { split; [|done]. eapply ad_ok; [exact Had|exact Hok5|]. destruct Hx5 as (? & ? & ? & ? & ? & -> & _). by eexists. }
      assert (Hk5 : lists_keyed s5).
      { destruct Had as [A1 A2 A3 A4 (pre & e & rest & n & y & c & d & z & _ & _ & B2 & _ & _ & _ & B6 & _)]. intros w hw k vs Hw5. apply (Hk4 w hw k vs). rewrite B6; [done|apply (Hok5 w _ Hw5)|congruence]. }
      destruct (added_ex _ _ _ _ _ (conj Hok5 Hk5) Hw4 Hx5 Had) as (Hex & Hin & pre & e & n & Hn5 & Hex5). split; [done|]. split; [|split; [done|left]].
      { eapply ex_trans; [|exact Hex]. apply loads_ex. by eapply lo_trans. }
      assert (Hxb : n <> xb).
      { intros ->. assert (HtS : is_Some (s_heap s1 !! t)) by exact (loads_some _ _ _ Hl1 Hs).
        apply (gs_old _ _ Hgs) in Hn5; [|exact HtC|]; [|eexists; apply HsC; exact HnB].
        assert (HtA : is_Some (s_heap sA !! t)) by exact (loads_some _ _ _ HlA HtS).
        destruct (reach_old sA sC (proj1 HwA) (fun z o Hz => HsC _ _ (HsB _ _ Hz)) _ _ _ HtA Hn5) as [o Ho]. congruence. }
      apply (lo_same _ _ _ _ HlC) in HnB; [|done]. apply (lo_same _ _ _ _ HlB) in HnA; [|done]. apply (lo_same _ _ _ _ HlC) in HnA; [|done].
      apply (lo_same _ _ _ _ Hl5) in HnA, HnB, HnC; [|done|done|done].
      assert (HxM : s_heap s4 !! x = Some (Obj (Hdr None None true ∅) (BMrr (Some u) (Some v) (Some xa) (Some xb)))) by (eapply ex_keep; [exact Hex5|exact HnC|done|]; intros k [_ ->] [] Hb; done).
      assert (HaM : s_heap s4 !! xa = Some (Obj (Hdr None None true ∅) (BMeta []))) by (eapply ex_keep; [exact Hex5|exact HnA|done|]; intros k [_ ->] [] Hb; done).
      assert (HbM : s_heap s4 !! xb = Some (Obj (Hdr None None true ∅) (BNode LMeta []))) by (eapply ex_keep; [exact Hex5|exact HnB|done|]; intros k [Hx _]; by destruct Hxb).
      split; [by eexists _, _, _, _|]. eexists _, _, _, _, _, xb. by split_and!.
  Qed.
  (** *** The parts again, when all is there *)
  Lemma x_read_noop fuel l o s g : s_heap s !! l = Some o -> h_mapped (o_hdr o) = true -> exec (read_in fuel l s) g = ((Ok tt, s), g).
  Proof. intros Ho Hm. unfold read_in. by rewrite x_bind, x_getobj, Ho, Hm. Qed.
  Lemma rp_dvl fuel us u auto x s g : in_set s us u x -> loaded_at (s_heap s) x -> exec (dataset_version_list fuel us u auto s) g = ((Ok (Some x), s), g).
  Proof.
    intros (hx & d & Ho & Hm & Hd) (o & Hx & Hmx). unfold dataset_version_list, uuids, uuid_entries. rewrite !x_bind, (x_mapped_noop _ _ _ _ _ Ho Hm). cbn beta iota.
    rewrite !x_bind, x_getobj, Ho. cbn beta iota. cbn [o_body]. rewrite x_ret. cbn beta iota. rewrite x_ret. cbn beta iota.
    rewrite bool_decide_true by (apply dget_is_Some; by rewrite Hd). unfold get_version_list, uuid_entries. rewrite !x_bind, (x_mapped_noop _ _ _ _ _ Ho Hm). cbn beta iota.
    rewrite !x_bind, x_getobj, Ho. cbn beta iota. cbn [o_body]. rewrite x_ret. cbn beta iota. rewrite Hd, x_bind, (x_read_noop _ _ _ _ _ Hx Hmx). done.
  Qed.
  Lemma rp_has fuel l v p e s g : wf s -> in_list s l v p e -> exec (has_version fuel l v p s) g = ((Ok true, s), g).
  Proof.
    intros Hw (hx & k & vs & r & Ho & Hm & Hr & _). unfold has_version, versions_and_prefix_paths. rewrite !x_bind, (x_mapped_noop _ _ _ _ _ Ho Hm). cbn beta iota.
    rewrite x_bind, (x_versions _ _ _ _ _ _ Ho). cbn beta iota. rewrite x_ret. cbn beta iota. rewrite x_ret. do 3 f_equal. apply bool_decide_eq_true, elem_of_list_In, in_map_iff. exists (v, r).
    assert (Hwk : well_keyed vs) by by eapply (proj2 Hw). assert (Hp : vr_path r = p). { unfold record_of in Hr. destruct (dget vs v) as [d|] eqn:Ed; [|done]. apply dget_Some_In in Ed, Hr. by eapply (proj2 Hwk). }
    cbn. split; [by rewrite Hp|]. apply records_in; [done|]. by rewrite Hp.
  Qed.
  Lemma rp_register fuel l v t p m e s g : wf s -> in_list s l v p e -> exec (register_record fuel l v t p m s) g = ((Ok tt, s), g).
  Proof. intros Hw Hi. unfold register_record. by rewrite x_bind, (rp_has _ _ _ _ _ _ _ Hw Hi). Qed.
  Lemma rp_tree fuel l v p t auto x s g : wf s -> in_list s l v p (is_tree x) -> loaded_at (s_heap s) x -> exec (version_tree fuel l v p t auto s) g = ((Ok (Some x), s), g).
  Proof.
    intros Hw Hi (o & Hx & Hmx). unfold version_tree. rewrite x_bind, (rp_has _ _ _ _ _ _ _ Hw Hi). cbn beta iota. destruct Hi as (hx & k & vs & r & Ho & Hm & Hr & He).
    unfold get_versioned_element. rewrite !x_bind, (x_mapped_noop _ _ _ _ _ Ho Hm). cbn beta iota.
    assert (Eg : exec (get_version_record fuel l v p s) g = ((Ok r, s), g)).
    { unfold get_version_record. rewrite x_bind, (x_mapped_noop _ _ _ _ _ Ho Hm). cbn beta iota. rewrite x_bind, (x_versions _ _ _ _ _ _ Ho). cbn beta iota. cbn [snd].
      unfold record_of in Hr. destruct (dget vs v); [|done]. by rewrite Hr. }
    rewrite x_bind, Eg. cbn beta iota. unfold elt_read_in. rewrite He. cbn [elt_loc]. rewrite x_bind, (x_read_noop _ _ _ _ _ Hx Hmx). cbn beta iota. rewrite x_ret. cbn beta iota. by rewrite He.
  Qed.
  Lemma rp_record fuel t p u v auto m s g : in_tree s t (all_parts (record_path p)) m -> exec (tree_record fuel t p u v auto s) g = ((Ok (Some m), s), g).
  Proof.
    intros [Hr (hx & i & w & mm & tt & Ho & Hm)]. apply reach_peek in Hr. unfold tree_record, dataset_in, get_object_at_path. rewrite !x_bind, (walk_peek _ _ _ _ _ _ Hr). cbn beta iota. rewrite x_ret. cbn beta iota. cbn [is_some].
    unfold get_metadata_root_record, get_object_at_path. rewrite !x_bind, (walk_peek _ _ _ _ _ _ Hr). cbn beta iota. rewrite x_bind, x_getobj, Ho. cbn beta iota. cbn [o_body].
    rewrite x_bind, (x_mapped_noop _ _ _ _ _ Ho Hm). done.
  Qed.
  Lemma in_list_loaded s l v p e : in_list s l v p e -> loaded_at (s_heap s) l.
  Proof. intros (hx & k & vs & r & Ho & Hm & _). by eexists. Qed.
  Lemma in_tree_loaded s t p m : wfp p -> in_tree s t (all_parts (record_path p)) m -> loaded_at (s_heap s) t.
  Proof.
    intros Hp [Hr _]. destruct (record_path_parts p Hp) as [_ HR]. destruct (all_parts (record_path p)) as [|e rest]; [by destruct (all_parts p)|].
    cbn [map reach] in Hr. destruct (s_heap s !! t) as [o|] eqn:E; [|done]. destruct (h_mapped (o_hdr o)) eqn:Em; [|done]. by exists o.
  Qed.
  Lemma in_set_reach s us u x : in_set s us u x -> reach (s_heap s) us [KUuid u] = Some x.
  Proof. intros (hx & d & Ho & Hm & Hd). cbn [reach]. rewrite Ho. cbn [o_hdr o_body]. rewrite Hm, kids_uuids, Hd. done. Qed.
  Lemma in_list_reach s l v p x : wf s -> in_list s l v p (is_tree x) -> forall q, reach (s_heap s) l (KVer v p :: q) = reach (s_heap s) x q.
  Proof.
    intros Hw (hx & k & vs & r & Ho & Hm & Hr & He) q. cbn [reach]. rewrite Ho. cbn [o_hdr o_body]. rewrite Hm, (wf_kids _ _ _ _ Hw Ho). cbn [o_body entry_of]. rewrite Hr. cbn. by rewrite He.
  Qed.

  (** *** The whole call *)
  Lemma xi_obind {A B : Type} (m : M pst (option A)) (k : A -> M pst (option B)) s g r s' g' : exec (obind m k s) g = ((Ok r, s'), g') ->
    (r = None /\ exec (m s) g = ((Ok None, s'), g')) \/ exists a s1 g1, exec (m s) g = ((Ok (Some a), s1), g1) /\ exec (k a s1) g1 = ((Ok r, s'), g').
  Proof.
    unfold obind. intros He. apply xi_bind in He as (x & s1 & g1 & E1 & He). destruct x as [a|]; [right; by exists a, s1, g1|]. left. apply xi_ret in He as (<- & <- & <-). done.
  Qed.
  (** a state on the way *)
  Definition names_only (B : loc -> key -> Prop) : Prop := forall x k, B x k -> k <> KMeta /\ k <> KTree.
  Definition later (s s' : pst) : Prop := wf s' /\ exists B, names_only B /\ extended B s s'.
  Section Whole.
    Variables (auto : bool) (tvl us : loc) (tv : pystr) (prefix : ppath).
    Let MA I V R P (s : pst) : loc -> key -> Prop := may_add auto (s_heap s) tvl us tv prefix I V R P.
    Lemma ma_mono I V R P I' V' R' P' B s1 s2 x k : incl I I' -> incl V V' -> incl R R' -> incl P P' -> wf s1 -> wf s2 -> extended B s1 s2 -> MA I V R P s1 x k -> MA I' V' R' P' s2 x k.
    Proof.
      intros II IV IR IP Hw1 Hw2 He [(? & ? & u & ? & ?)|[(? & ? & w & ? & ?)|[(u & v & p & H1 & H2 & H3)|(Ha & q & pre & e & rest & H1 & H2 & H3 & H4)]]].
      - left. split_and!; [done|done|]. exists u. auto.
      - right; left. split_and!; [done|done|]. exists w. auto.
      - right; right; left. exists u, v, p. split_and!; [by apply IR| |done]. exact (ex_reach _ _ _ Hw1 Hw2 He _ _ _ H2).
      - right; right; right. split; [done|]. exists q, pre, e, rest. split_and!; [by apply IP|done| |done]. exact (ex_reach _ _ _ Hw1 Hw2 He _ _ _ H3).
    Qed.
    Definition way I V R P (s0 s : pst) : Prop := wf s /\ extended (MA I V R P s) s0 s /\ is_Some (s_heap s !! us) /\ is_Some (s_heap s !! tvl).
    Lemma way_step I V R P I' V' R' P' B s0 s1 s2 : incl I I' -> incl V V' -> incl R R' -> incl P P' -> way I V R P s0 s1 -> wf s2 -> extended B s1 s2 -> (forall x k, B x k -> MA I' V' R' P' s2 x k) ->
      way I' V' R' P' s0 s2 /\ later s1 s2 /\ (loads s1 s2 -> way I V R P s0 s2).
    Proof.
      intros II IV IR IP (Hw & He & H1 & H2) Hw2 He2 Hb. split_and!.
      - split; [done|]. split; [|split; [exact (ex_some _ _ _ _ He2 H1)|exact (ex_some _ _ _ _ He2 H2)]].
        eapply ex_trans; [eapply ex_mono; [|exact He]|eapply ex_mono; [|exact He2]; exact Hb]. intros x k. exact (ma_mono _ _ _ _ _ _ _ _ _ _ _ _ _ II IV IR IP Hw Hw2 He2).
      - split; [done|]. exists B. split; [|done]. intros x k [(? & ? & u & ? & ->)|[(? & ? & w & ? & ->)|[(u & v & p & ? & ? & ->)|(? & q & pre & e & rest & ? & ? & ? & ->)]]]%Hb; done.
      - intros Hl. split; [done|]. split; [|split; [exact (ex_some _ _ _ _ He2 H1)|exact (ex_some _ _ _ _ He2 H2)]].
        eapply ex_trans; [eapply ex_mono; [|exact He]|by apply loads_ex]. intros x k. exact (ma_mono _ _ _ _ _ _ _ _ _ _ _ _ _ (incl_refl _) (incl_refl _) (incl_refl _) (incl_refl _) Hw Hw2 He2).
    Qed.
    Lemma wy_dvl I V R P I' fuel u s0 s g r s' g' : way I V R P s0 s -> incl I I' -> In u I' -> exec (dataset_version_list fuel us u auto s) g = ((Ok r, s'), g') ->
      way I' V R P s0 s' /\ later s s' /\ match r with Some x => in_set s' us u x /\ is_Some (s_heap s' !! x) | None => auto = false end.
    Proof.
      intros Hway Hi Hin He. pose proof Hway as (Hw & Hex & Hus & Htvl). destruct (st_dvl _ _ _ _ _ _ _ _ _ Hw Hus He) as (Hw' & He' & Hr).
      destruct (way_step I V R P I' V R P _ _ _ _ Hi (incl_refl _) (incl_refl _) (incl_refl _) Hway Hw' He') as (H1 & H2 & _); [|done]. intros x k (Ha & -> & ->). left. split_and!; [done|done|]. by exists u.
    Qed.
    Lemma wy_tree I V R P V' fuel t s0 s g r s' g' : way I V R P s0 s -> incl V V' -> In tv V' -> exec (version_tree fuel tvl tv prefix t auto s) g = ((Ok r, s'), g') ->
      way I V' R P s0 s' /\ later s s' /\ match r with
      | Some x => exists r, in_list s' tvl tv prefix (eq r) /\ is_tree x r /\ is_Some (s_heap s' !! x) /\ (r = VRec t prefix (ETree x) \/ way I V R P s0 s')
      | None => auto = false end.
    Proof.
      intros Hway Hi Hin He. pose proof Hway as (Hw & Hex & Hus & Htvl). destruct (st_tree _ _ _ _ _ _ _ _ _ _ _ Hw Htvl He) as (Hw' & He' & Hr).
      destruct (way_step I V R P I V' R P _ _ _ _ (incl_refl _) Hi (incl_refl _) (incl_refl _) Hway Hw' He') as (H1 & H2 & H3). { intros x k (Ha & -> & ->). right; left. split_and!; [done|done|]. by exists tv. }
      split; [done|]. split; [done|]. destruct r as [x|]; [|done]. destruct Hr as (r & R1 & R2 & R3 & R4). exists r. split_and!; [done|done|done|]. destruct R4; [by left|right]. by apply H3.
    Qed.
    Lemma wy_record I V R P P' fuel t q u v s0 s g r s' g' : way I V R P s0 s -> incl P P' -> In q P' -> wfp q -> in_list s tvl tv prefix (is_tree t) -> is_Some (s_heap s !! t) ->
      exec (tree_record fuel t q u v auto s) g = ((Ok r, s'), g') ->
      way I V R P' s0 s' /\ later s s' /\ match r with
      | Some m => in_tree s' t (all_parts (record_path q)) m /\ (empty_record (s_heap s') m u v \/ way I V R P s0 s')
      | None => auto = false end.
    Proof.
      intros Hway HP Hin Hq Hi Ht He. pose proof Hway as (Hw & Hex & Hus & Htvl). destruct (st_record _ _ _ _ _ _ _ _ _ _ _ Hw Hq Ht He) as (Hw' & He' & Hr).
      destruct (way_step I V R P I V R P' _ _ _ _ (incl_refl _) (incl_refl _) (incl_refl _) HP Hway Hw' He') as (H1 & H2 & H3).
      { intros x k (Ha & pre & e & rest & B1 & B2 & B3). right; right; right. split; [done|]. exists q, pre, e, rest.
        split_and!; [done|done| |done]. pose proof (in_list_stays _ _ _ _ _ _ _ He' Hi) as Hi'. by rewrite (in_list_reach _ _ _ _ _ Hw' Hi'). }
      split; [done|]. split; [done|]. destruct r as [m|]; [|done]. destruct Hr as [R1 [R2|R2]]; split; auto.
    Qed.
    Lemma wy_register I V R P R' fuel vl u v t p m s0 s g s' g' : way I V R P s0 s -> incl R R' -> In (u, v, p) R' -> in_set s us u vl -> is_Some (s_heap s !! vl) -> is_Some (s_heap s !! m) ->
      exec (register_record fuel vl v t p m s) g = ((Ok tt, s'), g') -> way I V R' P s0 s' /\ later s s' /\ (forall m' u' v', empty_record (s_heap s) m' u' v' -> empty_record (s_heap s') m' u' v') /\
        exists r, in_list s' vl v p (eq r) /\ (r = VRec t p (EMrr m) \/ way I V R P s0 s').
    Proof.
      intros Hway HR Hin Hi Hvl Hm He. pose proof Hway as (Hw & Hex & Hus & Htvl). destruct (st_register _ _ _ _ _ _ _ _ _ _ Hw Hvl Hm He) as (Hw' & He' & r & R1 & R2).
      destruct (way_step I V R P I V R' P _ _ _ _ (incl_refl _) (incl_refl _) HR (incl_refl _) Hway Hw' He') as (H1 & H2 & H3).
      { intros x k [-> ->]. right; right; left. exists u, v, p. split_and!; [done| |done]. apply in_set_reach. exact (in_set_stays _ _ _ _ _ _ He' Hi). }
      split; [done|]. split; [done|]. split; [|exists r; split; [done|destruct R2; auto]].
      intros m' u' v' [(hx & md & ft & hm & E1 & E2 & E3 & E4 & E5) (hx' & hf & i & w & md' & ft' & E6 & E7 & E8)]. rewrite E1 in E6. injection E6 as <- <- <- <- <-.
      assert (K1 : s_heap s' !! m' = Some (Obj hx (BMrr (Some u') (Some v') (Some md) (Some ft)))) by (eapply ex_keep; [exact He'|exact E1|done|]; intros k [_ ->] [] Hb; done).
      assert (K2 : s_heap s' !! md = Some (Obj hm (BMeta []))) by (eapply ex_keep; [exact He'|exact E4|done|]; intros k [_ ->] [] Hb; done).
      assert (K3 : s_heap s' !! ft = Some (Obj hf (BNode LMeta []))) by (eapply ex_keep; [exact He'|exact E7|done|]; intros k [_ ->] [] Hb; done).
      split; [by exists hx, md, ft, hm|]. by eexists hx, hf, _, _, _, ft.
    Qed.
  End Whole.
  Lemma la_set s s' us u x : later s s' -> in_set s us u x -> in_set s' us u x.
  Proof. intros (_ & B & _ & He). exact (in_set_stays _ _ _ _ _ _ He). Qed.
  Lemma la_list s s' l v p e : later s s' -> in_list s l v p e -> in_list s' l v p e.
  Proof. intros (_ & B & _ & He). exact (in_list_stays _ _ _ _ _ _ _ He). Qed.
  Lemma la_tree s s' t q m : wf s -> later s s' -> in_tree s t q m -> in_tree s' t q m.
  Proof. intros Hw (Hw' & B & _ & He). exact (in_tree_stays _ _ _ _ _ _ Hw Hw' He). Qed.
  Lemma la_some s s' x : later s s' -> is_Some (s_heap s !! x) -> is_Some (s_heap s' !! x).
  Proof. intros (_ & B & _ & He). exact (ex_some _ _ _ _ He). Qed.
  Lemma la_made s s' m u v : later s s' -> made_record (s_heap s) m u v -> made_record (s_heap s') m u v.
  Proof.
    intros (_ & B & Hb & He) (hx & md & ft & hm & H1 & H2 & H3 & H4 & H5). exists hx, md, ft, hm. split_and!; [|done|done| |done].
    - eapply ex_keep; [exact He|exact H1|done|]. intros k Hk [] Hkd; try done. apply Hb in Hk as [? ?]. by destruct k.
    - eapply ex_keep; [exact He|exact H4|done|]. intros k Hk [] Hkd; done.
  Qed.
  Definition all_found (s : pst) (tvl us : loc) (u : uuid) (v : pystr) (prefix q : ppath) (root_u : option uuid) (root_v : option pystr) (m : loc) : Prop :=
    if bool_decide (q = no_path) then
      exists t vl, in_list s tvl v prefix (is_tree t) /\ in_set s us u vl /\ in_tree s t (all_parts (record_path q)) m /\ in_list s vl v prefix (fun _ => True)
    else match root_u, root_v with
    | Some ru, Some rv => exists t vl rvl rm, in_list s tvl rv prefix (is_tree t) /\
        in_set s us ru rvl /\ in_tree s t (all_parts (record_path no_path)) rm /\ in_list s rvl rv prefix (fun _ => True) /\
        in_set s us u vl /\ in_tree s t (all_parts (record_path q)) m /\ in_list s vl v no_path (fun _ => True)
    | _, _ => False
    end.
  Lemma all_found_stays A s s' tvl us u v prefix q ru rv m : wf s -> wf s' -> names_only A -> extended A s s' -> all_found s tvl us u v prefix q ru rv m -> all_found s' tvl us u v prefix q ru rv m.
  Proof.
    intros Hw Hw' Hna He. assert (Hl : later s s') by (split; [done|by exists A]). unfold all_found. case_bool_decide.
    - intros (t & vl & H1 & H2 & H3 & H4). exists t, vl. split_and!; [exact (la_list _ _ _ _ _ _ Hl H1)|exact (la_set _ _ _ _ _ Hl H2)|exact (la_tree _ _ _ _ _ Hw Hl H3)|exact (la_list _ _ _ _ _ _ Hl H4)].
    - destruct ru as [ru|], rv as [rv|]; try done. intros (t & vl & rvl & rm & H1 & H2 & H3 & H4 & H5 & H6 & H7). exists t, vl, rvl, rm.
      split_and!; [exact (la_list _ _ _ _ _ _ Hl H1)|exact (la_set _ _ _ _ _ Hl H2)|exact (la_tree _ _ _ _ _ Hw Hl H3)|exact (la_list _ _ _ _ _ _ Hl H4)
        |exact (la_set _ _ _ _ _ Hl H5)|exact (la_tree _ _ _ _ _ Hw Hl H6)|exact (la_list _ _ _ _ _ _ Hl H7)].
  Qed.
  Lemma no_path_wf : wfp no_path.
  Proof. apply MetadataPath_wf. Qed.
  Lemma rp_call fuel tvl us u v prefix q ru rv auto now m s g : wf s -> wfp q -> all_found s tvl us u v prefix q ru rv m ->
    exec (get_metadata_root_record_from_top_nodes fuel tvl us u v prefix q ru rv auto now s) g = ((Ok (Some m), s), g).
  Proof.
    intros Hw Hq Hf. unfold get_metadata_root_record_from_top_nodes. change (MetadataPath [AStr []]) with no_path. cbn zeta. unfold all_found in Hf. unfold obind. case_bool_decide.
    - destruct Hf as (t & vl & H1 & H2 & H3 & H4). rewrite !x_bind, (rp_tree _ _ _ _ _ _ _ _ _ Hw H1 (in_tree_loaded _ _ _ _ Hq H3)). cbn beta iota. rewrite x_ret. cbn beta iota.
      rewrite x_bind, (rp_dvl _ _ _ _ _ _ _ H2 (in_list_loaded _ _ _ _ _ H4)). cbn beta iota. rewrite x_bind, (rp_record _ _ _ _ _ _ _ _ _ H3). cbn beta iota.
      rewrite x_bind, (rp_register _ _ _ _ _ _ _ _ _ Hw H4). done.
    - destruct ru as [ru|], rv as [rv|]; try done. destruct Hf as (t & vl & rvl & rm & H1 & H2 & H3 & H4 & H5 & H6 & H7).
      rewrite !x_bind, (rp_dvl _ _ _ _ _ _ _ H2 (in_list_loaded _ _ _ _ _ H4)). cbn beta iota. rewrite !x_bind, (rp_tree _ _ _ _ _ _ _ _ _ Hw H1 (in_tree_loaded _ _ _ _ Hq H6)). cbn beta iota.
      rewrite x_bind, (rp_record _ _ _ _ _ _ _ _ _ H3). cbn beta iota. rewrite x_bind, (rp_register _ _ _ _ _ _ _ _ _ Hw H4). cbn beta iota. rewrite x_ret. cbn beta iota.
      rewrite x_bind, (rp_dvl _ _ _ _ _ _ _ H5 (in_list_loaded _ _ _ _ _ H7)). cbn beta iota. rewrite x_bind, (rp_record _ _ _ _ _ _ _ _ _ H6). cbn beta iota.
      rewrite x_bind, (rp_register _ _ _ _ _ _ _ _ _ Hw H7). done.
  Qed.
  Lemma way_start auto tvl us tv prefix s : wf s -> is_Some (s_heap s !! tvl) -> is_Some (s_heap s !! us) -> way auto tvl us tv prefix [] [] [] [] s s.
  Proof. intros. split; [done|]. split; [apply ex_refl|done]. Qed.
  Lemma rec_some s t q m : in_tree s t q m -> is_Some (s_heap s !! m).
  Proof. intros [_ (? & ? & ? & ? & ? & -> & _)]. by eexists. Qed.

  Lemma rf_in s tvl w prefix t q m : wf s -> in_list s tvl w prefix (is_tree t) -> in_tree s t (all_parts (record_path q)) m -> record_found (s_heap s) tvl w prefix q m.
  Proof. intros Hw H1 [H2 (hx & i & v' & mm & tt & Ho & Hm)]. split; [by rewrite (in_list_reach _ _ _ _ _ Hw H1)|]. by eexists _, i, v', mm, tt. Qed.
  Lemma rg_in s us u vl v p r : in_set s us u vl -> in_list s vl v p (eq r) -> registered (s_heap s) us u v p r.
  Proof. intros H1 (hx & k & vs & r' & Ho & Hm & Hr & <-). eexists vl, _. split; [by apply in_set_reach|]. split; [exact Ho|]. split; [done|]. cbn. by rewrite Hr. Qed.
  Lemma te_in s tvl v p r : in_list s tvl v p (eq r) -> tree_entry (s_heap s) tvl v p r.
  Proof. intros (hx & k & vs & r' & Ho & Hm & Hr & <-). eexists. split; [exact Ho|]. split; [done|]. cbn. by rewrite Hr. Qed.
  Lemma otw auto tvl us tv prefix I V R P s0 s (F : heap -> Prop) : way auto tvl us tv prefix I V R P s0 s -> F (s_heap s) -> on_the_way auto s0 tvl us tv prefix I V R P F.
  Proof. intros (_ & He & _) HF. by exists s. Qed.
  Lemma il_tree s l v p r x : is_tree x r -> in_list s l v p (eq r) -> in_list s l v p (is_tree x).
  Proof. intros Hx. apply il_mono. by intros ? <-. Qed.
  Lemma il_true s l v p r : in_list s l v p (eq r) -> in_list s l v p (fun _ => True).
  Proof. by apply il_mono. Qed.
  Lemma way_ex auto tvl us tv prefix I V R P I' V' R' P' s0 s : incl I I' -> incl V V' -> incl R R' -> incl P P' -> way auto tvl us tv prefix I V R P s0 s ->
    wf s /\ extended (may_add auto (s_heap s) tvl us tv prefix I' V' R' P') s0 s.
  Proof.
    intros II IV IR IP (Hw & He & _). split; [done|]. eapply ex_mono; [|exact He]. intros x k. exact (ma_mono auto tvl us tv prefix I V R P I' V' R' P' nothing s s x k II IV IR IP Hw Hw (ex_refl _ _)).
  Qed.
  Ltac inc := let x := fresh in intros x; cbn; tauto.
  Lemma st_call fuel tvl us u v prefix q ru rv auto now s g r s' g' : wf s -> wfp q -> is_Some (s_heap s !! tvl) -> is_Some (s_heap s !! us) ->
    exec (get_metadata_root_record_from_top_nodes fuel tvl us u v prefix q ru rv auto now s) g = ((Ok r, s'), g') ->
    wf s' /\ extended (may_add_call auto (s_heap s') tvl us u v prefix q ru rv) s s' /\
    match r with Some m => all_found s' tvl us u v prefix q ru rv m /\ call_result auto now s s' tvl us u v prefix q ru rv m | None => auto = false end.
  Proof.
    intros Hw Hq Ht Hu He. unfold get_metadata_root_record_from_top_nodes in He. change (MetadataPath [AStr []]) with no_path in He. cbn zeta in He. unfold may_add_call, all_found, call_result.
    destruct (decide (q = no_path)) as [Hqn|Hqn]; [rewrite (bool_decide_true _ Hqn) in *|rewrite (bool_decide_false _ Hqn) in *].
    - pose proof (way_start auto tvl us v prefix s Hw Ht Hu) as W0.
      assert (Hend : forall I V R P s1, way auto tvl us v prefix I V R P s s1 -> incl I [u] -> incl V [v] -> incl R [(u, v, prefix)] -> incl P [no_path] ->
        wf s1 /\ extended (may_add auto (s_heap s1) tvl us v prefix [u] [v] [(u, v, prefix)] [no_path]) s s1).
      { intros. by eapply way_ex. }
      apply xi_obind in He as [(-> & He)|([t' q'] & s1 & g1 & E1 & He)].
      { apply xi_obind in He as [(_ & He)|(t & s2 & g2 & E2 & He)]; [|done]. destruct (wy_tree _ _ _ _ _ _ _ _ _ [v] _ _ _ _ _ _ _ _ W0 ltac:(inc) ltac:(by left) He) as (W1 & _ & Ha).
        destruct (Hend _ _ _ _ _ W1); [inc|inc|inc|inc|done]. }
      apply xi_obind in E1 as [(Hx & _)|(t & s2 & g2 & E1 & E2)]; [done|]. apply xi_ret in E2 as ([= <- <-] & <- & <-).
      destruct (wy_tree _ _ _ _ _ _ _ _ _ [v] _ _ _ _ _ _ _ _ W0 ltac:(inc) ltac:(by left) E1) as (W1 & L1 & te & T0 & T2 & Ts & T3). pose proof (il_tree _ _ _ _ _ _ T2 T0) as T1. cbn beta iota in He.
      assert (T4 : (exists t, te = VRec (now 2%nat) prefix (ETree t)) \/ on_the_way auto s tvl us v prefix [] [] [] [] (fun h => tree_entry h tvl v prefix te)).
      { destruct T3 as [T3|T3]; [left; by exists t|right]. eapply otw; [exact T3|]. by apply te_in. }
      apply xi_obind in He as [(-> & He)|(vl & s3 & g3 & E3 & He)].
      { destruct (wy_dvl _ _ _ _ _ _ _ _ _ [u] _ _ _ _ _ _ _ _ W1 ltac:(inc) ltac:(by left) He) as (W2 & _ & Ha). destruct (Hend _ _ _ _ _ W2); [inc|inc|inc|inc|done]. }
      destruct (wy_dvl _ _ _ _ _ _ _ _ _ [u] _ _ _ _ _ _ _ _ W1 ltac:(inc) ltac:(by left) E3) as (W2 & L2 & V1 & Vs).
      apply (la_list _ _ _ _ _ _ L2) in T1, T0. apply (la_some _ _ _ L2) in Ts. apply xi_obind in He as [(-> & He)|(m & s4 & g4 & E4 & He)].
      { destruct (wy_record _ _ _ _ _ _ _ _ _ [no_path] _ _ _ _ _ _ _ _ _ _ _ W2 ltac:(inc) ltac:(by left) Hq T1 Ts He) as (W3 & _ & Ha). destruct (Hend _ _ _ _ _ W3); [inc|inc|inc|inc|done]. }
      destruct (wy_record _ _ _ _ _ _ _ _ _ [no_path] _ _ _ _ _ _ _ _ _ _ _ W2 ltac:(inc) ltac:(by left) Hq T1 Ts E4) as (W3 & L3 & M1 & M2).
      apply (la_list _ _ _ _ _ _ L3) in T1, T0. apply (la_set _ _ _ _ _ L3) in V1. apply (la_some _ _ _ L3) in Vs.
      apply xi_bind in He as ([] & s5 & g5 & E5 & He). apply xi_ret in He as (<- & <- & <-).
      destruct (wy_register _ _ _ _ _ _ _ _ _ [(u, v, prefix)] _ _ _ _ _ _ _ _ _ _ _ _ W3 ltac:(inc) ltac:(by left) V1 Vs (rec_some _ _ _ _ M1) E5) as (W4 & L4 & K4 & e & R1 & R2).
      destruct (Hend _ _ _ _ _ W4) as [W5 W6]; [inc|inc|inc|inc|]. split; [done|]. split; [done|].
      pose proof (la_list _ _ _ _ _ _ L4 T1) as T1'. pose proof (la_list _ _ _ _ _ _ L4 T0) as T0'. pose proof (la_set _ _ _ _ _ L4 V1) as V1'. pose proof (la_tree _ _ _ _ _ (proj1 W3) L4 M1) as M1'.
      split; [exists t, vl; split_and!; [exact T1'|exact V1'|exact M1'|exact (il_true _ _ _ _ _ R1)]|]. subst q. split; [by eapply rf_in|]. split; [|split].
      + destruct M2 as [M2|M2]; [left; by apply K4|right]. eapply otw; [exact M2|]. by eapply rf_in; [exact (proj1 M2)| |].
      + exists e. split; [by eapply rg_in|]. destruct R2 as [R2|R2]; [by left|right]. eapply otw; [exact R2|]. by eapply rg_in.
      + exists te. split; [by apply te_in|exact T4].
    - destruct ru as [ru|], rv as [rv|]; try (by apply xi_obind in He as [(-> & He)|([t' q'] & s1 & g1 & E1 & He)]).
      pose proof (way_start auto tvl us rv prefix s Hw Ht Hu) as W0.
      assert (Hend : forall I V R P s1, way auto tvl us rv prefix I V R P s s1 -> incl I [ru; u] -> incl V [rv] -> incl R [(ru, rv, prefix); (u, v, no_path)] -> incl P [no_path; q] ->
        wf s1 /\ extended (may_add auto (s_heap s1) tvl us rv prefix [ru; u] [rv] [(ru, rv, prefix); (u, v, no_path)] [no_path; q]) s s1).
      { intros. by eapply way_ex. }
      assert (Hfirst : forall r1 s1 g1, exec ((obind (dataset_version_list fuel us ru auto) (fun rvl => obind (version_tree fuel tvl rv prefix (now 0%nat) auto) (fun tree =>
          obind (tree_record fuel tree no_path ru rv auto) (fun rm => register_record fuel rvl rv (now 1%nat) prefix rm ;;; mret (Some (tree, no_path)))))) s) g = ((Ok r1, s1), g1) ->
        match r1 with
        | Some (t, q') => way auto tvl us rv prefix [ru] [rv] [(ru, rv, prefix)] [no_path] s s1 /\ q' = no_path /\ exists te rvl rm e, in_list s1 tvl rv prefix (eq te) /\ is_tree t te /\ is_Some (s_heap s1 !! t) /\
            in_set s1 us ru rvl /\ in_tree s1 t (all_parts (record_path no_path)) rm /\ in_list s1 rvl rv prefix (eq e) /\
            ((exists t, te = VRec (now 0%nat) prefix (ETree t)) \/ on_the_way auto s tvl us rv prefix [ru] [] [] [] (fun h => tree_entry h tvl rv prefix te)) /\
            (made_record (s_heap s1) rm ru rv \/ on_the_way auto s tvl us rv prefix [ru] [rv] [] [] (fun h => record_found h tvl rv prefix no_path rm)) /\
            (e = VRec (now 1%nat) prefix (EMrr rm) \/ on_the_way auto s tvl us rv prefix [ru] [rv] [] [no_path] (fun h => registered h us ru rv prefix e))
        | None => auto = false /\ wf s1 /\ extended (may_add auto (s_heap s1) tvl us rv prefix [ru; u] [rv] [(ru, rv, prefix); (u, v, no_path)] [no_path; q]) s s1
        end).
      { clear He. intros r1 s1 g1 He. apply xi_obind in He as [(-> & He)|(rvl & s2 & g2 & E2 & He)].
        { destruct (wy_dvl _ _ _ _ _ _ _ _ _ [ru] _ _ _ _ _ _ _ _ W0 ltac:(inc) ltac:(by left) He) as (W1 & _ & Ha). destruct (Hend _ _ _ _ _ W1); [inc|inc|inc|inc|done]. }
        destruct (wy_dvl _ _ _ _ _ _ _ _ _ [ru] _ _ _ _ _ _ _ _ W0 ltac:(inc) ltac:(by left) E2) as (W1 & L1 & V1 & Vs). apply xi_obind in He as [(-> & He)|(t & s3 & g3 & E3 & He)].
        { destruct (wy_tree _ _ _ _ _ _ _ _ _ [rv] _ _ _ _ _ _ _ _ W1 ltac:(inc) ltac:(by left) He) as (W2 & _ & Ha). destruct (Hend _ _ _ _ _ W2); [inc|inc|inc|inc|done]. }
        destruct (wy_tree _ _ _ _ _ _ _ _ _ [rv] _ _ _ _ _ _ _ _ W1 ltac:(inc) ltac:(by left) E3) as (W2 & L2 & te & T0 & T2 & Ts & T3). pose proof (il_tree _ _ _ _ _ _ T2 T0) as T1.
        assert (T4 : (exists t, te = VRec (now 0%nat) prefix (ETree t)) \/ on_the_way auto s tvl us rv prefix [ru] [] [] [] (fun h => tree_entry h tvl rv prefix te)).
        { destruct T3 as [T3|T3]; [left; by exists t|right]. eapply otw; [exact T3|]. by apply te_in. }
        apply (la_set _ _ _ _ _ L2) in V1. apply (la_some _ _ _ L2) in Vs.
        apply xi_obind in He as [(-> & He)|(rm & s4 & g4 & E4 & He)].
        { destruct (wy_record _ _ _ _ _ _ _ _ _ [no_path] _ _ _ _ _ _ _ _ _ _ _ W2 ltac:(inc) ltac:(by left) no_path_wf T1 Ts He) as (W3 & _ & Ha). destruct (Hend _ _ _ _ _ W3); [inc|inc|inc|inc|done]. }
        destruct (wy_record _ _ _ _ _ _ _ _ _ [no_path] _ _ _ _ _ _ _ _ _ _ _ W2 ltac:(inc) ltac:(by left) no_path_wf T1 Ts E4) as (W3 & L3 & M1 & M2).
        apply (la_list _ _ _ _ _ _ L3) in T1, T0. apply (la_set _ _ _ _ _ L3) in V1. apply (la_some _ _ _ L3) in Vs. apply (la_some _ _ _ L3) in Ts.
        apply xi_bind in He as ([] & s5 & g5 & E5 & He). apply xi_ret in He as (<- & <- & <-).
        destruct (wy_register _ _ _ _ _ _ _ _ _ [(ru, rv, prefix)] _ _ _ _ _ _ _ _ _ _ _ _ W3 ltac:(inc) ltac:(by left) V1 Vs (rec_some _ _ _ _ M1) E5) as (W4 & L4 & K4 & e & R1 & R2). split; [done|]. split; [done|].
        exists te, rvl, rm, e. pose proof (la_set _ _ _ _ _ L4 V1) as V1'.
        split; [exact (la_list _ _ _ _ _ _ L4 T0)|]. split; [exact T2|]. split; [exact (la_some _ _ _ L4 Ts)|]. split; [exact V1'|]. split; [exact (la_tree _ _ _ _ _ (proj1 W3) L4 M1)|]. split; [exact R1|]. split; [exact T4|]. split.
        + destruct M2 as [M2|M2]; [left; by apply K4|right]. eapply otw; [exact M2|]. by eapply rf_in; [exact (proj1 M2)| |].
        + destruct R2 as [R2|R2]; [by left|right]. eapply otw; [exact R2|]. by eapply rg_in. }
      apply xi_obind in He as [(-> & He)|([t q'] & s1 & g1 & E1 & He)]; [apply Hfirst in He as (Ha & W1 & W2); done|].
      apply Hfirst in E1 as (W1 & -> & te & rvl & rm & e & T0 & T2 & Ts & V1 & M1 & R1 & T4 & M3 & R3). clear Hfirst. pose proof (il_tree _ _ _ _ _ _ T2 T0) as T1. cbn beta iota in He.
      apply xi_obind in He as [(-> & He)|(vl & s2 & g2 & E2 & He)].
      { destruct (wy_dvl _ _ _ _ _ _ _ _ _ [ru; u] _ _ _ _ _ _ _ _ W1 ltac:(inc) ltac:(by right; left) He) as (W2 & _ & Ha). destruct (Hend _ _ _ _ _ W2); [inc|inc|inc|inc|done]. }
      destruct (wy_dvl _ _ _ _ _ _ _ _ _ [ru; u] _ _ _ _ _ _ _ _ W1 ltac:(inc) ltac:(by right; left) E2) as (W2 & L2 & V2 & Vs2).
      apply (la_list _ _ _ _ _ _ L2) in T1, T0. apply (la_some _ _ _ L2) in Ts. apply (la_set _ _ _ _ _ L2) in V1. apply (la_tree _ _ _ _ _ (proj1 W1) L2) in M1. apply (la_list _ _ _ _ _ _ L2) in R1.
      apply xi_obind in He as [(-> & He)|(m & s3 & g3 & E3 & He)].
      { destruct (wy_record _ _ _ _ _ _ _ _ _ [no_path; q] _ _ _ _ _ _ _ _ _ _ _ W2 ltac:(inc) ltac:(by right; left) Hq T1 Ts He) as (W3 & _ & Ha). destruct (Hend _ _ _ _ _ W3); [inc|inc|inc|inc|done]. }
      destruct (wy_record _ _ _ _ _ _ _ _ _ [no_path; q] _ _ _ _ _ _ _ _ _ _ _ W2 ltac:(inc) ltac:(by right; left) Hq T1 Ts E3) as (W3 & L3 & M2 & M4).
      apply (la_list _ _ _ _ _ _ L3) in T1, T0. apply (la_set _ _ _ _ _ L3) in V1. apply (la_tree _ _ _ _ _ (proj1 W2) L3) in M1. apply (la_list _ _ _ _ _ _ L3) in R1. apply (la_set _ _ _ _ _ L3) in V2. apply (la_some _ _ _ L3) in Vs2.
      apply xi_bind in He as ([] & s4 & g4 & E4 & He). apply xi_ret in He as (<- & <- & <-).
      destruct (wy_register _ _ _ _ _ _ _ _ _ [(ru, rv, prefix); (u, v, no_path)] _ _ _ _ _ _ _ _ _ _ _ _ W3 ltac:(inc) ltac:(by right; left) V2 Vs2 (rec_some _ _ _ _ M2) E4) as (W4 & L4 & K4 & e2 & R2 & R4).
      destruct (Hend _ _ _ _ _ W4) as [W5 W6]; [inc|inc|inc|inc|]. split; [done|]. split; [done|].
      pose proof (la_list _ _ _ _ _ _ L4 T1) as T1'. pose proof (la_list _ _ _ _ _ _ L4 T0) as T0'. pose proof (la_set _ _ _ _ _ L4 V1) as V1'. pose proof (la_tree _ _ _ _ _ (proj1 W3) L4 M1) as M1'.
      pose proof (la_list _ _ _ _ _ _ L4 R1) as R1'. pose proof (la_set _ _ _ _ _ L4 V2) as V2'. pose proof (la_tree _ _ _ _ _ (proj1 W3) L4 M2) as M2'.
      split. { exists t, vl, rvl, rm. split_and!; [exact T1'|exact V1'|exact M1'|exact (il_true _ _ _ _ _ R1')|exact V2'|exact M2'|exact (il_true _ _ _ _ _ R2)]. }
      exists ru, rv, rm. split; [done|]. split; [done|]. split; [|split].
      + split; [by eapply rf_in|]. split; [destruct M3 as [M3|M3]; [left; do 3 (eapply la_made; [eassumption|]); exact M3|by right]|]. exists e. split; [by eapply rg_in|exact R3].
      + split; [by eapply rf_in|]. split; [destruct M4 as [M4|M4]; [left; by apply K4|right; eapply otw; [exact M4|]; by eapply rf_in; [exact (proj1 M4)| |]]|].
        exists e2. split; [by eapply rg_in|]. destruct R4 as [R4|R4]; [by left|right]. eapply otw; [exact R4|]. by eapply rg_in.
      + exists te. split; [by apply te_in|exact T4].
  Qed.
  Lemma call_names auto h tvl us u v prefix q ru rv : names_only (may_add_call auto h tvl us u v prefix q ru rv).
  Proof.
    assert (Hm : forall tv I V R P, names_only (may_add auto h tvl us tv prefix I V R P)).
    { intros tv I V R P x k [(? & ? & ? & ? & ->)|[(? & ? & w & ? & ->)|[(? & ? & p & ? & ? & ->)|(? & ? & pre & e & rest & ? & ? & ? & ->)]]]; done. }
    unfold may_add_call. case_bool_decide; [apply Hm|]. destruct ru, rv; try by intros ? ?. apply Hm.
  Qed.
End Parts.

Section Lemmas.
  Context `{Env}.
  Notation call := get_metadata_root_record_from_top_nodes.
  Lemma C43_created_lemma fuel tvl us u v prefix q ru rv now s g r s' g' : heap_ok s -> lists_keyed s -> is_metadata_path q ->
    is_Some (s_heap s !! tvl) -> is_Some (s_heap s !! us) ->
    exec (call fuel tvl us u v prefix q ru rv true now s) g = ((Ok r, s'), g') ->
    exists m, r = Some m /\ call_result true now s s' tvl us u v prefix q ru rv m.
  Proof.
    intros H1 H2 Hq%mpath_wf Ht Hu He. destruct (st_call _ _ _ _ _ _ _ _ _ _ _ _ _ _ _ _ (conj H1 H2) Hq Ht Hu He) as (_ & _ & Hr). destruct r as [m|]; [|done]. exists m. split; [done|]. apply Hr.
  Qed.
  Lemma C43_others_lemma fuel tvl us u v prefix q ru rv auto now s g r s' g' : heap_ok s -> lists_keyed s -> is_metadata_path q ->
    is_Some (s_heap s !! tvl) -> is_Some (s_heap s !! us) ->
    exec (call fuel tvl us u v prefix q ru rv auto now s) g = ((Ok r, s'), g') ->
    heap_ok s' /\ lists_keyed s' /\ extended (may_add_call auto (s_heap s') tvl us u v prefix q ru rv) s s' /\
    forall p l x, reach (s_heap s) l p = Some x -> reach (s_heap s') l p = Some x.
  Proof.
    intros H1 H2 Hq%mpath_wf Ht Hu He. destruct (st_call _ _ _ _ _ _ _ _ _ _ _ _ _ _ _ _ (conj H1 H2) Hq Ht Hu He) as ([H3 H4] & Hx & _). split_and!; [done|done|done|].
    intros p l x. exact (ex_reach _ _ _ (conj H1 H2) (conj H3 H4) Hx p l x).
  Qed.
  Lemma C43_repeat_lemma fuel tvl us u v prefix q ru rv auto now s g m s' g' : heap_ok s -> lists_keyed s -> is_metadata_path q ->
    is_Some (s_heap s !! tvl) -> is_Some (s_heap s !! us) ->
    exec (call fuel tvl us u v prefix q ru rv auto now s) g = ((Ok (Some m), s'), g') ->
    forall fuel2 auto2 now2 g2, exec (call fuel2 tvl us u v prefix q ru rv auto2 now2 s') g2 = ((Ok (Some m), s'), g2).
  Proof.
    intros H1 H2 Hq%mpath_wf Ht Hu He fuel2 auto2 now2 g2. destruct (st_call _ _ _ _ _ _ _ _ _ _ _ _ _ _ _ _ (conj H1 H2) Hq Ht Hu He) as (Hw' & _ & Hf & _). by apply rp_call.
  Qed.
  Lemma C43_kept_lemma fuel tvl us u v prefix q ru rv auto now s g m s' g' : heap_ok s -> lists_keyed s -> is_metadata_path q ->
    is_Some (s_heap s !! tvl) -> is_Some (s_heap s !! us) ->
    exec (call fuel tvl us u v prefix q ru rv auto now s) g = ((Ok (Some m), s'), g') ->
    forall fuel1 u1 v1 prefix1 q1 ru1 rv1 auto1 now1 g1 r1 s1 g1', is_metadata_path q1 ->
    exec (call fuel1 tvl us u1 v1 prefix1 q1 ru1 rv1 auto1 now1 s') g1 = ((Ok r1, s1), g1') ->
    forall fuel2 auto2 now2 g2, exec (call fuel2 tvl us u v prefix q ru rv auto2 now2 s1) g2 = ((Ok (Some m), s1), g2).
  Proof.
    intros H1 H2 Hq%mpath_wf Ht Hu He fuel1 u1 v1 prefix1 q1 ru1 rv1 auto1 now1 g1 r1 s1 g1' Hq1%mpath_wf He1 fuel2 auto2 now2 g2.
    destruct (st_call _ _ _ _ _ _ _ _ _ _ _ _ _ _ _ _ (conj H1 H2) Hq Ht Hu He) as (Hw' & Hx & Hf & _).
    pose proof (ex_some _ _ _ _ Hx Ht) as Ht'. pose proof (ex_some _ _ _ _ Hx Hu) as Hu'.
    destruct (st_call _ _ _ _ _ _ _ _ _ _ _ _ _ _ _ _ Hw' Hq1 Ht' Hu' He1) as (Hw1 & Hx1 & _).
    apply rp_call; [done|done|]. exact (all_found_stays _ _ _ _ _ _ _ _ _ _ _ _ Hw' Hw1 (call_names _ _ _ _ _ _ _ _ _ _) Hx1 Hf).
  Qed.
  Lemma C44_lemma fuel tvl us u v prefix q ru rv now s g r s' g' : heap_ok s -> lists_keyed s -> is_metadata_path q ->
    is_Some (s_heap s !! tvl) -> is_Some (s_heap s !! us) ->
    exec (call fuel tvl us u v prefix q ru rv false now s) g = ((Ok r, s'), g') ->
    extended (only_registers (s_heap s') us u v prefix q ru rv) s s' /\
    forall m, r = Some m -> call_result false now s s' tvl us u v prefix q ru rv m.
  Proof.
    intros H1 H2 Hq%mpath_wf Ht Hu He. destruct (st_call _ _ _ _ _ _ _ _ _ _ _ _ _ _ _ _ (conj H1 H2) Hq Ht Hu He) as (_ & Hx & Hr). split; [|intros m ->; apply Hr].
    eapply ex_mono; [|exact Hx]. unfold may_add_call, only_registers. intros x k. case_bool_decide; [|destruct ru as [ru|], rv as [rv|]; try done].
    all: intros [(? & _)|[(? & _)|[(u' & v' & p & Hin & Hr' & ->)|(? & _)]]]; try done.
    - destruct Hin as [[= <- <- <-]|[]]. done.
    - destruct Hin as [[= <- <- <-]|[[= <- <- <-]|[]]]; [right; by exists ru, rv|by left].
  Qed.
End Lemmas.
