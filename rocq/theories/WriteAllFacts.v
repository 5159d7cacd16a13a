(** Every successful write leaves a tree of objects that shows the same content. *)
From Verif Require Import Base BaseFacts Path Json Refs Meta Spec_Meta GitText Spec_Git GitTextFacts Git GitFacts Spec_Store State BlobCache ObjRef Objects Spec_Look Spec_Heap Spec_Versions Spec_Write ExecFacts Spec_Cache CacheFacts WriteFacts LoadFacts PeekFacts TreeFacts VersionFacts LookFacts Spec_Content ContentFacts StoreFacts SaveFacts WriteBackFacts.

Lemma nodup_map_inj {A B : Type} (f : A -> B) l x y : NoDup (map f l) -> In x l -> In y l -> f x = f y -> x = y.
Proof.
  induction l as [|a l IH]; [done|]. cbn [map]. intros Hn Hx Hy He. apply NoDup_cons in Hn as [Ha Hn].
  destruct Hx as [->|Hx], Hy as [->|Hy]; [done| | |by apply IH].
  - exfalso. apply Ha. rewrite He. by apply elem_of_list_In, in_map.
  - exfalso. apply Ha. rewrite <- He. by apply elem_of_list_In, in_map.
Qed.
Lemma same_length_zip {A B : Type} (l : list A) (k : list B) : length l = length k -> map fst (zip l k) = l.
Proof. revert k. induction l as [|a l IH]; intros [|b k]; cbn; try done. intros [= E]. by rewrite IH. Qed.

(** Kinds of the parts of an object. *)
Definition kid_spec (b : body) (k : key) (kx : kd) : Prop :=
  match b, k with
  | BNode c _, KName n => storable_name n /\ (kx = KdNode c \/ kx = leaf_kd c)
  | BMrr _ _ _ _, KMeta => kx = KdMeta
  | BMrr _ _ _ _, KTree => kx = KdNode LMeta
  | BVlist _ vs, KVer v p => exists rc, In rc (vs_records vs) /\ fst rc = v /\ vr_path (snd rc) = p /\ kx = if is_etree (vr_elt (snd rc)) then KdNode LMrr else KdMrr
  | BUset _, KUuid u => uuid_ok u /\ kx = KdVl false
  | _, _ => False
  end.
Lemma kid_kind O r s l o k x : tidy O r s l -> s_heap s !! l = Some o -> h_mapped (o_hdr o) = true -> dget (kids_of (o_body o)) k = Some x ->
  exists ox, s_heap s !! x = Some ox /\ kid_spec (o_body o) k (kind_of (o_body ox)).
Proof.
  intros HT Ho Hm Hd. destruct (is_ktree k) eqn:Ek.
  - destruct k; try done. pose proof (kids_fit _ _ _ Hd) as Hf. destruct o as [ho b]. cbn [o_hdr o_body] in *. destruct b as [m1|t1|c1 d1|i1 w1 m1 t1|kk1 vs1|us1]; try done.
    assert (t1 = Some x) as ->.
    { cbn [kids_of] in Hd. rewrite dget_app in Hd. destruct m1; cbn in Hd; rewrite ?decide_False in Hd by done; destruct t1; cbn in Hd; rewrite ?decide_True in Hd by done; congruence. }
    destruct (td_tree _ _ _ _ HT [] l ho i1 w1 m1 x eq_refl Ho) as (ht & d & Ht). eexists. split; [exact Ht|]. done.
  - destruct (tidy_kid_label _ _ _ _ _ _ _ HT Ho Hm Hd Ek) as (ox & lb & Hox & _ & Hl & Hp). exists ox. split; [done|]. rewrite <- Hl. clear Hl Hd.
    destruct (o_body o) as [m1|t1|c1 d1|i1 w1 m1 t1|kk1 vs1|us1], k; cbn [label_of part_ok] in Hp; try done; cbn [kid_spec].
    + destruct Hp as [Hn Hp]. split; [done|]. destruct lb; try done; subst; cbn; auto.
    + destruct Hp as (m & ->). done.
    + destruct Hp as (t & b & Hin & Hp). apply in_map_iff in Hin as (rc & [= <- <- _ Eb] & Hin). exists rc. split_and!; try done.
      rewrite Eb. destruct lb; try done; cbn [label_kind]; [by destruct Hp as [-> ->]|by rewrite Hp].
    + destruct Hp as [Hu (rs & ->)]. done.
Qed.
Lemma kid_spec_tvl b k : ~ kid_spec b k (KdVl true).
Proof.
  intros Hk. destruct b, k; cbn [kid_spec] in Hk; try done.
  - destruct Hk as [_ [E|E]]; [done|match goal with c : leafcls |- _ => by destruct c end].
  - destruct Hk as (rc & _ & _ & _ & E). by destruct (is_etree _).
  - by destruct Hk.
Qed.
Lemma reach_below h p : forall l x, is_Some (h !! x) -> reach h l p = Some x -> loaded_below h l x.
Proof.
  induction p as [|k p IH]; intros l x [o Hx] Hp; cbn [reach] in Hp.
  - injection Hp as ->. by econstructor.
  - destruct (h !! l) as [ol|] eqn:Eo; [|done]. destruct (h_mapped (o_hdr ol)) eqn:Em; [|done]. destruct (dget (kids_of (o_body ol)) k) as [z|] eqn:Ed; [|done].
    econstructor; [exact Eo|done|by eapply kids_in_sub|]. apply IH; [by exists o|done].
Qed.
Lemma tidy_heap O r s s' l : tidy O r s l -> s_heap s' = s_heap s -> s_next s' = s_next s -> tidy O r s' l.
Proof.
  intros HT H1 H2. eapply tidy_same; [done| |].
  - pose proof (td_heap _ _ _ _ HT) as Hk. unfold heap_ok in *. by rewrite H1, H2.
  - intros p x _. by rewrite H1.
Qed.
Lemma good_heap O r x ref s s' : good r O x ref s -> s_heap s' = s_heap s -> s_next s' = s_next s -> good r O x ref s'.
Proof.
  intros (HT & Hm & Ho) H1 H2. split_and!; [by eapply tidy_heap|by rewrite H1|by rewrite H1].
Qed.
(** The realm of a loaded object may be set. *)
Lemma tidy_realm O r s l o d : tidy O r s l -> s_heap s !! l = Some o -> h_mapped (o_hdr o) = true ->
  let s1 := with_heap s (<[l := Obj (hd_realm (Some d) (o_hdr o)) (o_body o)]> (s_heap s)) in
  tidy O r s1 l /\ wfr s s1 l /\ (all_marked r (s_heap s) l -> all_marked r (s_heap s1) l).
Proof.
  intros HT Ho Hm. set (o1 := Obj (hd_realm (Some d) (o_hdr o)) (o_body o)). set (s1 := with_heap s (<[l := o1]> (s_heap s))). cbv zeta.
  assert (HX : forall x, s_heap s1 !! x = if decide (l = x) then Some o1 else s_heap s !! x) by (intros x; unfold s1; cbn [s_heap with_heap]; by rewrite heap_insert).
  assert (Ho1 : s_heap s1 !! l = Some o1) by (by rewrite HX, decide_True).
  assert (Hso : same_obj o o1) by (split_and!; try done; cbn; congruence).
  assert (Hfr : frame (s_heap s) (s_heap s1)). { intros x. rewrite HX. destruct (decide (l = x)) as [<-|]; [by rewrite Ho|apply ro_refl]. }
  assert (Hok : heap_ok s1) by (eapply frame_heap_ok; [apply (td_heap _ _ _ _ HT)|done|done]).
  assert (HR : forall x p, reach (s_heap s1) x p = reach (s_heap s) x p) by (intros x p; by apply fo_reach, fr_on).
  assert (HL : forall x p, look O (s_heap s1) x p = look O (s_heap s) x p) by (intros x p; by apply fo_look, fr_on).
  assert (HM : forall x p ox, reach (s_heap s) l p = Some x -> s_heap s !! x = Some ox -> exists ox', s_heap s1 !! x = Some ox' /\ (marked r ox' -> marked r ox)).
  { intros x p ox Hp Hx. rewrite HX. destruct (decide (l = x)) as [<-|]; [|by exists ox]. exists o1. split; [done|]. rewrite Ho in Hx. by injection Hx as <-. }
  split_and!.
  - apply (tidy_up O r s1 l o1 Hok Ho1 Hm); cbn [o1 o_body o_hdr hd_realm h_ref].
    + intros k x Hd. eapply tidy_same; [by eapply tidy_kid|done|]. intros p y Hp. rewrite HX, decide_False; [done|]. intros <-.
      assert (E : [] = k :: p); [|done]. apply (td_unshared _ _ _ _ HT _ _ l); [done|]. cbn [reach]. by rewrite Ho, Hm, Hd.
    + intros p q x. rewrite !HR. apply (td_unshared _ _ _ _ HT).
    + eapply complete_ext; [|apply (td_complete _ _ _ _ HT)]. intros p. apply HL.
    + intros k vs Hb. apply (td_keyed _ _ _ _ HT [] l (o_hdr o) k vs eq_refl). rewrite Ho. destruct o. cbn in *. by rewrite Hb.
    + intros ref Hk Hf. by apply (td_class _ _ _ _ HT [] l o ref).
    + intros i v m t Hb. destruct (td_tree _ _ _ _ HT [] l (o_hdr o) i v m t eq_refl) as (ht & dd & Ht). { rewrite Ho. destruct o. cbn in *. by rewrite Hb. }
      destruct (fr_get _ _ _ _ Hfr Ht) as ([ht' bt'] & Ht' & (E & _)). cbn in E. subst bt'. eauto.
    + intros Hma. destruct (td_marks _ _ _ _ HT [] l o eq_refl Ho) as (ref & Hf & Hl).
      * intros p x ox Hp Hx. destruct (HM x p ox Hp Hx) as (ox' & Hx' & Hmk). apply Hmk. eapply Hma; [|exact Hx']. by rewrite HR.
      * exists ref. split; [done|]. intros q. by rewrite HL.
  - split_and!; [done|done|]. intros y Hy. rewrite HX, decide_False; [done|]. intros <-. by apply (Hy []).
  - intros Hma p x ox Hp Hx. rewrite HR in Hp. rewrite HX in Hx. destruct (decide (l = x)) as [<-|]; [|by eapply Hma]. injection Hx as <-. apply (Hma p l o Hp Ho).
Qed.
(** The reference of a written object. *)
Lemma good_ref O r x ref s o : good r O x ref s -> s_heap s !! x = Some o ->
  (is_none_reference ref = true /\ (exists c, kind_of (o_body o) = KdNode c) /\ ref = get_none_reference (ps "MTreeNode") /\ hollow_at O (s_heap s) x = true) \/
  (is_none_reference ref = false /\ exists id, r_loc ref = Some id /\ hex40 id /\ r_class (conv_ref ref) = JStr (type_name_of (empty_body (kind_of (o_body o)))) /\
    agrees O (s_heap s) x (kind_of (o_body o), ref_of (type_name_of (empty_body (kind_of (o_body o)))) id)).
Proof.
  intros Hg Ho. pose proof (good_agrees _ _ _ _ _ _ Hg Ho) as Ha. destruct (tidy_root _ _ _ _ (proj1 Hg)) as (_ & _ & _ & Hb).
  destruct (is_none_reference ref) eqn:En; [left|right].
  - destruct (agrees_none _ _ _ _ _ Ha Hb En) as (c & Hk & Hf & Hh). split_and!; try done. by exists c.
  - destruct (agrees_some _ _ _ _ _ Ha Hb En) as (id & H1 & H2 & H3 & H4). split; [done|]. by exists id.
Qed.
Lemma conv_class ref c : r_class (conv_ref ref) = JStr c -> r_class ref = JStr c \/ (c = ps "MTreeNode" /\ (r_class ref = JStr (ps "FileTree") \/ r_class ref = JStr (ps "DatasetTree"))).
Proof.
  unfold conv_ref. destruct (jis_str (r_class ref) (ps "FileTree")) eqn:E1; [|destruct (jis_str (r_class ref) (ps "DatasetTree")) eqn:E2]; cbn [orb r_class].
  - intros [= <-]. right. split; [done|left]. unfold jis_str in E1. destruct (r_class ref); try done. apply bool_decide_eq_true in E1. by subst.
  - intros [= <-]. right. split; [done|right]. unfold jis_str in E2. destruct (r_class ref); try done. apply bool_decide_eq_true in E2. by subst.
  - by left.
Qed.
Lemma type_scalar b : scalar_str (type_name_of b).
Proof. destruct b as [| | | |[]|]; scl. Qed.
Lemma good_ref_ok O r x ref s : good r O x ref s -> ref_ok ref.
Proof.
  intros Hg. destruct (tidy_root _ _ _ _ (proj1 Hg)) as (o & Ho & _). destruct (good_ref _ _ _ _ _ _ Hg Ho) as [(_ & _ & -> & _)|(_ & id & Hl & Hh & Hc & _)].
  - split; [eexists; split; [done|scl]|]. cbn. apply none_scalar.
  - split; [|rewrite Hl; by apply hex40_scalar]. apply conv_class in Hc as [Hc|[_ [Hc|Hc]]]; eexists; (split; [exact Hc|]); [apply type_scalar|scl|scl].
Qed.

(** The reference under which what was written shows the same.  A
    [TreeVersionList] writes a reference of class [VersionList]. *)
Definition self_ref (k : kd) (ref : reference) : reference :=
  match k with KdVl true => Ref (JStr (ps "TreeVersionList")) (r_loc ref) | _ => ref end.

Lemma mmap_map `{Env} {A B C : Type} (f : A -> B) (F : B -> M pst C) ls : mmap F (map f ls) = mmap (fun a => F (f a)) ls.
Proof. induction ls as [|a ls IH]; [done|]. cbn [map mmap]. by rewrite IH. Qed.
(** The entry that is written for a child. *)
Definition ref_id (h : heap) (x : loc) : pystr :=
  match h !! x with Some o => match h_ref (o_hdr o) with Some ref => opt_text (r_loc ref) | None => [] end | None => [] end.
Definition node_entry (h : heap) (nl : pystr * loc) : dentry :=
  DE (match h !! snd nl with Some o => is_node o | None => false end) (ref_id h (snd nl)) (fst nl).
Lemma entries_run `{Env} d : forall (s : pst) g es s' g', exec (mmap dir_entry d s) g = ((Ok es, s'), g') ->
  s' = s /\ g' = g /\ es = map (fun nl => spec_fields (node_entry (s_heap s) nl)) d.
Proof.
  induction d as [|nl d IH]; intros s g es s' g' He; cbn [mmap] in He.
  - by apply xi_ret in He as (<- & <- & <-).
  - apply xi_bind in He as (e & s1 & g1 & E1 & He). apply xi_bind in He as (es1 & s2 & g2 & E2 & He). apply xi_ret in He as (<- & <- & <-).
    unfold dir_entry in E1. apply xi_bind in E1 as (o & s3 & g3 & E3 & E1). apply xi_getobj in E3 as (Ho & <- & <-).
    destruct (h_ref (o_hdr o)) as [ref|] eqn:Ef; [|done]. apply xi_ret in E1 as (<- & <- & <-). apply IH in E2 as (-> & -> & ->). split_and!; try done.
    cbn [map]. f_equal. unfold spec_fields, node_entry, ref_id. rewrite Ho, Ef. done.
Qed.
Lemma ref_id_of (h : heap) x o ref : h !! x = Some o -> h_ref (o_hdr o) = Some ref -> ref_id h x = opt_text (r_loc ref).
Proof. intros Ho Hf. unfold ref_id. by rewrite Ho, Hf. Qed.

Section All.
  Context `{Env}.
  Context (r : pystr) (Hr : r <> []) (O : store).
  Implicit Types (s : pst) (g : gstate).

  Definition writes (rec : loc -> option pystr -> bool -> M pst reference) : Prop := forall x force s g ref s' g' ox,
    cok r s -> tidy O r s x -> s_heap s !! x = Some ox -> kind_of (o_body ox) <> KdVl true -> completes r O s' g' ->
    exec (rec x (Some r) force s) g = ((Ok ref, s'), g') -> wfr s s' x /\ good r O x ref s'.
  Lemma svm_back {A : Type} (m : M pst A) s g a s' g' : svm r m -> cok r s -> exec (m s) g = ((Ok a, s'), g') -> cok r s' /\ (completes r O s' g' -> completes r O s g).
  Proof. intros Hm Hc He. destruct (Hm _ _ _ _ _ Hc He) as [[H1 H2] _]. split; [done|apply H2]. Qed.
  Lemma h_oref t x s g u s' g' : exec (add_object_reference t x s) g = ((Ok u, s'), g') -> s_heap s' = s_heap s /\ s_next s' = s_next s.
  Proof. unfold add_object_reference. destruct (decide _); intros He; [by apply xi_ret in He as (_ & <- & _)|]. unfold add_ref in He. by apply xi_mod in He as [-> _]. Qed.
  Lemma h_loc_of ref s g x s' g' : exec (loc_of ref s) g = ((Ok x, s'), g') -> r_loc ref = Some x /\ s' = s /\ g' = g.
  Proof. unfold loc_of. destruct (r_loc ref); intros He; [|done]. by apply xi_ret in He as (<- & <- & <-). Qed.
  Lemma h_ref_step ref s g u s' g' : exec ((if is_none_reference ref then mret tt else mlet x <- loc_of ref; add_tree_reference x) s) g = ((Ok u, s'), g') ->
    s_heap s' = s_heap s /\ s_next s' = s_next s.
  Proof.
    destruct (is_none_reference ref); intros He; [by apply xi_ret in He as (_ & <- & _)|]. apply xi_bind in He as (x & s1 & g1 & E & He).
    apply h_loc_of in E as (_ & -> & _). by eapply h_oref.
  Qed.
  Lemma writes_proxy rec ft : writes rec -> (forall x b, svm r (rec x (Some r) b)) -> writes (proxy_write_out rec ft).
  Proof.
    intros Hw Hs x force s g ref s' g' ox Hc HT Hx Hk HO He. unfold proxy_write_out in He. apply xi_bind in He as (o & s1 & g1 & E & He). apply xi_getobj in E as (Ho & <- & <-).
    assert (or_else (Some r) (h_realm (o_hdr o)) = Some r) as Hd by (unfold or_else; by destruct r). rewrite Hd in He. clear Hd.
    apply xi_bind in He as (u1 & s1 & g1 & E1 & He). apply xi_bind in He as (rf & s2 & g2 & E2 & He). apply xi_bind in He as (u2 & s3 & g3 & E3 & He).
    apply xi_bind in He as (u3 & s4 & g4 & E4 & He). apply xi_ret in He as (<- & <- & <-).
    assert (H1 : cok r s1 /\ s_heap s1 = s_heap s /\ s_next s1 = s_next s).
    { destruct ft; [|by apply xi_ret in E1 as (_ & <- & _)]. apply cache_realm_inv in E1 as (_ & _ & _ & H1 & H2 & L); [|done]. split_and!; [apply L|done|done]. }
    destruct H1 as (C1 & A1 & B1). destruct (svm_back _ _ _ _ _ _ (Hs x force) C1 E2) as [C2 _].
    assert (H3 : cok r s3 /\ s_heap s3 = s_heap s2 /\ s_next s3 = s_next s2 /\ (completes r O s3 g3 -> completes r O s2 g2)).
    { destruct ft; [|by apply xi_ret in E3 as (_ & <- & <-)]. apply flush_realm_inv in E3 as (_ & _ & H1 & H2 & L); [|done]. split_and!; [apply L|done|done|apply L]. }
    destruct H3 as (C3 & A3 & B3 & K3). destruct (svm_back _ _ _ _ _ _ (svm_ref_step r rf) C3 E4) as [C4 K4]. apply h_ref_step in E4 as [A4 B4].
    destruct (Hw x force s1 g1 rf s2 g2 ox) as [W G]; [done|by eapply tidy_heap|by rewrite A1|done|by apply K3, K4|done|]. split.
    - eapply wfr_trans; [by apply wfr_heap|]. eapply wfr_trans; [exact W|]. apply wfr_heap; congruence.
    - eapply good_heap; [exact G| |]; congruence.
  Qed.

  Section Out.
    Context (rec : loc -> option pystr -> bool -> M pst reference) (Hw : writes rec) (Hs : forall x b, svm r (rec x (Some r) b)).
    Context (l : loc) (s0 : pst) (o0 : obj) (HT0 : tidy O r s0 l) (Ho0 : s_heap s0 !! l = Some o0) (Hm0 : h_mapped (o_hdr o0) = true).
    Local Notation kids := (kids_of (o_body o0)).
    Definition out_ok s (ref : reference) : Prop := exists D, kinv r O s0 o0 s D /\ (forall k x, dget kids k = Some x -> exists rf, In (k, rf) D) /\
      (forall q, look_stored O (kind_of (o_body o0)) (self_ref (kind_of (o_body o0)) ref) q = look O (s_heap s) l q) /\
      (kind_of (o_body o0) = KdNode LMrr -> r_class ref <> JStr (ps "FileTree")).
    Lemma kid_at s D k x : kinv r O s0 o0 s D -> dget kids k = Some x -> exists ox, s_heap s !! x = Some ox /\ kid_spec (o_body o0) k (kind_of (o_body ox)).
    Proof.
      intros HI Hd. destruct (kid_kind _ _ _ _ _ _ _ HT0 Ho0 Hm0 Hd) as (ox & Hox & Hk). destruct (fr_get _ _ _ _ (ki_frame _ _ _ _ _ _ HI) Hox) as (ox' & Hox' & (E & _)).
      exists ox'. by rewrite E.
    Qed.
    Lemma kid_writes rec' k x b s D g ref s' g' : writes rec' -> kinv r O s0 o0 s D -> dget kids k = Some x -> cok r s -> completes r O s' g' ->
      exec (rec' x (Some r) b s) g = ((Ok ref, s'), g') -> wfr s s' x /\ good r O x ref s'.
    Proof.
      intros Hw' HI Hd Hc HO He. destruct (kid_at _ _ _ _ HI Hd) as (ox & Hox & Hk). eapply (Hw' x b s g ref s' g' ox); try done; [by eapply ki_tidy|].
      intros E. rewrite E in Hk. by apply kid_spec_tvl in Hk.
    Qed.
    Lemma kids_nodup : NoDup (dkeys kids).
    Proof. by apply (td_heap _ _ _ _ HT0 l o0). Qed.
    Lemma own_label : label_ok (label_of (o_body o0)).
    Proof. destruct (td_complete _ _ _ _ HT0 []) as (_ & C & _). apply C. cbn [look]. by rewrite Ho0, Hm0. Qed.
    Lemma kid_refs s D k x rf : kinv r O s0 o0 s D -> In (k, rf) D -> dget kids k = Some x -> good r O x rf s.
    Proof. intros HI Hin Hd. destruct (ki_done _ _ _ _ _ _ HI k rf Hin) as (x' & Hd' & Hg). by assert (x' = x) as -> by congruence. Qed.

    Lemma out_meta m s g ref s' g' : o_body o0 = BMeta m -> s = s0 -> cok r s -> completes r O s' g' -> exec (map_out_meta m r s) g = ((Ok ref, s'), g') -> out_ok s' ref.
    Proof.
      intros Hb -> Hc HO He. unfold map_out_meta in He. apply xi_bind in He as (cs & s1 & g1 & E & He). apply xi_get in E as (-> & <- & <-). pose proof own_label as Hl. rewrite Hb in Hl. cbn in Hl.
      assert (HF : exists x t, ref = ref_of (ps "Metadata") t /\ hex40 x /\ hex40 t /\ s_heap s' = s_heap s0 /\ s_next s' = s_next s0 /\
        O !! x = Some (Blob (utf8_bytes (meta_to_json m))) /\ O !! t = Some (Blob (utf8_bytes (ref_to_json_str (ref_of (ps "Metadata") x))))).
      { unfold dmem in He. destruct (dget (s_caches s0) r) as [c|] eqn:Ec; cbn [is_some] in He.
        - apply xi_bind in He as (x & s2 & g2 & E1 & He). apply xi_bind in He as (u & s3 & g3 & E2 & He). apply xi_bind in He as (t & s4 & g4 & E3 & He). apply xi_ret in He as (<- & <- & <-).
          apply cache_blob_inv in E1 as (L1 & U1 & -> & _ & A1 & B1 & P1); [|done|unfold uncached; by rewrite Ec].
          pose proof (keep_svm r _ (keep_oref _ _) _ _ _ _ _ (proj1 L1) E2) as [L2 U2]. apply h_oref in E2 as [A2 B2].
          apply cache_blob_inv in E3 as (L3 & _ & -> & _ & A3 & B3 & P3); [|apply L2|by rewrite <- U2].
          eexists _, _. split_and!; [done|apply oid_hex|apply oid_hex|congruence|congruence| |by apply P3]. by apply P1, L2, L3.
        - apply xi_bind in He as (x & s2 & g2 & E1 & He). apply xi_bind in He as (u & s3 & g3 & E2 & He). apply xi_bind in He as (t & s4 & g4 & E3 & He). apply xi_ret in He as (<- & <- & <-).
          pose proof E1 as E1'. apply saved_str in E1 as (-> & -> & _ & P1). pose proof (svm_back _ _ _ _ _ _ (keep_svm r _ (keep_oref _ _)) Hc E2) as [C2 K2]. apply h_oref in E2 as [A2 B2].
          pose proof (svm_back _ _ _ _ _ _ (keep_svm r _ (keep_save_str r _)) C2 E3) as [C3 K3]. apply saved_str in E3 as (-> & -> & _ & P3).
          eexists _, _. split_and!; [done|apply oid_hex|apply oid_hex|done|done| |]; (eapply store_weaken; [|eassumption]); [|apply HO]. by apply K2, K3. }
      destruct HF as (x & t & -> & Hx & Ht & A & B & O1 & O2). exists []. split_and!.
      - eapply (kinv_heap r O l s0 o0 HT0 s0 s'); [by apply (kinv_init r O l)|done|done].
      - rewrite Hb. done.
      - rewrite Hb. cbn [kind_of self_ref]. eapply matches; [by rewrite A|done|by eapply (store_meta O m x t)|by rewrite Hb|]. rewrite Hb. by intros k.
      - by rewrite Hb.
    Qed.
    Lemma kid_id s D k x rf : kinv r O s0 o0 s D -> In (k, rf) D -> dget kids k = Some x -> ref_id (s_heap s) x = opt_text (r_loc rf).
    Proof. intros HI Hin Hd. pose proof (kid_refs _ _ _ _ _ HI Hin Hd) as (_ & _ & o & Ho & Hf). by eapply ref_id_of. Qed.
    Lemma out_node c d s g ref s' g' : o_body o0 = BNode c d -> d <> [] -> s = s0 -> cok r s -> completes r O s' g' ->
      exec ((miter (fun x => rec x (Some r) false ;;; mret tt) (dvals d) ;;; mlet es <- mmap dir_entry d; mlet x <- git_save_tree_node r es; mret (ref_of (ps "MTreeNode") x)) s) g = ((Ok ref, s'), g') ->
      out_ok s' ref.
    Proof.
      intros Hb Hne -> Hc HO He. apply xi_bind in He as (u & s1 & g1 & E1 & He). apply xi_bind in He as (es & s2 & g2 & E2 & He). apply xi_bind in He as (t & s3 & g3 & E3 & He).
      apply xi_ret in He as (<- & <- & <-). apply entries_run in E2 as (-> & -> & ->).
      rewrite miter_mmap in E1. unfold dvals in E1. rewrite mmap_map in E1. destruct (exec (mmap _ d s0) g) as [[[us|e] s1'] g1'] eqn:Em; [|done]. injection E1 as _ -> ->.
      pose proof kids_nodup as Hnd. rewrite Hb in Hnd. cbn [kids_of] in Hnd. unfold dkeys in Hnd. rewrite map_map in Hnd. cbn [fst] in Hnd.
      assert (Hdd : forall nl, In nl d -> dget kids (KName (fst nl)) = Some (snd nl)).
      { intros [n x] Hin. apply In_dget; [apply kids_nodup|]. rewrite Hb. cbn [kids_of]. apply in_map_iff. by exists (n, x). }
      assert (HSf : forall a : pystr * loc, svm r (rec (snd a) (Some r) false ;;; mret tt)).
      { intros a. apply svm_bind; [apply Hs|]. intros _. apply keep_svm, keep_ret. }
      assert (HSm : svm r (mmap (fun a : pystr * loc => rec (snd a) (Some r) false ;;; mret tt) d)) by (apply svm_mmap; intros a _; apply HSf).
      destruct (svm_back _ _ _ _ _ _ HSm Hc Em) as [C1 _]. destruct (svm_back _ _ _ _ _ _ (keep_svm r _ (keep_save_tree r _)) C1 E3) as [C3 K3].
      apply saved_tree in E3 as (-> & Ht & input & ts & H1 & H2 & H3).
      destruct (kinv_loop r O l s0 o0 HT0 Ho0 Hm0 (fun a : pystr * loc => rec (snd a) (Some r) false ;;; mret tt) (fun nl => KName (fst nl)) (fun _ _ _ => True) d) with (D := @nil (key * reference)) (s := s0) (g := g) (bs := us) (s' := s1) (g' := g1)
        as (D & rs & HI & _ & Hlr & Hlu & HD).
      { intros a _. apply HSf. }
      { intros a s D g0 b s' g' Hin HI Hc' HO' He. apply xi_bind in He as (rf & s2 & g2 & E & He). apply xi_ret in He as (_ & <- & <-).
        destruct (kid_writes rec (KName (fst a)) (snd a) false s D g0 rf s2 g2) as [W G]; try done; [by apply Hdd|]. exists (snd a), rf. split_and!; try done. by apply Hdd. }
      { done. } { intros a _ Hin. by apply elem_of_nil in Hin. } { by apply (kinv_init r O l). } { done. } { by apply K3. } { done. }
      assert (HDin : forall nl, In nl d -> exists rf, In (KName (fst nl), rf) D).
      { intros nl Hin. apply elem_of_list_In, elem_of_list_lookup in Hin as [i Hi]. pose proof (lookup_lt_Some _ _ _ Hi) as Hlt.
        destruct (lookup_lt_is_Some_2 us i) as [b Hb']; [lia|]. destruct (lookup_lt_is_Some_2 rs i) as [rf Hrf]; [lia|]. exists rf. by destruct (HD i nl b rf Hi Hb' Hrf). }
      assert (Hent : forall nl, In nl d -> exists rf ox, good r O (snd nl) rf s1 /\ s_heap s1 !! snd nl = Some ox /\ storable_name (fst nl) /\ (kind_of (o_body ox) = KdNode c \/ kind_of (o_body ox) = leaf_kd c) /\ de_id (node_entry (s_heap s1) nl) = opt_text (r_loc rf)).
      { intros nl Hin. destruct (HDin nl Hin) as (rf & HinD). pose proof (Hdd nl Hin) as Hd. destruct (kid_at _ _ _ _ HI Hd) as (ox & Hox & Hk). rewrite Hb in Hk. destruct Hk as [Hn Hk].
        exists rf, ox. split_and!; try done; [by eapply kid_refs|]. cbn [node_entry de_id]. by eapply kid_id. }
      assert (Hlist : map (fun nl => spec_fields (node_entry (s_heap s1) nl)) d = map spec_fields (map (node_entry (s_heap s1)) d)) by by rewrite map_map.
      rewrite Hlist in H1.
      assert (Hnm : NoDup (map de_name (map (node_entry (s_heap s1)) d))).
      { rewrite map_map. cbn [node_entry de_name]. clear -Hnd. apply (NoDup_fmap_1 KName). change (NoDup (map KName (map fst d))). by rewrite map_map. }
      assert (Hok : Forall dentry_ok (map (node_entry (s_heap s1)) d)).
      { eapply mktree_ids; [by destruct d| |exact H1|exact H2]. apply List.Forall_forall. intros e He. apply in_map_iff in He as (nl & <- & Hin).
        destruct (Hent nl Hin) as (rf & ox & Hg & Hox & Hn & Hk & Hid). split; [done|]. rewrite Hid.
        destruct (good_ref _ _ _ _ _ _ Hg Hox) as [(_ & _ & -> & _)|(_ & id & Hl & Hh & _)]; [by right|left]. by rewrite Hl. }
      destruct (store_node O c (map (node_entry (s_heap s1)) d) t input ts) as (l' & Hp & Hst); try done; [by destruct d| |].
      { eapply store_weaken; [|exact H3]. apply HO. }
      exists D. split_and!; [done| | |].
      - intros k x Hd. pose proof Hd as Hd'. rewrite Hb in Hd'. apply dget_Some_In in Hd'. cbn [kids_of] in Hd'. apply in_map_iff in Hd' as (nl & [= <- _] & Hin). by apply HDin.
      - rewrite Hb. cbn [kind_of self_ref]. eapply matches; [by eapply kinv_self|done|exact Hst|by rewrite Hb|]. rewrite Hb. apply (node_match O (s_heap s1) c d l' (node_entry (s_heap s1))); try done.
        { by apply (NoDup_fmap_1 KName); change (NoDup (map KName (map fst d))); rewrite map_map. }
        intros nl Hin. destruct (Hent nl Hin) as (rf & ox & Hg & Hox & Hn & Hk & Hid).
        rewrite List.Forall_forall in Hok. destruct (Hok (node_entry (s_heap s1) nl)) as [Hh _]; [by apply in_map|]. rewrite Hid in Hh.
        destruct (good_ref _ _ _ _ _ _ Hg Hox) as [(_ & _ & -> & _)|(_ & id & Hl & Hx & Hc' & Ha)].
        { exfalso. cbn in Hh. destruct Hh as [Hh _]. vm_compute in Hh. lia. }
        unfold dkind. rewrite Hid, Hl. cbn [opt_text]. cbn [node_entry de_dir]. rewrite Hox. unfold is_node. destruct Hk as [Hk|Hk]; rewrite Hk in Ha.
        + destruct (o_body ox); try done. 
        + destruct (o_body ox); try (by destruct c).
      - intros _. done.
    Qed.
    (** An optional part is written. *)
    Lemma tree_part t force s D g fref s' g' : (forall y, t = Some y -> dget kids KTree = Some y) -> KTree ∉ map fst D -> kinv r O s0 o0 s D -> cok r s -> completes r O s' g' ->
      exec (match t with
            | None => mret (get_none_reference (ps "FileTree"))
            | Some y => mlet rf <- proxy_write_out rec true y (Some r) force; (if is_none_reference rf then mret tt else mlet x <- loc_of rf; add_tree_reference x) ;;; mret rf
            end s) g = ((Ok fref, s'), g') ->
      match t with None => s' = s /\ fref = get_none_reference (ps "FileTree") | Some y => kinv r O s0 o0 s' ((KTree, fref) :: D) end.
    Proof.
      intros Ht Hn HI Hc HO He. destruct t as [y|]; [|by apply xi_ret in He as (<- & <- & <-)].
      apply xi_bind in He as (rf & s1 & g1 & E1 & He). apply xi_bind in He as (u & s2 & g2 & E2 & He). apply xi_ret in He as (<- & <- & <-).
      assert (HS : svm r (proxy_write_out rec true y (Some r) force)) by by apply svm_proxy. destruct (svm_back _ _ _ _ _ _ HS Hc E1) as [C1 _].
      destruct (svm_back _ _ _ _ _ _ (svm_ref_step r rf) C1 E2) as [C2 K2]. apply h_ref_step in E2 as [A B].
      destruct (kid_writes (proxy_write_out rec true) KTree y force s D g rf s1 g1) as [W G]; try done; [by apply writes_proxy|by apply Ht|by apply K2|].
      eapply (kinv_heap r O l s0 o0 HT0 s1 s2); [|done|done]. eapply (kinv_step r O l s0 o0 HT0 Ho0 Hm0 s s1 D KTree y); try done. by apply Ht.
    Qed.
    Lemma meta_part m force s D g mref s' g' : (forall y, m = Some y -> dget kids KMeta = Some y) -> KMeta ∉ map fst D -> kinv r O s0 o0 s D -> cok r s -> completes r O s' g' ->
      exec (match m with
            | None => mret (get_none_reference (ps "Metadata"))
            | Some y => mlet rf <- rec y (Some r) force; mlet x <- loc_of rf; add_blob_reference x ;;; mret rf
            end s) g = ((Ok mref, s'), g') ->
      match m with None => s' = s /\ mref = get_none_reference (ps "Metadata") | Some y => kinv r O s0 o0 s' ((KMeta, mref) :: D) end.
    Proof.
      intros Ht Hn HI Hc HO He. destruct m as [y|]; [|by apply xi_ret in He as (<- & <- & <-)].
      apply xi_bind in He as (rf & s1 & g1 & E1 & He). apply xi_bind in He as (x & s2 & g2 & E2 & He). apply h_loc_of in E2 as (_ & -> & ->).
      apply xi_bind in He as (u & s3 & g3 & E3 & He). apply xi_ret in He as (<- & <- & <-).
      destruct (svm_back _ _ _ _ _ _ (Hs y force) Hc E1) as [C1 _].
      destruct (svm_back _ _ _ _ _ _ (keep_svm r _ (keep_oref _ _)) C1 E3) as [C2 K2]. apply h_oref in E3 as [A B].
      destruct (kid_writes rec KMeta y force s D g rf s1 g1) as [W G]; try done; [by apply Ht|by apply K2|].
      eapply (kinv_heap r O l s0 o0 HT0 s1 s3); [|done|done]. eapply (kinv_step r O l s0 o0 HT0 Ho0 Hm0 s s1 D KMeta y); try done. by apply Ht.
    Qed.
    Lemma out_mrr i v m t force s g ref s' g' : o_body o0 = BMrr i v m t -> s = s0 -> cok r s -> completes r O s' g' -> exec (map_out rec l r force s) g = ((Ok ref, s'), g') -> out_ok s' ref.
    Proof.
      intros Hb -> Hc HO He. unfold map_out in He. apply xi_bind in He as (o & s1 & g1 & E & He). apply xi_getobj in E as (Ho & <- & <-). assert (o = o0) as -> by congruence. rewrite Hb in He.
      pose proof own_label as Hlb. rewrite Hb in Hlb. cbn in Hlb. destruct Hlb as [(uu & -> & Hu) (w & -> & Hwv)].
      apply xi_bind in He as (fref & s1 & g1 & E1 & He). apply xi_bind in He as (mref & s2 & g2 & E2 & He). apply xi_bind in He as (x & s3 & g3 & E3 & He). apply xi_ret in He as (<- & <- & <-).
      cbn [opt_text] in E3.
      assert (HS1 : svm r (match t with None => mret (get_none_reference (ps "FileTree"))
            | Some y => mlet rf <- proxy_write_out rec true y (Some r) force; (if is_none_reference rf then mret tt else mlet x <- loc_of rf; add_tree_reference x) ;;; mret rf end)).
      { destruct t; [|apply keep_svm, keep_ret]. apply svm_bind; [by apply svm_proxy|]. intros y. apply svm_bind; [apply svm_ref_step|]. intros _. apply keep_svm, keep_ret. }
      assert (HS2 : svm r (match m with None => mret (get_none_reference (ps "Metadata"))
            | Some y => mlet rf <- rec y (Some r) force; mlet x <- loc_of rf; add_blob_reference x ;;; mret rf end)).
      { destruct m; [|apply keep_svm, keep_ret]. apply svm_bind; [apply Hs|]. intros y. apply keep_svm. apply keep_bind; [apply keep_loc_of|]. intros z. apply keep_bind; [apply keep_oref|]. intros _. apply keep_ret. }
      destruct (svm_back _ _ _ _ _ _ HS1 Hc E1) as [C1 _]. destruct (svm_back _ _ _ _ _ _ HS2 C1 E2) as [C2 K2].
      destruct (svm_back _ _ _ _ _ _ (keep_svm r _ (keep_save_str r _)) C2 E3) as [C3 K3].
      assert (Hdt : dget kids KTree = t). { rewrite Hb. cbn [kids_of]. rewrite dget_app. destruct m; cbn; rewrite ?decide_False by done; destruct t; cbn; by rewrite ?decide_True. }
      assert (Hdm : dget kids KMeta = m). { rewrite Hb. cbn [kids_of]. rewrite dget_app. destruct m; cbn; rewrite ?decide_True by done; [done|]. destruct t; cbn; by rewrite ?decide_False. }
      apply (tree_part t force s0 [] g fref s1 g1) in E1; [|intros; congruence|apply not_elem_of_nil|by apply (kinv_init r O l)|done|by apply K2, K3].
      assert (HI1 : exists D, kinv r O s0 o0 s1 D /\ KMeta ∉ map fst D /\ (forall y, t = Some y -> In (KTree, fref) D) /\ (t = None -> fref = get_none_reference (ps "FileTree"))).
      { destruct t as [y|].
        - eexists. split_and!; [exact E1|cbn; set_solver|intros _ _; by left|done].
        - destruct E1 as [-> ->]. exists []. split_and!; [by apply (kinv_init r O l)|apply not_elem_of_nil|done|done]. }
      destruct HI1 as (D1 & HI1 & Hn1 & Hin1 & Hno1).
      apply (meta_part m force s1 D1 g1 mref s2 g2) in E2; [|intros; congruence|done|done|done|by apply K3].
      assert (HI2 : exists D, kinv r O s0 o0 s2 D /\ (forall y, t = Some y -> In (KTree, fref) D) /\ (forall y, m = Some y -> In (KMeta, mref) D) /\ (m = None -> mref = get_none_reference (ps "Metadata"))).
      { destruct m as [y|].
        - eexists. split_and!; [exact E2|intros y' Hy; right; by eapply Hin1|intros _ _; by left|done].
        - destruct E2 as [-> ->]. exists D1. split_and!; done. }
      destruct HI2 as (D & HI & HinT & HinM & Hno2). apply saved_str in E3 as (-> & -> & _ & P3).
      assert (HrT : ref_ok fref). { destruct t as [y|]; [|rewrite Hno1 by done; split; [eexists; split; [done|scl]|cbn; apply none_scalar]]. eapply (good_ref_ok O r y). by eapply kid_refs; [exact HI|eapply HinT|]. }
      assert (HrM : ref_ok mref). { destruct m as [y|]; [|rewrite Hno2 by done; split; [eexists; split; [done|scl]|cbn; apply none_scalar]]. eapply (good_ref_ok O r y). by eapply kid_refs; [exact HI|eapply HinM|]. }
      pose proof (store_mrr O uu w mref fref (blob_id (dumps (mrr_doc uu w mref fref))) Hu Hwv HrM HrT (oid_hex _)) as Hst. cbv zeta in Hst.
      exists D. split_and!; [done| | |by rewrite Hb].
      - intros k y Hd. pose proof (kids_fit _ _ _ Hd) as Hf. rewrite Hb in Hf. destruct k; try done; rewrite ?Hdt, ?Hdm in Hd; eauto.
      - rewrite Hb. cbn [kind_of self_ref]. eapply matches; [by eapply kinv_self|done|apply Hst; eapply store_weaken; [|exact P3]; apply HO|by rewrite Hb|].
        intros k. destruct k as [n| | |v p|u].
        + rewrite !unfit; [done|done|by rewrite Hb].
        + rewrite Hdm. destruct m as [y|].
          * assert (Hg : good r O y mref s2) by by (eapply kid_refs; [exact HI|eapply HinM|]). destruct (kid_at _ _ _ _ HI Hdm) as (oy & Hoy & Hky). rewrite Hb in Hky. cbn in Hky.
            destruct (good_ref _ _ _ _ _ _ Hg Hoy) as [(_ & (c & Hkc) & _)|(Hnn & _)]; [congruence|]. pose proof (good_agrees _ _ _ _ _ _ Hg Hoy) as Ha. rewrite Hky in Ha.
            rewrite Hnn. cbn [kids_of app dget]. rewrite decide_True by done. exists (KdMeta, mref). done.
          * rewrite Hno2 by done. assert (is_none_reference (get_none_reference (ps "Metadata")) = true) as -> by done. cbn [kids_of app]. destruct (is_none_reference fref); cbn [dget]; [done|]. by rewrite decide_False.
        + rewrite Hdt. destruct t as [y|].
          * assert (Hg : good r O y fref s2) by by (eapply kid_refs; [exact HI|eapply HinT|]). destruct (kid_at _ _ _ _ HI Hdt) as (oy & Hoy & Hky). rewrite Hb in Hky. cbn in Hky.
            destruct (good_ref _ _ _ _ _ _ Hg Hoy) as [(Hnn & _ & _ & Hho)|(Hnn & _)].
            -- rewrite Hnn. cbn [kids_of]. rewrite app_nil_r. destruct (is_none_reference mref); cbn [dget]; [done|]. by rewrite decide_False.
            -- pose proof (good_agrees _ _ _ _ _ _ Hg Hoy) as Ha. rewrite Hky in Ha. rewrite Hnn. cbn [kids_of]. destruct (is_none_reference mref); cbn; rewrite ?decide_False by done; rewrite decide_True by done; by exists (KdNode LMeta, fref).
          * rewrite Hno1 by done. assert (is_none_reference (get_none_reference (ps "FileTree")) = true) as -> by done. cbn [kids_of]. rewrite app_nil_r. destruct (is_none_reference mref); cbn [dget]; [done|]. by rewrite decide_False.
        + rewrite !unfit; [done|done|by rewrite Hb].
        + rewrite !unfit; [done|done|by rewrite Hb].
    Qed.
    Lemma out_vl k vs force s g ref s' g' : o_body o0 = BVlist k vs -> s = s0 -> cok r s -> completes r O s' g' -> exec (map_out rec l r force s) g = ((Ok ref, s'), g') -> out_ok s' ref.
    Proof.
      intros Hb -> Hc HO He. unfold map_out in He. apply xi_bind in He as (o & s1 & g1 & E & He). apply xi_getobj in E as (Ho & <- & <-). assert (o = o0) as -> by congruence. rewrite Hb in He.
      pose proof own_label as Hlb. rewrite Hb in Hlb. cbn in Hlb.
      assert (Hwk : well_keyed vs). { apply (td_keyed _ _ _ _ HT0 [] l (o_hdr o0) k vs eq_refl). rewrite Ho0. destruct o0. cbn in *. by rewrite Hb. }
      pose proof (kids_records k vs Hwk) as Hkr. rewrite <- Hb in Hkr.
      pose proof kids_nodup as Hnd. rewrite Hkr in Hnd. unfold dkeys in Hnd. rewrite map_map in Hnd. cbn [fst] in Hnd.
      assert (Hdd : forall a, In a (vs_records vs) -> dget kids (KVer (fst a) (vr_path (snd a))) = Some (elt_loc (vr_elt (snd a)))).
      { intros a Hin. apply In_dget; [apply kids_nodup|]. rewrite Hkr. apply in_map_iff. by exists a. }
      apply xi_bind in He as (js & s1 & g1 & E1 & He). apply xi_bind in He as (x & s2 & g2 & E2 & He). apply xi_bind in He as (u & s3 & g3 & E3 & He). apply xi_ret in He as (<- & <- & <-).
      match type of E1 with exec (mmap ?f _ _) _ = _ => set (F := f) in E1 end.
      assert (HSf : forall a, svm r (F a)).
      { intros a. unfold F. apply svm_bind; [destruct (vr_elt (snd a)); [by apply svm_proxy|apply Hs]|]. intros ?. apply keep_svm, keep_ret. }
      assert (HSm : svm r (mmap F (vs_records vs))) by (apply svm_mmap; intros a _; apply HSf).
      destruct (svm_back _ _ _ _ _ _ HSm Hc E1) as [C1 _]. destruct (svm_back _ _ _ _ _ _ (keep_svm r _ (keep_save_str r _)) C1 E2) as [C2 K2].
      assert (HS3 : keep (if k then git_update_ref r TREE_VERSION_LIST x else mret tt)) by (destruct k; [apply keep_update|apply keep_ret]).
      destruct (svm_back _ _ _ _ _ _ (keep_svm r _ HS3) C2 E3) as [C3 K3].
      assert (s3 = s2) as ->.
      { destruct k; [|by apply xi_ret in E3 as (_ & <- & _)]. unfold git_update_ref in E3. apply xi_bind in E3 as (y & s4 & g4 & E3 & E4). apply xi_ret in E4 as (_ & <- & _). rewrite x_checked in E3. by injection E3. }
      apply saved_str in E2 as (-> & -> & _ & P2).
      destruct (kinv_loop r O l s0 o0 HT0 Ho0 Hm0 F (fun a => KVer (fst a) (vr_path (snd a))) (fun a b rf => b = assoc_doc (a, rf)) (vs_records vs)) with (D := @nil (key * reference)) (s := s0) (g := g) (bs := js) (s' := s1) (g' := g1)
        as (D & rs & HI & _ & Hlr & Hlu & HD).
      { intros a _. apply HSf. }
      { intros a s D g0 b s' g' Hin HI Hc' HO' He. unfold F in He. apply xi_bind in He as (rf & s2 & g2' & E & He). apply xi_ret in He as (<- & <- & <-).
        exists (elt_loc (vr_elt (snd a))), rf. rewrite (Hdd a Hin).
        assert (HW : wfr s s2 (elt_loc (vr_elt (snd a))) /\ good r O (elt_loc (vr_elt (snd a))) rf s2); [|by destruct HW].
        pose proof (Hdd a Hin) as Hd. destruct (vr_elt (snd a)) as [y|y]; cbn [elt_loc] in *.
        - eapply (kid_writes (proxy_write_out rec false)); try done. by apply writes_proxy.
        - eapply (kid_writes rec); done. }
      { done. } { intros a _ Hin. by apply elem_of_nil in Hin. } { by apply (kinv_init r O l). } { done. } { by apply K2, K3. } { done. }
      assert (Hzip : forall rr, In rr (zip (vs_records vs) rs) -> In (fst rr) (vs_records vs) /\ In (KVer (fst (fst rr)) (vr_path (snd (fst rr))), snd rr) D).
      { intros rr Hin. apply elem_of_list_In, elem_of_list_lookup in Hin as [i Hi]. apply lookup_zip_with_Some in Hi as (a & rf & -> & Ha & Hrf). cbn [fst snd].
        split; [apply elem_of_list_In; by eapply elem_of_list_lookup_2|]. pose proof (lookup_lt_Some _ _ _ Ha). destruct (lookup_lt_is_Some_2 js i) as [b Hbi]; [lia|]. by destruct (HD i a b rf Ha Hbi Hrf). }
      assert (Hgood : forall rr, In rr (zip (vs_records vs) rs) -> exists ox, good r O (elt_loc (vr_elt (snd (fst rr)))) (snd rr) s1 /\ s_heap s1 !! elt_loc (vr_elt (snd (fst rr))) = Some ox /\
         kind_of (o_body ox) = if is_etree (vr_elt (snd (fst rr))) then KdNode LMrr else KdMrr).
      { intros rr Hin. destruct (Hzip rr Hin) as [Ha HinD]. pose proof (Hdd _ Ha) as Hd. destruct (kid_at _ _ _ _ HI Hd) as (ox & Hox & Hk). exists ox. split_and!; [by eapply kid_refs|done|].
        rewrite Hb in Hk. destruct Hk as (rc & Hrc & E1' & E2' & ->). f_equal. assert (rc = fst rr) as ->; [|done].
        apply (nodup_map_inj _ _ _ _ Hnd Hrc Ha). by rewrite E1', E2'. }
      assert (Hjs : js = map assoc_doc (zip (vs_records vs) rs)).
      { apply list_eq. intros i. change map with (@fmap list list_fmap). rewrite list_lookup_fmap. destruct (vs_records vs !! i) as [a|] eqn:Ea.
        - pose proof (lookup_lt_Some _ _ _ Ea). destruct (lookup_lt_is_Some_2 js i) as [b Hbi]; [lia|]. destruct (lookup_lt_is_Some_2 rs i) as [rf Hrf]; [lia|].
          destruct (HD i a b rf Ea Hbi Hrf) as [-> _]. rewrite Hbi. erewrite (proj2 (lookup_zip_with_Some pair _ _ i (a, rf))); [done|]. by exists a, rf.
        - pose proof (lookup_ge_None_1 _ _ Ea). rewrite (lookup_ge_None_2 js) by lia. rewrite (lookup_ge_None_2 (zip _ _)); [done|]. rewrite zip_with_length. lia. }
      destruct (store_vl O (s_heap s1) k vs (zip (vs_records vs) rs) (blob_id (dumps (JArr js)))) as (vs1 & Hst & Hlab & Hkm).
      { done. } { by apply same_length_zip. }
      { apply List.Forall_forall. intros rr Hin. destruct (Hgood rr Hin) as (ox & Hg & Hox & Hk). destruct (Hzip rr Hin) as [Ha _].
        destruct (Hlb (fst (fst rr)) (vr_path (snd (fst rr))) (vr_time (snd (fst rr))) (is_etree (vr_elt (snd (fst rr))))) as (L1 & L2 & L3 & L4); [apply in_map_iff; by exists (fst rr)|].
        split_and!; try done; [by eapply good_ref_ok|]. unfold class_fits.
        assert (HC : r_class (snd rr) <> JStr (ps "FileTree") \/ is_etree (vr_elt (snd (fst rr))) = false).
        { destruct (is_etree (vr_elt (snd (fst rr)))); [left|by right]. destruct Hg as (HT & _ & ox' & Hox' & Hf). assert (ox' = ox) as -> by congruence. by eapply (td_class _ _ _ _ HT [] _ ox). }
        destruct (good_ref _ _ _ _ _ _ Hg Hox) as [(_ & (c & Hkc) & -> & _)|(_ & id & _ & _ & Hcl & _)].
        - rewrite Hk in Hkc. destruct (is_etree _); [|done]. right. done.
        - rewrite Hk in Hcl. destruct (is_etree _); cbn [empty_body type_name_of] in Hcl; apply conv_class in Hcl as [Hcl|[Hcl Hcl']]; auto; [|done].
          destruct HC as [HC|HC]; [|done]. destruct Hcl'; [done|by left]. }
      { apply oid_hex. }
      { rewrite <- Hjs. eapply store_weaken; [|exact P2]. apply K3, HO. }
      exists D. split_and!; [done| | |by rewrite Hb].
      - intros k' y Hd. pose proof Hd as Hd'. rewrite Hkr in Hd'. apply dget_Some_In, in_map_iff in Hd' as (a & [= <- _] & Hin).
        apply elem_of_list_In, elem_of_list_lookup in Hin as [i Hi]. pose proof (lookup_lt_Some _ _ _ Hi) as Hlt.
        destruct (lookup_lt_is_Some_2 js i) as [b Hb']; [lia|]. destruct (lookup_lt_is_Some_2 rs i) as [rf Hrf]; [lia|]. exists rf. by destruct (HD i a b rf Hi Hb' Hrf).
      - assert (Hsr : self_ref (KdVl k) (ref_of (ps "VersionList") (blob_id (dumps (JArr js)))) = ref_of (type_name_of (BVlist k [])) (blob_id (dumps (JArr js)))) by (by destruct k).
        rewrite Hb. cbn [kind_of]. rewrite Hsr. eapply matches; [by eapply kinv_self|done|exact Hst|by rewrite Hb|]. rewrite Hb. apply Hkm.
        intros rr Hin. destruct (Hgood rr Hin) as (ox & Hg & Hox & Hk). pose proof (good_agrees _ _ _ _ _ _ Hg Hox) as Hag. rewrite Hk in Hag. exact Hag.
    Qed.
    Lemma out_us us force s g ref s' g' : o_body o0 = BUset us -> s = s0 -> cok r s -> completes r O s' g' -> exec (map_out rec l r force s) g = ((Ok ref, s'), g') -> out_ok s' ref.
    Proof.
      intros Hb -> Hc HO He. unfold map_out in He. apply xi_bind in He as (o & s1 & g1 & E & He). apply xi_getobj in E as (Ho & <- & <-). assert (o = o0) as -> by congruence. rewrite Hb in He.
      assert (Hdd : forall a, In a us -> dget kids (KUuid (fst a)) = Some (snd a)).
      { intros [n x] Hin. apply In_dget; [apply kids_nodup|]. rewrite Hb. cbn [kids_of]. apply in_map_iff. by exists (n, x). }
      pose proof kids_nodup as Hnd. rewrite Hb in Hnd. cbn [kids_of] in Hnd. unfold dkeys in Hnd. rewrite map_map in Hnd. cbn [fst] in Hnd.
      assert (Hnu : NoDup (dkeys us)) by (apply (NoDup_fmap_1 KUuid); change (NoDup (map KUuid (map fst us))); by rewrite map_map).
      apply xi_bind in He as (es & s1 & g1 & E1 & He). apply xi_bind in He as (x & s2 & g2 & E2 & He). apply xi_bind in He as (u & s3 & g3 & E3 & He). apply xi_ret in He as (<- & <- & <-).
      match type of E1 with exec (mmap ?f _ _) _ = _ => set (F := f) in E1 end.
      assert (HSf : forall a, svm r (F a)).
      { intros a. unfold F. apply svm_bind; [apply Hs|]. intros ?. apply keep_svm. apply keep_bind; [apply keep_loc_of|]. intros ?. apply keep_ret. }
      assert (HSm : svm r (mmap F us)) by (apply svm_mmap; intros a _; apply HSf).
      destruct (svm_back _ _ _ _ _ _ HSm Hc E1) as [C1 _]. destruct (svm_back _ _ _ _ _ _ (keep_svm r _ (keep_save_tree r _)) C1 E2) as [C2 K2].
      destruct (svm_back _ _ _ _ _ _ (keep_svm r _ (keep_update r _ _)) C2 E3) as [C3 K3].
      assert (s3 = s2) as ->.
      { unfold git_update_ref in E3. apply xi_bind in E3 as (y & s4 & g4 & E3 & E4). apply xi_ret in E4 as (_ & <- & _). rewrite x_checked in E3. by injection E3. }
      apply saved_tree in E2 as (-> & Ht & input & ts & H1 & H2 & H3).
      destruct (kinv_loop r O l s0 o0 HT0 Ho0 Hm0 F (fun a => KUuid (fst a)) (fun a b rf => exists id, r_loc rf = Some id /\ b = (ps "100644", ps "blob", id, uuid_str (fst a))) us) with (D := @nil (key * reference)) (s := s0) (g := g) (bs := es) (s' := s1) (g' := g1)
        as (D & rs & HI & _ & Hlr & Hlu & HD).
      { intros a _. apply HSf. }
      { intros a s D g0 b s' g' Hin HI Hc' HO' He. unfold F in He. apply xi_bind in He as (rf & s2 & g2' & E & He). apply xi_bind in He as (id & s4 & g4 & E4 & He). apply h_loc_of in E4 as (Hloc & -> & ->).
        apply xi_ret in He as (<- & <- & <-). exists (snd a), rf. rewrite (Hdd a Hin).
        assert (HW : wfr s s2 (snd a) /\ good r O (snd a) rf s2) by (eapply (kid_writes rec); try done; by apply Hdd). destruct HW. split_and!; try done. by exists id. }
      { done. } { intros a _ Hin. by apply elem_of_nil in Hin. } { by apply (kinv_init r O l). } { done. } { by apply K2, K3. } { done. }
      assert (Hent : forall a, In a us -> exists rf, In (KUuid (fst a), rf) D /\ good r O (snd a) rf s1 /\ uuid_ok (fst a) /\ hex40 (ref_id (s_heap s1) (snd a)) /\
         agrees O (s_heap s1) (snd a) (ukind (fst a, ref_id (s_heap s1) (snd a)))).
      { intros a Hin. pose proof (Hdd a Hin) as Hd. destruct (kid_at _ _ _ _ HI Hd) as (ox & Hox & Hk). rewrite Hb in Hk. destruct Hk as [Hu Hk].
        assert (Hrf : exists rf, In (KUuid (fst a), rf) D).
        { apply elem_of_list_In, elem_of_list_lookup in Hin as [i Hi]. pose proof (lookup_lt_Some _ _ _ Hi) as Hlt.
          destruct (lookup_lt_is_Some_2 es i) as [b Hb']; [lia|]. destruct (lookup_lt_is_Some_2 rs i) as [rf Hrf]; [lia|]. exists rf. by destruct (HD i a b rf Hi Hb' Hrf). }
        destruct Hrf as (rf & HinD). pose proof (kid_refs _ _ _ _ _ HI HinD Hd) as Hg. exists rf. rewrite (kid_id _ _ _ _ _ HI HinD Hd).
        destruct (good_ref _ _ _ _ _ _ Hg Hox) as [(_ & (c & Hkc) & _)|(_ & id & Hl & Hx & _ & Ha)]; [congruence|]. rewrite Hl. cbn [opt_text]. rewrite Hk in Ha. split_and!; done. }
      set (us' := map (fun ul : uuid * loc => (fst ul, ref_id (s_heap s1) (snd ul))) us).
      assert (Hes : es = map (fun ui => spec_fields (uuid_entry ui)) us').
      { apply list_eq. intros i. unfold us'. rewrite map_map. change map with (@fmap list list_fmap). rewrite list_lookup_fmap. unfold pydict in *. destruct (us !! i) as [a|] eqn:Ea.
        - pose proof (lookup_lt_Some _ _ _ Ea). destruct (lookup_lt_is_Some_2 es i) as [b Hbi]; [lia|]. destruct (lookup_lt_is_Some_2 rs i) as [rf Hrf]; [lia|].
          destruct (HD i a b rf Ea Hbi Hrf) as [(id & Hloc & ->) HinD]. rewrite Hbi. cbn [fmap option_fmap option_map].
          assert (Hin : In a us) by (apply elem_of_list_In; by eapply elem_of_list_lookup_2). pose proof (kid_id _ _ _ _ _ HI HinD (Hdd a Hin)) as Hid. rewrite Hloc in Hid. cbn [opt_text] in Hid.
          destruct (Hent a Hin) as (_ & _ & _ & Hu & _). transitivity (Some (spec_fields (uuid_entry (fst a, ref_id (s_heap s1) (snd a))))); [|done]. rewrite Hid. unfold spec_fields, uuid_entry, dir_entry_fields. cbn [fst snd de_dir de_id de_name]. f_equal. f_equal.
          unfold escape_double_quotes. assert (existsb (fun c : N => (c =? 34)%N) (uuid_str (fst a)) = false) as ->; [|done].
          apply not_true_is_false. intros Ex. apply existsb_exists in Ex as (c & Hcin & Ec). apply N.eqb_eq in Ec. subst c. apply uuid_plain in Hcin; [|done]. unfold lower_hex_digit in Hcin. lia.
        - pose proof (lookup_ge_None_1 _ _ Ea). by rewrite (lookup_ge_None_2 es) by lia. }
      pose proof (set_order_perm _ es) as Hperm. rewrite Hes in Hperm at 2. apply Permutation_map_inv in Hperm as (l3 & Hl3 & Hp3). rewrite Hl3 in H1. rewrite <- (map_map uuid_entry spec_fields) in H1.
      assert (Hne : us <> []).
      { intros Eus. assert (Eu : us' = []) by (unfold us'; by rewrite Eus). rewrite Eu in Hp3. apply Permutation_nil in Hp3. rewrite Hp3 in H1. cbn in H1. injection H1 as <-. vm_compute in H2. done. }
      destruct (store_us O l3 x input ts) as (l' & Hp & Hst); try done.
      { intros ->. symmetry in Hp3. apply Permutation_nil in Hp3. unfold us' in Hp3. by destruct us. }
      { rewrite <- Hp3. apply List.Forall_forall. intros ui Hui. unfold us' in Hui. apply in_map_iff in Hui as (a & <- & Hin). by destruct (Hent a Hin) as (_ & _ & _ & ? & ? & _). }
      { rewrite <- Hp3. unfold us'. rewrite map_map. exact Hnu. }
      { eapply store_weaken; [|exact H3]. apply K3, HO. }
      exists D. split_and!; [done| | |by rewrite Hb].
      - intros k' y Hd. pose proof Hd as Hd'. rewrite Hb in Hd'. apply dget_Some_In, in_map_iff in Hd' as (a & [= <- _] & Hin). destruct (Hent a Hin) as (rf & ? & _). eauto.
      - rewrite Hb. cbn [kind_of self_ref]. eapply matches; [by eapply kinv_self|done|exact Hst|by rewrite Hb|]. rewrite Hb. apply (us_match O (s_heap s1) us l' (ref_id (s_heap s1))).
        + by rewrite Hp, <- Hp3.
        + done.
        + intros a Hin. by destruct (Hent a Hin) as (_ & _ & _ & _ & _ & ?).
    Qed.
    Lemma out_all force s g ref s' g' : s = s0 -> cok r s -> completes r O s' g' -> exec (map_out rec l r force s) g = ((Ok ref, s'), g') -> out_ok s' ref.
    Proof.
      intros Es Hc HO He. destruct (o_body o0) as [m|t|c d|i v m t|k vs|us] eqn:Hb.
      - unfold map_out in He. apply xi_bind in He as (o & s1 & g1 & E & He). apply xi_getobj in E as (Ho & <- & <-). assert (o = o0) as -> by congruence. rewrite Hb in He. by eapply out_meta.
      - pose proof own_label as Hl. by rewrite Hb in Hl.
      - unfold map_out in He. apply xi_bind in He as (o & s1 & g1 & E & He). apply xi_getobj in E as (Ho & <- & <-). assert (o = o0) as -> by congruence. rewrite Hb in He.
        destruct d as [|nl d]; [|by eapply (out_node c (nl :: d))].
        apply xi_ret in He as (<- & <- & <-). subst s. exists []. split_and!; [by apply (kinv_init r O l)|by rewrite Hb| |done].
        rewrite Hb. cbn [kind_of self_ref]. eapply (matches O _ l o0 (KdNode c) _ (BNode c []) []); [done|done|done|by rewrite Hb|]. rewrite Hb. by intros k.
      - by eapply out_mrr.
      - by eapply out_vl.
      - by eapply out_us.
    Qed.
  End Out.

  Lemma dest_r o : (if truthy (h_realm (o_hdr o)) then or_else (Some r) (h_realm (o_hdr o)) else Some r) = Some r.
  Proof. destruct (truthy _); [unfold or_else|]; by destruct r. Qed.
  Lemma saved_marked fuel h l : saved_on fuel h l (Some r) = Ok true -> all_marked r h l.
  Proof.
    intros Hs p x o Hp Ho. destruct (C22_marks_lemma fuel h l x r Hs) as (o' & Ho' & Hin); [eapply reach_below; [by exists o|done]|]. left. by assert (o' = o) as -> by congruence.
  Qed.
  (** One write, apart from what differs between the classes of version lists. *)
  Lemma write_cases f l force s g ref s' g' o : (writes (write_out f) /\ forall x b, svm r (write_out f x (Some r) b)) ->
    cok r s -> tidy O r s l -> s_heap s !! l = Some o -> completes r O s' g' -> exec (write_out (S f) l (Some r) force s) g = ((Ok ref, s'), g') ->
    (wfr s s' l /\ good r O l ref s') \/
    (exists s1 o1 s2 D, h_mapped (o_hdr o) = true /\ tidy O r s1 l /\ wfr s s1 l /\ s_heap s1 !! l = Some o1 /\ o_body o1 = o_body o /\ h_mapped (o_hdr o1) = true /\
       kinv r O s1 o1 s2 D /\ (forall k x, dget (kids_of (o_body o1)) k = Some x -> exists rf, In (k, rf) D) /\
       (forall q, look_stored O (kind_of (o_body o1)) (self_ref (kind_of (o_body o1)) ref) q = look O (s_heap s2) l q) /\
       (kind_of (o_body o1) = KdNode LMrr -> r_class ref <> JStr (ps "FileTree")) /\
       s' = with_heap s2 (<[l := Obj (hd_saved ({[r]} ∪ h_saved (o_hdr o1)) (hd_ref (Some ref) (o_hdr o1))) (o_body o1)]> (s_heap s2))).
  Proof.
    intros [Hw Hsv] Hc HT Ho HO He. cbn [write_out] in He. apply xi_bind in He as (o' & s1 & g1 & E & He). apply xi_getobj in E as (Ho' & <- & <-). assert (o' = o) as -> by congruence.
    destruct (h_mapped (o_hdr o)) eqn:Em; cbn [negb] in He.
    - rewrite dest_r in He. destruct (is_remote r); [done|]. apply xi_bind in He as (u & s1 & g1 & E & He). rewrite (x_set_hdr _ _ _ _ _ Ho) in E. injection E as _ <- <-.
      destruct (tidy_realm O r s l o r HT Ho Em) as (HT1 & HW1 & _). set (s1 := with_heap s (<[l := Obj (hd_realm (Some r) (o_hdr o)) (o_body o)]> (s_heap s))) in *.
      set (o1 := Obj (hd_realm (Some r) (o_hdr o)) (o_body o)) in *. assert (Ho1 : s_heap s1 !! l = Some o1) by (unfold s1; cbn [s_heap with_heap]; by rewrite heap_insert, decide_True).
      apply xi_bind in He as (b & s2 & g2 & E & He). change (exec (is_saved_on (S f) l (Some r) s1) g = (Ok b, s2, g2)) in E. rewrite x_is_saved in E. injection E as E <- <-.
      destruct (b && negb force) eqn:Eb.
      + left. apply andb_true_iff in Eb as [-> _]. apply (saved_marked (S f)) in E. destruct (td_marks _ _ _ _ HT1 [] l o1 eq_refl Ho1 E) as (rf & Hf & Hl).
        rewrite (x_own l o1 rf s1 g Ho1 Hf) in He. injection He as <- <- <-. split; [done|]. split_and!; [done|done|by exists o1].
      + right. apply xi_bind in He as (rf & s2 & g2 & E1 & He). assert (Hc1 : cok r s1) by done.
        assert (HS : svm r (map_out (write_out f) l r force)) by by apply svm_map_out. destruct (svm_back _ _ _ _ _ _ HS Hc1 E1) as [C2 _].
        apply xi_bind in He as (u2 & s3 & g3 & E2 & He). apply xi_bind in He as (u3 & s4 & g4 & E3 & He). apply xi_ret in He as (<- & <- & <-).
        destruct (svm_back _ _ _ _ _ _ (keep_svm r _ (keep_set_hdr _ _)) C2 E2) as [C3 K3]. destruct (svm_back _ _ _ _ _ _ (keep_svm r _ (keep_set_hdr _ _)) C3 E3) as [C4 K4].
        destruct (out_all (write_out f) Hw Hsv l s1 o1 HT1 Ho1 Em force s1 g rf s2 g2 eq_refl Hc1) as (D & HI & Hall & Hlk & Hcl); [by apply K3, K4|done|].
        pose proof (kinv_self r O l s1 o1 HT1 Ho1 Em _ _ HI) as Ho2. rewrite (x_set_hdr _ _ _ _ _ Ho2) in E2. injection E2 as _ <- <-.
        assert (Ho3 : s_heap (with_heap s2 (<[l := Obj (hd_ref (Some rf) (o_hdr o1)) (o_body o1)]> (s_heap s2))) !! l = Some (Obj (hd_ref (Some rf) (o_hdr o1)) (o_body o1))) by (cbn [s_heap with_heap]; by rewrite heap_insert, decide_True).
        unfold set_saved_on in E3. rewrite (x_set_hdr _ _ _ _ _ Ho3) in E3. injection E3 as _ <- <-.
        exists s1, o1, s2, D. split_and!; try done. cbn [s_heap with_heap o_hdr o_body hd_ref hd_saved h_saved h_realm h_ref h_mapped]. unfold with_heap. cbn [s_heap s_next s_caches]. f_equal. unfold heap. by rewrite insert_insert.
    - left. apply xi_bind in He as (u & s1 & g1 & E & He). apply xi_assert in E as (_ & <- & <-). apply xi_bind in He as (u2 & s1 & g1 & E & He). apply xi_assert in E as (_ & <- & <-).
      apply xi_bind in He as (b & s1 & g1 & E & He). change (exec (is_saved_on (S f) l (Some r) s) g = (Ok b, s1, g1)) in E. rewrite x_is_saved in E. injection E as E <- <-. destruct b; [|done].
      apply (saved_marked (S f)) in E. destruct (td_marks _ _ _ _ HT [] l o eq_refl Ho E) as (rf & Hf & Hl).
      rewrite (x_own l o rf s g Ho Hf) in He. injection He as <- <- <-. split; [apply wfr_refl|]. split_and!; [done|done|by exists o].
  Qed.
  Lemma write_good f : writes (write_out f).
  Proof.
    induction f as [|f IH]; intros l force s g ref s' g' o Hc HT Ho Hk HO He; [done|].
    destruct (write_cases f l force s g ref s' g' o) as [?|(s1 & o1 & s2 & D & Hm & HT1 & HW1 & Ho1 & Hb1 & Hm1 & HI & Hall & Hlk & Hcl & ->)]; try done.
    - split; [done|]. intros x b. by apply svm_write_out.
    - destruct (kinv_final r O l s1 o1 HT1 Ho1 Hm1 s2 D ref (Obj (hd_saved ({[r]} ∪ h_saved (o_hdr o1)) (hd_ref (Some ref) (o_hdr o1))) (o_body o1))) as [W G]; try done.
      + intros q. rewrite <- Hlk. unfold self_ref. rewrite Hb1. by destruct (kind_of (o_body o)) as [| | | |[]|].
      + split_and!; try done; cbn; [set_solver|congruence].
      + cbn. set_solver.
      + split; [by eapply wfr_trans|done].
  Qed.
  (** What was written shows the same as the object did before. *)
  Lemma write_shows f l force s g ref s' g' o : cok r s -> tidy O r s l -> s_heap s !! l = Some o -> completes r O s' g' ->
    exec (write_out f l (Some r) force s) g = ((Ok ref, s'), g') ->
    frame (s_heap s) (s_heap s') /\ s_next s' = s_next s /\
    forall q, look_stored O (kind_of (o_body o)) (self_ref (kind_of (o_body o)) ref) q = look O (s_heap s) l q.
  Proof.
    intros Hc HT Ho HO He. destruct f as [|f]; [done|].
    destruct (write_cases f l force s g ref s' g' o) as [[W G]|(s1 & o1 & s2 & D & Hm & HT1 & HW1 & Ho1 & Hb1 & Hm1 & HI & Hall & Hlk & Hcl & ->)]; try done.
    - split; [apply write_good|]. intros x b. by apply svm_write_out.
    - split_and!; [apply W|apply W|]. intros q. destruct (fr_get _ _ _ _ (proj1 W) Ho) as (o' & Ho' & (Hb & _)).
      pose proof (good_agrees _ _ _ _ _ _ G Ho') as Ha. rewrite Hb in Ha. rewrite <- (fo_look O (s_heap s) (s_heap s')) by apply fr_on, W. rewrite <- (Ha q). cbn [fst snd].
      destruct (good_ref _ _ _ _ _ _ G Ho') as [(_ & (c & Hkc) & _)|(_ & id & Hl & Hx & _ & Ha')]; rewrite Hb in *; [by rewrite Hkc|].
      destruct (kind_of (o_body o)) as [| | | |[]|]; try done. cbn [self_ref]. rewrite Hl. etrans; [apply (Ha' q)|]. symmetry. apply (Ha q).
    - assert (Hfr : frame (s_heap s1) (s_heap s2)) by apply HI.
      pose proof (kinv_self r O l s1 o1 HT1 Ho1 Hm1 _ _ HI) as Ho2. split_and!.
      + eapply fr_trans; [apply HW1|]. eapply fr_trans; [exact Hfr|]. intros x. cbn [s_heap with_heap]. rewrite heap_insert. destruct (decide (l = x)) as [<-|]; [|apply ro_refl].
        rewrite Ho2. cbn. split_and!; try done; cbn; [set_solver|congruence].
      + cbn. rewrite (ki_next _ _ _ _ _ _ HI). apply HW1.
      + intros q. rewrite <- Hb1, Hlk. rewrite (fo_look O (s_heap s1) (s_heap s2)) by by apply fr_on. apply fo_look, fr_on, HW1.
  Qed.
  Lemma proxy_shows f ft l force s g ref s' g' o : cok r s -> tidy O r s l -> s_heap s !! l = Some o -> kind_of (o_body o) <> KdVl true -> completes r O s' g' ->
    exec (proxy_write_out (write_out f) ft l (Some r) force s) g = ((Ok ref, s'), g') ->
    wfr s s' l /\ good r O l ref s' /\ forall q, look_stored O (kind_of (o_body o)) ref q = look O (s_heap s) l q.
  Proof.
    intros Hc HT Ho Hk HO He. destruct (writes_proxy (write_out f) ft (write_good f) (fun x b => svm_write_out r Hr f x b) l force s g ref s' g' o) as [W G]; try done.
    split_and!; try done. intros q. destruct (fr_get _ _ _ _ (proj1 W) Ho) as (o' & Ho' & (Hb & _)). pose proof (good_agrees _ _ _ _ _ _ G Ho' q) as Ha. rewrite Hb in Ha. cbn [fst snd] in Ha. rewrite Ha. apply fo_look, fr_on, W.
  Qed.
End All.
