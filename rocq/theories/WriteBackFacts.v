(** What is written can be read back. *)
From Verif Require Import Base BaseFacts Path Json Refs Meta Spec_Meta GitText Spec_Git GitTextFacts Git GitFacts Spec_Store State BlobCache ObjRef Objects Spec_Look Spec_Heap Spec_Versions Spec_Write ExecFacts Spec_Cache CacheFacts WriteFacts LoadFacts PeekFacts TreeFacts VersionFacts LookFacts Spec_Content ContentFacts StoreFacts SaveFacts.

(** ** Heaps that differ in headers of loaded objects only *)
Definition same_obj (o o' : obj) : Prop :=
  o_body o' = o_body o /\ h_mapped (o_hdr o') = h_mapped (o_hdr o) /\ h_saved (o_hdr o) ⊆ h_saved (o_hdr o') /\ (h_mapped (o_hdr o) = false -> o' = o).
Definition rel_obj (a b : option obj) : Prop :=
  match a, b with Some o, Some o' => same_obj o o' | None, None => True | _, _ => False end.
Definition frame (h h' : heap) : Prop := forall x : loc, rel_obj (h !! x) (h' !! x).
Definition frame_on (h h' : heap) (l : loc) : Prop := forall p x, reach h l p = Some x -> rel_obj (h !! x) (h' !! x).
Lemma so_refl o : same_obj o o.
Proof. by split_and!. Qed.
Lemma so_trans a b c : same_obj a b -> same_obj b c -> same_obj a c.
Proof.
  intros (A1 & A2 & A3 & A4) (B1 & B2 & B3 & B4). split_and!; [congruence|congruence|by etrans|].
  intros Hm. rewrite (B4 ltac:(congruence)). by apply A4.
Qed.
Lemma ro_refl a : rel_obj a a.
Proof. destruct a; [apply so_refl|done]. Qed.
Lemma ro_trans a b c : rel_obj a b -> rel_obj b c -> rel_obj a c.
Proof. destruct a, b, c; cbn; try done. apply so_trans. Qed.
Lemma fr_refl h : frame h h.
Proof. intros x. apply ro_refl. Qed.
Lemma fr_trans a b c : frame a b -> frame b c -> frame a c.
Proof. intros H1 H2 x. eapply ro_trans; [apply H1|apply H2]. Qed.
Lemma fr_on h h' l : frame h h' -> frame_on h h' l.
Proof. intros Hf p x _. apply Hf. Qed.
Lemma fr_get h h' x o : frame h h' -> h !! x = Some o -> exists o', h' !! x = Some o' /\ same_obj o o'.
Proof. intros Hf Ho. specialize (Hf x). rewrite Ho in Hf. destruct (h' !! x) as [o'|]; [|done]. eauto. Qed.
Lemma fr_back h h' x o' : frame h h' -> h' !! x = Some o' -> exists o, h !! x = Some o /\ same_obj o o'.
Proof. intros Hf Ho. specialize (Hf x). rewrite Ho in Hf. destruct (h !! x) as [o|]; [|done]. eauto. Qed.
Lemma fo_self h h' l : frame_on h h' l -> rel_obj (h !! l) (h' !! l).
Proof. intros Hf. by apply (Hf [] l). Qed.
Lemma fo_kid h h' l o k x : frame_on h h' l -> h !! l = Some o -> h_mapped (o_hdr o) = true -> dget (kids_of (o_body o)) k = Some x -> frame_on h h' x.
Proof. intros Hf Ho Hm Hd p y Hp. apply (Hf (k :: p)). cbn [reach]. by rewrite Ho, Hm, Hd. Qed.
Lemma fo_reach h h' p : forall l, frame_on h h' l -> reach h' l p = reach h l p.
Proof.
  induction p as [|k p IH]; intros l Hf; [done|]. cbn [reach]. pose proof (fo_self _ _ _ Hf) as Hs. unfold rel_obj in Hs. destruct (h !! l) as [o|] eqn:Eo, (h' !! l) as [o'|] eqn:Eo'; try done.
  destruct Hs as (H1 & H2 & _). rewrite H1, H2. destruct (h_mapped (o_hdr o)) eqn:Em; [|done]. destruct (dget (kids_of (o_body o)) k) as [x|] eqn:Ed; [|done].
  apply IH. by eapply fo_kid.
Qed.
Lemma ro_hollow O (h h' : heap) l : rel_obj (h !! l) (h' !! l) -> hollow_at O h' l = hollow_at O h l.
Proof.
  intros Hs. unfold hollow_at, rel_obj in *. destruct (h !! l) as [o|] eqn:Eo, (h' !! l) as [o'|] eqn:Eo'; try done.
  destruct Hs as (H1 & H2 & _ & H3). rewrite H2. destruct (h_mapped (o_hdr o)); [by rewrite H1|]. by rewrite H3.
Qed.
Lemma fo_look O h h' p : forall l, frame_on h h' l -> look O h' l p = look O h l p.
Proof.
  induction p as [|k p IH]; intros l Hf; cbn [look]; pose proof (fo_self _ _ _ Hf) as Hs; unfold rel_obj in Hs;
    destruct (h !! l) as [o|] eqn:Eo, (h' !! l) as [o'|] eqn:Eo'; try done; pose proof Hs as (H1 & H2 & _ & H3).
  - rewrite H2. destruct (h_mapped (o_hdr o)) eqn:Em; [by rewrite H1|]. by rewrite H3.
  - rewrite H2. destruct (h_mapped (o_hdr o)) eqn:Em; [|by rewrite H3]. rewrite H1. destruct (dget (kids_of (o_body o)) k) as [x|] eqn:Ed; [|done].
    assert (Hx : frame_on h h' x) by by eapply fo_kid. rewrite (ro_hollow O h h' x) by by apply fo_self. rewrite (IH x Hx). done.
Qed.
Lemma frame_heap_ok s s' : heap_ok s -> frame (s_heap s) (s_heap s') -> s_next s' = s_next s -> heap_ok s'.
Proof.
  intros Hk Hf Hn l o' Ho'. destruct (fr_back _ _ _ _ Hf Ho') as (o & Ho & (H1 & H2 & _)). destruct (Hk l o Ho) as (K1 & K2 & K3 & K4).
  rewrite Hn, H1, H2. split_and!; try done. intros x Hx. destruct (K2 x Hx) as [ox Hox]. destruct (fr_get _ _ _ _ Hf Hox) as (ox' & Hox' & _). eauto.
Qed.

(** ** Tidy objects in such heaps *)
Definition same_below (h h' : heap) (l : loc) : Prop := forall p x, reach h l p = Some x -> h' !! x = h !! x.
Lemma sb_fo h h' l : same_below h h' l -> frame_on h h' l.
Proof. intros Hs p x Hp. rewrite (Hs p x Hp). apply ro_refl. Qed.
Lemma sb_reach h h' l x p : same_below h h' l -> reach h' l p = Some x -> reach h l p = Some x /\ h' !! x = h !! x.
Proof. intros Hs Hp. rewrite (fo_reach h h') in Hp by by apply sb_fo. split; [done|by eapply Hs]. Qed.
Lemma sb_marked r h h' l : same_below h h' l -> all_marked r h l -> all_marked r h' l.
Proof. intros Hs Hm p x o Hp Ho. apply (sb_reach h h') in Hp as [Hp Hx]; [|done]. rewrite Hx in Ho. by eapply Hm. Qed.
Lemma sb_sub h h' l x p : same_below h h' l -> reach h l p = Some x -> same_below h h' x.
Proof.
  intros Hs Hp q y Hq. apply (Hs (p ++ q)). revert l Hs Hp. induction p as [|k p IH]; intros l Hs Hp; cbn [app].
  - cbn in Hp. by injection Hp as ->.
  - cbn [reach] in *. destruct (h !! l) as [o|] eqn:Eo; [|done]. destruct (h_mapped (o_hdr o)) eqn:Em; [|done]. destruct (dget (kids_of (o_body o)) k) as [z|] eqn:Ed; [|done].
    apply IH; [|done]. intros p' y' Hp'. apply (Hs (k :: p')). cbn [reach]. by rewrite Eo, Em, Ed.
Qed.
Lemma sb_sym h h' l : same_below h h' l -> same_below h' h l.
Proof. intros Hs p x Hp. apply (sb_reach h h') in Hp as [Hp Hx]; done. Qed.
Lemma tidy_same O r s s' l : tidy O r s l -> heap_ok s' -> same_below (s_heap s) (s_heap s') l -> tidy O r s' l.
Proof.
  intros [T1 T2 T3 T4 TC TT T5 T6] Hk Hs.
  assert (HR : forall p x, reach (s_heap s') l p = Some x -> reach (s_heap s) l p = Some x /\ s_heap s' !! x = s_heap s !! x) by (intros p x; by apply sb_reach).
  split; [done| | | | | | |].
  - intros p q x Hp Hq. apply HR in Hp as [Hp _], Hq as [Hq _]. by eapply T2.
  - intros p x o Hp Ho. apply HR in Hp as [Hp Hx]. rewrite Hx in Ho. by eapply T3.
  - intros p x hx k vs Hp Ho. apply HR in Hp as [Hp Hx]. rewrite Hx in Ho. by eapply T4.
  - intros p x o ref Hp Ho. apply HR in Hp as [Hp Hx]. rewrite Hx in Ho. by eapply TC.
  - intros p x hx i v m t Hp Ho. apply HR in Hp as [Hp Hx]. rewrite Hx in Ho. destruct (TT p x hx i v m t Hp Ho) as (ht & d & Ht). exists ht, d.
    assert (Hpt : reach (s_heap s) x [KTree] = Some t \/ h_mapped hx = false).
    { destruct (h_mapped hx) eqn:Em; [left|by right]. cbn [reach]. rewrite Ho. cbn [o_hdr o_body]. rewrite Em. cbn [kids_of]. destruct m; cbn; rewrite ?decide_False by done; by rewrite ?decide_True by done. }
    destruct Hpt as [Hpt|Hm].
    + rewrite (sb_sub _ _ _ _ _ Hs Hp [KTree] t Hpt). done.
    + destruct (T1 x _ Ho) as (_ & _ & K3 & _). cbn [o_hdr o_body] in K3. specialize (K3 Hm). cbn in K3. by destruct m.
  - intros p x o Hp Ho Hma. apply HR in Hp as [Hp Hx]. rewrite Hx in Ho. assert (Hsx : same_below (s_heap s) (s_heap s') x) by by eapply sb_sub.
    destruct (T5 p x o Hp Ho) as (ref & Hr & Hl). { eapply sb_marked; [|exact Hma]. by apply sb_sym. }
    exists ref. split; [done|]. intros q. rewrite Hl. symmetry. apply fo_look. by apply sb_fo.
  - eapply complete_ext; [|exact T6]. intros p. apply fo_look. by apply sb_fo.
Qed.
Lemma tidy_up O r s l o : heap_ok s -> s_heap s !! l = Some o -> h_mapped (o_hdr o) = true -> (forall k x, dget (kids_of (o_body o)) k = Some x -> tidy O r s x) ->
  unshared (s_heap s) l -> complete (look O (s_heap s) l) -> (forall k vs, o_body o = BVlist k vs -> well_keyed vs) ->
  (forall ref, kind_of (o_body o) = KdNode LMrr -> h_ref (o_hdr o) = Some ref -> r_class ref <> JStr (ps "FileTree")) ->
  (forall i v m t, o_body o = BMrr i v m (Some t) -> exists ht d, s_heap s !! t = Some (Obj ht (BNode LMeta d))) ->
  (all_marked r (s_heap s) l -> exists ref, h_ref (o_hdr o) = Some ref /\ forall q, look_stored O (kind_of (o_body o)) ref q = look O (s_heap s) l q) ->
  tidy O r s l.
Proof.
  intros Hk Ho Hm Hkid Hu Hc Hw Hcl Ht Hma.
  assert (HR : forall k p y, reach (s_heap s) l (k :: p) = Some y -> exists x, tidy O r s x /\ reach (s_heap s) x p = Some y).
  { intros k p y Hp. cbn [reach] in Hp. rewrite Ho, Hm in Hp. destruct (dget (kids_of (o_body o)) k) as [x|] eqn:Ed; [|done]. exists x. split; [by eapply Hkid|done]. }
  split; [done|done| | | | | |done].
  - intros [|k p] x ox Hp Hx Hmx.
    + injection Hp as <-. congruence.
    + apply HR in Hp as (y & Ty & Hp). by eapply (td_home _ _ _ _ Ty).
  - intros [|k p] x hx kk vs Hp Hx.
    + injection Hp as <-. rewrite Ho in Hx. injection Hx as ->. by eapply Hw.
    + apply HR in Hp as (y & Ty & Hp). by eapply (td_keyed _ _ _ _ Ty).
  - intros [|k p] x ox ref Hp Hx.
    + injection Hp as <-. rewrite Ho in Hx. injection Hx as ->. by apply Hcl.
    + apply HR in Hp as (y & Ty & Hp). by eapply (td_class _ _ _ _ Ty).
  - intros [|k p] x hx i v m t Hp Hx.
    + injection Hp as <-. rewrite Ho in Hx. injection Hx as ->. by eapply Ht.
    + apply HR in Hp as (y & Ty & Hp). by eapply (td_tree _ _ _ _ Ty).
  - intros [|k p] x ox Hp Hx Hmx.
    + injection Hp as <-. rewrite Ho in Hx. injection Hx as ->. by apply Hma.
    + apply HR in Hp as (y & Ty & Hp). by eapply (td_marks _ _ _ _ Ty).
Qed.

(** ** Kinds and labels *)
Definition label_kind (lb : label) : kd :=
  match lb with LbMeta _ => KdMeta | LbText _ => KdText | LbNode c => KdNode c | LbMrr _ _ => KdMrr | LbVl t _ => KdVl t | LbUs => KdUs end.
Lemma label_kind_of b : label_kind (label_of b) = kind_of b.
Proof. by destruct b. Qed.
Lemma stored_kind O k ref b ks : stored O k ref = Ok (b, ks) -> kind_of b = k.
Proof.
  unfold stored. destruct (is_none_reference ref); [destruct k; try done; destruct (jis_str _ _); [by intros [= <- _]|done]|]. destruct (jis_str _ _); [|done].
  unfold stored_body. intros Hs. rstep Hs. destruct k.
  - do 5 rstep Hs. by injection Hs as <- _.
  - rstep Hs. by injection Hs as <- _.
  - do 3 rstep Hs. by injection Hs as <- _.
  - do 10 rstep Hs. by injection Hs as <- _.
  - do 4 rstep Hs. by injection Hs as <- _.
  - do 3 rstep Hs. by injection Hs as <- _.
Qed.
Lemma look_kind O h x o lb : h !! x = Some o -> look O h x [] = Seen lb -> label_kind lb = kind_of (o_body o).
Proof.
  intros Ho. cbn [look]. rewrite Ho. destruct (h_mapped _).
  - intros [= <-]. apply label_kind_of.
  - destruct (h_ref _) as [ref|]; [|done]. cbn [look_stored]. destruct (stored O _ ref) as [[b ks]|] eqn:Es; [|done]. intros [= <-]. apply stored_kind in Es. by rewrite label_kind_of.
Qed.
Lemma tidy_kid_label O r s l o k x : tidy O r s l -> s_heap s !! l = Some o -> h_mapped (o_hdr o) = true -> dget (kids_of (o_body o)) k = Some x -> is_ktree k = false ->
  exists ox lb, s_heap s !! x = Some ox /\ look O (s_heap s) x [] = Seen lb /\ label_kind lb = kind_of (o_body ox) /\ part_ok (label_of (o_body o)) k lb.
Proof.
  intros HT Ho Hm Hd Hk. pose proof (tidy_kid _ _ _ _ _ _ _ HT Ho Hm Hd) as HX. destruct (tidy_root _ _ _ _ HX) as (ox & Hox & _ & Hb).
  destruct (look O (s_heap s) x []) as [| |lb] eqn:El; [by apply look_seen in El|done|]. exists ox, lb. split_and!; [done|done|by eapply look_kind|].
  destruct (td_complete _ _ _ _ HT []) as (_ & _ & C). destruct (C k lb) as (lb0 & E0 & Hp).
  { cbn [app]. rewrite (not_ktree_look O _ l k [] x o Ho Hm Hd), Hk. done. }
  cbn [look] in E0. rewrite Ho, Hm in E0. by injection E0 as <-.
Qed.

(** ** Writing one object after the other *)
Section Back.
  Context `{Env}.
  Context (r : pystr) (Hr : r <> []) (O : store).
  Implicit Types (s : pst) (g : gstate).

  (** [x] is written: it and all below are marked, and its reference is [ref]. *)
  Definition good (x : loc) (ref : reference) s : Prop :=
    tidy O r s x /\ all_marked r (s_heap s) x /\ exists o, s_heap s !! x = Some o /\ h_ref (o_hdr o) = Some ref.
  (** Only headers of loaded objects below [l] were changed. *)
  Definition wfr s s' (l : loc) : Prop :=
    frame (s_heap s) (s_heap s') /\ s_next s' = s_next s /\
    forall y : loc, (forall p, reach (s_heap s) l p <> Some y) -> s_heap s' !! y = s_heap s !! y.
  Lemma good_agrees x ref s o : good x ref s -> s_heap s !! x = Some o -> agrees O (s_heap s) x (kind_of (o_body o), ref).
  Proof.
    intros (HT & Hm & (o' & Ho' & Hr')) Ho. rewrite Ho in Ho'. injection Ho' as <-. destruct (td_marks _ _ _ _ HT [] x o eq_refl Ho Hm) as (ref' & E & Hl).
    assert (ref' = ref) as -> by congruence. intros q. apply Hl.
  Qed.
  Lemma good_same x ref s s' : good x ref s -> heap_ok s' -> same_below (s_heap s) (s_heap s') x -> good x ref s'.
  Proof.
    intros (HT & Hm & (o & Ho & Hf)) Hk Hs. split_and!; [by eapply tidy_same|by eapply sb_marked|]. exists o. split; [|done]. by rewrite (Hs [] x eq_refl).
  Qed.
  Lemma wfr_refl s l : wfr s s l.
  Proof. split_and!; [apply fr_refl|done|done]. Qed.
  Lemma wfr_heap s s' l : s_heap s' = s_heap s -> s_next s' = s_next s -> wfr s s' l.
  Proof. intros H1 H2. unfold wfr. rewrite H1. split_and!; [apply fr_refl|done|done]. Qed.
  Lemma wfr_ok s s' l : heap_ok s -> wfr s s' l -> heap_ok s'.
  Proof. intros Hk (H1 & H2 & _). by eapply frame_heap_ok. Qed.
  Lemma wfr_trans a b c l : wfr a b l -> wfr b c l -> wfr a c l.
  Proof.
    intros (A1 & A2 & A3) (B1 & B2 & B3). split_and!; [by eapply fr_trans|congruence|]. intros y Hy. rewrite B3, A3; [done|done|].
    intros p. rewrite (fo_reach (s_heap a) (s_heap b)) by by apply fr_on. apply Hy.
  Qed.

  Section Kids.
    Context (l : loc) (s0 : pst) (o0 : obj) (HT0 : tidy O r s0 l) (Ho0 : s_heap s0 !! l = Some o0) (Hm0 : h_mapped (o_hdr o0) = true).
    Local Notation kids := (kids_of (o_body o0)).
    Record kinv s (D : list (key * reference)) : Prop := {
      ki_frame : frame (s_heap s0) (s_heap s);
      ki_next : s_next s = s_next s0;
      ki_out : forall y : loc, (forall k x q, dget kids k = Some x -> reach (s_heap s0) x q <> Some y) -> s_heap s !! y = s_heap s0 !! y;
      ki_tidy : forall k x, dget kids k = Some x -> tidy O r s x;
      ki_done : forall k ref, In (k, ref) D -> exists x, dget kids k = Some x /\ good x ref s;
    }.
    Lemma kinv_init : kinv s0 [].
    Proof. split; [apply fr_refl|done|done| |done]. intros k x Hd. by eapply tidy_kid. Qed.
    Lemma kinv_ok s D : kinv s D -> heap_ok s.
    Proof. intros [I1 I2 _ _ _]. eapply frame_heap_ok; [apply (td_heap _ _ _ _ HT0)|done|done]. Qed.
    Lemma kinv_disjoint s D k1 x1 k2 x2 p q y : kinv s D -> dget kids k1 = Some x1 -> dget kids k2 = Some x2 ->
      reach (s_heap s) x1 p = Some y -> reach (s_heap s) x2 q = Some y -> k1 = k2.
    Proof.
      intros [I1 _ _ _ _] H1 H2 Hp Hq. rewrite (fo_reach (s_heap s0)) in Hp, Hq by by apply fr_on.
      assert (E : k1 :: p = k2 :: q); [|congruence]. apply (td_unshared _ _ _ _ HT0 _ _ y); cbn [reach]; by rewrite Ho0, Hm0, ?H1, ?H2.
    Qed.
    Lemma kinv_self s D : kinv s D -> s_heap s !! l = Some o0.
    Proof.
      intros [_ _ I3 _ _]. rewrite I3; [done|]. intros k x q Hd Hq. assert (E : [] = k :: q); [|done].
      apply (td_unshared _ _ _ _ HT0 _ _ l); [done|]. cbn [reach]. by rewrite Ho0, Hm0, Hd.
    Qed.
    Lemma kinv_heap s s' D : kinv s D -> s_heap s' = s_heap s -> s_next s' = s_next s -> kinv s' D.
    Proof.
      intros HI H1 H2. pose proof (kinv_ok _ _ HI) as Hk. destruct HI as [I1 I2 I3 I4 I5]. assert (Hk' : heap_ok s') by (unfold heap_ok in *; by rewrite H1, H2).
      assert (Hs : forall x, same_below (s_heap s) (s_heap s') x) by (intros x p y _; by rewrite H1).
      split; rewrite ?H1, ?H2; try done.
      - intros k x Hd. eapply tidy_same; [by eapply I4|done|apply Hs].
      - intros k ref Hin. destruct (I5 k ref Hin) as (x & Hd & Hg). exists x. split; [done|]. by eapply good_same.
    Qed.
    Lemma kinv_step s s' D k x ref : kinv s D -> dget kids k = Some x -> wfr s s' x -> good x ref s' -> k ∉ map fst D -> kinv s' ((k, ref) :: D).
    Proof.
      intros HI Hd Hw Hg Hk. pose proof (kinv_ok _ _ HI) as Hok. pose proof (wfr_ok _ _ _ Hok Hw) as Hok'.
      assert (Hsb : forall k2 x2, dget kids k2 = Some x2 -> k2 <> k -> same_below (s_heap s) (s_heap s') x2).
      { intros k2 x2 Hd2 Hne p y Hp. apply (proj2 (proj2 Hw)). intros q Hq. apply Hne. by eapply kinv_disjoint. }
      pose proof HI as [I1 I2 I3 I4 I5]. split.
      - eapply fr_trans; [exact I1|apply Hw].
      - rewrite (proj1 (proj2 Hw)). done.
      - intros y Hy. rewrite (proj2 (proj2 Hw)), I3; [done|done|]. intros p. rewrite (fo_reach (s_heap s0)) by by apply fr_on. by eapply Hy.
      - intros k2 x2 Hd2. destruct (decide (k2 = k)) as [->|Hne].
        + assert (x2 = x) as -> by congruence. apply Hg.
        + eapply tidy_same; [by eapply I4|done|by eapply Hsb].
      - intros k2 ref2 [[= <- <-]|Hin]; [by exists x|]. destruct (I5 k2 ref2 Hin) as (x2 & Hd2 & Hg2). exists x2. split; [done|].
        eapply good_same; [done|done|]. eapply Hsb; [done|]. intros ->. apply Hk. apply elem_of_list_In, in_map_iff. by exists (k, ref2).
    Qed.
    Lemma kinv_loop {A B : Type} (F : A -> M pst B) (kof : A -> key) (R : A -> B -> reference -> Prop) ls :
      (forall a, In a ls -> svm r (F a)) ->
      (forall a s D g b s' g', In a ls -> kinv s D -> cok r s -> completes r O s' g' -> exec (F a s) g = ((Ok b, s'), g') ->
         exists x ref, dget kids (kof a) = Some x /\ wfr s s' x /\ good x ref s' /\ R a b ref) ->
      forall D s g bs s' g', NoDup (map kof ls) -> (forall a, In a ls -> kof a ∉ map fst D) -> kinv s D -> cok r s -> completes r O s' g' ->
        exec (mmap F ls s) g = ((Ok bs, s'), g') ->
        exists D' rs, kinv s' D' /\ (forall e, In e D -> In e D') /\ length rs = length ls /\ length bs = length ls /\
          forall i a b ref, ls !! i = Some a -> bs !! i = Some b -> rs !! i = Some ref -> R a b ref /\ In (kof a, ref) D'.
    Proof.
      intros HS HF. induction ls as [|a ls IH]; intros D s g bs s' g' Hnd Hfr HI Hc HO He; cbn [mmap] in He.
      - apply xi_ret in He as (<- & <- & <-). exists D, []. split_and!; done.
      - apply xi_bind in He as (b & s1 & g1 & E1 & He). apply xi_bind in He as (bs' & s2 & g2 & E2 & He). apply xi_ret in He as (<- & <- & <-).
        destruct (HS a (or_introl eq_refl) _ _ _ _ _ Hc E1) as [L1 _].
        assert (HSm : svm r (mmap F ls)) by (apply svm_mmap; intros y Hy; apply HS; by right).
        destruct (HSm _ _ _ _ _ (proj1 L1) E2) as [L2 _].
        destruct (HF a s D g b s1 g1) as (x & ref & Hd & Hw & Hg & HR); [by left|done|done|by apply (proj2 L2)|done|].
        assert (HI1 : kinv s1 ((kof a, ref) :: D)). { eapply kinv_step; try done. apply Hfr. by left. }
        cbn [map] in Hnd. apply NoDup_cons in Hnd as [Hna Hnd].
        destruct (IH (fun y Hy => HS y (or_intror Hy)) (fun y s D g b s' g' Hy => HF y s D g b s' g' (or_intror Hy)) ((kof a, ref) :: D) s1 g1 bs' s2 g2)
          as (D' & rs & J1 & J2 & J3 & J4 & J5); [done| |done|apply L1|done|done|].
        { intros y Hy. cbn. apply not_elem_of_cons. split.
          - intros E. apply Hna. rewrite <- E. by apply elem_of_list_In, in_map.
          - apply Hfr. by right. }
        exists D', (ref :: rs). split_and!; [done| |cbn; congruence|cbn; congruence|].
        + intros e Hin. apply J2. by right.
        + intros [|i] a' b' ref' Ha Hb Hrf; cbn in Ha, Hb, Hrf; [|by eapply J5].
          injection Ha as <-. injection Hb as <-. injection Hrf as <-. split; [done|]. apply J2. by left.
    Qed.
    (** All parts are written; then the object itself gets a reference. *)
    Lemma kinv_final s D ref o' : kinv s D -> (forall k x, dget kids k = Some x -> exists ref, In (k, ref) D) ->
      (forall q, look_stored O (kind_of (o_body o0)) ref q = look O (s_heap s) l q) ->
      (kind_of (o_body o0) = KdNode LMrr -> r_class ref <> JStr (ps "FileTree")) ->
      same_obj o0 o' -> h_ref (o_hdr o') = Some ref -> r ∈ h_saved (o_hdr o') ->
      wfr s0 (with_heap s (<[l := o']> (s_heap s))) l /\ good l ref (with_heap s (<[l := o']> (s_heap s))).
    Proof.
      intros HI Hall Hl Hcl Hso Hf Hsv. pose proof (kinv_ok _ _ HI) as Hok. pose proof (kinv_self _ _ HI) as Hlo. set (s' := with_heap s (<[l := o']> (s_heap s))).
      assert (Hfr : frame (s_heap s) (s_heap s')).
      { intros x. unfold s'. cbn [s_heap with_heap]. rewrite heap_insert. destruct (decide (l = x)) as [<-|]; [rewrite Hlo; done|apply ro_refl]. }
      assert (Hok' : heap_ok s') by by eapply frame_heap_ok.
      assert (Hlo' : s_heap s' !! l = Some o'). { unfold s'. cbn [s_heap with_heap]. by rewrite heap_insert, decide_True. }
      assert (Hm' : h_mapped (o_hdr o') = true) by (destruct Hso as (_ & -> & _); done). assert (Hb' : o_body o' = o_body o0) by apply Hso.
      assert (Hnl : forall k x q y, dget kids k = Some x -> reach (s_heap s) x q = Some y -> y <> l).
      { intros k x q y Hd Hq ->. rewrite (fo_reach (s_heap s0)) in Hq by (apply fr_on, HI). assert (E : [] = k :: q); [|done].
        apply (td_unshared _ _ _ _ HT0 _ _ l); [done|]. cbn [reach]. by rewrite Ho0, Hm0, Hd. }
      assert (Hsb : forall k x, dget kids k = Some x -> same_below (s_heap s) (s_heap s') x).
      { intros k x Hd q y Hq. unfold s'. cbn [s_heap with_heap]. rewrite heap_insert, decide_False; [done|]. intros ->. by eapply Hnl. }
      assert (Hlk : forall q, look O (s_heap s') l q = look O (s_heap s) l q) by (intros q; by apply fo_look, fr_on).
      assert (Hgk : forall k x, dget kids k = Some x -> exists ref, good x ref s').
      { intros k x Hd. destruct (Hall k x Hd) as (rf & Hin). destruct (ki_done _ _ HI k rf Hin) as (x' & Hd' & Hg). assert (x' = x) as -> by congruence.
        exists rf. eapply good_same; [done|done|by eapply Hsb]. }
      assert (Hfr0 : frame (s_heap s0) (s_heap s')) by (eapply fr_trans; [apply HI|done]).
      assert (HT' : tidy O r s' l).
      { apply (tidy_up O r s' l o' Hok' Hlo' Hm'); rewrite ?Hb'.
        - intros k x Hd. destruct (Hgk k x Hd) as (rf & Hg). apply Hg.
        - intros p q x Hp Hq. rewrite (fo_reach (s_heap s0)) in Hp, Hq by by apply fr_on. by eapply (td_unshared _ _ _ _ HT0).
        - eapply complete_ext; [|apply (td_complete _ _ _ _ HT0)]. intros p. by apply fo_look, fr_on.
        - intros k vs Hv. apply (td_keyed _ _ _ _ HT0 [] l (o_hdr o0) k vs); [done|]. rewrite Ho0. destruct o0. cbn in *. by rewrite Hv.
        - intros rf Hk Hrf. assert (rf = ref) as -> by congruence. by apply Hcl.
        - intros i v m t Hbm. destruct (td_tree _ _ _ _ HT0 [] l (o_hdr o0) i v m t eq_refl) as (ht & d & Ht). { rewrite Ho0. destruct o0. cbn in *. by rewrite Hbm. }
          destruct (fr_get _ _ _ _ Hfr0 Ht) as ([ht' bt'] & Ht' & (E & _)). cbn in E. subst bt'. eauto.
        - intros _. exists ref. split; [done|]. intros q. by rewrite Hlk. }
      split.
      - split_and!; [done|apply HI|]. intros y Hy. unfold s'. cbn [s_heap with_heap]. rewrite heap_insert, decide_False.
        + apply (ki_out _ _ HI). intros k x q Hd Hq. apply (Hy (k :: q)). cbn [reach]. by rewrite Ho0, Hm0, Hd.
        + intros <-. by apply (Hy []).
      - split_and!; [done| |by exists o'].
        intros [|k p] x ox Hp Hx.
        + injection Hp as <-. left. congruence.
        + cbn [reach] in Hp. rewrite Hlo', Hm', Hb' in Hp. destruct (dget kids k) as [z|] eqn:Ed; [|done]. destruct (Hgk k z Ed) as (rf & (_ & Hma & _)). by eapply Hma.
    Qed.
  End Kids.
End Back.
