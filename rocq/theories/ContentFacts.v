(** Loading parts of an object graph does not change its content. *)
From Verif Require Import Base BaseFacts Path Json Refs Meta GitText Spec_Git Git GitFacts Spec_Store State BlobCache ObjRef Objects Spec_Look Spec_Heap Spec_Versions Spec_Content ExecFacts WriteFacts LoadFacts PeekFacts TreeFacts VersionFacts LookFacts ReadFacts.

Lemma kind_empty k : kind_of (empty_body k) = k.
Proof. by destruct k. Qed.
Lemma shift_hollow n b : is_hollow (shift n b) = is_hollow b.
Proof. destruct b as [m|t|c d|i v m t|k vs|us]; try done. cbn. by destruct d. Qed.
Lemma not_ktree_look O h l k p l' o : h !! l = Some o -> h_mapped (o_hdr o) = true -> dget (kids_of (o_body o)) k = Some l' ->
  look O h l (k :: p) = if is_ktree k && hollow_at O h l' then Absent else look O h l' p.
Proof. intros Ho Hm Hd. cbn [look]. by rewrite Ho, Hm, Hd. Qed.
Lemma look_nil_stored O h l o ref : h !! l = Some o -> h_mapped (o_hdr o) = false -> h_ref (o_hdr o) = Some ref -> look O h l [] <> Broken ->
  exists b ks, stored O (kind_of (o_body o)) ref = Ok (b, ks).
Proof. intros Ho Hm Hf. cbn [look]. rewrite Ho, Hm, Hf. intros Hl%look_stored_ok. destruct Hl as [[b ks] Hl]. eauto. Qed.

(** records read from a document are well keyed *)
Lemma add_assoc_keyed as_ : forall t, well_keyed (fst t) -> well_keyed (fst (fold_left add_assoc as_ t)).
Proof.
  induction as_ as [|a as_ IH]; intros t Ht; [done|]. cbn [fold_left]. apply IH. destruct a as [[[[v ts] p] tree] ref]. cbn [add_assoc fst].
  by apply wk_set.
Qed.
Lemma wk_nil : well_keyed [].
Proof. split; [apply NoDup_nil_2|]. intros v d []. Qed.
Lemma stored_keyed O k ref kk vs ks : stored O k ref = Ok (BVlist kk vs, ks) -> well_keyed vs.
Proof.
  unfold stored. destruct (is_none_reference ref); [destruct k; try done; by destruct (jis_str _ _)|]. destruct (jis_str _ _); [|done].
  unfold stored_body. intros Hs. apply rbind_inv in Hs as (y & _ & Hs). destruct k.
  all: repeat (let E := fresh in apply rbind_inv in Hs as (? & E & Hs)); cbv zeta in Hs; try (repeat (let E := fresh in apply rbind_inv in Hs as (? & E & Hs))); try discriminate.
  injection Hs as <- <- <-. apply add_assoc_keyed, wk_nil.
Qed.
Lemma dkeys_map_snd {K A B : Type} (f : A -> B) (d : pydict K A) : dkeys (map (fun kv => (fst kv, f (snd kv))) d) = dkeys d.
Proof. unfold dkeys. rewrite map_map. done. Qed.
Lemma shift_keyed n vs : well_keyed vs -> well_keyed (shift_vs n vs).
Proof.
  intros [H1 H2]. unfold shift_vs. split; [unfold dkeys in *; by rewrite map_map|].
  intros v d Hin. apply in_map_iff in Hin as ([v' d'] & [= <- <-] & Hin). destruct (H2 _ _ Hin) as [H3 H4]. cbn [fst snd]. split.
  - unfold dkeys in *. by rewrite map_map.
  - intros p r Hin2. apply in_map_iff in Hin2 as ([p' r'] & [= <- <-] & Hin2). cbn. by apply H4.
Qed.

(** classes of the parts *)
Definition fits (kr : kd * reference) : Prop := fst kr = KdNode LMrr -> r_class (snd kr) <> JStr (ps "FileTree").
Lemma add_lines_fit c es : forall t t', rfold (add_line c) es t = Ok t' -> Forall fits (snd t) -> Forall fits (snd t').
Proof.
  induction es as [|[[ty h] n] es IH]; intros t t' Hf Ht; cbn [rfold] in Hf; [by injection Hf as <-|].
  rstep Hf. eapply IH; [exact Hf|]. unfold add_line in E. rstep E. injection E as <-. cbn [snd]. apply Forall_app. split; [done|].
  apply List.Forall_cons; [|by apply List.Forall_nil]. revert E0. destruct (bool_decide (ty = ps "tree")); [intros [= <-]; by intros ? [=]|].
  destruct (bool_decide (ty = ps "blob")); [|done]. intros [= <-]. destruct c; by intros [=].
Qed.
Lemma add_assocs_fit as_ : Forall (fun a => let '(_, _, _, tree, ref) := a in tree = true -> r_class ref <> JStr (ps "FileTree")) as_ ->
  forall t, Forall fits (snd t) -> Forall fits (snd (fold_left add_assoc as_ t)).
Proof.
  induction 1 as [|a as_ Ha _ IH]; intros t Ht; [done|]. cbn [fold_left]. apply IH. destruct a as [[[[v ts] p] tree] ref]. cbn [add_assoc snd].
  apply Forall_app. split; [done|]. apply List.Forall_cons; [|by apply List.Forall_nil]. unfold fits. cbn. destruct tree; [auto|by intros [=]].
Qed.
Lemma read_assoc_fit j v t p tree ref : read_assoc j = Ok (v, t, p, tree, ref) -> tree = true -> r_class ref <> JStr (ps "FileTree").
Proof.
  unfold read_assoc. intros Ha. rstep Ha. rstep Ha. rstep Ha. rstep Ha. rstep Ha. rstep Ha.
  destruct a2, a3, a4; try done. injection Ha as <- <- <- <- <-. intros -> Hc. rewrite Hc in E1. done.
Qed.
Lemma add_uuids_fit es : forall t t', rfold add_uuid es t = Ok t' -> Forall fits (snd t) -> Forall fits (snd t').
Proof.
  induction es as [|[[[mo ty] h] n] es IH]; intros t t' Hf Ht; cbn [rfold] in Hf; [by injection Hf as <-|].
  rstep Hf. eapply IH; [exact Hf|]. unfold add_uuid in E. rstep E. injection E as <-. cbn [snd]. apply Forall_app. split; [done|].
  apply List.Forall_cons; [|by apply List.Forall_nil]. by intros [=].
Qed.
Lemma stored_fit O k ref b ks : stored O k ref = Ok (b, ks) -> Forall fits ks.
Proof.
  unfold stored. destruct (is_none_reference ref); [destruct k; try done; destruct (jis_str _ _); [|done]; intros [= <- <-]; by apply List.Forall_nil|]. destruct (jis_str _ _); [|done].
  unfold stored_body. intros Hs. apply rbind_inv in Hs as (y & _ & Hs). destruct k.
  - rstep Hs. rstep Hs. rstep Hs. rstep Hs. rstep Hs. injection Hs as <- <-. by apply List.Forall_nil.
  - rstep Hs. injection Hs as <- <-. by apply List.Forall_nil.
  - rstep Hs. rstep Hs. rstep Hs. injection Hs as <- <-. eapply add_lines_fit; [exact E1|by apply List.Forall_nil].
  - rstep Hs. rstep Hs. rstep Hs. rstep Hs. rstep Hs. rstep Hs. rstep Hs. rstep Hs. rstep Hs. cbv zeta in Hs. rstep Hs. injection Hs as <- <-.
    apply Forall_app. split; destruct (is_none_reference _); try by apply List.Forall_nil. all: apply List.Forall_cons; [by intros [=]|by apply List.Forall_nil].
  - rstep Hs. rstep Hs. rstep Hs. rstep Hs. cbv zeta in Hs. injection Hs as <- <-. apply add_assocs_fit; [|by apply List.Forall_nil].
    clear -E2. revert a2 E2. induction a1 as [|j js IH]; intros as_ Ha; cbn [rmap] in Ha; [injection Ha as <-; by apply List.Forall_nil|].
    rstep Ha. rstep Ha. injection Ha as <-. apply List.Forall_cons; [|by apply IH]. destruct a as [[[[v t] p] tree] ref]. by eapply read_assoc_fit.
  - rstep Hs. rstep Hs. rstep Hs. injection Hs as <- <-. eapply add_uuids_fit; [exact E1|by apply List.Forall_nil].
Qed.

Lemma stored_tree O k ref i v m t ks : stored O k ref = Ok (BMrr i v m (Some t), ks) -> exists ref', part ks t = Some (KdNode LMeta, ref') /\ is_none_reference ref' = false.
Proof.
  unfold stored. destruct (is_none_reference ref); [destruct k; try done; by destruct (jis_str _ _)|]. destruct (jis_str _ _); [|done].
  unfold stored_body. intros Hs. apply rbind_inv in Hs as (y & _ & Hs). destruct k.
  all: try by (repeat rstep Hs); try (cbv zeta in Hs); try done.
  do 9 rstep Hs. cbv zeta in Hs. rstep Hs. injection Hs as <- <- Hm Ht <-. destruct (is_none_reference a4) eqn:En4; [done|]. injection Ht as <-.
  exists a4. split; [|done]. unfold part. rewrite Nat2N.id. by destruct (is_none_reference a2).
Qed.

Lemma kids_names c d n : dget (kids_of (BNode c d)) (KName n) = dget d n.
Proof. cbn [kids_of]. rewrite (dget_map KName (fun x => x)) by congruence. by destruct (dget d n). Qed.
Lemma kids_uuids d u : dget (kids_of (BUset d)) (KUuid u) = dget d u.
Proof. cbn [kids_of]. rewrite (dget_map KUuid (fun x => x)) by congruence. by destruct (dget d u). Qed.
(** keys that do not fit *)
Definition key_fits (k : key) (b : body) : bool :=
  match k, b with
  | KName _, BNode _ _ | KMeta, BMrr _ _ _ _ | KTree, BMrr _ _ _ _ | KVer _ _, BVlist _ _ | KUuid _, BUset _ => true
  | _, _ => false
  end.
Lemma kids_fit k b x : dget (kids_of b) k = Some x -> key_fits k b = true.
Proof.
  intros Hd%dget_Some_In. destruct b as [m|t|c d|i v m t|kk vs|us]; cbn [kids_of] in Hd.
  - done.
  - done.
  - apply in_map_iff in Hd as (? & [= <- _] & _). done.
  - destruct m, t; cbn in Hd; firstorder; congruence || (simplify_eq; done).
  - apply in_concat in Hd as (ys & Hy & Hd). apply in_map_iff in Hy as (? & <- & _). apply in_map_iff in Hd as (? & [= <- _] & _). done.
  - apply in_map_iff in Hd as (? & [= <- _] & _). done.
Qed.

(** The last step of a way is not to the tree of a record. *)
Definition lastk (p : list key) : bool := match last p with Some k => is_ktree k | None => false end.
Lemma lastk_cons k k2 p : lastk (k :: k2 :: p) = lastk (k2 :: p).
Proof. unfold lastk. by rewrite last_cons_cons. Qed.
Lemma kids_not_hollow b k x : dget (kids_of b) k = Some x -> is_hollow b = false.
Proof. by destruct b as [| |c []| | |]. Qed.
(** ways of loaded objects and what is seen there *)
Lemma reach_way O h p : forall l z q, reach h l p = Some z -> lastk p = false -> look O h l (p ++ q) = look O h z q.
Proof.
  induction p as [|k p IH]; intros l z q Hp Hk; cbn [app]; [cbn in Hp; by injection Hp as ->|].
  cbn [reach] in Hp. cbn [look]. destruct (h !! l) as [ol|] eqn:El; [|done]. destruct (h_mapped (o_hdr ol)); [|done]. destruct (dget (kids_of (o_body ol)) k) as [x|]; [|done].
  destruct p as [|k2 p].
  - injection Hp as ->. assert (is_ktree k = false) as -> by exact Hk. done.
  - rewrite lastk_cons in Hk. rewrite (IH x z q Hp Hk).
    cbn [reach] in Hp. destruct (h !! x) as [ox|] eqn:Ex; [|done]. destruct (h_mapped (o_hdr ox)) eqn:Emx; [|done]. destruct (dget (kids_of (o_body ox)) k2) as [x2|] eqn:Ed; [|done].
    assert (hollow_at O h x = false) as ->; [|by rewrite andb_false_r]. unfold hollow_at. rewrite Ex, Emx. by eapply kids_not_hollow.
Qed.

(** Nothing changed for a reader. *)
Record quiet (O : store) (r : pystr) (s s' : pst) : Prop := {
  qu_good : good_step s s';
  qu_look : forall a p, is_Some (s_heap s !! a) -> look O (s_heap s') a p = look O (s_heap s) a p;
  qu_hollow : forall a, is_Some (s_heap s !! a) -> hollow_at O (s_heap s') a = hollow_at O (s_heap s) a;
  qu_home : forall a, is_Some (s_heap s !! a) -> at_home r (s_heap s) a -> at_home r (s_heap s') a;
  qu_tidy : forall a, is_Some (s_heap s !! a) -> tidy O r s a -> tidy O r s' a;
  qu_one : forall a, is_Some (s_heap s !! a) -> one_realm r (s_heap s) a -> one_realm r (s_heap s') a;
  qu_saved : forall a, is_Some (s_heap s !! a) -> complete (look O (s_heap s) a) -> full (look O (s_heap s) a) -> all_saved r (s_heap s) a -> all_saved r (s_heap s') a;
}.
Lemma qu_refl O r s : heap_ok s -> quiet O r s s.
Proof. intros. split; try done. by apply gs_refl. Qed.
Lemma complete_ext (c c' : content) : (forall p, c' p = c p) -> complete c -> complete c'.
Proof.
  intros He Hc p. rewrite He. destruct (Hc p) as (H1 & H2 & H3). split_and!; [done|done|]. intros k lb'. rewrite He. intros Hk.
  apply H3 in Hk. done.
Qed.
Lemma full_ext (c c' : content) : (forall p, c' p = c p) -> full c -> full c'.
Proof. intros He Hf p cl. rewrite He. intros Hc Hp. destruct (Hf p cl Hc Hp) as (k & lb & Hk). exists k, lb. by rewrite He. Qed.
Lemma qu_trans O r a b c : quiet O r a b -> quiet O r b c -> quiet O r a c.
Proof.
  intros [A1 A2 A3 A4 A5 A6 A7] [B1 B2 B3 B4 B5 B6 B7].
  assert (HS : forall x, is_Some (s_heap a !! x) -> is_Some (s_heap b !! x)) by (intros x; eapply loads_some; by eapply gs_loads).
  split; [by eapply gs_trans| | | | | |].
  - intros x p Hx. by rewrite B2, A2 by auto.
  - intros x Hx. by rewrite B3, A3 by auto.
  - intros x Hx Ht. apply B4; auto.
  - intros x Hx Ht. apply B5; auto.
  - intros x Hx Ht. apply B6; auto.
  - intros x Hx Hc Hf Ht. apply B7; auto.
    + eapply complete_ext; [|exact Hc]. intros p. by apply A2.
    + eapply full_ext; [|exact Hf]. intros p. by apply A2.
Qed.
Definition home1 (r : pystr) (o : obj) : Prop :=
  h_realm (o_hdr o) = Some r /\ (forall m, o_body o = BMeta m -> m = []) /\
  exists ref, h_ref (o_hdr o) = Some ref /\ (is_none_reference ref = true \/ r ∈ h_saved (o_hdr o)).

Lemma load_quiet O r s l o ref b ks x' s' : heap_ok s -> s_heap s !! l = Some o -> h_mapped (o_hdr o) = false -> h_ref (o_hdr o) = Some ref -> r <> [] ->
  stored O (kind_of (o_body o)) ref = Ok (b, ks) -> grown r s l (Obj x' (shift (s_next s) b)) ks s' -> h_mapped x' = true ->
  fresh_hdr r (kind_of (o_body o)) ref (o_hdr o) x' -> LD s l s' -> quiet O r s s'.
Proof.
  intros Hok Ho Hm Hrf Hr Hs Hg Hm' (F1 & F2 & F3 & F4 & F5) HD.
  assert (Hgs : good_step s s') by by eapply ld_good. pose proof (gs_loads _ _ Hgs) as Hlo.
  assert (Hself : s_heap s' !! l = Some (Obj x' (shift (s_next s) b))) by apply Hg.
  assert (Hold : forall x, x <> l -> is_Some (s_heap s !! x) -> s_heap s' !! x = s_heap s !! x).
  { intros x Hx [ox Hox]. apply (gr_old _ _ _ _ _ _ Hg); [done|]. by apply (Hok x ox). }
  assert (Hkb : kind_of (shift (s_next s) b) = kind_of (o_body o)).
  { destruct HD as [_ (ol & Hol & _ & _ & Hk)]. rewrite Hself in Hol. injection Hol as <-. rewrite Ho in Hk. cbn in Hk. by injection Hk. }
  assert (HR : forall a p y, is_Some (s_heap s !! a) -> reach (s_heap s') a p = Some y ->
    (is_Some (s_heap s !! y) /\ reach (s_heap s) a p = Some y) \/ (exists kr, s_heap s' !! y = Some (kid_obj r kr) /\ fits kr)).
  { intros a p y Ha Hp. destruct (ld_reach s l s' Hok HD p a y Ha Hp) as [?|(p' & k & o' & -> & Hp' & Ho' & Hd & Hge)]; [by left|right].
    rewrite Hself in Ho'. injection Ho' as <-. cbn [o_body] in Hd. rewrite shift_kids, dget_shift in Hd.
    destruct (dget (kids_of b) k) as [i|] eqn:Ei; [|done]. cbn in Hd. injection Hd as <-.
    destruct HD as [[R1 R2 R3 R4 R5] (ol & Hol & _ & (P1 & _) & _)]. rewrite Hself in Hol. injection Hol as <-.
    assert (Hin : In (s_next s + i)%N (sub_objects (shift (s_next s) b))).
    { apply kids_in_sub with k. rewrite shift_kids, dget_shift, Ei. done. }
    specialize (P1 _ Hin). rewrite (gr_next _ _ _ _ _ _ Hg) in P1. destruct (lookup_lt_is_Some_2 ks (N.to_nat i)) as [kr Hkr]; [lia|].
    exists kr. pose proof (gr_kids _ _ _ _ _ _ Hg _ _ Hkr) as Hk. rewrite N2Nat.id in Hk. split; [done|].
    pose proof (stored_fit _ _ _ _ _ Hs) as Hft. rewrite List.Forall_forall in Hft. by eapply Hft, elem_of_list_In, elem_of_list_lookup_2. }
  assert (HK : forall k i, dget (kids_of b) k = Some i -> exists kr, part ks i = Some kr /\ s_heap s' !! ((s_next s + i)%N : loc) = Some (kid_obj r kr)).
  { intros k i Ei. destruct HD as [[R1 R2 R3 R4 R5] (ol & Hol & _ & (P1 & _) & _)]. rewrite Hself in Hol. injection Hol as <-.
    assert (Hin : In (s_next s + i)%N (sub_objects (shift (s_next s) b))).
    { apply kids_in_sub with k. rewrite shift_kids, dget_shift, Ei. done. }
    specialize (P1 _ Hin). rewrite (gr_next _ _ _ _ _ _ Hg) in P1. destruct (lookup_lt_is_Some_2 ks (N.to_nat i)) as [kr Hkr]; [lia|].
    exists kr. split; [done|]. pose proof (gr_kids _ _ _ _ _ _ Hg _ _ Hkr) as Hk. by rewrite N2Nat.id in Hk. }
  assert (Hhol : forall a, is_Some (s_heap s !! a) -> hollow_at O (s_heap s') a = hollow_at O (s_heap s) a).
  { intros a Ha. unfold hollow_at. destruct (decide (a = l)) as [->|Hne]; [|by rewrite Hold]. rewrite Hself, Ho. cbn [o_hdr o_body].
    rewrite Hm', Hm, Hrf. unfold hollow. rewrite Hs. apply shift_hollow. }
  assert (Hlk : forall p a, is_Some (s_heap s !! a) -> look O (s_heap s') a p = look O (s_heap s) a p).
  { induction p as [|k p IH]; intros a Ha; cbn [look]; (destruct (decide (a = l)) as [->|Hne]; [rewrite Hself, Ho; cbn [o_hdr o_body]; rewrite Hm', Hm, Hrf; cbn [look_stored]; rewrite Hs|rewrite Hold by done]).
    - by rewrite shift_label.
    - done.
    - rewrite shift_kids, dget_shift. destruct (dget (kids_of b) k) as [i|] eqn:Ei; [|done]. cbn [option_map].
      destruct (HK k i Ei) as ([k' ref'] & -> & Hk). unfold hollow_at. rewrite Hk. cbn [o_hdr o_body kid_obj kid_hdr h_mapped h_ref fst snd]. rewrite kind_empty.
      destruct (is_ktree k && hollow O k' ref'); [done|]. destruct p; cbn [look]; rewrite Hk; cbn [o_hdr o_body kid_obj kid_hdr h_mapped h_ref fst snd]; by rewrite kind_empty.
    - destruct Ha as [oa Hoa]. rewrite Hoa. destruct (h_mapped (o_hdr oa)); [|done]. destruct (dget (kids_of (o_body oa)) k) as [y|] eqn:Ey; [|done].
      assert (is_Some (s_heap s !! y)) as Hy by (eapply Hok; [exact Hoa|]; by eapply kids_in_sub).
      rewrite Hhol, IH by done. done. }
  assert (Hhome : forall a, is_Some (s_heap s !! a) -> at_home r (s_heap s) a -> at_home r (s_heap s') a).
  { intros a Ha Hh p y oy Hp Hy Hmy. destruct (HR a p y Ha Hp) as [[Hy1 Hp1]|(kr & Hk & Hn)].
    - destruct (decide (y = l)) as [->|Hne].
      + rewrite Hself in Hy. injection Hy as <-. cbn in Hmy. congruence.
      + rewrite Hold in Hy by done. by eapply Hh.
    - rewrite Hk in Hy. injection Hy as <-. cbn. split; [done|]. split.
      + intros m. destruct (fst kr); cbn; intros [= <-]; done.
      + exists (snd kr). split; [done|]. destruct (is_none_reference (snd kr)); [by left|right]. destruct r; [done|]. set_solver. }
  assert (Hone : forall a, is_Some (s_heap s !! a) -> one_realm r (s_heap s) a -> one_realm r (s_heap s') a).
  { intros a Ha Hh p y oy Hp Hy Hne. destruct (HR a p y Ha Hp) as [[Hy1 Hp1]|(kr & Hk & _)].
    - destruct (decide (y = l)) as [->|Hd].
      + rewrite Hself in Hy. injection Hy as <-. cbn [o_hdr] in *. split; [|done]. destruct (is_none_reference ref) eqn:En; [|by apply F3].
        rewrite (F5 eq_refl) in *. by apply (Hh p l o).
      + rewrite Hold in Hy by done. by eapply Hh.
    - rewrite Hk in Hy. injection Hy as <-. unfold kid_obj, kid_hdr in *. cbn [o_hdr h_saved h_realm] in *. split; [|done].
      destruct (is_none_reference (snd kr)); [done|]. destruct r; [done|]. set_solver. }
  split; [done| |done|done| |done|].
  { intros a p Ha. by apply Hlk. }
  2:{ intros a Ha HC HF Hall p y oy Hp Hy. destruct (ld_reach s l s' Hok HD p a y Ha Hp) as [[[oy1 Hy1] Hp1]|(p' & k & o' & -> & Hp' & Ho' & Hd & Hge)].
      - destruct (decide (y = l)) as [->|Hne].
        + rewrite Hself in Hy. injection Hy as <-. cbn [o_hdr]. destruct (is_none_reference ref) eqn:En; [rewrite (F5 eq_refl); by apply (Hall p l o)|by apply F3].
        + rewrite Hold in Hy; [|done|by exists oy1]. by apply (Hall p y oy).
      - pose proof Ho' as Ho2. rewrite Hself in Ho'. injection Ho' as <-. cbn [o_body] in Hd. pose proof Hd as Hd0. rewrite shift_kids, dget_shift in Hd.
        destruct (dget (kids_of b) k) as [i|] eqn:Ei; [|done]. cbn in Hd. injection Hd as <-. destruct (HK k i Ei) as (kr & Hpk & Hky).
        rewrite Hky in Hy. injection Hy as <-. unfold kid_obj, kid_hdr. cbn [o_hdr h_saved]. destruct (is_none_reference (snd kr)) eqn:En; [exfalso|destruct r; [done|set_solver]].
        destruct (is_ktree k) eqn:Ek.
        + pose proof (kids_fit _ _ _ Ei) as Hfit. destruct k; try done. destruct b as [|t1|c1 d1|i1 w1 m1 t1|kk1 vs1|us1]; try done.
          assert (t1 = Some i) as ->. { cbn [kids_of] in Ei. destruct m1, t1; cbn in Ei; repeat case_decide; try done; by injection Ei as ->. }
          destruct (stored_tree _ _ _ _ _ _ _ _ Hs) as (ref' & Hpt & Hn). rewrite Hpt in Hpk. injection Hpk as <-. cbn in En. congruence.
        + assert (HW : forall q, look O (s_heap s) a ((p' ++ [k]) ++ q) = look O (s_heap s') (s_next s + i)%N q).
          { intros q. rewrite <- Hlk by done. apply reach_way; [done|]. unfold lastk. by rewrite last_snoc. }
          assert (HW2 : forall q, look O (s_heap s') (s_next s + i)%N q = look_stored O (fst kr) (snd kr) q).
          { intros q. destruct q; cbn [look]; rewrite Hky; cbn [o_hdr o_body kid_obj kid_hdr h_mapped h_ref]; by rewrite kind_empty. }
          assert (Hst : stored O (fst kr) (snd kr) = match fst kr with KdNode c => if jis_str (r_class (snd kr)) (ps "MTreeNode") then Ok (BNode c [], []) else Err AssertionError | _ => Err Unmodelled end)
            by (unfold stored; by rewrite En).
          destruct (HC (p' ++ [k])) as (C1 & _). specialize (HW []) as HW0. rewrite app_nil_r in HW0. rewrite HW0, HW2 in C1. cbn [look_stored] in C1. rewrite Hst in C1.
          destruct (fst kr) as [| |c0| | |] eqn:Ekr; try done. destruct (jis_str (r_class (snd kr)) (ps "MTreeNode")) eqn:Ej; [|done].
          destruct (HF (p' ++ [k]) c0) as (k2 & lb & Hk2).
          * rewrite HW0, HW2. cbn [look_stored]. by rewrite Hst.
          * by destruct p'.
          * rewrite HW, HW2 in Hk2. cbn [look_stored] in Hk2. by rewrite Hst in Hk2. }
  intros a Ha [T1 T2 T3 T4 TC TT T5 T6]. split.
  - apply Hgs.
  - by apply Hgs.
  - by apply Hhome.
  - intros p y hy kk vs Hp Hy. destruct (HR a p y Ha Hp) as [[Hy1 Hp1]|(kr & Hk & Hn)].
    + destruct (decide (y = l)) as [->|Hne].
      * rewrite Hself in Hy. injection Hy as <- Hb. destruct b; try done. cbn in Hb. injection Hb as <- <-. apply shift_keyed. by eapply stored_keyed.
      * rewrite Hold in Hy by done. by eapply T4.
    + rewrite Hk in Hy. injection Hy as <- Hb. destruct (fst kr); try done. injection Hb as <- <-. apply wk_nil.
  - intros p y oy ref0 Hp Hy Hky Hry. destruct (HR a p y Ha Hp) as [[Hy1 Hp1]|(kr & Hk & Hn)].
    + destruct (decide (y = l)) as [->|Hne].
      * rewrite Hself in Hy. injection Hy as <-. cbn [o_hdr o_body] in *. rewrite Hkb in Hky. specialize (TC p l o ref Hp1 Ho Hky Hrf).
        destruct F2 as [F2|[F2 _]]; rewrite F2 in Hry; injection Hry as <-; [done|]. unfold conv_ref. by destruct (_ || _).
      * rewrite Hold in Hy by done. by eapply TC.
    + rewrite Hk in Hy. injection Hy as <-. cbn [o_hdr o_body kid_obj kid_hdr h_ref] in *. injection Hry as <-. rewrite kind_empty in Hky. by apply Hn.
  - intros p y hy i v m t Hp Hy. destruct (HR a p y Ha Hp) as [[Hy1 Hp1]|(kr & Hk & Hn)].
    + destruct (decide (y = l)) as [->|Hne].
      * rewrite Hself in Hy. injection Hy as <- Hb. destruct b as [|t1|c1 d1|i1 w1 m1 t1|kk1 vs1|us1]; try done. cbn [shift] in Hb. injection Hb as _ _ _ Hb.
        destruct t1 as [t1|]; [|done]. injection Hb as <-. destruct (stored_tree _ _ _ _ _ _ _ _ Hs) as (ref' & Hpt & _).
        destruct (HK KTree t1) as (kr & Hp2 & Hk2).
        { cbn [kids_of]. rewrite dget_app. destruct m1; cbn; rewrite ?decide_False by done; by rewrite ?decide_True. }
        rewrite Hpt in Hp2. injection Hp2 as <-. by eexists _, [].
      * rewrite Hold in Hy by done. destruct (TT p y hy i v m t Hp1 Hy) as (ht & d & Ht). destruct (decide (t = l)) as [->|Hnt].
        -- rewrite Ho in Ht. injection Ht as ->. cbn [o_body kind_of] in Hkb. rewrite Hself. destruct (shift (s_next s) b) as [|t1|c1 d1|i1 w1 m1 t1|kk1 vs1|us1]; try done.
           injection Hkb as ->. by eexists _, _.
        -- rewrite Hold; [by eexists _, _|done|by eexists].
    + rewrite Hk in Hy. injection Hy as <- Hb. destruct (fst kr); try done.
  - intros p y oy Hp Hy Hma. destruct (HR a p y Ha Hp) as [[Hy1 Hp1]|(kr & Hk & Hn)].
    + assert (Hma' : all_marked r (s_heap s) y).
      { intros q z oz Hq Hz. pose proof (loads_reach _ _ Hlo _ _ _ Hq) as Hq'. destruct (decide (z = l)) as [->|Hne].
        - rewrite Ho in Hz. injection Hz as <-. destruct (Hma q l _ Hq' Hself) as [Hin|[Hin _]]; [left; by apply F4|cbn in Hin; congruence].
        - apply (Hma q z oz Hq'). rewrite Hold; [done|done|by exists oz]. }
      destruct (decide (y = l)) as [->|Hne].
      * rewrite Hself in Hy. injection Hy as <-. destruct (T5 p l o Hp1 Ho Hma') as (ref0 & Hr0 & Hl0). assert (ref0 = ref) as -> by congruence.
        cbn [o_hdr o_body]. rewrite Hkb. destruct F2 as [F2|[F2 Hn2]]; eexists; (split; [exact F2|]); intros q; rewrite Hlk by done; rewrite <- Hl0; [done|].
        apply look_stored_eq. by apply stored_conv.
      * rewrite Hold in Hy by done. destruct (T5 p y oy Hp1 Hy Hma') as (ref0 & Hr0 & Hl0). exists ref0. split; [done|]. intros q. by rewrite Hlk, Hl0 by done.
    + rewrite Hk in Hy. injection Hy as <-. exists (snd kr). split; [done|]. intros q. cbn [o_body kid_obj]. rewrite kind_empty.
      destruct q; cbn [look]; rewrite Hk; cbn [o_hdr o_body kid_obj kid_hdr h_mapped h_ref]; by rewrite kind_empty.
  - eapply complete_ext; [|exact T6]. intros p. by apply Hlk.
Qed.

(** parts of a tidy object *)
Lemma tidy_kid O r s l o k x : tidy O r s l -> s_heap s !! l = Some o -> h_mapped (o_hdr o) = true -> dget (kids_of (o_body o)) k = Some x -> tidy O r s x.
Proof.
  intros [T1 T2 T3 T4 TC TT T5 T6] Ho Hm Hd.
  assert (HR : forall p, reach (s_heap s) l (k :: p) = reach (s_heap s) x p) by (intros p; cbn [reach]; by rewrite Ho, Hm, Hd).
  split; [done| | | | | | |].
  - intros p q y Hp Hq. rewrite <- HR in Hp, Hq. pose proof (T2 _ _ _ Hp Hq). congruence.
  - intros p y oy Hp. rewrite <- HR in Hp. by eapply T3.
  - intros p y hy kk vs Hp. rewrite <- HR in Hp. by eapply T4.
  - intros p y oy ref Hp. rewrite <- HR in Hp. by eapply TC.
  - intros p y hy i v m t Hp. rewrite <- HR in Hp. by eapply TT.
  - intros p y oy Hp. rewrite <- HR in Hp. by eapply T5.
  - destruct (is_ktree k && hollow_at O (s_heap s) x) eqn:Hh.
    + apply andb_true_iff in Hh as [Hk Hh]. destruct k; try done.
      destruct o as [ho b]. cbn [o_hdr o_body] in *. destruct b as [|t1|c1 d1|i1 w1 m1 t1|kk1 vs1|us1]; cbn [kids_of dget] in Hd; try done.
      * by apply dget_Some_In, in_map_iff in Hd as (? & [=] & _).
      * assert (t1 = Some x) as ->.
        { rewrite dget_app in Hd. destruct m1; cbn in Hd; rewrite ?decide_False in Hd by done; destruct t1; cbn in Hd; rewrite ?decide_True in Hd by done; congruence. }
        destruct (TT [] l ho i1 w1 m1 x eq_refl Ho) as (ht & d & Ht). unfold hollow_at in Hh. rewrite Ht in Hh. cbn [o_hdr o_body kind_of] in Hh.
        assert (HL : forall p, look O (s_heap s) x p = match p with [] => Seen (LbNode LMeta) | _ => Absent end).
        { intros p. destruct (h_mapped ht) eqn:Em.
          - destruct d; [|done]. destruct p; cbn [look]; rewrite Ht; cbn [o_hdr o_body]; by rewrite Em.
          - destruct (h_ref ht) as [rf|] eqn:Er; [|done]. unfold hollow in Hh. destruct (stored O (KdNode LMeta) rf) as [[b ks]|] eqn:Es; [|done].
            destruct b as [|?|c [|]| | |]; try done. assert (c = LMeta) as ->.
            { revert Es. unfold stored. destruct (is_none_reference rf); [destruct (jis_str _ _); [by intros [= ->]|done]|]. destruct (jis_str _ _); [|done].
              unfold stored_body. intros Hs. do 4 rstep Hs. by injection Hs. }
            destruct p; cbn [look]; rewrite Ht; cbn [o_hdr o_body]; rewrite Em, Er; cbn [kind_of look_stored]; by rewrite Es. }
        intros p. rewrite HL. destruct p as [|k p]; (split_and!; [done| |intros k' lb']).
        -- by intros lb [= <-].
        -- rewrite HL. done.
        -- done.
        -- rewrite HL. done.
      * apply dget_Some_In in Hd. apply in_concat in Hd as (ys & Hy & Hd). apply in_map_iff in Hy as (? & <- & _). by apply in_map_iff in Hd as (? & [=] & _).
      * by apply dget_Some_In, in_map_iff in Hd as (? & [=] & _).
    + assert (HL : forall p, look O (s_heap s) x p = look O (s_heap s) l (k :: p)).
      { intros p. rewrite (not_ktree_look O _ l k p x o Ho Hm Hd), Hh. done. }
      intros p. rewrite HL. destruct (T6 (k :: p)) as (C1 & C2 & C3). split_and!; [done|done|]. intros k' lb'. rewrite HL. apply C3.
Qed.

Lemma tidy_root O r s l : tidy O r s l -> exists o, s_heap s !! l = Some o /\ (h_mapped (o_hdr o) = false -> home1 r o) /\ look O (s_heap s) l [] <> Broken.
Proof.
  intros HT. destruct (td_complete _ _ _ _ HT []) as (C1 & _). destruct (s_heap s !! l) as [o|] eqn:Ho.
  - exists o. split_and!; try done. intros Hm. by eapply (td_home _ _ _ _ HT [] l o).
  - cbn [look] in C1. by rewrite Ho in C1.
Qed.
Section Content.
  Context `{Env}.
  Context (r : pystr) (g : gstate) (Hrem : is_remote r = false) (Hr : r <> []).
  Notation O := (objs_of g r).

  (** loading works, and changes nothing for a reader *)
  Lemma ensure_quiet fuel s l o : heap_ok s -> s_heap s !! l = Some o -> (h_mapped (o_hdr o) = false -> home1 r o) -> look O (s_heap s) l [] <> Broken ->
    exists b s' o', exec (ensure_mapped fuel l s) g = ((Ok b, s'), g) /\ quiet O r s s' /\ s_heap s' !! l = Some o' /\ h_mapped (o_hdr o') = true /\ kind_of (o_body o') = kind_of (o_body o).
  Proof.
    intros Hok Ho Hh Hlk. destruct (h_mapped (o_hdr o)) eqn:Em.
    - exists false, s, o. split_and!; try done; [|by apply qu_refl]. unfold ensure_mapped. rewrite x_bind, x_getobj, Ho. cbn beta iota. by rewrite Em, x_ret.
    - destruct (Hh eq_refl) as (H1 & H2 & ref & H3 & H4). destruct (look_nil_stored _ _ _ _ _ Ho Em H3 Hlk) as (b & ks & Hs).
      destruct o as [x b0]. cbn [o_hdr o_body] in *.
      assert (Hbl : blank b0) by (split; [destruct (Hok l _ Ho) as (_ & _ & He & _); by apply He|done]).
      destruct (x_load r g Hrem fuel s l x b0 ref b ks Ho (proj1 (Hok l _ Ho)) Hbl Hr Em H1 H3) as (s' & x' & Hx & Hg & Hm' & Hf); [intros Hn; destruct H4; congruence|done|].
      destruct (ld_ensure s l _ fuel g _ s' g Hok Ho Hx) as [_ [_ HD]]; [done|].
      exists true, s', (Obj x' (shift (s_next s) b)). split_and!; try done.
      + exact (load_quiet O r s l (Obj x b0) ref b ks x' s' Hok Ho Em H3 Hr Hs Hg Hm' Hf HD).
      + apply Hg.
      + destruct HD as [_ (ol & Hol & _ & _ & Hk)]. rewrite (gr_self _ _ _ _ _ _ Hg) in Hol. injection Hol as <-. rewrite Ho in Hk. cbn in Hk. by injection Hk.
  Qed.

  Lemma with_heap_id s (l : loc) o : s_heap s !! l = Some o -> with_heap s (<[l := o]> (s_heap s)) = s.
  Proof.
    intros Ho. destruct s as [h n c o1 o2 k]. cbn in *. unfold with_heap. cbn. f_equal. unfold heap in *. by apply insert_id.
  Qed.
  Lemma read_in_quiet fuel s l o : heap_ok s -> s_heap s !! l = Some o -> (h_mapped (o_hdr o) = false -> home1 r o) -> look O (s_heap s) l [] <> Broken ->
    exists s', exec (read_in fuel l s) g = ((Ok tt, s'), g) /\ quiet O r s s'.
  Proof.
    intros Hok Ho Hh Hlk. destruct (h_mapped (o_hdr o)) eqn:Em.
    - exists s. split; [|by apply qu_refl]. unfold read_in. rewrite x_bind, x_getobj, Ho. cbn beta iota. by rewrite Em, x_ret.
    - destruct (Hh eq_refl) as (H1 & H2 & ref & H3 & H4). destruct (look_nil_stored _ _ _ _ _ Ho Em H3 Hlk) as (b & ks & Hs).
      destruct o as [x b0]. cbn [o_hdr o_body] in *.
      assert (Hbl : blank b0) by (split; [destruct (Hok l _ Ho) as (_ & _ & He & _); by apply He|done]).
      destruct (is_none_reference ref) eqn:En.
      + exists s. split; [|by apply qu_refl]. unfold stored in Hs. rewrite En in Hs. destruct b0 as [m|t0|c d|i v m t|kk vs|us]; cbn [kind_of] in Hs; try done.
        destruct (jis_str _ _) eqn:Ej; [|done]. destruct Hbl as [Hbl _]. cbn [sub_objects] in Hbl. assert (d = []) as -> by by destruct d.
        unfold read_in. rewrite x_bind, x_getobj, Ho. cbn beta iota. cbn [o_hdr o_body]. rewrite Em, H1, H3, En. cbn [type_name_of]. rewrite Ej, x_bind, x_assert. cbn beta iota.
        unfold purge_impl. rewrite x_bind, x_getobj, Ho. cbn beta iota. cbn [o_body dvals map miter]. rewrite x_bind, x_ret. cbn beta iota.
        unfold set_body. rewrite x_bind, x_getobj, Ho. cbn beta iota. unfold setobj. cbn [exec o_hdr]. by rewrite with_heap_id.
      + destruct (x_read_in r g Hrem fuel s l x b0 ref b ks Ho (proj1 (Hok l _ Ho)) Hbl Hr Em H1 H3) as (s' & x' & Hx & Hg & Hm' & Hf); [intros Hn; destruct H4; congruence|done|].
        rewrite En in Hm'. cbn [negb] in Hm'.
        assert (Hx2 : exec (ensure_mapped fuel l s) g = ((Ok true, s'), g)).
        { unfold ensure_mapped. rewrite x_bind, x_getobj, Ho. cbn beta iota. cbn [o_hdr]. rewrite Em. rewrite x_bind, Hx. cbn beta iota.
          unfold set_hdr. rewrite x_bind, x_bind, x_getobj, (gr_self _ _ _ _ _ _ Hg). cbn beta iota. unfold setobj. cbn [exec o_hdr o_body]. cbn beta iota. rewrite x_ret.
          rewrite with_heap_id; [done|]. rewrite (gr_self _ _ _ _ _ _ Hg). unfold hd_mapped. rewrite <- Hm'. by destruct x'. }
        destruct (ld_ensure s l _ fuel g _ s' g Hok Ho Hx2) as [_ [_ HD]]; [done|].
        exists s'. split; [done|]. exact (load_quiet O r s l (Obj x b0) ref b ks x' s' Hok Ho Em H3 Hr Hs Hg Hm' Hf HD).
  Qed.

  Lemma tidy_part s l o k x : tidy O r s l -> s_heap s !! l = Some o -> h_mapped (o_hdr o) = true -> dget (kids_of (o_body o)) k = Some x ->
    exists ox, s_heap s !! x = Some ox /\ (h_mapped (o_hdr ox) = false -> home1 r ox) /\ look O (s_heap s) x [] <> Broken.
  Proof.
    intros HT Ho Hm Hd. destruct (td_heap _ _ _ _ HT l o Ho) as (_ & Hs & _). destruct (Hs x) as [ox Hox]; [by eapply kids_in_sub|].
    exists ox. split; [done|]. split.
    - intros Hmx. eapply (td_home _ _ _ _ HT [k] x ox); [|done|done]. cbn [reach]. by rewrite Ho, Hm, Hd.
    - destruct (is_ktree k && hollow_at O (s_heap s) x) eqn:Eh.
      + apply andb_true_iff in Eh as [_ Eh]. unfold hollow_at in Eh. cbn [look]. rewrite Hox in *. destruct (h_mapped (o_hdr ox)); [done|].
        destruct (h_ref (o_hdr ox)) as [ref|]; [|done]. unfold hollow in Eh. cbn [look_stored]. destruct (stored O (kind_of (o_body ox)) ref) as [[]|]; done.
      + destruct (td_complete _ _ _ _ HT [k]) as (C1 & _). rewrite (not_ktree_look O _ l k [] x o Ho Hm Hd), Eh in C1. done.
  Qed.

  Lemma step_quiet fuel s l k : tidy O r s l -> exists s' x, exec (step_to fuel l k s) g = ((Ok x, s'), g) /\ quiet O r s s' /\
    match x with
    | None => forall p, look O (s_heap s) l (k :: p) = Absent
    | Some x => tidy O r s' x /\ forall p, look O (s_heap s) l (k :: p) = look O (s_heap s') x p
    end.
  Proof.
    intros HT. destruct (tidy_root _ _ s l HT) as (o & Ho & Hh & Hlk).
    destruct (ensure_quiet fuel s l o (td_heap _ _ _ _ HT) Ho Hh Hlk) as (b & s1 & o1 & Hx & HQ & Ho1 & Hm1 & Hk1).
    assert (HT1 : tidy O r s1 l) by (eapply qu_tidy; [exact HQ|by exists o|done]).
    assert (HL : forall p, look O (s_heap s) l p = look O (s_heap s1) l p) by (intros p; symmetry; eapply qu_look; [exact HQ|by exists o]).
    assert (HN : dget (kids_of (o_body o1)) k = None -> forall p, look O (s_heap s) l (k :: p) = Absent).
    { intros Hd p. rewrite HL. cbn [look]. by rewrite Ho1, Hm1, Hd. }
    assert (HE : forall f, exec (ensure_mapped f l s1) g = ((Ok false, s1), g)).
    { intros f. unfold ensure_mapped. rewrite x_bind, x_getobj, Ho1. cbn beta iota. by rewrite Hm1, x_ret. }
    assert (HF : forall x s2, dget (kids_of (o_body o1)) k = Some x -> is_ktree k && hollow_at O (s_heap s1) x = false -> quiet O r s1 s2 ->
       quiet O r s s2 /\ tidy O r s2 x /\ forall p, look O (s_heap s) l (k :: p) = look O (s_heap s2) x p).
    { intros x s2 Hd Hho HQ2. destruct (tidy_part s1 l o1 k x HT1 Ho1 Hm1 Hd) as (ox & Hox & _). split; [by eapply qu_trans|].
      split; [eapply qu_tidy; [exact HQ2|by exists ox|by eapply tidy_kid]|]. intros p. rewrite HL, (not_ktree_look O _ l k p x o1 Ho1 Hm1 Hd), Hho. symmetry. eapply qu_look; [exact HQ2|by exists ox]. }
    assert (HG : key_fits k (o_body o) = false -> exists s' x, exec ((ensure_mapped fuel l ;;; mret None) s) g = ((Ok x, s'), g) /\ quiet O r s s' /\
      match x with None => forall p, look O (s_heap s) l (k :: p) = Absent | Some x => tidy O r s' x /\ forall p, look O (s_heap s) l (k :: p) = look O (s_heap s') x p end).
    { intros Hkf. rewrite x_bind, Hx. cbn beta iota. exists s1, None. split; [by rewrite x_ret|]. split; [done|]. apply HN.
      destruct (dget (kids_of (o_body o1)) k) as [x|] eqn:Ed; [|done]. apply kids_fit in Ed. exfalso. destruct (o_body o), (o_body o1); try done; by destruct k. }
    unfold step_to. rewrite x_bind, x_getobj, Ho. cbn beta iota.
    destruct k as [n| | |v p0|u], (o_body o) as [m|t|c d|i w m t|kk vs|us] eqn:Eb; try (by apply HG).
    - unfold get_child. rewrite x_bind, Hx. cbn beta iota. destruct o1 as [x1 b1]. cbn [o_hdr o_body] in *. destruct b1 as [|t1|c1 d1|i1 w1 m1 t1|kk1 vs1|us1]; try done.
      unfold children. rewrite x_bind, x_bind, x_getobj, Ho1. cbn beta iota. cbn [o_body]. rewrite x_ret. cbn beta iota. rewrite x_ret. cbn [snd].
      exists s1, (dget d1 n). split; [done|]. rewrite kids_names in *. destruct (dget d1 n) as [x|] eqn:Ed; [|split; [done|by apply HN]].
      destruct (HF x s1 eq_refl eq_refl) as (H1 & H2 & H3); [by apply qu_refl, (td_heap _ _ _ _ HT1)|]. done.
    - unfold get_dataset_level_metadata, mrr_parts. rewrite x_try, x_bind, x_bind, Hx. cbn beta iota.
      destruct o1 as [x1 b1]. cbn [o_hdr o_body] in *. destruct b1 as [|t1|c1 d1|i1 w1 m1 t1|kk1 vs1|us1]; try done.
      rewrite x_bind, x_bind, x_getobj, Ho1. cbn beta iota. cbn [o_body]. rewrite x_ret. cbn beta iota.
      destruct m1 as [m1|]; cbn [kids_of app dget] in *.
      + rewrite decide_True in * by done.
        destruct (tidy_part s1 l _ KMeta m1 HT1 Ho1 Hm1) as (ox & Hox & Hhx & Hlx); [done|].
        destruct (read_in_quiet fuel s1 m1 ox (td_heap _ _ _ _ HT1) Hox Hhx Hlx) as (s2 & Hx2 & HQ2). rewrite x_bind, Hx2. cbn beta iota. rewrite x_ret, x_ret.
        destruct (HF m1 s2 eq_refl eq_refl HQ2) as (H1 & H2 & H3). by exists s2, (Some m1).
      + rewrite x_raise, x_ret. exists s1, None. split_and!; try done. apply HN. destruct t1; [|done]. cbn. by rewrite decide_False.
    - unfold get_file_tree, mrr_parts. rewrite x_bind, x_bind, Hx. cbn beta iota.
      destruct o1 as [x1 b1]. cbn [o_hdr o_body] in *. destruct b1 as [|t1|c1 d1|i1 w1 m1 t1|kk1 vs1|us1]; try done.
      rewrite x_bind, x_bind, x_getobj, Ho1. cbn beta iota. cbn [o_body]. rewrite x_ret. cbn beta iota.
      assert (Hd : dget (kids_of (BMrr i1 w1 m1 t1)) KTree = t1).
      { cbn [kids_of]. rewrite dget_app. destruct m1; cbn; rewrite ?decide_False by done; destruct t1; cbn; by rewrite ?decide_True. }
      destruct t1 as [t1|].
      + destruct (tidy_part s1 l _ KTree t1 HT1 Ho1 Hm1 Hd) as (ox & Hox & Hhx & Hlx).
        destruct (read_in_quiet fuel s1 t1 ox (td_heap _ _ _ _ HT1) Hox Hhx Hlx) as (s2 & Hx2 & HQ2). rewrite x_bind, Hx2. cbn beta iota. rewrite x_ret. cbn beta iota.
        assert (Hox2 : exists ox2, s_heap s2 !! t1 = Some ox2 /\ kind_of (o_body ox2) = kind_of (o_body ox)).
        { destruct (lo_obj _ _ (gs_loads _ _ (qu_good _ _ _ _ HQ2)) t1 ox Hox) as (o' & H1 & H2 & _). eauto. }
        destruct Hox2 as (ox2 & Hox2 & Hk2).
        assert (HT2 : tidy O r s2 l) by (eapply qu_tidy; [exact HQ2|by eexists|done]).
        pose proof (lo_obj _ _ (gs_loads _ _ (qu_good _ _ _ _ HQ2)) l _ Ho1) as (o' & Ho2 & _ & Heq). cbn [o_hdr] in Heq. specialize (Heq Hm1). subst o'.
        destruct (tidy_part s2 l _ KTree t1 HT2 Ho2 Hm1 Hd) as (ox2' & Hox2' & Hhx2 & Hlx2). assert (ox2' = ox2) as -> by congruence.
        destruct (ensure_quiet fuel s2 t1 ox2 (td_heap _ _ _ _ HT2) Hox2 Hhx2 Hlx2) as (b3 & s3 & o3 & Hx3 & HQ3 & Ho3 & Hm3 & Hk3).
        rewrite x_bind, Hx3. cbn beta iota.
        assert (Hho : hollow_at O (s_heap s1) t1 = is_hollow (o_body o3)).
        { rewrite <- (qu_hollow _ _ _ _ HQ2) by by eexists. rewrite <- (qu_hollow _ _ _ _ HQ3) by by eexists. unfold hollow_at. by rewrite Ho3, Hm3. }
        assert (Hnode : exists c3 d3, o_body o3 = BNode c3 d3).
        { destruct (is_hollow (o_body o3)) eqn:Eh; [destruct (o_body o3); try done; by eexists _, _|].
          destruct (td_complete _ _ _ _ HT1 [KTree]) as (C1 & _). destruct (td_complete _ _ _ _ HT1 []) as (_ & _ & C3). cbn [app] in C3. specialize (C3 KTree).
          rewrite (not_ktree_look O _ l KTree [] t1 _ Ho1 Hm1 Hd), Hho in C1, C3. cbn [is_ktree andb] in C1, C3.
          rewrite <- (qu_look _ _ _ _ HQ2) in C1, C3 by by eexists. rewrite <- (qu_look _ _ _ _ HQ3) in C1, C3 by by eexists.
          cbn [look] in C3. rewrite Ho3, Hm3, Ho1 in C3. cbn [o_hdr o_body] in C3. rewrite Hm1 in C3. destruct (C3 _ eq_refl) as (lb & [= <-] & HP). cbn in HP. destruct (o_body o3); try done. by eexists _, _. }
        destruct Hnode as (c3 & d3 & Hb3). unfold children. rewrite x_bind, x_bind, x_getobj, Ho3. cbn beta iota. rewrite Hb3. rewrite x_ret. cbn beta iota. rewrite x_ret. cbn [snd].
        rewrite Hb3 in Hho. cbn [is_hollow] in Hho.
        assert (HQ13 : quiet O r s1 s3) by by eapply qu_trans.
        eexists s3, _. split; [done|]. split; [by eapply qu_trans|]. destruct d3 as [|e3 d3].
        * intros p. rewrite HL, (not_ktree_look O _ l KTree p t1 _ Ho1 Hm1 Hd), Hho. done.
        * destruct (HF t1 s3 Hd) as (H1 & H2 & H3); [by rewrite Hho|done|]. done.
      + rewrite x_ret. cbn beta iota. rewrite x_ret. exists s1, None. split_and!; try done. by apply HN.
    - unfold get_versioned_element, get_version_record, versions. rewrite x_try, x_bind, x_bind, Hx. cbn beta iota.
      rewrite x_bind, x_bind, HE. cbn beta iota. destruct o1 as [x1 b1]. cbn [o_hdr o_body] in *. destruct b1 as [|t1|c1 d1|i1 w1 m1 t1|kk1 vs1|us1]; try done.
      rewrite x_bind, x_bind, x_getobj, Ho1. cbn beta iota. cbn [o_body]. rewrite x_ret. cbn beta iota. cbn [snd].
      assert (Hv : vs_ok vs1) by (apply wk_ok; eapply (td_keyed _ _ _ _ HT1 []); [done|exact Ho1]).
      pose proof (kids_vget kk1 vs1 v p0 Hv) as Hd. unfold vget in Hd. destruct (dget vs1 v) as [d|]; [destruct (dget d p0) as [rr|]|]; cbn [option_map] in Hd.
      + rewrite x_ret. cbn beta iota. unfold elt_read_in.
        destruct (tidy_part s1 l _ (KVer v p0) _ HT1 Ho1 Hm1 Hd) as (ox & Hox & Hhx & Hlx).
        destruct (read_in_quiet fuel s1 _ ox (td_heap _ _ _ _ HT1) Hox Hhx Hlx) as (s2 & Hx2 & HQ2). rewrite x_bind, Hx2. cbn beta iota. rewrite x_ret, x_ret.
        destruct (HF _ s2 Hd eq_refl HQ2) as (H1 & H2 & H3). by exists s2, (Some (elt_loc (vr_elt rr))).
      + rewrite x_raise, x_ret. exists s1, None. split_and!; try done. by apply HN.
      + rewrite x_raise, x_ret. exists s1, None. split_and!; try done. by apply HN.
    - unfold get_version_list, uuid_entries. rewrite x_try, x_bind, x_bind, Hx. cbn beta iota.
      destruct o1 as [x1 b1]. cbn [o_hdr o_body] in *. destruct b1 as [|t1|c1 d1|i1 w1 m1 t1|kk1 vs1|us1]; try done.
      rewrite x_bind, x_bind, x_getobj, Ho1. cbn beta iota. cbn [o_body]. rewrite x_ret. cbn beta iota. rewrite kids_uuids in *. destruct (dget us1 u) as [x|] eqn:Ed.
      + destruct (tidy_part s1 l _ (KUuid u) x HT1 Ho1 Hm1) as (ox & Hox & Hhx & Hlx); [by rewrite <- Ed; apply kids_uuids|].
        destruct (read_in_quiet fuel s1 x ox (td_heap _ _ _ _ HT1) Hox Hhx Hlx) as (s2 & Hx2 & HQ2). rewrite x_bind, Hx2. cbn beta iota. rewrite x_ret, x_ret.
        destruct (HF x s2 eq_refl eq_refl HQ2) as (H1 & H2 & H3). by exists s2, (Some x).
      + rewrite x_raise, x_ret. exists s1, None. split_and!; try done. by apply HN.
  Qed.
  (** Reading through the API gives the content. *)
  Lemma visit_quiet fuel p : forall s l, tidy O r s l ->
    exists s', exec (visit fuel l p s) g = ((Ok (look O (s_heap s) l p), s'), g) /\ quiet O r s s'.
  Proof.
    induction p as [|k p IH]; intros s l HT; cbn [visit].
    - destruct (tidy_root _ _ s l HT) as (o & Ho & Hh & Hlk).
      destruct (ensure_quiet fuel s l o (td_heap _ _ _ _ HT) Ho Hh Hlk) as (b & s1 & o1 & Hx & HQ & Ho1 & Hm1 & Hk1).
      rewrite x_bind, Hx. cbn beta iota. rewrite x_bind, x_getobj, Ho1. cbn beta iota. rewrite x_ret. exists s1. split; [|done].
      rewrite <- (qu_look _ _ _ _ HQ) by by eexists. cbn [look]. by rewrite Ho1, Hm1.
    - destruct (step_quiet fuel s l k HT) as (s1 & x & Hx & HQ & Hc). rewrite x_bind, Hx. cbn beta iota. destruct x as [x|].
      + destruct Hc as [HT1 HL]. destruct (IH s1 x HT1) as (s2 & Hx2 & HQ2). exists s2. rewrite HL. split; [done|]. by eapply qu_trans.
      + exists s1. rewrite x_ret, Hc. done.
  Qed.
End Content.
