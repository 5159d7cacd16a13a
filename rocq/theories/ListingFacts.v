(** Listings in histories: proofs for C17 and C19. *)
From Verif Require Import Base BaseFacts Path Spec_Path PathFacts Json Refs RefsFacts Meta Spec_Meta MetaFacts GitText Spec_Git Git GitFacts Spec_Store State BlobCache ObjRef Objects Spec_Objects Spec_Look Spec_Heap Spec_Versions Spec_Write ExecFacts LoadFacts PeekFacts TreeFacts TreeEditFacts VersionFacts PartFacts LookFacts ReadFacts Spec_Content ContentFacts WriteFacts StoreFacts SaveFacts WriteBackFacts WriteAllFacts ReadBackFacts PurgeFacts EditFacts RealmFacts GraftFacts AddFacts ListFacts Spec_History AnyWriteFacts UseFacts FrameFacts SessionFacts DatasetFacts HistoryFacts Spec_Outcome Spec_Parts RunAllFacts Spec_Unget UngetFacts SettleFacts Spec_Getters GetterFacts HeapCase.

Section Listing.
  Context `{Env} (r : pystr) (g : gstate) (Hrem : is_remote r = false) (Hr : r <> []).
  Notation O := (objs_of g r).
  Lemma listable_same c c' : (forall q, c' q = c q) -> listable c -> listable c'.
  Proof using.
    intros He [L1 L2 L3]. split.
    - intros p cl Hp Hn. rewrite He in Hp. destruct (L1 p cl Hp Hn) as (k & lb & Hk). exists k, lb. by rewrite He.
    - intros p n lb Hp. rewrite He in Hp. by eapply L2.
    - intros p i v Hp. rewrite He in *. by eapply L3.
  Qed.
  (** a tree with entries that is not loaded is marked as saved *)
  Lemma entries_marked s y : tidy O r s y -> (exists k lb, look O (s_heap s) y [k] = Seen lb) \/ (exists o, s_heap s !! y = Some o /\ h_mapped (o_hdr o) = true) -> home_mark r (s_heap s) y.
  Proof using Hrem Hr.
    intros HT [(k & lb & Hk)|(o' & Ho' & Hm')] o Ho Hm; [|congruence]. destruct (td_home _ _ _ _ HT [] y o eq_refl Ho Hm) as (_ & _ & ref & Href & [Hn|Hs]); [|done]. exfalso.
    cbn [look] in Hk. rewrite Ho, Hm, Href in Hk. cbn [look_stored] in Hk. unfold stored in Hk. rewrite Hn in Hk. destruct (kind_of (o_body o)); try discriminate Hk. destruct (jis_str _ _); discriminate Hk.
  Qed.
  Lemma list_gets inter fuel s y c cl : tidy O r s y -> one_realm r (s_heap s) y -> (forall q, look O (s_heap s) y q = c q) -> c [] = Seen (LbNode cl) -> listable c ->
    (exists k lb, c [k] = Seen lb) \/ (exists o, s_heap s !! y = Some o /\ h_mapped (o_hdr o) = true) ->
    exists a s', exec (get_paths_recursive fuel inter y s) g = ((a, s'), g) /\ calm O r s s' /\ match a with Ok xs => lists O r inter c s' xs | Err e => e = RecursionError /\ deep fuel c end.
  Proof using Hrem Hr.
    intros HT H1 Hc H0 HL Hs. destruct (tidy_root _ _ _ _ HT) as (o & Ho & _ & _). pose proof (look_kind O _ _ _ (LbNode cl) Ho ltac:(by rewrite Hc)) as Hk. cbn [label_kind] in Hk. destruct (kind_node o cl (eq_sym Hk)) as [d E]. rewrite E in Ho.
    assert (Hmk : home_mark r (s_heap s) y).
    { apply entries_marked; [done|]. destruct Hs as [(k & lb & Hk')|Hs]; [left; exists k, lb; by rewrite Hc|by right]. }
    destruct (list_calm r g Hrem Hr inter fuel s y _ _ _ HT H1 Ho (listable_same _ _ Hc HL) Hmk) as (a & s' & E1 & HC & Ha). exists a, s'. split; [done|]. split; [done|]. destruct a as [xs|e].
    - destruct Ha as [L1 L2 L3 L4]. split; [done|done| |].
      + intros q. by rewrite L3, Hc.
      + intros p x Hx. destruct (L4 p x Hx) as (A & B & D). split_and!; try done. intros q. by rewrite D, Hc.
    - destruct Ha as (-> & q & lb & Hq & Hl). split; [done|]. exists q, lb. by rewrite <- Hc.
  Qed.
  Lemma lists_spec fuel inter c s xs : lists O r inter c s xs -> lists_paths fuel inter names c s g (Ok xs).
  Proof using Hrem Hr.
    intros [L1 L2 L3 L4]. rewrite List.Forall_forall in L1. split_and!.
    - rewrite <- (map_map fst p_parts) in L2. by apply NoDup_fmap_1 in L2.
    - intros p x Hp. pose proof (L1 _ Hp) as Hw. cbn [fst] in Hw. split; [by apply wf_mpath|]. destruct (L4 p x Hp) as (A & _ & E). apply (tidy_displays r g Hrem Hr); [done|]. intros q. rewrite E. unfold under, names. by rewrite wfp_all.
    - intros p Hp. pose proof (mpath_wf _ Hp) as Hw. unfold names. rewrite wfp_all by done. pose proof (L3 (p_parts p)) as L5. rewrite <- (map_map fst p_parts), (in_map_iff p_parts) in L5. etrans; [|exact L5]. split; [eauto|].
      intros (p' & E & Hin). assert (p' = p) as ->; [|done]. apply in_map_iff in Hin as (px & <- & Hin). apply wfp_eq; [by apply L1|done|done].
  Qed.
  (** the records among the listed objects *)
  Definition pick (px : ppath * loc) : list (ppath * loc) :=
    if bool_decide (last (all_parts (fst px)) = Some root_record_name) then [(MetadataPath [AStr (join [slash] (removelast (all_parts (fst px))))], snd px)] else [].
  Lemma pick_in p x q z : wfp p -> In (q, z) (pick (p, x)) -> z = x /\ wfp q /\ p_parts p = p_parts q ++ [root_record_name].
  Proof using.
    intros Hw Hi. unfold pick in Hi. cbn [fst snd] in Hi. case_bool_decide as Hl; [|done]. destruct Hi as [[= <- <-]|[]]. rewrite wfp_all in * by done.
    destruct (p_parts p) as [|e rest _] eqn:Ep using rev_ind; [done|]. destruct (removelast_last rest e) as [Ha Hb]. rewrite Hb in Hl. injection Hl as ->. rewrite Ha.
    destruct (parts_again rest) as [A B]; [destruct Hw as [_ Hg]; rewrite Ep in Hg; by apply Forall_app in Hg as [? _]|]. rewrite wfp_all in A by done. by rewrite A.
  Qed.
  Lemma pick_of p x q : wfp p -> wfp q -> p_parts p = p_parts q ++ [root_record_name] -> pick (p, x) = [(q, x)].
  Proof using.
    intros Hp Hq Hpq. unfold pick. cbn [fst snd]. rewrite (wfp_all p) by done. rewrite Hpq. destruct (removelast_last (p_parts q) root_record_name) as [Ha Hb]. rewrite Ha, Hb, bool_decide_eq_true_2 by done.
    destruct (parts_again (p_parts q)) as [A B]; [apply Hq|]. repeat f_equal. apply wfp_eq; [done|done|]. by rewrite wfp_all in A.
  Qed.
  Lemma datasets_spec fuel c s xs : lists O r false c s xs -> lists_paths fuel false (fun q => names (record_path q)) c s g (Ok (concat (map pick xs))).
  Proof using Hrem Hr.
    intros [L1 L2 L3 L4]. rewrite List.Forall_forall in L1.
    assert (Hrec : forall q, wfp q -> names (record_path q) = map KName (p_parts q ++ [root_record_name])).
    { intros q Hq. unfold names. destruct (record_path_parts q Hq) as [_ ->]. by rewrite wfp_all. }
    split_and!.
    - assert (Hmf : forall ys, (forall z, In z ys -> wfp (fst z)) -> NoDup (map (fun px => p_parts (fst px)) ys) -> NoDup (map fst (concat (map pick ys)))); [|by apply Hmf].
      clear -L1. induction ys as [|[p x] ys IH]; intros Hw Hn; [apply NoDup_nil_2|]. cbn [map concat fst] in *. apply NoDup_cons in Hn as [Hn1 Hn2]. rewrite map_app.
      apply NoDup_app. split; [unfold pick; case_bool_decide; cbn; [apply NoDup_singleton|apply NoDup_nil_2]|]. split; [|apply IH; [intros; apply Hw; by right|done]].
      intros q Hq%elem_of_list_In Hq2%elem_of_list_In. apply in_map_iff in Hq as ([q1 z1] & <- & Hq). apply in_map_iff in Hq2 as ([q2 z2] & Heq & Hq2). cbn [fst] in *. subst q2.
      apply In_concat in Hq2 as (zs & Hzs & Hq2). apply in_map_iff in Hzs as ([p2 x2] & <- & Hp2).
      apply pick_in in Hq as (_ & _ & E1); [|by apply (Hw (p, x)); left]. apply pick_in in Hq2 as (_ & _ & E2); [|by apply (Hw (p2, x2)); right].
      apply Hn1, elem_of_list_In, in_map_iff. exists (p2, x2). cbn [fst]. split; [congruence|done].
    - intros q x Hi. apply In_concat in Hi as (zs & Hzs & Hi). apply in_map_iff in Hzs as ([p x0] & <- & Hp). pose proof (L1 _ Hp) as Hw. cbn [fst] in Hw. apply pick_in in Hi as (-> & Hq & E); [|done]. split; [by apply wf_mpath|].
      destruct (L4 p x0 Hp) as (A & _ & B). apply (tidy_displays r g Hrem Hr); [done|]. intros z. rewrite B, E. unfold under. by rewrite Hrec.
    - intros q Hq%mpath_wf. rewrite (Hrec q Hq). etrans; [|exact (L3 (p_parts q ++ [root_record_name]))]. split.
      + intros Hi. apply in_map_iff in Hi as ([q0 x] & <- & Hi). apply In_concat in Hi as (zs & Hzs & Hi). apply in_map_iff in Hzs as ([p x0] & <- & Hp). pose proof (L1 _ Hp) as Hw. cbn [fst] in *. apply pick_in in Hi as (-> & _ & E); [|done].
        apply in_map_iff. by exists (p, x0).
      + intros Hi. apply in_map_iff in Hi as ([p x] & E & Hp). pose proof (L1 _ Hp) as Hw. cbn [fst] in *. apply in_map_iff. exists (q, x). split; [done|]. apply In_concat. exists [(q, x)]. split; [|by left].
        apply in_map_iff. exists (p, x). split; [by apply pick_of|done].
  Qed.
  Lemma datasets_gets fuel s y c cl : tidy O r s y -> one_realm r (s_heap s) y -> (forall q, look O (s_heap s) y q = c q) -> c [] = Seen (LbNode cl) -> listable c ->
    (exists k lb, c [k] = Seen lb) \/ (exists o, s_heap s !! y = Some o /\ h_mapped (o_hdr o) = true) ->
    exists a s', exec (dataset_paths fuel y s) g = ((a, s'), g) /\ calm O r s s' /\ lists_paths fuel false (fun q => names (record_path q)) c s' g a.
  Proof using Hrem Hr.
    intros HT H1 Hc H0 HL Hs. destruct (list_gets false fuel s y c cl HT H1 Hc H0 HL Hs) as (a & s' & E & HC & Ha). unfold dataset_paths. rewrite x_bind, E. destruct a as [xs|e]; [|eexists _, s'; split; [done|]; by split].
    rewrite (rmap_total _ pick).
    - eexists _, s'. split; [done|]. split; [done|]. by apply datasets_spec.
    - destruct Ha as [L1 _ L3 _]. rewrite List.Forall_forall in L1. intros [p x] Hi. pose proof (L1 _ Hi) as Hw. cbn [fst] in *. unfold pick. cbn [fst snd].
      destruct (last (all_parts p)) as [e|] eqn:El.
      + f_equal. destruct (decide (e = root_record_name)) as [->|Hne]; [by rewrite !bool_decide_eq_true_2|]. rewrite !bool_decide_eq_false_2; [done|congruence|done].
      + exfalso. rewrite wfp_all in El by done. destruct (p_parts p) as [|z rest _] eqn:Ep using rev_ind; [|destruct (removelast_last rest z) as [_ Hb]; congruence].
        destruct (proj1 (L3 [])) as (lb & Hl & Hsh); [apply in_map_iff; by exists (p, x)|]. cbn [map] in Hl. rewrite H0 in Hl. injection Hl as <-. destruct Hsh as [|Hsh]; [done|]. by eapply Hsh.
  Qed.
End Listing.

Section ListingHistory.
  Context `{Env}.
  Lemma listing_history (r : pystr) : is_remote r = false -> r <> [] ->
    forall es s g R l p y c cl, history r es s g R -> l ∈ R -> reach (s_heap s) l p = Some y -> displays s g y c -> c [] = Seen (LbNode cl) -> listable c ->
    (exists k lb, c [k] = Seen lb) \/ (exists o, s_heap s !! y = Some o /\ h_mapped (o_hdr o) = true) ->
    (forall fuel inter a s' g', exec (get_paths_recursive fuel inter y s) g = ((a, s'), g') ->
       lists_paths fuel inter names c s' g' a /\ displays s' g' y c /\ history r (es ++ [EUse]) s' g' R) /\
    (forall fuel a s' g', exec (dataset_paths fuel y s) g = ((a, s'), g') ->
       lists_paths fuel false (fun q => names (record_path q)) c s' g' a /\ displays s' g' y c /\ history r (es ++ [EUse]) s' g' R).
  Proof.
    intros Hrem Hr es s g R l p y c cl HH Hl Hp Hd H0 HL Hs. destruct (history_able r es s g R l p y Hrem Hr HH Hl Hp) as (_ & HT & H1).
    rewrite (tidy_displays r g Hrem Hr _ _ _ HT) in Hd.
    assert (HY : forall s', calm (objs_of g r) r s s' -> displays s' g y c).
    { intros s' HC. destruct (ca_old _ _ _ _ HC y HT H1) as [D1 D2 D3 _ _ _]. apply (tidy_displays r g Hrem Hr); [done|]. intros q. by rewrite D3. }
    split.
    - intros fuel inter a s' g' He. pose proof (hist_step _ _ _ _ _ _ _ _ HH (do_use _ _ _ _ fuel l p y _ _ _ _ _ Hl Hp (use_list _ _ inter) He)) as HN.
      destruct (list_gets r g Hrem Hr inter fuel s y c cl HT H1 Hd H0 HL Hs) as (a0 & s0 & E & HC & Ha). rewrite E in He. injection He as <- <- <-. split; [|split; [by apply HY|exact HN]].
      destruct a0 as [xs|e]; [by apply (lists_spec r g Hrem Hr)|]. destruct Ha as (-> & q & lb & ? & ?). split; [done|]. by exists q, lb.
    - intros fuel a s' g' He. pose proof (hist_step _ _ _ _ _ _ _ _ HH (do_use _ _ _ _ fuel l p y _ _ _ _ _ Hl Hp (use_datasets _ _) He)) as HN.
      destruct (datasets_gets r g Hrem Hr fuel s y c cl HT H1 Hd H0 HL Hs) as (a0 & s0 & E & HC & Ha). rewrite E in He. injection He as <- <- <-. split; [done|split; [by apply HY|exact HN]].
  Qed.
End ListingHistory.

(** A check for concrete heaps: everything is loaded, trees have entries, records
    have metadata. *)
Definition plain_obj (h : heap) (o : obj) : bool :=
  h_mapped (o_hdr o) && forallb (fun kx => is_some (h !! (snd kx))) (kids_of (o_body o)) &&
  match o_body o with
  | BNode _ d => match d with [] => false | _ => true end && forallb (fun nx => negb (bool_decide (fst nx = ps "."))) d
  | BMrr _ _ m _ => is_some m
  | _ => true
  end.
Definition plainb (h : heap) : bool := forallb (fun lo => plain_obj h (snd lo)) (HeapCase.entries h).
Lemma plain_at h x o : plainb h = true -> h !! x = Some o -> plain_obj h o = true.
Proof. unfold plainb. rewrite forallb_forall. intros Hf Ho. exact (Hf (x, o) (proj1 (HeapCase.entries_in _ _ _) Ho)). Qed.
Lemma plain_kid h x o k y : plainb h = true -> h !! x = Some o -> dget (kids_of (o_body o)) k = Some y -> is_Some (h !! y).
Proof.
  intros Hp Ho Hd. pose proof (plain_at _ _ _ Hp Ho) as Hq. unfold plain_obj in Hq. apply andb_true_iff in Hq as [[_ Hk]%andb_true_iff _]. rewrite forallb_forall in Hk.
  apply dget_Some_In in Hd. specialize (Hk _ Hd). cbn [snd] in Hk. by destruct (h !! y).
Qed.
Lemma plain_look O h p : plainb h = true -> forall x, is_Some (h !! x) ->
  match reach h x p with
  | Some y => exists o, h !! y = Some o /\ look O h x p = Seen (label_of (o_body o))
  | None => look O h x p = Absent
  end.
Proof.
  intros Hp. induction p as [|k p IH]; intros x [o Ho]; pose proof (plain_at _ _ _ Hp Ho) as Hq; unfold plain_obj in Hq; apply andb_true_iff in Hq as [[Hm _]%andb_true_iff _].
  - cbn [reach look]. exists o. by rewrite Ho, Hm.
  - cbn [reach look]. rewrite Ho, Hm. destruct (dget (kids_of (o_body o)) k) as [y|] eqn:Ek; [|done]. pose proof (plain_kid _ _ _ _ _ Hp Ho Ek) as [oy Hy].
    assert (hollow_at O h y = false) as ->.
    { pose proof (plain_at _ _ _ Hp Hy) as Hq. unfold plain_obj in Hq. apply andb_true_iff in Hq as [[Hmy _]%andb_true_iff Hb]. unfold hollow_at. rewrite Hy, Hmy. destruct (o_body oy) as [| |? []| | |]; done. }
    rewrite andb_false_r. apply IH. by eexists.
Qed.
Lemma plain_listable O h y : plainb h = true -> is_Some (h !! y) -> listable (look O h y).
Proof.
  intros Hp Hy.
  assert (HS : forall p lb, look O h y p = Seen lb -> exists x o, reach h y p = Some x /\ h !! x = Some o /\ plain_obj h o = true /\ lb = label_of (o_body o)).
  { intros p lb Hl. pose proof (plain_look O h p Hp y Hy) as HL. destruct (reach h y p) as [x|]; [|congruence]. destruct HL as (o & Ho & HL). exists x, o. split_and!; [done|done|by eapply plain_at|congruence]. }
  assert (HK : forall p x o k z, reach h y p = Some x -> h !! x = Some o -> plain_obj h o = true -> dget (kids_of (o_body o)) k = Some z -> exists lb, look O h y (p ++ [k]) = Seen lb).
  { intros p x o k z Hx Ho Hq Hd. unfold plain_obj in Hq. apply andb_true_iff in Hq as [[Hm _]%andb_true_iff _]. pose proof (plain_look O h (p ++ [k]) Hp y Hy) as HL. rewrite reach_app, Hx in HL. cbn [reach] in HL. rewrite Ho, Hm, Hd in HL. destruct HL as (oz & _ & HL). eauto. }
  split.
  - intros p cl Hl _. destruct (HS _ _ Hl) as (x & o & Hx & Ho & Hq & Hb). destruct (o_body o) as [| |c d| | |] eqn:Eb; try discriminate Hb. pose proof Hq as Hq'. unfold plain_obj in Hq'. rewrite Eb in Hq'. apply andb_true_iff in Hq' as [_ [Hd _]%andb_true_iff].
    destruct d as [|[n z] d]; [done|]. exists (KName n). apply (HK p x o (KName n) z); [done|done|done|]. rewrite Eb, kids_names. cbn. by rewrite decide_True.
  - intros p n lb Hl ->. destruct (HS _ _ Hl) as (x & _ & Hx & _). rewrite reach_app in Hx. destruct (reach h y p) as [z|]; [|done]. cbn [reach] in Hx. destruct (h !! z) as [oz|] eqn:Ez; [|done]. destruct (h_mapped (o_hdr oz)); [|done].
    destruct (dget (kids_of (o_body oz)) (KName (ps "."))) as [w|] eqn:Ew; [|done]. pose proof (plain_at _ _ _ Hp Ez) as Hq. pose proof (kids_fit _ _ _ Ew) as Hf. destruct (o_body oz) as [| |c d| | |] eqn:Eb; try discriminate Hf.
    rewrite kids_names in Ew. unfold plain_obj in Hq. rewrite Eb in Hq. apply andb_true_iff in Hq as [_ [_ Hq]%andb_true_iff]. rewrite forallb_forall in Hq. apply dget_Some_In in Ew. specialize (Hq _ Ew). cbn [fst] in Hq. by rewrite bool_decide_eq_true_2 in Hq.
  - intros p i v Hl Ha. destruct (HS _ _ Hl) as (x & o & Hx & Ho & Hq & Hb). destruct (o_body o) as [| | |i1 v1 m1 t1| |] eqn:Eb; try discriminate Hb. pose proof Hq as Hq'. unfold plain_obj in Hq'. rewrite Eb in Hq'. apply andb_true_iff in Hq' as [_ Hd].
    destruct m1 as [m1|]; [|done]. destruct (HK p x o KMeta m1) as [lb Hlb]; [done|done|done| |congruence]. rewrite Eb. cbn. by rewrite decide_True.
Qed.
