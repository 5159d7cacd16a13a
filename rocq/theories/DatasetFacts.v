(** A dataset tree is a map from dataset paths to root records (C19). *)
From Verif Require Import Base BaseFacts Path Spec_Path PathFacts Json Refs Meta GitText Git GitFacts State BlobCache ObjRef Objects ExecFacts Spec_Look Spec_Heap Spec_Dataset Spec_Write WriteFacts LoadFacts PeekFacts TreeEditFacts TreeFacts.

Section Dataset.
  Context `{Env}.
  Lemma res_good : good_name root_record_name.
  Proof. vm_compute. split_and!; intros; try discriminate. intuition discriminate. Qed.
  Lemma record_path_parts p : wfp p -> wfp (record_path p) /\ all_parts (record_path p) = all_parts p ++ [root_record_name].
  Proof.
    intros Hp. unfold record_path. assert (Hw : wfp (truediv p (AStr root_record_name))) by (apply truediv_str_wf; [done|reflexivity]). split; [done|].
    rewrite !wfp_all by done. rewrite truediv_str by done. cbn [p_parts]. f_equal.
  Qed.
  Lemma peek_some s l parts x : heap_ok s -> is_Some (s_heap s !! l) -> peek (s_heap s) l parts = Some (Some x) -> is_Some (s_heap s !! x).
  Proof.
    intros Hok. revert l. induction parts as [|m q IH]; intros l [ol Hol]; cbn [peek]; [intros [= <-]; by eexists|].
    rewrite Hol. destruct (o_body ol) as [| |ca da| | |] eqn:Eb; try done. destruct (h_mapped _); [|done]. destruct (dget da m) as [b|] eqn:Ed; [|done]. apply IH.
    apply (Hok l ol Hol). rewrite Eb. cbn. apply in_map_iff. exists (m, b). split; [done|]. by apply dget_Some_In.
  Qed.
  (** every lookup in a loaded tree succeeds at once *)
  Lemma loaded_total s l parts : heap_ok s -> is_Some (s_heap s !! l) -> loaded_tree (s_heap s) l -> exists r, peek (s_heap s) l parts = Some r.
  Proof.
    intros Hok. revert l. induction parts as [|m q IH]; intros l [ol Hol] Hld; cbn [peek]; [by eexists|]. rewrite Hol. destruct ol as [hl bl]. cbn [o_body o_hdr].
    destruct bl as [| |c d| | |]; try by eexists. destruct (Hld [] l hl c d eq_refl Hol) as [-> _]. destruct (dget d m) as [y|] eqn:Ed; [|by eexists].
    apply IH; [|by eapply loaded_kid]. apply (Hok l _ Hol). cbn. apply in_map_iff. exists (m, y). split; [done|]. by apply dget_Some_In.
  Qed.
  (** another way to say that a tree is loaded *)
  Lemma loaded_alt h l : (forall parts x, peek h l parts = Some (Some x) -> good_names parts /\ forall hx c d, h !! x = Some (Obj hx (BNode c d)) -> h_mapped hx = true) ->
    loaded_tree h l.
  Proof.
    intros Ha p x hx c d Hr Hx. apply reach_peek in Hr. destruct (Ha p x Hr) as [Hg Hm]. specialize (Hm hx c d Hx). split; [done|].
    apply List.Forall_forall. intros e He. assert (exists y, dget d e = Some y) as [y Hy].
    { destruct (dget d e) eqn:E; [by eexists|]. apply dget_None in E. exfalso. apply E. by apply elem_of_list_In. }
    destruct (Ha (p ++ [e]) y) as [Hg' _].
    - rewrite peek_app, Hr. cbn [peek]. rewrite Hx. cbn [o_body o_hdr]. by rewrite Hm, Hy.
    - apply List.Forall_app in Hg' as [_ Hg']. by apply List.Forall_cons_iff in Hg' as [? _].
  Qed.
  Lemma loaded_good h l parts x : loaded_tree h l -> peek h l parts = Some (Some x) -> good_names parts.
  Proof.
    revert l. induction parts as [|e parts IH]; intros l Hld Hp; [apply List.Forall_nil|]. cbn [peek] in Hp. destruct (h !! l) as [[hl bl]|] eqn:Hl; [|done]. cbn [o_body o_hdr] in Hp.
    destruct bl as [| |c d| | |]; try done. destruct (Hld [] l hl c d eq_refl Hl) as [Hm Hg]. rewrite Hm in Hp. destruct (dget d e) as [y|] eqn:Ed; [|done].
    apply List.Forall_cons; [|apply (IH y); [by eapply loaded_kid|done]]. rewrite List.Forall_forall in Hg. apply Hg. apply dget_Some_In in Ed. by eapply dkeys_in.
  Qed.
  Lemma C17_lemma inter fuel l s g r s' g' : heap_ok s -> node_at (s_heap s) l -> loaded_tree (s_heap s) l ->
    exec (get_paths_recursive fuel inter l s) g = ((r, s'), g') ->
    s' = s /\ g' = g /\
    match r with
    | Ok xs => NoDup (map fst xs) /\
        forall p x, In (p, x) xs <->
          is_metadata_path p /\ (forall fuel2 g2, exec (get_object_at_path fuel2 l p s) g2 = ((Ok (Some x), s), g2)) /\
          exists o, s_heap s !! x = Some o /\ (is_node o = true -> inter = true)
    | Err e => e = RecursionError /\ exists p x o, is_metadata_path p /\ length (all_parts p) = fuel /\
        (forall fuel2 g2, exec (get_object_at_path fuel2 l p s) g2 = ((Ok (Some x), s), g2)) /\ s_heap s !! x = Some o /\ is_node o = true
    end.
  Proof.
    intros Hok Hl Hld He. assert (HlS : is_Some (s_heap s !! l)) by (destruct Hl as (? & ? & ? & ->); by eexists).
    destruct (list_loaded inter fuel l s g Hok Hl Hld) as (r' & Hr & HL). rewrite Hr in He. injection He as <- <- <-. split; [done|]. split; [done|].
    destruct r' as [xs|e].
    - destruct HL as [HL HN]. split; [done|]. intros p x. rewrite HL. split.
      + intros (parts & -> & Hg & Hpk & Hi). split; [by apply wf_mpath|]. split; [intros; by apply look_peek|].
        destruct (peek_some _ _ _ _ Hok HlS Hpk) as [o Ho]. exists o. split; [done|]. intros Hno. by apply Hi, (node_iff _ _ _ Ho).
      + intros (Hp%mpath_wf & Hx & o & Ho & Hi). exists (p_parts p). specialize (Hx 0%nat g). apply look_loaded in Hx; [|done|done]. rewrite wfp_all in Hx by done.
        destruct Hp as [Hp0 Hpg]. split_and!; try done; [destruct p; cbn in *; by rewrite Hp0|]. intros Hn%(node_iff _ _ _ Ho). by apply Hi.
    - destruct HL as (-> & parts & x & Hlen & Hpk & Hn). split; [done|]. destruct (peek_some _ _ _ _ Hok HlS Hpk) as [o Ho]. exists (PP [] parts), x, o.
      split_and!; try done.
      + apply wf_mpath, wf_pp. by eapply loaded_good.
      + intros; by apply look_peek.
      + by apply (node_iff _ _ _ Ho).
  Qed.

  Record dinv (s : pst) (l : loc) (m : pydict ppath loc) : Prop := {
    di_ok : heap_ok s;
    di_l : node_at (s_heap s) l;
    di_un : nodes_unshared (s_heap s) l;
    di_ld : loaded_tree (s_heap s) l;
    di_m : forall q x, dget m q = Some x -> wfp q /\ ~ In root_record_name (all_parts q) /\ peek (s_heap s) l (all_parts q ++ [root_record_name]) = Some (Some x) /\ record_at (s_heap s) x;
    di_back : forall parts x, peek (s_heap s) l parts = Some (Some x) ->
      (node_at (s_heap s) x /\ ~ In root_record_name parts) \/ (exists q, parts = all_parts q ++ [root_record_name] /\ dget m q = Some x);
    di_keys : NoDup (dkeys m);
    di_way : forall parts x, peek (s_heap s) l parts = Some (Some x) -> node_at (s_heap s) x -> parts = [] \/ exists q y z, dget m q = Some y /\ all_parts q = parts ++ z
  }.
  Lemma node_some h l : node_at h l -> is_Some (h !! l).
  Proof. intros (? & ? & ? & ->). by eexists. Qed.
  Lemma record_node h x : record_at h x -> ~ node_at h x.
  Proof. intros (? & ? & ? & ? & ? & Hr & _) (? & ? & ? & Hn). congruence. Qed.
  Lemma record_loads s s' x : loads s s' -> record_at (s_heap s) x -> record_at (s_heap s') x.
  Proof. intros Hlo (hx & i & v & m & t & Hx & Hm). destruct (lo_obj _ _ Hlo x _ Hx) as (o' & Ho' & _ & Hsame). rewrite (Hsame Hm) in Ho'. by eexists _, _, _, _, _. Qed.
  Lemma dinv_step s s1 l m : good_step s s1 -> dinv s l m -> dinv s1 l m.
  Proof.
    intros Hgs [D1 D2 D3 D4 D5 D6 D7 D8]. pose proof (node_some _ _ D2) as HlS. pose proof (gs_loads _ _ Hgs) as Hlo.
    assert (Hpk : forall parts r, peek (s_heap s1) l parts = Some r -> peek (s_heap s) l parts = Some r).
    { intros parts r Hr. destruct (loaded_total s l parts D1 HlS D4) as [r' Hr']. rewrite Hr'. apply (loads_peek _ _ Hlo) in Hr'. congruence. }
    assert (Hnd : forall parts x, peek (s_heap s1) l parts = Some (Some x) -> node_at (s_heap s1) x -> node_at (s_heap s) x).
    { intros parts x Hx (hx & c & d & Hn). apply Hpk in Hx. destruct (peek_some _ _ _ _ D1 HlS Hx) as [[h0 b0] Ho]. destruct (lo_obj _ _ Hlo x _ Ho) as (o' & Ho' & Hk & _).
      rewrite Hn in Ho'. injection Ho' as <-. cbn in Hk. destruct b0; try done. by eexists _, _, _. }
    split; [apply Hgs|by eapply node_step|by apply (gs_nodes _ _ Hgs)| | | |done|intros parts x Hx Hn; apply (D8 parts x); [by apply Hpk|by eapply Hnd]].
    - apply loaded_alt. intros parts x Hx. pose proof (Hpk _ _ Hx) as Hx0. split; [by eapply loaded_good|]. intros hx c d Hn.
      destruct (Hnd parts x Hx) as (h0 & c0 & d0 & H0); [by eexists _, _, _|]. destruct (D4 parts x h0 c0 d0 (peek_reach _ _ _ _ Hx0) H0) as [Hm _].
      destruct (lo_obj _ _ Hlo x _ H0) as (o' & Ho' & _ & Hsame). rewrite (Hsame Hm) in Ho'. congruence.
    - intros q x Hq. destruct (D5 q x Hq) as (Q1 & Q2 & Q3 & Q4). split_and!; [done|done|by eapply loads_peek|by eapply record_loads].
    - intros parts x Hx. destruct (D6 parts x (Hpk _ _ Hx)) as [[Hn Hr]|Hq]; [left; split; [by eapply node_step|done]|by right].
  Qed.
  Lemma prefix_cases (a b : list pystr) : extends a b \/ (exists z, z <> [] /\ b = a ++ z) \/ (~ extends a b /\ ~ extends b a).
  Proof.
    revert b. induction a as [|x a IH]; intros [|y b]; [left; by exists []|right; left; by exists (y :: b)|left; by exists (x :: a)|].
    destruct (decide (x = y)) as [->|Hne].
    - destruct (IH b) as [[z ->]|[(z & Hz & ->)|[H1 H2]]]; [left; by exists z|right; left; by exists z|]. right; right. split; intros [z [= Hz]]; [apply H1|apply H2]; by exists z.
    - right; right. split; intros [z [= ? ?]]; congruence.
  Qed.
  Lemma dinv_add s s' l m p r : dinv s l m -> wfp p -> ~ In root_record_name (all_parts p) -> record_at (s_heap s) r -> dget m p = None ->
    added s s' l r (all_parts p ++ [root_record_name]) ->
    dinv s' l (dset m p r) /\ forall x, record_at (s_heap s) x -> record_at (s_heap s') x.
  Proof.
    intros [D1 D2 D3 D4 D5 D6 D7 D8] Hp Hnr Hr Hnone Had. pose proof (node_some _ _ D2) as HlS.
    assert (HrS : is_Some (s_heap s !! r)) by (destruct Hr as (? & ? & ? & ? & ? & -> & _); by eexists).
    pose proof Had as [_ _ _ A4 (pre0 & e0 & rest0 & N & x0 & c0 & d0 & y0 & _ & _ & E1 & E2 & _ & E3 & E4 & _)]. specialize (A4 D1 HrS).
    assert (Hrec : forall x, record_at (s_heap s) x -> record_at (s_heap s') x).
    { intros x Hx. pose proof (record_node _ _ Hx) as Hnn. destruct Hx as (hx & i & v & me & t & Hx & Hm). exists hx, i, v, me, t. split; [|done].
      rewrite E4; [done|apply (D1 x _ Hx)|]. intros ->. apply Hnn. by eexists _, _, _. }
    assert (Hnode : forall x, node_at (s_heap s) x -> node_at (s_heap s') x).
    { intros x (hx & c & d & Hx). destruct (decide (x = N)) as [->|Hne]; [by eexists _, _, _|]. exists hx, c, d. rewrite E4; [done|apply (D1 x _ Hx)|done]. }
    pose proof (added_nodes _ _ _ _ _ D1 HlS D3 Had HrS (record_node _ _ Hr)) as Hun.
    pose proof (added_self _ _ _ _ _ D1 HlS D3 Had) as Hself.
    set (T := all_parts p ++ [root_record_name]) in *.
    (* every path of the new tree *)
    assert (Hall : forall q x, peek (s_heap s') l q = Some (Some x) ->
       (q = T /\ x = r) \/ (exists z, z <> [] /\ T = q ++ z /\ exists hx c d, s_heap s' !! x = Some (Obj hx (BNode c d)) /\ h_mapped hx = true) \/
       (q <> T /\ peek (s_heap s) l q = Some (Some x))).
    { destruct (added_inv _ _ _ _ _ D1 HlS D3 Had) as (pre & e & rest & y & HT & B1 & B2 & B3 & B4 & B5). intros q x Hq.
      destruct (prefix_cases q (pre ++ [e])) as [[z ->]|Hne].
      - rewrite <- app_assoc in Hq. cbn [app] in Hq. apply B3 in Hq. destruct (chain_inv _ _ _ _ _ _ _ B1 Hq) as [(w & -> & Hw)|(w & Hw & -> & _ & Hn)].
        + left. destruct w as [|e1 w]; cbn [peek] in Hw.
          * injection Hw as <-. split; [|done]. rewrite HT, app_nil_r, <- app_assoc. done.
          * destruct (Hrec r Hr) as (? & ? & ? & ? & ? & Hr' & _). rewrite Hr' in Hw. done.
        + right; left. exists w. split; [done|]. split; [rewrite HT, <- !app_assoc; done|done].
      - assert (Hne' : ~ extends q (pre ++ [e])).
        { intros [z ->]. destruct Hne as [(z' & Hz' & Heq)|[Hx _]]; [|apply Hx; by eexists]. apply (f_equal length) in Heq. rewrite !app_length in Heq. destruct z'; [done|cbn in Heq; lia]. }
        right; right. split; [|by apply B4]. intros ->. apply Hne'. exists rest. rewrite HT, <- app_assoc. done. }
    assert (Hpre : forall q z, z <> [] -> T = q ++ z -> ~ In root_record_name q /\ good_names q).
    { intros q z Hz HT. destruct z as [|z1 z _] using rev_ind; [done|]. unfold T in HT. rewrite app_assoc in HT. apply app_inj_tail in HT as [HT _]. split.
      - intros Hin. apply Hnr. rewrite HT. apply in_or_app. by left.
      - rewrite wfp_all in HT by done. destruct Hp as [_ Hg]. rewrite HT in Hg. by apply List.Forall_app in Hg as [? _]. }
    split; [|done]. split; [done|by apply Hnode|done| | | |by apply dset_nodup|].
    - apply loaded_alt. intros q x Hq. destruct (Hall q x Hq) as [[-> ->]|[(z & Hz & HT & hx & c & d & Hx & Hm)|[Hne Hold]]].
      + split; [|intros hx c d Hx; exfalso; apply (record_node _ _ (Hrec r Hr)); by eexists _, _, _]. unfold T. apply List.Forall_app. split.
        * rewrite wfp_all by done. apply Hp.
        * apply List.Forall_cons; [apply res_good|apply List.Forall_nil].
      + split; [by eapply Hpre|]. intros hx' c' d' Hx'. congruence.
      + split; [by eapply loaded_good|]. intros hx c d Hx. destruct (decide (x = N)) as [->|HneN].
        * rewrite E3 in Hx. injection Hx as <- <- <-. done.
        * destruct (peek_some _ _ _ _ D1 HlS Hold) as [ox Hox]. rewrite E4 in Hx; [|apply (D1 x ox Hox)|done]. by apply (D4 q x hx c d (peek_reach _ _ _ _ Hold) Hx).
    - intros q x. rewrite dget_dset. destruct (decide (p = q)) as [<-|Hne]; [intros [= <-]; split_and!; try done; by apply Hrec|]. intros Hq.
      destruct (D5 q x Hq) as (Q1 & Q2 & Q3 & Q4). split_and!; try done; [|by apply Hrec].
      assert (HneT : all_parts q <> all_parts p) by (intros Heq; apply Hne; rewrite !wfp_all in Heq by done; symmetry; by apply wfp_eq).
      apply (added_other s s' l r T _ _ D1 HlS D3 Had); [| |done]; unfold T.
      + intros [z Hz]. destruct z as [|z1 z _] using rev_ind.
        * rewrite app_nil_r in Hz. apply app_inj_tail in Hz as [Hz _]. done.
        * rewrite app_assoc in Hz. apply app_inj_tail in Hz as [Hz _]. apply Q2. rewrite Hz. apply in_or_app. left. apply in_or_app. right. by left.
      + intros [z Hz]. destruct z as [|z1 z _] using rev_ind.
        * rewrite app_nil_r in Hz. apply app_inj_tail in Hz as [Hz _]. done.
        * rewrite app_assoc in Hz. apply app_inj_tail in Hz as [Hz _]. apply Hnr. rewrite Hz. apply in_or_app. left. apply in_or_app. right. by left.
    - intros q x Hq. destruct (Hall q x Hq) as [[-> ->]|[(z & Hz & HT & hx & c & d & Hx & Hm)|[Hne Hold]]].
      + right. exists p. by rewrite dget_dset_eq.
      + left. split; [by eexists _, _, _|]. by eapply Hpre.
      + destruct (D6 q x Hold) as [[Hn Hr']|(q' & -> & Hq')]; [left; split; [by apply Hnode|done]|]. right. exists q'. split; [done|]. rewrite dget_dset_ne; [done|]. intros ->. congruence.
    - intros q x Hq Hn. destruct (Hall q x Hq) as [[-> ->]|[(z & Hz & HT & _)|[Hne Hold]]].
      + exfalso. by apply (record_node _ _ (Hrec r Hr)).
      + right. destruct z as [|z1 z _] using rev_ind; [done|]. unfold T in HT. rewrite app_assoc in HT. apply app_inj_tail in HT as [HT _]. exists p, r, z. by rewrite dget_dset_eq.
      + destruct (D8 q x Hold) as [->|(q' & y & z & Hq' & Hz)]; [|by left|].
        * destruct (D6 q x Hold) as [[? _]|(q' & _ & Hq')]; [done|]. exfalso. destruct (D5 _ _ Hq') as (_ & _ & _ & Hrx). by apply (record_node _ _ (Hrec x Hrx)).
        * right. exists q', y, z. split; [|done]. rewrite dget_dset_ne; [done|]. intros ->. congruence.
  Qed.
  Lemma dinv_call fuel s l m p r g : dinv s l m -> is_metadata_path p -> ~ In root_record_name (all_parts p) -> record_at (s_heap s) r ->
    exists s', exec (add_dataset fuel l p r s) g = ((match dget m p with Some _ => Err ValueError | None => Ok tt end, s'), g) /\
      dinv s' l (record_dataset m (p, r)) /\ forall x, record_at (s_heap s) x -> record_at (s_heap s') x.
  Proof.
    intros HD Hp%mpath_wf Hnr Hr. pose proof HD as [D1 D2 D3 D4 D5 D6 D7 D8]. pose proof (node_some _ _ D2) as HlS.
    destruct (record_path_parts p Hp) as [HwT HT]. unfold add_dataset, add_child_at.
    destruct (loaded_total s l (all_parts (record_path p)) D1 HlS D4) as [v Hv].
    destruct (add_outcome (length (all_parts (record_path p))) fuel l r (record_path p) s g v D1 HwT) as [A1 A2]; [rewrite HT; by destruct (all_parts p)|done|done|done|].
    unfold record_dataset. cbn [fst snd]. destruct v as [x|].
    - rewrite HT in Hv. destruct (D6 _ _ Hv) as [[_ Hn]|(q & Hq & Hmq)]; [exfalso; apply Hn, in_or_app; right; by left|]. apply app_inj_tail in Hq as [Hq _].
      destruct (D5 _ _ Hmq) as (Q1 & _). assert (q = p) as -> by (rewrite !wfp_all in Hq by done; by apply wfp_eq). rewrite Hmq. exists s. split; [|done]. apply A1. by left.
    - assert (Hnone : dget m p = None). { destruct (dget m p) as [x|] eqn:E; [|done]. destruct (D5 _ _ E) as (_ & _ & Q3 & _). rewrite HT in Hv. congruence. }
      rewrite Hnone. destruct (A2 eq_refl) as [s' Hs'].
      + intros (q & z & x & Hq0 & Hz & Heq & Hx & Hnx). rewrite HT in Heq. destruct z as [|z1 z _] using rev_ind; [done|]. rewrite app_assoc in Heq. apply app_inj_tail in Heq as [Heq _].
        destruct (D6 _ _ Hx) as [[Hn _]|(q' & -> & _)]; [done|]. apply Hnr. rewrite Heq. apply in_or_app. left. apply in_or_app. right. by left.
      + exists s'. split; [done|]. apply add_run in Hs' as (s1 & Hgs & Had); [|done|done|done|done]. rewrite HT in Had.
        pose proof (dinv_step _ _ _ _ Hgs HD) as HD1.
        destruct (dinv_add s1 s' l m p r HD1 Hp Hnr) as [HD2 Hrec]; [by eapply record_loads; [apply Hgs|]|done|done|]. split; [done|].
        intros x Hx. apply Hrec. by eapply record_loads; [apply Hgs|].
  Qed.
  Lemma dinv_calls fuel l g calls : forall s m before, dinv s l m ->
    (forall p, p ∈ before <-> dget m p <> None) ->
    List.Forall (fun c => is_metadata_path (fst c) /\ ~ In root_record_name (all_parts (fst c)) /\ record_at (s_heap s) (snd c)) calls ->
    exists s', exec (add_datasets fuel l calls s) g = ((Ok (first_times before calls), s'), g) /\ dinv s' l (fold_left record_dataset calls m).
  Proof.
    induction calls as [|[p r] cs IH]; intros s m before HD Hb Hc; [by exists s|]. apply List.Forall_cons_iff in Hc as [(C1 & C2 & C3) Hc]. cbn [fst snd] in *.
    destruct (dinv_call fuel s l m p r g HD C1 C2 C3) as (s1 & He & HD1 & Hrec).
    cbn [add_datasets first_times fold_left]. rewrite x_bind, x_try, x_bind, He.
    destruct (IH s1 (record_dataset m (p, r)) (p :: before) HD1) as (s2 & He2 & HD2).
    - intros q. rewrite elem_of_cons, Hb. unfold record_dataset. cbn [fst snd]. destruct (dget m p) eqn:E.
      + split; [|by right]. intros [->|?]; [congruence|done].
      + rewrite dget_dset. case_decide; [subst; split; [done|by left]|]. split; [intros [?|?]; done|by right].
    - eapply Forall_impl; [exact Hc|]. intros c (? & ? & ?). split_and!; try done. by apply Hrec.
    - exists s2. split; [|done]. destruct (dget m p) as [x|] eqn:E; cbn beta iota; rewrite x_ret; cbn beta iota; rewrite x_bind, He2; cbn beta iota; rewrite x_ret; do 4 f_equal;
        symmetry; [apply negb_false_iff, bool_decide_eq_true; apply Hb; congruence|apply negb_true_iff, bool_decide_eq_false; rewrite Hb, E; tauto].
  Qed.
  Lemma dinv_new s l hx c : heap_ok s -> s_heap s !! l = Some (Obj hx (BNode c [])) -> h_mapped hx = true -> dinv s l [].
  Proof.
    intros Hok Hl Hm. assert (Hpk : forall q x, peek (s_heap s) l q = Some (Some x) -> q = [] /\ x = l).
    { intros [|e q] x; cbn [peek]; [by intros [= <-]|]. rewrite Hl. cbn [o_body o_hdr dget]. by rewrite Hm. }
    assert (Hn : node_at (s_heap s) l) by by eexists _, _, _.
    split; [done|done| | |done| |apply NoDup_nil_2|intros q x Hx _; left; by apply Hpk in Hx as [-> _]].
    - intros p q x Hp%reach_peek Hq%reach_peek _. apply Hpk in Hp as [-> _], Hq as [-> _]. done.
    - apply loaded_alt. intros q x Hx. apply Hpk in Hx as [-> ->]. split; [apply List.Forall_nil|]. congruence.
    - intros q x Hx. apply Hpk in Hx as [-> ->]. left. split; [done|]. by intros [].
  Qed.
  Lemma dinv_get s l m p v : dinv s l m -> wfp p -> ~ In root_record_name (all_parts p) -> peek (s_heap s) l (all_parts (record_path p)) = Some v -> v = dget m p.
  Proof.
    intros [D1 D2 D3 D4 D5 D6 D7 D8] Hp Hnr Hv. destruct (record_path_parts p Hp) as [HwT HT]. rewrite HT in Hv. destruct v as [x|].
    - destruct (D6 _ _ Hv) as [[_ Hn]|(q & Hq & Hmq)]; [exfalso; apply Hn, in_or_app; right; by left|]. apply app_inj_tail in Hq as [Hq _].
      destruct (D5 _ _ Hmq) as (Q1 & _). assert (q = p) as -> by (rewrite !wfp_all in Hq by done; by apply wfp_eq). done.
    - destruct (dget m p) as [x|] eqn:E; [|done]. destruct (D5 _ _ E) as (_ & _ & Q3 & _). congruence.
  Qed.
  Lemma rmap_total {A B : Type} (F : A -> res B) (G : A -> B) l : (forall x, In x l -> F x = Ok (G x)) -> rmap F l = Ok (map G l).
  Proof. induction l as [|a l IH]; intros Hf; [done|]. cbn. rewrite Hf by by left. cbn. rewrite IH by (intros; apply Hf; by right). done. Qed.
  Lemma C19_lemma fuel l hx c calls s g : heap_ok s -> s_heap s !! l = Some (Obj hx (BNode c [])) -> h_mapped hx = true ->
    List.Forall (fun cl => is_metadata_path (fst cl) /\ ~ In root_record_name (all_parts (fst cl)) /\ record_at (s_heap s) (snd cl)) calls ->
    exists s', exec (add_datasets fuel l calls s) g = ((Ok (first_times [] calls), s'), g) /\
    forall fuel2 g2,
      (forall p, is_metadata_path p -> ~ In root_record_name (all_parts p) ->
         exec (dataset_in fuel2 l p s') g2 = ((Ok (is_some (dget (datasets calls) p)), s'), g2) /\
         exec (get_metadata_root_record fuel2 l p s') g2 = ((Ok (dget (datasets calls) p), s'), g2)) /\
      exists r, exec (dataset_paths fuel2 l s') g2 = ((r, s'), g2) /\
        match r with
        | Ok xs => NoDup (map fst xs) /\ forall p x, In (p, x) xs <-> dget (datasets calls) p = Some x
        | Err e => e = RecursionError /\ (fuel2 = 0%nat \/ exists c, In c calls /\ (fuel2 <= length (all_parts (fst c)))%nat)
        end.
  Proof.
    intros Hok Hl Hm Hc. destruct (dinv_calls fuel l g calls s [] [] (dinv_new s l hx c Hok Hl Hm)) as (s' & He & HD); [intros p; split; [intros HH; by apply elem_of_nil in HH|done]|done|].
    exists s'. split; [done|]. intros fuel2 g2. fold (datasets calls) in HD. set (m := datasets calls) in *. pose proof HD as [D1 D2 D3 D4 D5 D6 D7 D8]. pose proof (node_some _ _ D2) as HlS.
    split.
    - intros p Hp%mpath_wf Hnr. destruct (loaded_total s' l (all_parts (record_path p)) D1 HlS D4) as [v Hv]. pose proof (dinv_get _ _ _ _ _ HD Hp Hnr Hv) as Hvm.
      pose proof (look_peek fuel2 l (record_path p) s' g2 v Hv) as Hlook. split.
      + unfold dataset_in. rewrite x_bind, Hlook. cbn beta iota. by rewrite x_ret, Hvm.
      + unfold get_metadata_root_record. rewrite x_bind, Hlook. cbn beta iota. destruct v as [x|]; [|by rewrite x_ret, Hvm].
        destruct (D5 _ _ (eq_sym Hvm)) as (_ & _ & _ & (h0 & i & ve & me & t & Hx & Hmx)). rewrite x_bind, x_getobj, Hx. cbn beta iota. cbn [o_body].
        rewrite x_bind, (x_mapped_noop _ _ _ _ _ Hx Hmx). cbn beta iota. by rewrite x_ret, Hvm.
    - unfold dataset_paths. rewrite x_bind. destruct (list_loaded false fuel2 l s' g2 D1 D2 D4) as (r & Hr & HL). rewrite Hr. destruct r as [xs|e]; cbn beta iota.
      + destruct HL as [HL HN].
        assert (Hxs : forall p x, In (p, x) xs <-> exists q, wfp q /\ p = PP [] (all_parts q ++ [root_record_name]) /\ dget m q = Some x).
        { intros p x. rewrite HL. split.
          - intros (parts & -> & Hg & Hpk & Hi). destruct (D6 _ _ Hpk) as [[Hn _]|(q & -> & Hq)]; [by specialize (Hi Hn)|]. exists q. split_and!; try done. apply (D5 _ _ Hq).
          - intros (q & Hq & -> & Hm'). destruct (D5 _ _ Hm') as (Q1 & Q2 & Q3 & Q4). eexists. split_and!; try done.
            + by eapply loaded_good.
            + intros Hn. exfalso. by eapply record_node. }
        set (G := fun px : ppath * loc => [(MetadataPath [AStr (join [slash] (removelast (all_parts (fst px))))], snd px)]).
        assert (HG : forall q x, wfp q -> G (PP [] (all_parts q ++ [root_record_name]), x) = [(q, x)]).
        { intros q x Hq. unfold G. cbn [fst snd]. assert (Hap : all_parts (PP [] (all_parts q ++ [root_record_name])) = all_parts q ++ [root_record_name]) by done.
          rewrite Hap, List.removelast_last. rewrite wfp_all by done. destruct (parts_again (p_parts q)) as [Ha Hb]; [apply Hq|].
          repeat f_equal. apply wfp_eq; [done|done|]. by rewrite wfp_all in Ha. }
        rewrite (rmap_total _ G).
        * cbn. eexists. split; [done|]. split.
          -- assert (Hmf : forall ys, (forall y, In y ys -> In y xs) -> NoDup (map fst ys) -> NoDup (map fst (concat (map G ys)))).
             { induction ys as [|[p x] ys IHy]; intros Hsub Hn; [apply NoDup_nil_2|]. cbn [map fst] in Hn. apply NoDup_cons in Hn as [Hn1 Hn2].
               destruct (proj1 (Hxs p x)) as (q & Hq & -> & Hmq); [apply Hsub; by left|]. cbn [map concat]. rewrite HG by done. cbn [app map fst]. apply NoDup_cons. split; [|apply IHy; [intros; apply Hsub; by right|done]].
               intros Hin%elem_of_list_In. apply in_map_iff in Hin as ([q' x'] & Hq' & Hin). cbn in Hq'. subst q'. apply In_concat in Hin as (zs & Hzs & Hin). apply in_map_iff in Hzs as ([p2 x2] & <- & Hin2).
               destruct (proj1 (Hxs p2 x2)) as (q2 & Hq2 & -> & Hmq2); [apply Hsub; by right|]. rewrite HG in Hin by done. destruct Hin as [[= -> ->]|[]].
               apply Hn1, elem_of_list_In, in_map_iff. by eexists (_, x'). }
             by apply Hmf.
          -- intros p x. rewrite In_concat. split.
             ++ intros (zs & Hzs & Hin). apply in_map_iff in Hzs as ([p2 x2] & <- & Hin2). apply Hxs in Hin2 as (q & Hq & -> & Hmq). rewrite HG in Hin by done. by destruct Hin as [[= <- <-]|[]].
             ++ intros Hpx. destruct (D5 _ _ Hpx) as (Q1 & _). exists [(p, x)]. split; [|by left]. rewrite <- HG by done. apply in_map. apply Hxs. by exists p.
        * intros [p x] Hin. apply Hxs in Hin as (q & Hq & -> & Hmq). unfold G. cbn [fst snd].
          assert (Hap : all_parts (PP [] (all_parts q ++ [root_record_name])) = all_parts q ++ [root_record_name]) by done. rewrite Hap.
          destruct (removelast_last (all_parts q) root_record_name) as [_ ->]. by rewrite bool_decide_true.
      + eexists. split; [done|]. destruct HL as (-> & parts & x & Hlen & Hpk & Hn). split; [done|].
        destruct (D8 _ _ Hpk Hn) as [->|(q & y & z & Hq & Hz)]; [by left|]. right.
        assert (Hin : In (q, y) calls).
        { clear - Hq. subst m. unfold datasets in Hq. assert (Hgen : forall cs m, dget (fold_left record_dataset cs m) q = Some y -> In (q, y) cs \/ dget m q = Some y).
          { induction cs as [|[p r] cs IH]; intros m Hd; [by right|]. cbn [fold_left] in Hd. apply IH in Hd as [Hd|Hd]; [left; by right|]. unfold record_dataset in Hd. cbn [fst snd] in Hd.
            destruct (dget m p) eqn:E; [by right|]. rewrite dget_dset in Hd. case_decide; [|by right]. subst. injection Hd as ->. left. by left. }
          by destruct (Hgen _ _ Hq) as [?|?]. }
        exists (q, y). split; [done|]. cbn [fst]. rewrite Hz, app_length. lia.
  Qed.
End Dataset.
