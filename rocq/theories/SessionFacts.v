(** Sessions on one file tree. *)
From Verif Require Import Base BaseFacts Path Spec_Path PathFacts Json Refs RefsFacts Meta Spec_Meta MetaFacts GitText Spec_Git Git Spec_Store State BlobCache ObjRef Objects Spec_Objects Spec_Look Spec_Heap Spec_Versions Spec_Write ExecFacts LoadFacts PeekFacts TreeFacts TreeEditFacts VersionFacts LookFacts ReadFacts Spec_Content ContentFacts WriteFacts StoreFacts SaveFacts WriteBackFacts WriteAllFacts ReadBackFacts PurgeFacts EditFacts RealmFacts GraftFacts AddFacts ListFacts Spec_Session.

(** ** Contents of maps *)
Lemma map_KName_inj (p q : list pystr) : map KName p = map KName q -> p = q.
Proof. revert q. induction p as [|a p IH]; intros [|b q] E; try done. cbn in E. injection E as -> E. by rewrite (IH q E). Qed.
Lemma ext_KName (p q : list pystr) : extends (map KName p) (map KName q) <-> extends p q.
Proof.
  split.
  - revert p. induction q as [|b q IH]; intros p [z E]; [by exists p|]. destruct p as [|a p]; [done|]. cbn in E. injection E as -> E. destruct (IH p) as [z' ->]; [by exists z|]. by exists z'.
  - intros [z ->]. exists (map KName z). by rewrite map_app.
Qed.
Lemma ext_prefix (p : list pystr) q : extends (map KName p) q -> exists q', q = map KName q'.
Proof.
  revert p. induction q as [|k q IH]; intros p [z E]; [by exists []|]. destruct p as [|a p]; [done|]. cbn in E. injection E as <- E. destruct (IH p) as [q' ->]; [by exists z|]. by exists (a :: q').
Qed.
Section Shows.
  Context (f : gmap (list pystr) metadata) (c : content) (Hc : complete c) (Hs : shows f c).
  (** everything seen is a file or a directory of files *)
  Lemma sh_seen p lb : c p = Seen lb -> exists q, p = map KName q /\ ((exists m, f !! q = Some m /\ lb = LbMeta m) \/ (f !! q = None /\ is_dir f q /\ lb = LbNode LMeta)).
  Proof using Hc Hs.
    revert lb. induction p as [|k p IH] using rev_ind; intros lb Hl.
    - exists []. split; [done|]. pose proof (Hs []) as H0. destruct (f !! []) as [m|] eqn:E.
      + left. exists m. cbn in H0. rewrite H0 in Hl. by injection Hl as <-.
      + right. cbn in H0. destruct H0 as [[H1 H2]|[H1 _]]; [|by destruct H1; left]. rewrite H2 in Hl. by injection Hl as <-.
    - destruct (Hc p) as (_ & _ & C3). destruct (C3 k lb Hl) as (lb0 & H0 & Hp). destruct (IH lb0 H0) as (q & -> & Hq).
      assert (Hk : exists n, k = KName n). { destruct Hq as [(m & _ & ->)|(_ & _ & ->)]; destruct k; try done. eauto. }
      destruct Hk as [n ->]. exists (q ++ [n]). assert (E : map KName q ++ [KName n] = map KName (q ++ [n])) by by rewrite map_app. split; [done|]. rewrite E in Hl.
      pose proof (Hs (q ++ [n])) as H1. destruct (f !! (q ++ [n])) as [m|] eqn:Em.
      + left. exists m. rewrite H1 in Hl. by injection Hl as <-.
      + right. destruct H1 as [[H1 H2]|[_ H2]]; rewrite H2 in Hl; [|done]. by injection Hl as <-.
  Qed.
  Lemma sh_file q m : f !! q = Some m -> c (map KName q) = Seen (LbMeta m).
  Proof using Hs. intros E. pose proof (Hs q) as H0. by rewrite E in H0. Qed.
  (** no file is a directory *)
  Lemma sh_leaf q m q' m' : f !! q = Some m -> f !! q' = Some m' -> extends q' q -> q' = q.
  Proof using Hc Hs.
    intros E E' [z ->]. destruct z as [|n z] using rev_ind; [by rewrite app_nil_r|]. clear IHz. exfalso.
    rewrite app_assoc in E'. apply sh_file in E'. rewrite map_app in E'. cbn [map] in E'.
    assert (Hup : forall z lb, c (map KName q ++ z) = Seen lb -> z = []).
    { intros z0. induction z0 as [|k z0 IH] using rev_ind; [done|]. intros lb Hl. exfalso. rewrite app_assoc in Hl. destruct (Hc (map KName q ++ z0)) as (_ & _ & C3). destruct (C3 k lb Hl) as (lb0 & H0 & Hp).
      rewrite (IH _ H0), app_nil_r in H0. rewrite (sh_file _ _ E) in H0. injection H0 as <-. by destruct k. }
    rewrite map_app, <- app_assoc in E'. apply Hup in E'. by destruct (map KName z).
  Qed.
  Lemma sh_dir q : is_dir f q -> f !! [] = None -> c (map KName q) = Seen (LbNode LMeta).
  Proof using Hc Hs.
    intros Hd H0. pose proof (Hs q) as H1. destruct (f !! q) as [m|] eqn:E.
    - exfalso. destruct Hd as [->|(q' & m' & E' & He & Hn)]; [congruence|]. by apply Hn, (sh_leaf q m q' m').
    - by destruct H1 as [[_ ?]|[? _]].
  Qed.
  Lemma sh_root lb : c [] = Seen (LbNode lb) -> f !! [] = None.
  Proof using Hs. intros E. pose proof (Hs []) as H0. destruct (f !! []); [|done]. cbn in H0. congruence. Qed.
  Lemma sh_listable : (forall q m, f !! q = Some m -> Forall good_name q) -> f !! [] = None -> listable c.
  Proof using Hc Hs.
    intros Hg Hr. split.
    - intros p cl Hp Hn. destruct (sh_seen p _ Hp) as (q & -> & [(m & _ & ?)|(Hf & Hd & _)]); [done|]. destruct Hd as [->|(q' & m & E & [z ->] & Hz)]; [done|].
      destruct z as [|n z]; [by rewrite app_nil_r in Hz|]. exists (KName n). assert (E2 : map KName q ++ [KName n] = map KName (q ++ [n])) by by rewrite map_app. rewrite E2.
      destruct z as [|n2 z]; [eexists; by apply sh_file|]. exists (LbNode LMeta). apply sh_dir; [|done]. right. exists (q ++ n :: n2 :: z), m. split_and!; [done| |].
      + exists (n2 :: z). by rewrite <- app_assoc.
      + intros E3. apply app_inv_head in E3. done.
    - intros p n lb Hl. destruct (sh_seen _ _ Hl) as (q & Hq & Hd). assert (exists q0, q = q0 ++ [n]) as [q0 ->].
      { destruct q as [|x q _] using rev_ind; [by destruct p|]. rewrite map_app in Hq. apply app_inj_tail in Hq as [_ Hq]. cbn in Hq. injection Hq as <-. eauto. }
      assert (Hgn : Forall good_name (q0 ++ [n])).
      { destruct Hd as [(m & E & _)|(_ & [Hd|(q' & m & E & [z ->] & _)] & _)]; [by eapply Hg|by destruct q0|]. apply Hg in E. by apply List.Forall_app in E as [E _]. }
      apply List.Forall_app in Hgn as [_ Hgn]. apply List.Forall_cons_iff in Hgn as [Hgn _]. apply Hgn.
    - intros p i v Hp. destruct (sh_seen _ _ Hp) as (q & _ & [(m & _ & ?)|(_ & _ & ?)]); done.
  Qed.
  Lemma sh_deep n : (forall q m, f !! q = Some m -> (S (length q) < n)%nat) -> (1 < n)%nat -> ~ deep n c.
  Proof using Hc Hs.
    intros Hl H1 (p & lb & Hn & Hp). destruct (sh_seen _ _ Hp) as (q & -> & Hd). rewrite map_length in Hn. assert (Hq : (S (length q) < n)%nat); [|lia].
    destruct Hd as [(m & E & _)|(_ & [->|(q' & m & E & [z ->] & _)] & _)]; [by eapply Hl|cbn; lia|]. apply Hl in E. rewrite app_length in E. lia.
  Qed.
  (** a path is taken if something is there, or a file on the way *)
  Lemma sh_taken q : f !! [] = None -> q <> [] -> taken f q <-> exists p lb, extends (map KName q) p /\ p <> [] /\ c p = Seen lb /\ (p = map KName q \/ forall cl, lb <> LbNode cl).
  Proof using Hc Hs.
    intros Hr Hq. split.
    - intros [(q' & m & E & He)|Hd].
      + exists (map KName q'), (LbMeta m). split_and!; [by apply ext_KName| |by apply sh_file|by right]. intros E2. destruct q'; [congruence|done].
      + exists (map KName q), (LbNode LMeta). split_and!; [by exists []; rewrite app_nil_r|by destruct q|by apply sh_dir|by left].
    - intros (p & lb & He & Hp & Hl & Ho). destruct (sh_seen _ _ Hl) as (q' & -> & [(m & E & ->)|(E & Hd & ->)]).
      + left. exists q', m. split; [done|]. by apply ext_KName.
      + right. destruct Ho as [Ho|Ho]; [|by destruct (Ho LMeta)]. by apply map_KName_inj in Ho as ->.
  Qed.
  (** one more file *)
  Lemma sh_add q m c' : f !! [] = None -> q <> [] -> ~ taken f q ->
    (forall z, c' (map KName q ++ z) = match z with [] => Seen (LbMeta m) | _ => Absent end) ->
    (forall p, extends (map KName q) p -> p <> map KName q -> c' p = Seen (LbNode LMeta)) ->
    (forall p, ~ extends p (map KName q) -> (~ extends (map KName q) p \/ c p <> Absent) -> c' p = c p) ->
    shows (<[q := m]> f) c'.
  Proof using Hc Hs.
    intros Hr Hq Ht C1 C2 C3 p.
    assert (Hno : forall q' m', f !! q' = Some m' -> ~ extends q' q). { intros q' m' E He. apply Ht. right. right. exists q', m'. split_and!; try done. intros ->. apply Ht. left. exists q, m'. split; [done|]. by exists []; rewrite app_nil_r. }
    destruct (decide (p = q)) as [->|Hn].
    { rewrite lookup_insert. rewrite <- (app_nil_r (map KName q)), C1. done. }
    rewrite lookup_insert_ne by done. destruct (f !! p) as [mp|] eqn:E.
    - rewrite C3; [by apply sh_file| |right; by rewrite (sh_file _ _ E)]. rewrite ext_KName. by eapply Hno.
    - assert (HD : is_dir f p -> is_dir (<[q := m]> f) p).
      { intros [->|(q' & m' & E' & He & Hne)]; [by left|]. right. exists q', m'. split_and!; try done. rewrite lookup_insert_ne; [done|]. intros <-. apply Ht. left. exists q, m'. split; [done|]. by exists []; rewrite app_nil_r. }
      destruct (decide (extends q p)) as [Hqp|Hqp].
      + left. split; [right; exists q, m; by rewrite lookup_insert|]. apply C2; [by apply ext_KName|]. by intros ?%map_KName_inj.
      + destruct (decide (extends p q)) as [[z ->]|Hpq].
        * right. destruct z as [|n z]; [by rewrite app_nil_r in Hn|]. rewrite map_app, C1. split; [|done]. intros [Hd|(q' & m' & E' & [z' ->] & Hne)]; [by destruct q|].
          rewrite <- app_assoc in E'. rewrite lookup_insert_ne in E'; [apply Hno in E'; apply E'; by eexists|]. intros Eq. apply (f_equal length) in Eq. rewrite app_length in Eq. cbn in Eq. lia.
        * pose proof (Hs p) as H0. rewrite E in H0. rewrite C3; [|by rewrite ext_KName|left; by rewrite ext_KName]. destruct H0 as [[H0 ->]|[H0 ->]]; [left; auto|right]. split; [|done].
          intros [->|(q' & m' & E' & He & Hne)]; [by apply H0; left|]. destruct (decide (q' = q)) as [->|Hn2]; [done|]. rewrite lookup_insert_ne in E' by done. apply H0. right. eauto.
  Qed.
  (** another value for a file *)
  Lemma sh_update q m m' c' : f !! q = Some m -> c' (map KName q) = Seen (LbMeta m') -> (forall p, p <> map KName q -> c' p = c p) -> shows (<[q := m']> f) c'.
  Proof using Hc Hs.
    intros E C1 C2 p. destruct (decide (p = q)) as [->|Hn]; [by rewrite lookup_insert|]. rewrite lookup_insert_ne by done. rewrite C2 by by intros ?%map_KName_inj.
    assert (HD : forall x, is_dir f x <-> is_dir (<[q := m']> f) x).
    { intros x. split; (intros [->|(q' & v & E' & He & Hne)]; [by left|right]); destruct (decide (q' = q)) as [->|Hn2].
      - exists q, m'. split_and!; try done. apply lookup_insert.
      - exists q', v. split_and!; try done. by rewrite lookup_insert_ne.
      - exists q, m. done.
      - rewrite lookup_insert_ne in E' by done. eauto. }
    pose proof (Hs p) as H0. destruct (f !! p) as [v|]; [done|]. by rewrite <- !HD.
  Qed.
End Shows.
Lemma shows_ext f (c c' : content) : (forall p, c' p = c p) -> shows f c -> shows f c'.
Proof. intros He Hs p. specialize (Hs p). destruct (f !! p); by rewrite He. Qed.

(** ** Reading one metadata object *)
Section Session.
  Context `{Env}.
  Context (r : pystr) (Hrem : is_remote r = false) (Hr : r <> []) (fuel : nat) (Hfuel : (1 < fuel)%nat).

  Lemma meta_body o : kind_of (o_body o) = KdMeta -> exists m, o = Obj (o_hdr o) (BMeta m).
  Proof. destruct o as [h b]. cbn. destruct b; try done. eauto. Qed.
  Lemma load_meta g s x m : tidy (objs_of g r) r s x -> look (objs_of g r) (s_heap s) x [] = Seen (LbMeta m) ->
    exists b s' hx, exec (ensure_mapped fuel x s) g = ((Ok b, s'), g) /\ quiet (objs_of g r) r s s' /\ s_heap s' !! x = Some (Obj hx (BMeta m)) /\ h_mapped hx = true.
  Proof using All.
    intros HT Hl. destruct (tidy_root _ _ _ _ HT) as (o & Ho & Hh & Hlk). destruct (ensure_quiet r g Hrem Hr fuel s x o (td_heap _ _ _ _ HT) Ho Hh Hlk) as (b & s1 & o1 & Hx & HQ & Ho1 & Hm1 & Hk1).
    pose proof (look_kind _ _ _ _ _ Ho Hl) as Hk. cbn [label_kind] in Hk. rewrite <- Hk in Hk1. destruct (meta_body o1 Hk1) as [m1 E1]. destruct o1 as [hx b1]. cbn in E1. injection E1 as ->.
    exists b, s1, hx. assert (E : look (objs_of g r) (s_heap s1) x [] = Seen (LbMeta m)) by (rewrite <- Hl; eapply qu_look; [exact HQ|by eexists]). cbn [look] in E. rewrite Ho1 in E. cbn [o_hdr o_body] in *. rewrite Hm1 in E.
    cbn [label_of] in E. injection E as ->. done.
  Qed.
  Lemma read_meta g s x m : tidy (objs_of g r) r s x -> look (objs_of g r) (s_heap s) x [] = Seen (LbMeta m) ->
    exists s', exec (read_metadata fuel x s) g = ((Ok m, s'), g) /\ quiet (objs_of g r) r s s'.
  Proof using All.
    intros HT Hl. destruct (load_meta g s x m HT Hl) as (b & s1 & hx & Hx & HQ & Ho1 & Hm1). exists s1. split; [|done].
    unfold read_metadata. rewrite x_bind, Hx. cbn beta iota. rewrite x_bind, x_getobj, Ho1. cbn beta iota. cbn [o_body]. apply x_ret.
  Qed.

  (** ** The state between two calls *)
  Record holds (g : gstate) (s : pst) (l : loc) (f : files) (k : bool) : Prop := {
    ho_caches : caches_ok s;
    ho_cache : dget (s_caches s) r = None;
    ho_tidy : tidy (objs_of g r) r s l;
    ho_one : one_realm r (s_heap s) l;
    ho_node : exists hx d, s_heap s !! l = Some (Obj hx (BNode LMeta d));
    ho_shows : shows f (look (objs_of g r) (s_heap s) l);
    ho_paths : forall q m, f !! q = Some m -> q <> [] /\ Forall good_name q /\ (S (length q) < fuel)%nat;
    ho_flag : if k then all_saved r (s_heap s) l else dirty (s_heap s) l;
  }.
  Section Holds.
    Context (g : gstate) (s : pst) (l : loc) (f : files) (k : bool) (HH : holds g s l f k).
    Notation c := (look (objs_of g r) (s_heap s) l).
    Lemma ho_root : f !! [] = None.
    Proof using All. destruct (f !! []) eqn:E; [|done]. by destruct (ho_paths _ _ _ _ _ HH _ _ E). Qed.
    Lemma ho_complete : complete c.
    Proof using All. apply (td_complete _ _ _ _ (ho_tidy _ _ _ _ _ HH)). Qed.
    Lemma ho_listable : listable c.
    Proof using All. apply (sh_listable f); [apply ho_complete|apply HH| |apply ho_root]. intros q m E. by destruct (ho_paths _ _ _ _ _ HH _ _ E) as (_ & ? & _). Qed.
    Lemma ho_deep : ~ deep fuel c.
    Proof using All. apply (sh_deep f); [apply ho_complete|apply HH| |done]. intros q m E. by destruct (ho_paths _ _ _ _ _ HH _ _ E) as (_ & _ & ?). Qed.
    Lemma ho_home : home_mark r (s_heap s) l.
    Proof using All.
      intros o Ho Hm. pose proof (ho_flag _ _ _ _ _ HH) as Hf. destruct k; [by apply (Hf [] l o)|]. destruct Hf as (p & x & Hp & (ox & Hx & Hmx & _)).
      destruct p as [|y p]; [injection Hp as <-; congruence|]. cbn [reach] in Hp. rewrite Ho, Hm in Hp. done.
    Qed.
    Lemma ho_calm s' : calm (objs_of g r) r s s' -> holds g s' l f k.
    Proof using All.
      intros [(C1 & _) C2]. pose proof ho_listable as HLi. destruct HH as [H1 H2 H3 H4 (hx & d & H5) H6 H7 H8]. destruct (C2 l H3 H4) as [D1 D2 D3 D4 D5 D6]. split; try done.
      - unfold caches_ok. by rewrite C1.
      - by rewrite C1.
      - destruct (D4 _ H5) as (o' & Ho' & Hk). cbn in Hk. destruct (kind_node o' LMeta Hk) as [d' E]. rewrite E in Ho'. eauto.
      - eapply shows_ext; [|exact H6]. done.
      - destruct k; [|auto]. apply D5; [|done]. apply HLi.
    Qed.
    Lemma ho_quiet s' : quiet (objs_of g r) r s s' -> holds g s' l f k.
    Proof using All. intros HQ. by apply ho_calm, calm_quiet. Qed.
    (** a changed tree *)
    Lemma ho_changed s' f' : rest_same s s' -> tidy (objs_of g r) r s' l -> one_realm r (s_heap s') l -> look (objs_of g r) (s_heap s') l [] = Seen (LbNode LMeta) ->
      shows f' (look (objs_of g r) (s_heap s') l) -> (forall q m, f' !! q = Some m -> q <> [] /\ Forall good_name q /\ (S (length q) < fuel)%nat) -> dirty (s_heap s') l -> holds g s' l f' false.
    Proof using All.
      intros (C1 & _) H1 H2 H3 H4 H5 H6. split; try done.
      - unfold caches_ok. rewrite C1. apply HH.
      - rewrite C1. apply HH.
      - destruct (tidy_root _ _ _ _ H1) as (o & Ho & _). pose proof (look_kind _ _ _ _ _ Ho H3) as Hk. cbn in Hk. destruct (kind_node o LMeta (eq_sym Hk)) as [d E]. rewrite E in Ho. eauto.
    Qed.
  End Holds.

  (** ** The calls, one after the other *)
  Definition step_ok (g : gstate) (s : pst) (l : loc) (f : files) (k : bool) (cl : call) (a : res answer) (s' : pst) (g' : gstate) : Prop :=
    exists f' k', holds g' s' l f' k' /\ answers (objs_of g' r) cl f k a f' k' /\ objs_of g r ⊆ objs_of g' r.

  Lemma build_runs g s runs : forall m m', add_runs m runs = Ok m' ->
    exec (miter (metadata_add_run fuel (s_next s)) runs (grown s (fresh_obj (BMeta m)))) g = ((Ok tt, grown s (fresh_obj (BMeta m'))), g).
  Proof.
    induction runs as [|ru runs IH]; intros m m' E; cbn [add_runs miter] in *; [injection E as <-; apply x_ret|]. apply rbind_ok in E as (m1 & E1 & E).
    pose proof (gw_self s (BMeta m)) as Hx. rewrite x_bind. unfold metadata_add_run. rewrite x_bind, (x_mapped_noop _ _ _ _ _ Hx eq_refl). cbn beta iota.
    rewrite x_bind, (x_touch _ _ _ _ Hx). cbn beta iota. rewrite x_bind, x_getobj. cbn [s_heap with_heap]. rewrite heap_insert, decide_True by done. cbn beta iota. cbn [o_body fresh_obj].
    rewrite x_bind, x_res, E1. cbn beta iota. erewrite WriteFacts.x_set_body by (cbn [s_heap with_heap]; by rewrite heap_insert, decide_True). cbn beta iota. rewrite <- (IH m1 m' E). do 2 f_equal.
    unfold grown, with_heap, fresh_obj. cbn [s_heap s_next s_caches s_orefs s_legacy s_locks o_hdr]. by rewrite !heap_ins2.
  Qed.
  Lemma step_add g s l f k p runs a s' g' : holds g s l f k -> call_ok fuel (CAdd p runs) -> exec (call_on fuel r l (CAdd p runs) s) g = ((a, s'), g') -> step_ok g s l f k (CAdd p runs) a s' g'.
  Proof using All.
    intros HH (Hp & Hst & Hlen & Hrun) He. destruct (runs_inv runs Hrun) as (m & Hm & _). cbn [call_on] in He. rewrite x_bind in He. unfold new_metadata in He. rewrite TreeEditFacts.x_new in He. cbn beta iota in He.
    rewrite x_bind in He. change (PSt _ _ _ _ _ _) with (grown s (fresh_obj (BMeta []))) in He. rewrite (build_runs g s runs [] m Hm) in He. cbn beta iota in He.
    set (sg := grown s (fresh_obj (BMeta m))) in *. pose proof (mpath_wf _ Hp) as Hw.
    assert (Hok : heap_ok s) by apply (ho_tidy _ _ _ _ _ HH). assert (Hbt : built m) by (eapply add_runs_built; [apply built_empty|exact Hrun|exact Hm]).
    pose proof (gw_quiet (objs_of g r) r s (BMeta m) Hok eq_refl) as HQ. fold sg in HQ. pose proof (ho_quiet g s l f k HH sg HQ) as HG.
    destruct (decide (all_parts p = [])) as [E0|E0].
    { rewrite x_bind in He. unfold add_metadata, add_child_at in He. rewrite E0 in He. cbn [length add_child_at_n] in He. rewrite E0, x_raise in He. injection He as <- <- <-.
      exists f, k. split_and!; try done. exists m. split; [done|]. left. done. }
    destruct (ho_node _ _ _ _ _ HG) as (hx & d & Hl). assert (HS : is_Some (s_heap s !! l)) by (destruct (ho_node _ _ _ _ _ HH) as (? & ? & ->); by eexists).
    pose proof (gw_look (objs_of g r) s (BMeta m) eq_refl) as HLn. fold sg in HLn.
    destruct (add_at r g Hrem Hr (length (all_parts p)) fuel l l [] (s_next s) p sg LMeta hx d (LbMeta m)) as (res & s1 & Hx & Hres); try done; try apply HG.
    { by apply (gw_tidy (objs_of g r) r s (BMeta m) Hok eq_refl). }
    { by apply (gw_one r s (BMeta m)). }
    { by apply (gw_apart s (BMeta m) Hok eq_refl). }
    { apply (HLn []). }
    rewrite x_bind in He. unfold add_metadata, add_child_at in He. rewrite Hx in He. cbn [app] in Hres. pose proof (ho_root _ _ _ _ _ HG) as Hroot.
    pose proof (sh_taken f _ (ho_complete _ _ _ _ _ HG) (ho_shows _ _ _ _ _ HG) (all_parts p) Hroot E0) as HTk. destruct res as [[]|e]; cbn beta iota in He.
    - rewrite x_ret in He. injection He as <- <- <-. destruct Hres as [G1 G2 G3 G4 G5 G6 G7 G8 G9].
      assert (Hnt : ~ taken f (all_parts p)).
      { intros (p0 & lb & T1 & T2 & T3 & T4)%HTk. apply G4. exists p0, lb. split_and!; try done. by exists p0. }
      exists (<[all_parts p := m]> f), false. split_and!; [|exists m; split; [done|]; right; right; done|done].
      assert (E1 : map KName (all_parts p) <> []) by by destruct (all_parts p).
      apply (ho_changed _ _ _ _ _ HG); try done.
      + apply G6; [by exists []|by exists (map KName (all_parts p))|done].
      + apply (sh_add f _ (ho_complete _ _ _ _ _ HG) (ho_shows _ _ _ _ _ HG)); try done.
        * intros z. rewrite G5, HLn. done.
        * intros q. intros Q1 Q2. apply G6; [by exists q|done|done].
      + intros q m' Hq. destruct (decide (q = all_parts p)) as [->|Hn]; [|rewrite lookup_insert_ne in Hq by done; by eapply (ho_paths _ _ _ _ _ HG)]. split_and!; try done.
        rewrite wfp_all by done. apply Hw.
    - destruct Hres as (-> & HQ2 & (p0 & lb & T1 & T2 & T3 & T4 & T5)). injection He as <- <- <-. exists f, k. split_and!; [by eapply ho_quiet| |done]. exists m. split; [done|]. right. left. split_and!; try done.
      apply HTk. eauto 10.
  Qed.

  (** looking up a path *)
  Lemma get_at g s l f k p a s' g' : holds g s l f k -> exec (get_metadata fuel l p s) g = ((a, s'), g') ->
    g' = g /\ quiet (objs_of g r) r s s' /\
    match f !! all_parts p with
    | Some m => exists x hx, a = Ok (Some x) /\ reach (s_heap s') l (map KName (all_parts p)) = Some x /\ s_heap s' !! x = Some (Obj hx (BMeta m)) /\ h_mapped hx = true
    | None => (is_dir f (all_parts p) /\ a = Err AssertionError) \/ (~ is_dir f (all_parts p) /\ a = Ok None)
    end.
  Proof using All.
    intros HH He. pose proof (ho_tidy _ _ _ _ _ HH) as HT. pose proof (td_heap _ _ _ _ HT) as Hok.
    destruct (walk_quiet r g Hrem Hr fuel (all_parts p) s l HT) as (s1 & x & Hx & HQ & Hw). unfold get_metadata, get_object_at_path in He. rewrite x_bind, Hx in He. cbn beta iota in He.
    pose proof (ho_quiet _ _ _ _ _ HH s1 HQ) as HH1. pose proof (ho_shows _ _ _ _ _ HH (all_parts p)) as Hsh. destruct x as [x|].
    2:{ rewrite x_ret in He. injection He as <- <- <-. split_and!; try done. specialize (Hw []). rewrite app_nil_r in Hw. rewrite Hw in Hsh. destruct (f !! all_parts p); [done|]. destruct Hsh as [[_ ?]|[? _]]; [done|]. by right. }
    destruct Hw as [Hrx Hlx]. pose proof (tidy_reach _ _ _ _ _ _ (ho_tidy _ _ _ _ _ HH1) Hrx) as HTx. destruct (look_root _ _ _ _ HTx) as [lb Hlb]. specialize (Hlx []). rewrite app_nil_r, Hlb in Hlx.
    destruct (tidy_root _ _ _ _ HTx) as (o & Ho & _). rewrite x_bind, x_getobj, Ho in He. cbn beta iota in He. pose proof (look_kind _ _ _ _ _ Ho Hlb) as Hk. rewrite Hlx in Hsh.
    destruct (f !! all_parts p) as [m|].
    - injection Hsh as ->. cbn [label_kind] in Hk. destruct (meta_body o (eq_sym Hk)) as [m0 E]. destruct o as [h0 b0]. cbn in E. injection E as ->. cbn [o_body] in He.
      destruct (load_meta g s1 x m HTx Hlb) as (b & s2 & hx & Hx2 & HQ2 & Ho2 & Hm2). rewrite x_bind, Hx2 in He. cbn beta iota in He. rewrite x_ret in He. injection He as <- <- <-. split_and!; [done|by eapply qu_trans|].
      exists x, hx. split_and!; try done. eapply loads_reach; [apply (gs_loads _ _ (qu_good _ _ _ _ HQ2))|done].
    - destruct Hsh as [[Hd E]|[_ ?]]; [|done]. injection E as ->. cbn in Hk. destruct (kind_node o LMeta (eq_sym Hk)) as [d E]. destruct o as [h0 b0]. cbn in E. injection E as ->. cbn [o_body] in He. rewrite x_raise in He. injection He as <- <- <-.
      split_and!; try done. by left.
  Qed.
  Lemma step_get g s l f k p a s' g' : holds g s l f k -> exec (call_on fuel r l (CGet p) s) g = ((a, s'), g') -> step_ok g s l f k (CGet p) a s' g'.
  Proof using All.
    intros HH He. cbn [call_on] in He. rewrite x_bind in He. destruct (exec (get_metadata fuel l p s) g) as [[a1 s1] g1] eqn:E1. destruct (get_at _ _ _ _ _ _ _ _ _ HH E1) as (-> & HQ & Ha).
    pose proof (ho_quiet _ _ _ _ _ HH s1 HQ) as HH1. exists f, k. cbn [answers]. destruct (f !! all_parts p) as [m|].
    - destruct Ha as (x & hx & -> & Hrx & Hx & Hm). pose proof (tidy_reach _ _ _ _ _ _ (ho_tidy _ _ _ _ _ HH1) Hrx) as HTx.
      destruct (read_meta g s1 x m HTx) as (s2 & Hx2 & HQ2). { cbn [look]. rewrite Hx. cbn [o_hdr o_body]. by rewrite Hm. }
      rewrite x_bind, Hx2 in He. cbn beta iota in He. rewrite x_ret in He. injection He as <- <- <-. split_and!; try done. by eapply ho_quiet.
    - destruct Ha as [[Hd ->]|[Hd ->]]; cbn beta iota in He; [|rewrite x_ret in He]; injection He as <- <- <-; split_and!; try done; [left|right]; done.
  Qed.

  (** ** One more run *)
  Section EditMeta.
    Context (O : store) (s : pst) (l x : loc) (q : list pystr) (hx : hdr) (m m' : metadata).
    Context (HT : tidy O r s l) (H1 : one_realm r (s_heap s) l) (Hq : reach (s_heap s) l (map KName q) = Some x) (Hx : s_heap s !! x = Some (Obj hx (BMeta m))) (Hm : h_mapped hx = true) (Hb : built m').
    Local Notation o' := (Obj (hd_saved ∅ hx) (BMeta m')).
    Local Notation s' := (edited s x o').
    Lemma em_tidy : tidy O r s' l.
    Proof using All.
      refine (ed_tidy O r s l x (map KName q) (Obj hx (BMeta m)) o' None HT Hq Hx Hm _ _ _ _ _ _ _ _ _ _ _); try done. apply NoDup_nil_2.
    Qed.
    Lemma em_one : one_realm r (s_heap s') l.
    Proof using All.
      refine (ed_one O r s l x (map KName q) (Obj hx (BMeta m)) o' None HT Hq Hx Hm _ _ _ _ _ H1 _); try done.
    Qed.
    Lemma em_reach : reach (s_heap s') l (map KName q) = Some x.
    Proof using All.
      rewrite <- (app_nil_r (map KName q)). unfold edited. cbn [s_heap with_heap]. rewrite (up_reach_below (s_heap s) x o'); [done|done|]. intros p Hp. by apply (td_unshared _ _ _ _ HT p (map KName q) x).
    Qed.
    Lemma em_obj : s_heap s' !! x = Some o'.
    Proof using All. cbn [edited s_heap with_heap]. by rewrite heap_insert, decide_True. Qed.
    Lemma em_dirty : dirty (s_heap s') l.
    Proof using All. exists (map KName q), x. split; [apply em_reach|]. eexists. split; [apply em_obj|]. done. Qed.
    Lemma em_lastk : lastk (map KName q) = false.
    Proof using All. apply (lastk_names [] q). done. Qed.
    Lemma em_at : look O (s_heap s') l (map KName q) = Seen (LbMeta m').
    Proof using All. rewrite <- (app_nil_r (map KName q)). rewrite (reach_way O _ _ _ _ _ em_reach em_lastk). cbn [look]. rewrite em_obj. cbn [o_hdr o_body]. cbn. by rewrite Hm. Qed.
    Lemma em_off p : p <> map KName q -> look O (s_heap s') l p = look O (s_heap s) l p.
    Proof using All.
      intros Hn. destruct (decide (extends p (map KName q))) as [[[|k z] ->]|He].
      - by rewrite app_nil_r in Hn.
      - rewrite (reach_way O _ _ _ _ _ em_reach em_lastk), (reach_way O _ _ _ _ _ Hq em_lastk). cbn [look]. rewrite em_obj, Hx. cbn [o_hdr o_body]. cbn. by rewrite Hm.
      - unfold edited. cbn [s_heap with_heap]. apply (up_look_off (s_heap s) x o' O (map KName q)); try done. intros p' Hp. by apply (td_unshared _ _ _ _ HT p' (map KName q) x).
    Qed.
  End EditMeta.
  Lemma meta_run g s x hx m ru : s_heap s !! x = Some (Obj hx (BMeta m)) -> h_mapped hx = true ->
    exec (metadata_add_run fuel x ru s) g =
      (match add_extractor_run m ru with Ok m' => (Ok tt, edited s x (Obj (hd_saved ∅ hx) (BMeta m'))) | Err e => (Err e, edited s x (Obj (hd_saved ∅ hx) (BMeta m))) end, g).
  Proof.
    intros Hx Hm. unfold metadata_add_run. rewrite x_bind, (x_mapped_noop _ _ _ _ _ Hx Hm). cbn beta iota. rewrite x_bind, (x_touch _ _ _ _ Hx). cbn beta iota. cbn [o_hdr o_body].
    rewrite x_bind, x_getobj. cbn [s_heap with_heap]. rewrite heap_insert, decide_True by done. cbn beta iota. cbn [o_body]. rewrite x_bind, x_res. destruct (add_extractor_run m ru) as [m'|e]; cbn beta iota; [|done].
    erewrite WriteFacts.x_set_body by (cbn [s_heap with_heap]; by rewrite heap_insert, decide_True). cbn [o_hdr]. unfold edited, with_heap. cbn [s_heap s_next s_caches s_orefs s_legacy s_locks]. by rewrite heap_ins2.
  Qed.
  Lemma step_run g s l f k p ru a s' g' : holds g s l f k -> call_ok fuel (CRun p ru) -> exec (call_on fuel r l (CRun p ru) s) g = ((a, s'), g') -> step_ok g s l f k (CRun p ru) a s' g'.
  Proof using All.
    intros HH [Hp Hru] He. cbn [call_on] in He. rewrite x_bind in He. unfold filetree_add_run in He. rewrite x_bind, x_try in He. destruct (exec (get_metadata fuel l p s) g) as [[a1 s1] g1] eqn:E1.
    destruct (get_at _ _ _ _ _ _ _ _ _ HH E1) as (-> & HQ & Ha). pose proof (ho_quiet _ _ _ _ _ HH s1 HQ) as HH1. unfold step_ok. cbn [answers]. destruct (f !! all_parts p) as [m|] eqn:Ef.
    2:{ exists f, k. destruct Ha as [[Hd ->]|[Hd ->]]; cbn beta iota in He; rewrite x_raise in He; cbn beta iota in He; injection He as <- <- <-; (split; [done|]); (split; [|done]); (split; [done|]); [left|right]; done. }
    destruct Ha as (x & hx & -> & Hrx & Hx & Hm). cbn beta iota in He. rewrite (meta_run g s1 x hx m ru Hx Hm) in He.
    pose proof (ho_tidy _ _ _ _ _ HH1) as HT1. pose proof (ho_one _ _ _ _ _ HH1) as HO1.
    assert (Hbm : built m). { destruct (td_complete _ _ _ _ (ho_tidy _ _ _ _ _ HH) (map KName (all_parts p))) as (_ & Hb & _). apply (Hb (LbMeta m)). by apply (sh_file f _ (ho_shows _ _ _ _ _ HH)). }
    assert (Hne : all_parts p <> [] /\ Forall good_name (all_parts p) /\ (S (length (all_parts p)) < fuel)%nat) by by eapply (ho_paths _ _ _ _ _ HH).
    assert (HE : forall m', built m' -> holds g (edited s1 x (Obj (hd_saved ∅ hx) (BMeta m'))) l (<[all_parts p := m']> f) false).
    { intros m' Hb. apply (ho_changed _ _ _ _ _ HH1); try done.
      - by eapply em_tidy.
      - by eapply em_one.
      - rewrite (em_off _ s1 l x (all_parts p) hx m m' HT1 HO1 Hrx Hx Hm Hb); [|intros E; apply Hne; by destruct (all_parts p)]. destruct (ho_node _ _ _ _ _ HH1) as (h0 & d0 & H0). destruct (look_root _ _ _ _ HT1) as [lb Hlb].
        pose proof (look_kind _ _ _ _ _ H0 Hlb) as Hk. rewrite Hlb. destruct lb; cbn in Hk; try done. by injection Hk as ->.
      - apply (sh_update f _ (ho_complete _ _ _ _ _ HH1) (ho_shows _ _ _ _ _ HH1) _ m); [done| |].
        + by eapply em_at.
        + intros q Hq. by eapply em_off.
      - intros q m0 Hq. destruct (decide (q = all_parts p)) as [->|Hn]; [done|]. rewrite lookup_insert_ne in Hq by done. by eapply (ho_paths _ _ _ _ _ HH).
      - by eapply em_dirty. }
    destruct (add_extractor_run m ru) as [m'|e] eqn:Er; cbn beta iota in He; [rewrite x_ret in He|]; injection He as <- <- <-.
    - exists (<[all_parts p := m']> f), false. split_and!; try done. apply HE. by eapply built_run.
    - exists f, false. split_and!; try done. rewrite <- (insert_id f (all_parts p) m Ef) at 1. by apply HE.
  Qed.

  (** ** Listing *)
  Lemma read_all g (xs : list (ppath * loc)) : forall s (v : ppath * loc -> metadata),
    (forall px, In px xs -> tidy (objs_of g r) r s (snd px) /\ one_realm r (s_heap s) (snd px) /\ look (objs_of g r) (s_heap s) (snd px) [] = Seen (LbMeta (v px))) ->
    exists s', exec (mmap (fun px : ppath * loc => mlet m <- read_metadata fuel (snd px); mret (fst px, m)) xs s) g = ((Ok (map (fun px => (fst px, v px)) xs), s'), g) /\ calm (objs_of g r) r s s'.
  Proof using All.
    induction xs as [|px xs IH]; intros s v Hxs; cbn [mmap map]; [exists s; split; [apply x_ret|apply ca_refl]|].
    destruct (Hxs px) as (H1 & H2 & H3); [by left|]. destruct (read_meta g s (snd px) (v px) H1 H3) as (s1 & Hx & HQ). apply calm_quiet in HQ. rewrite x_bind, x_bind, Hx. cbn beta iota. rewrite x_ret. cbn beta iota.
    destruct (IH s1 v) as (s2 & Hx2 & HC2).
    - intros py Hy. destruct (Hxs py) as (A1 & A2 & A3); [by right|]. destruct (ca_old _ _ _ _ HQ (snd py) A1 A2) as [D1 D2 D3 _ _ _]. split_and!; try done. by rewrite D3.
    - exists s2. rewrite x_bind, Hx2. cbn beta iota. rewrite x_ret. split; [done|]. by eapply ca_trans.
  Qed.
  Lemma step_list g s l f k a s' g' : holds g s l f k -> exec (call_on fuel r l CList s) g = ((a, s'), g') -> step_ok g s l f k CList a s' g'.
  Proof using All.
    intros HH He. cbn [call_on] in He. rewrite x_bind in He. destruct (ho_node _ _ _ _ _ HH) as (hx & d & Hl).
    destruct (list_calm r g Hrem Hr false fuel s l hx LMeta d (ho_tidy _ _ _ _ _ HH) (ho_one _ _ _ _ _ HH) Hl (ho_listable _ _ _ _ _ HH) (ho_home _ _ _ _ _ HH)) as (res & s1 & Hx & HC & Hres).
    rewrite Hx in He. destruct res as [xs|e]; [|exfalso; destruct Hres as [_ Hd]; by apply (ho_deep _ _ _ _ _ HH)]. cbn beta iota in He. destruct Hres as [L1 L2 L3 L4].
    pose proof (sh_seen f _ (ho_complete _ _ _ _ _ HH) (ho_shows _ _ _ _ _ HH)) as HS.
    assert (Hf : forall px, In px xs -> exists m, f !! p_parts (fst px) = Some m).
    { intros px Hp. assert (Hin : In (p_parts (fst px)) (map (fun px => p_parts (fst px)) xs)) by (apply in_map_iff; by exists px). apply L3 in Hin as (lb & Hlb & Hsh).
      destruct (HS _ _ Hlb) as (q & Hq & [(m & Em & _)|(_ & _ & ->)]); [apply map_KName_inj in Hq as <-; eauto|]. destruct Hsh as [?|Hsh]; [done|by destruct (Hsh LMeta)]. }
    set (v := fun px : ppath * loc => match f !! p_parts (fst px) return metadata with Some m => m | None => [] end).
    destruct (read_all g xs s1 v) as (s2 & Hx2 & HC2).
    { intros px Hp. destruct (Hf px Hp) as [m Em]. destruct px as [p x]. cbn [fst snd] in *. destruct (L4 p x Hp) as (A & B & E). split_and!; try done. rewrite E, app_nil_r. rewrite (sh_file f _ (ho_shows _ _ _ _ _ HH) _ _ Em). subst v. cbv beta. cbn [fst]. by rewrite Em. }
    rewrite x_bind, Hx2 in He. cbn beta iota in He. rewrite x_ret in He. injection He as <- <- <-. exists f, k. split; [by eapply ho_calm, ca_trans|]. split; [|done]. split; [done|].
    exists (map (fun px => (fst px, v px)) xs). split; [done|]. rewrite List.Forall_forall in L1. split.
    - rewrite map_map. cbn [fst]. rewrite <- (map_map fst p_parts) in L2. by apply NoDup_fmap_1 in L2.
    - intros p m. rewrite in_map_iff. split.
      + intros ([p' x] & E & Hp). cbn [fst] in E. injection E as -> <-. pose proof (L1 _ Hp) as Hw. cbn [fst] in Hw. split; [by apply wf_mpath|]. rewrite wfp_all by done. destruct (Hf _ Hp) as [m Em]. subst v. cbv beta. cbn [fst] in *. by rewrite Em.
      + intros [Hp Em]. pose proof (mpath_wf _ Hp) as Hw. rewrite wfp_all in Em by done. assert (Hin : In (p_parts p) (map (fun px => p_parts (fst px)) xs)).
        { apply L3. exists (LbMeta m). split; [by apply (sh_file f _ (ho_shows _ _ _ _ _ HH))|]. by right. }
        apply in_map_iff in Hin as ([p' x] & E & Hin). cbn [fst] in E. assert (p' = p) as ->. { apply wfp_eq; [by apply (L1 _ Hin)|done|done]. } exists (p, x). split; [|done]. cbn [fst]. subst v. cbv beta. cbn [fst]. by rewrite Em.
  Qed.

  (** ** Writing and unloading *)
  Lemma names_reach O s p : forall l o x, tidy O r s l -> s_heap s !! l = Some o -> kind_of (o_body o) = KdNode LMeta \/ kind_of (o_body o) = KdMeta -> reach (s_heap s) l p = Some x -> exists q, p = map KName q.
  Proof using All.
    induction p as [|k p IH]; intros l o x HT Ho Hk Hp; [by exists []|]. cbn [reach] in Hp. rewrite Ho in Hp. destruct (h_mapped (o_hdr o)) eqn:Em; [|done]. destruct (dget (kids_of (o_body o)) k) as [y|] eqn:Ek; [|done].
    destruct o as [h0 b0]. cbn [o_body o_hdr] in *. destruct b0 as [m|t|c d|i v m t|b vs|us]; try (by destruct Hk). cbn [kind_of] in Hk. assert (c = LMeta) as -> by (destruct Hk as [[= ->]|?]; done).
    assert (exists n, k = KName n) as [n ->]. { pose proof (kids_fit _ _ _ Ek) as Hf. destruct k; try done. eauto. }
    destruct (tidy_kid_label _ _ _ _ _ _ _ HT Ho Em Ek eq_refl) as (oy & lb & Hy & _ & Hlk & Hpk). destruct (IH y oy x) as [q ->]; try done; [by eapply tidy_kid| |by exists (n :: q)].
    cbn [label_of part_ok o_body] in Hpk. destruct Hpk as [_ Hpk]. rewrite <- Hlk. destruct lb; try done; cbn; [by right|by left; subst].
  Qed.
  Lemma step_write g s l f k force a s' g' : holds g s l f k -> exec (call_on fuel r l (CWrite force) s) g = ((Ok a, s'), g') -> step_ok g s l f k (CWrite force) (Ok a) s' g'.
  Proof using All.
    intros HH He. cbn [call_on] in He. rewrite x_bind in He. destruct (exec (filetree_write_out fuel l (Some r) force s) g) as [[[ref|e] s1] g1] eqn:E1; cbn beta iota in He; [|done]. rewrite x_ret in He. injection He as <- <- <-.
    pose proof (writes_file_tree fuel l (Some r) force) as Hw. destruct (ho_node _ _ _ _ _ HH) as (hx & d & Hl). pose proof (ho_tidy _ _ _ _ _ HH) as HT.
    destruct (written_before r Hr _ _ _ _ _ _ _ _ _ Hw (ho_caches _ _ _ _ _ HH) (ho_cache _ _ _ _ _ HH) E1) as (HO & HC1 & HC2).
    destruct (written r Hr _ _ _ _ _ _ _ _ _ _ Hw (ho_caches _ _ _ _ _ HH) (ho_cache _ _ _ _ _ HH) HT Hl ltac:(done) E1) as (W & (HT1 & HM & _) & HL & HST). cbn [o_body kind_of] in HST.
    pose proof (write_one_realm r Hr _ _ _ _ _ _ _ _ _ l Hw E1 (ho_one _ _ _ _ _ HH)) as HO1. pose proof (ho_shows _ _ _ _ _ HH) as HS. destruct (fr_get _ _ _ _ (proj1 W) Hl) as (o1 & Hl1 & (Hb1 & Hm1 & Hs1 & Hu1)). cbn [o_body] in Hb1.
    assert (Hl1' : exists hx1, s_heap s1 !! l = Some (Obj hx1 (BNode LMeta d))). { destruct o1 as [h1 b1]. cbn in Hb1. subst b1. eauto. }
    exists f, true. split; [split; try done|].
    - destruct Hl1' as [hx1 Hl1']. eauto.
    - eapply shows_ext; [|exact HS]. done.
    - apply (ho_paths _ _ _ _ _ HH).
    - intros p x o Hp Ho. destruct (HM p x o Hp Ho) as [Hi|[Hu (rf & Hrf & Hnr)]]; [done|]. destruct p as [|k0 p].
      + injection Hp as <-. assert (o = o1) as -> by congruence. rewrite Hm1 in Hu. cbn [o_hdr] in Hu. apply Hs1. cbn [o_hdr]. by apply (ho_home _ _ _ _ _ HH _ Hl).
      + pose proof (names_reach _ s1 (k0 :: p) l o1 x HT1 Hl1) as [q Hq]; [left; by rewrite Hb1|done|].
        apply (full_home r g1 s1 x); [by eapply tidy_reach| |done|done]. intros cl Hc. assert (Hlk : lastk (k0 :: p) = false) by (rewrite Hq; by apply (lastk_names [] q)).
        pose proof (li_full _ (ho_listable _ _ _ _ _ HH)) as Hfu. destruct (Hfu (k0 :: p) cl) as (k1 & lb & Hk1); [|done|].
        * rewrite <- HL, <- (app_nil_r (k0 :: p)). by rewrite (reach_way _ _ _ _ _ _ Hp Hlk).
        * exists k1, lb. rewrite <- HL in Hk1. by rewrite (reach_way _ _ _ _ _ _ Hp Hlk) in Hk1.
    - split; [|done]. cbn [answers]. split; [done|]. split; [done|]. exists ref. split; [done|]. split; [eapply complete_ext; [exact HST|apply (ho_complete _ _ _ _ _ HH)]|eapply shows_ext; [exact HST|done]].
  Qed.
  Lemma saved_clean h l : all_saved r h l -> ~ dirty h l.
  Proof. intros Hs (p & x & Hp & (o & Hx & _ & He)). pose proof (Hs p x o Hp Hx) as Hi. rewrite He in Hi. set_solver. Qed.
  Lemma step_purge g s l f k a s' g' : holds g s l f k -> exec (call_on fuel r l CPurge s) g = ((a, s'), g') -> step_ok g s l f k CPurge a s' g'.
  Proof using All.
    intros HH He. cbn [call_on] in He. rewrite x_bind in He. destruct (purge_calm (objs_of g r) r g Hr fuel s l (ho_tidy _ _ _ _ _ HH) (ho_one _ _ _ _ _ HH)) as (res & s1 & Hx & HC & Hres).
    rewrite Hx in He. pose proof (ho_flag _ _ _ _ _ HH) as Hf. pose proof (ho_calm _ _ _ _ _ HH s1 HC) as HH1. exists f, k. cbn [answers]. destruct res as [u|e]; cbn beta iota in He; [rewrite x_ret in He|]; injection He as <- <- <-.
    - split_and!; try done. destruct k; done.
    - split; [done|]. split; [|done]. split; [done|]. destruct Hres as [[-> Hd]|[(_ & p & i & v & Hp & _)|[_ Hd]]].
      + destruct k; [exfalso; by eapply saved_clean|done].
      + exfalso. destruct (sh_seen f _ (ho_complete _ _ _ _ _ HH) (ho_shows _ _ _ _ _ HH) _ _ Hp) as (q & _ & [(m & _ & ?)|(_ & _ & ?)]); done.
      + exfalso. by apply (ho_deep _ _ _ _ _ HH).
  Qed.

  Lemma step_any g s l f k cl a s' g' : holds g s l f k -> call_ok fuel cl -> exec (answer_of fuel r l cl s) g = ((Ok a, s'), g') -> step_ok g s l f k cl a s' g'.
  Proof using All.
    intros HH Hok He.
    assert (HG : (forall a, exec (call_on fuel r l cl s) g = ((a, s'), g') -> step_ok g s l f k cl a s' g') ->
      exec (mtry (mlet a <- call_on fuel r l cl; mret (Ok a)) (fun e => mret (Err e)) s) g = ((Ok a, s'), g') -> step_ok g s l f k cl a s' g').
    { intros HG E. rewrite x_try, x_bind in E. destruct (exec (call_on fuel r l cl s) g) as [[[b|e] s1] g1] eqn:E1; cbn beta iota in E.
      - rewrite x_ret in E. cbn beta iota in E. injection E as <- <- <-. by apply HG.
      - rewrite x_ret in E. injection E as <- <- <-. by apply HG. }
    destruct cl as [p runs|p|p ru| |force|]; cbn [answer_of] in He.
    - apply HG; [|done]. intros b. by apply step_add.
    - apply HG; [|done]. intros b. by apply step_get.
    - apply HG; [|done]. intros b. by apply step_run.
    - apply HG; [|done]. intros b. by apply step_list.
    - rewrite x_bind in He. destruct (exec (call_on fuel r l (CWrite force) s) g) as [[[b|e] s1] g1] eqn:E1; cbn beta iota in He; [|done]. rewrite x_ret in He. injection He as <- <- <-. by apply step_write.
    - apply HG; [|done]. intros b. by apply step_purge.
  Qed.
  Lemma stored_mono O O' ref f : O ⊆ O' -> stored_as O ref f -> stored_as O' ref f.
  Proof. intros HO [Hc Hs]. assert (E : forall q, look_stored O' (KdNode LMeta) ref q = look_stored O (KdNode LMeta) ref q) by (intros q; apply look_stored_mono; [done|apply Hc]). split; [by eapply complete_ext|by eapply shows_ext]. Qed.
  Lemma answers_mono O O' cl f k a f' k' : O ⊆ O' -> answers O cl f k a f' k' -> answers O' cl f k a f' k'.
  Proof. intros HO. destruct cl; try done. cbn [answers]. intros (H1 & H2 & ref & H3 & H4). split_and!; try done. exists ref. split; [done|]. by eapply stored_mono. Qed.
  Lemma session_holds cs : forall g s l f k aa s' g', holds g s l f k -> Forall (call_ok fuel) cs -> exec (session fuel r l cs s) g = ((Ok aa, s'), g') ->
    exists f' k', holds g' s' l f' k' /\ answers_all (objs_of g' r) cs f k aa f' k' /\ objs_of g r ⊆ objs_of g' r.
  Proof using All.
    induction cs as [|cl cs IH]; intros g s l f k aa s' g' HH Hok He; cbn [session] in He.
    - rewrite x_ret in He. injection He as <- <- <-. exists f, k. split_and!; try done. constructor.
    - apply List.Forall_cons_iff in Hok as [Hok1 Hok2]. rewrite x_bind in He. destruct (exec (answer_of fuel r l cl s) g) as [[[a|e] s1] g1] eqn:E1; cbn beta iota in He; [|done].
      rewrite x_bind in He. destruct (exec (session fuel r l cs s1) g1) as [[[ab|e] s2] g2] eqn:E2; cbn beta iota in He; [|done]. rewrite x_ret in He. injection He as <- <- <-.
      destruct (step_any _ _ _ _ _ _ _ _ _ HH Hok1 E1) as (f1 & k1 & HH1 & HA1 & HO1). destruct (IH _ _ _ _ _ _ _ _ HH1 Hok2 E2) as (f2 & k2 & HH2 & HA2 & HO2).
      exists f2, k2. split; [done|]. split; [|by etrans]. eapply all_cons; [|exact HA2]. by eapply answers_mono.
  Qed.

  (** ** The first state *)
  Lemma start_new s g : heap_ok s -> caches_ok s -> dget (s_caches s) r = None -> holds g (grown s (fresh_obj (BNode LMeta []))) (s_next s) ∅ false.
  Proof using All.
    intros Hok Hc Hn. pose proof (gw_look (objs_of g r) s (BNode LMeta []) eq_refl) as HL. split; try done.
    - by apply (gw_tidy (objs_of g r) r s (BNode LMeta []) Hok eq_refl).
    - by apply (gw_one r s (BNode LMeta []) eq_refl).
    - pose proof (gw_self s (BNode LMeta [])) as Hs. unfold fresh_obj in Hs at 2. eauto.
    - intros p. rewrite lookup_empty, HL. destruct p as [|n p]; cbn [map]; [left; split; [by left|done]|right; split; [|done]]. intros [?|(q & m & E & _)]; done.
    - exists [], (s_next s). split; [done|]. eexists. split; [apply gw_self|]. done.
  Qed.
  Lemma session_new cs s g aa s' g' : heap_ok s -> caches_ok s -> dget (s_caches s) r = None -> Forall (call_ok fuel) cs ->
    exec ((mlet l <- new_file_tree; session fuel r l cs) s) g = ((Ok aa, s'), g') ->
    exists f k, answers_all (objs_of g' r) cs ∅ false aa f k.
  Proof using All.
    intros Hok Hc Hn Hcs He. rewrite x_bind in He. unfold new_file_tree in He. rewrite TreeEditFacts.x_new in He. cbn beta iota in He. change (PSt _ _ _ _ _ _) with (grown s (fresh_obj (BNode LMeta []))) in He.
    destruct (session_holds cs _ _ _ _ _ _ _ _ (start_new s g Hok Hc Hn) Hcs He) as (f & k & _ & HA & _). eauto.
  Qed.
  Lemma start_stored s g ref f : heap_ok s -> caches_ok s -> dget (s_caches s) r = None -> stored_as (objs_of g r) ref f -> f <> ∅ ->
    (forall q m, f !! q = Some m -> Forall good_name q /\ (S (length q) < fuel)%nat) ->
    exists s1, exec (object_at (KdNode LMeta) r ref s) g = ((Ok (s_next s), s1), g) /\ holds g s1 (s_next s) f true.
  Proof using All.
    intros Hok Hc Hn [Hco Hsh] Hne Hf. unfold object_at. rewrite (ReadFacts.x_new r) by done. set (s1 := PSt _ _ _ _ _ _). exists s1. split; [done|].
    assert (Hx : s_heap s1 !! s_next s = Some (kid_obj r (KdNode LMeta, ref))) by (cbn [s1 s_heap]; by rewrite heap_insert, decide_True).
    assert (HT : tidy (objs_of g r) r s1 (s_next s)) by by eapply fresh_tidy.
    assert (HL : forall q, look (objs_of g r) (s_heap s1) (s_next s) q = look_stored (objs_of g r) (KdNode LMeta) ref q) by (intros q; cbn [s1 s_heap]; by rewrite fresh_look).
    assert (Hsh1 : shows f (look (objs_of g r) (s_heap s1) (s_next s))) by (eapply shows_ext; [exact HL|done]).
    destruct (look_root _ _ _ _ HT) as [lb Hlb]. pose proof (look_kind _ _ _ _ _ Hx Hlb) as Hk. assert (lb = LbNode LMeta) as -> by (destruct lb; cbn in Hk; try done; by injection Hk as ->).
    assert (Hroot : f !! [] = None). { destruct (f !! []) as [m|] eqn:E; [|done]. pose proof (Hsh1 []) as HS. rewrite E in HS. cbn [map] in HS. congruence. }
    assert (Hone : forall p x, reach (s_heap s1) (s_next s) p = Some x -> x = s_next s). { intros [|k p] x; [by intros [= <-]|]. cbn [reach]. by rewrite Hx. }
    assert (Hhm : r ∈ h_saved (kid_hdr r ref)).
    { apply (full_home r g s1 (s_next s) HT) with (o := kid_obj r (KdNode LMeta, ref)); try done. intros cl _. destruct (map_choose f Hne) as (q & m & E). destruct q as [|n q]; [congruence|].
      assert (Hd : is_dir f [n] \/ exists m, f !! [n] = Some m) by (destruct q as [|n2 q]; [eauto|left; right; exists (n :: n2 :: q), m; split_and!; [done|by exists (n2 :: q)|done]]).
      exists (KName n). destruct Hd as [Hd|[m2 E2]]; [exists (LbNode LMeta); by apply (sh_dir f _ (td_complete _ _ _ _ HT) Hsh1 [n] Hd Hroot)|exists (LbMeta m2); by apply (sh_file f _ Hsh1 [n])]. }
    split; try done.
    - intros p x o Hp Ho _. apply Hone in Hp as ->. rewrite Hx in Ho. injection Ho as <-. done.
    - exists (kid_hdr r ref), []. done.
    - intros q m E. destruct (Hf q m E) as [H1 H2]. split_and!; try done. intros ->. congruence.
    - intros p x o Hp Ho. apply Hone in Hp as ->. rewrite Hx in Ho. injection Ho as <-. done.
  Qed.
  Lemma session_stored cs s g O ref f aa s' g' : heap_ok s -> caches_ok s -> dget (s_caches s) r = None -> Forall (call_ok fuel) cs ->
    stored_as O ref f -> O ⊆ objs_of g r -> f <> ∅ -> (forall q m, f !! q = Some m -> Forall good_name q /\ (S (length q) < fuel)%nat) ->
    exec ((mlet l <- object_at (KdNode LMeta) r ref; session fuel r l cs) s) g = ((Ok aa, s'), g') ->
    exists f' k, answers_all (objs_of g' r) cs f true aa f' k.
  Proof using All.
    intros Hok Hc Hn Hcs Hst HO Hne Hf He. destruct (start_stored s g ref f Hok Hc Hn (stored_mono _ _ _ _ HO Hst) Hne Hf) as (s1 & Hx & HH). rewrite x_bind, Hx in He. cbn beta iota in He.
    destruct (session_holds cs _ _ _ _ _ _ _ _ HH Hcs He) as (f' & k & _ & HA & _). eauto.
  Qed.
End Session.
