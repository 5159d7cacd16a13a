(** Every write of a graph that can be written succeeds, unless two objects have
    the same id. *)
From Verif Require Import Base BaseFacts Path Json Spec_Json JsonFacts Refs RefsFacts Meta Spec_Meta MetaFacts GitText Spec_Git GitTextFacts Git GitFacts Spec_Store State BlobCache ObjRef Objects Spec_Look Spec_Heap Spec_Versions Spec_Write ExecFacts Spec_Cache CacheFacts WriteFacts LoadFacts PeekFacts TreeFacts VersionFacts LookFacts Spec_Content ContentFacts StoreFacts SaveFacts WriteBackFacts WriteAllFacts ReadBackFacts PurgeFacts Spec_Outcome RunOutFacts.

#[local] Hint Resolve calm_ret calm_raise calm_res calm_assert calm_get calm_getobj calm_setobj calm_execute calm_checked calm_first_line calm_save_str calm_save_tree calm_update calm_set_hdr calm_is_saved calm_own calm_loc_of calm_oref calm_dir_entry : held.
#[local] Hint Resolve held_cache_blob held_cache_realm held_flush_realm held_map_out_meta held_ref_step : held.
Lemma calm_tree_ref `{Env} x : calm (add_tree_reference x).
Proof. apply calm_oref. Qed.
Lemma calm_blob_ref `{Env} x : calm (add_blob_reference x).
Proof. apply calm_oref. Qed.
Lemma calm_save_json `{Env} x j : calm (git_save_json x j).
Proof. apply calm_save_str. Qed.
Lemma calm_saved `{Env} l x : calm (set_saved_on l x).
Proof. apply calm_set_hdr. Qed.
#[local] Hint Resolve calm_tree_ref calm_blob_ref calm_save_json calm_saved : held.
Ltac hold :=
  lazymatch goal with
  | |- forall _, _ => intros ?; hold
  | |- held _ (mbind _ _) => apply held_bind; hold
  | |- held _ (mmap _ _) => apply held_mmap; intros ? _; hold
  | |- held _ (miter _ _) => apply held_miter; intros ? _; hold
  | |- held _ (proxy_write_out _ _ _ _ _) => apply held_proxy; auto
  | |- held _ (if ?b then _ else _) => first [solve [auto with held] | destruct b; hold]
  | |- held _ (match ?b with _ => _ end) => first [solve [auto with held] | destruct b; hold]
  | |- _ => first [solve [auto with held] | apply calm_held; solve [auto with held]]
  end.

Lemma dumps_scalar j : json_ok j -> scalar_str (dumps j).
Proof. intros Hj. by apply ascii_scalar, dumps_ascii. Qed.
Lemma ref_scalar ref : ref_ok ref -> scalar_str (ref_to_json_str ref).
Proof. intros Hr. rewrite ref_to_eq. by apply dumps_scalar, ref_ok_json. Qed.

Lemma mrr_json u w mref fref : uuid_ok u -> scalar_str w -> ref_ok mref -> ref_ok fref -> json_ok (mrr_doc u w mref fref).
Proof.
  intros Hu Hw Hm Hf. apply json_ok_obj. split; [repeat constructor; set_solver|].
  jcons; [by apply uuid_scalar|]. jcons; [done|]. jcons; [by apply ref_ok_json|]. jcons; [by apply ref_ok_json|]. apply List.Forall_nil.
Qed.
Lemma record_json rr : scalar_str (fst (fst rr)) -> scalar_str (vr_time (snd (fst rr))) -> scalar_str (mp_as_posix (vr_path (snd (fst rr)))) -> ref_ok (snd rr) -> json_ok (assoc_doc rr).
Proof.
  intros H1 H2 H3 H4. apply json_ok_obj. split; [repeat constructor; set_solver|].
  jcons; [done|]. jcons; [done|]. jcons; [done|]. jcons; [by apply ref_ok_json|]. apply List.Forall_nil.
Qed.
Lemma none_ok c : scalar_str c -> ref_ok (get_none_reference c).
Proof. intros Hc. split; [by exists c|]. apply none_scalar. Qed.

Section Win.
  Context `{Env}.
  Context (r : pystr) (Hr : r <> []) (U : store) (Hloc : is_remote r = false).
  Implicit Types (s : pst) (g : gstate).
  Local Notation fits := (fits r U).
  Local Notation here := (here r).

  Definition flat (k : kd) : Prop := k = KdMeta \/ k = KdNode LMeta.
  Definition winner (rec : loc -> option pystr -> bool -> M pst reference) (n : nat) : Prop := forall x force s g ox,
    cok r s -> here g -> tidy U r s x -> s_heap s !! x = Some ox -> fit U r n (s_heap s) x -> uuids_given (look U (s_heap s) x) -> (uncached r s \/ flat (kind_of (o_body ox))) ->
    fits (rec x (Some r) force) s g -> wins (rec x (Some r) force) s g.

  Lemma wins_oref t x s g : wins (add_object_reference t x) s g.
  Proof. unfold wins, add_object_reference. destruct (decide _); by eexists _, _, _. Qed.
  Lemma wins_loc_of ref id s g : r_loc ref = Some id -> wins (loc_of ref) s g.
  Proof. intros Hl. unfold loc_of. rewrite Hl. by eexists _, _, _. Qed.
  Lemma wins_ref_step ref s g : cok r s -> here g -> (exists id, r_loc ref = Some id) -> fits (if is_none_reference ref then mret tt else mlet x <- loc_of ref; add_tree_reference x) s g ->
    wins (if is_none_reference ref then mret tt else mlet x <- loc_of ref; add_tree_reference x) s g.
  Proof.
    intros Hc Hh (id & Hid) HF. destruct (is_none_reference ref); [apply wins_ret|]. eapply (wins_bind r U Hloc); try done; [hold|hold|intros _; by eapply wins_loc_of|].
    intros x s1 g1 _ _ _ _ _. apply wins_oref.
  Qed.
  Lemma good_loc x ref s : good r U x ref s -> exists id, r_loc ref = Some id.
  Proof.
    intros Hg. destruct (tidy_root _ _ _ _ (proj1 Hg)) as (o & Ho & _). destruct (good_ref _ _ _ _ _ _ Hg Ho) as [(_ & _ & -> & _)|(_ & id & Hl & _)]; [by eexists|by exists id].
  Qed.
  Lemma wins_entries d s g : (forall nl, In nl d -> exists o rf, s_heap s !! (snd nl : loc) = Some o /\ h_ref (o_hdr o) = Some rf) -> wins (mmap dir_entry d) s g.
  Proof.
    induction d as [|nl d IH]; intros Hd; cbn [mmap]; [apply wins_ret|]. destruct (Hd nl (or_introl eq_refl)) as (o & rf & Ho & Hf).
    destruct IH as (es & s' & g' & He); [intros y Hy; apply Hd; by right|]. unfold wins. setoid_rewrite x_bind. unfold dir_entry at 1. setoid_rewrite x_bind. setoid_rewrite x_getobj. rewrite Ho, Hf. setoid_rewrite x_ret.
    setoid_rewrite x_bind. rewrite He. eexists _, _, _. by rewrite x_ret.
  Qed.
  Lemma handed_miter {A : Type} (F : A -> M pst unit) ls : forall s g, handed (miter F ls s) g = handed (mmap F ls s) g.
  Proof.
    induction ls as [|a ls IH]; intros s g; [done|]. cbn [mmap miter]. rewrite !handed_mbind. destruct (exec (F a s) g) as [[[u|e] s1] g1]; [|done].
    rewrite handed_mbind, IH. f_equal. destruct (exec (mmap F ls s1) g1) as [[[ys|e] s2] g2]; cbn; by rewrite app_nil_r.
  Qed.
  Lemma wins_miter {A : Type} (F : A -> M pst unit) ls s g : (fits (mmap F ls) s g -> wins (mmap F ls) s g) -> fits (miter F ls) s g -> wins (miter F ls) s g.
  Proof.
    intros HW HF. destruct HW as (us & s' & g' & E).
    - intros res s' g' E. rewrite <- handed_miter. pose proof (miter_mmap F ls s g) as HE. rewrite E in HE. destruct res; by eapply HF.
    - eexists _, _, _. by rewrite miter_mmap, E.
  Qed.
  Lemma entry_type s x ox t id o : tidy U r s x -> s_heap s !! x = Some ox -> agrees U (s_heap s) x (kind_of (o_body ox), ref_of t id) -> hex40 id -> U !! id = Some o ->
    obj_type o = match kind_of (o_body ox) with KdNode _ | KdUs => TTree | _ => TBlob end.
  Proof.
    intros HT Ho Ha Hx Hid. destruct (tidy_root _ _ _ _ HT) as (_ & _ & _ & Hb). specialize (Ha []). cbn [fst snd] in Ha. rewrite <- Ha in Hb. destruct (look_stored_ok _ _ _ _ Hb) as (tm & Hs). by eapply stored_type.
  Qed.
  Lemma wins_tree (es : list dentry) s g : here g -> es <> [] -> Forall dentry_ok es -> (forall e o, In e es -> U !! de_id e = Some o -> obj_type o = if de_dir e then TTree else TBlob) ->
    fits (git_save_tree_node r (map spec_fields es)) s g -> wins (git_save_tree_node r (map spec_fields es)) s g.
  Proof.
    intros Hh Hne Hok Ht HF. destruct (mktree_of_spec es Hne Hok) as (input & H1 & H2). eapply (wins_save_tree r U); try done.
    intros e o He Ho. assert (Hi : In e (map denc es)). { apply elem_of_list_In. apply elem_of_list_In in He. by rewrite sort_perm in He. }
    apply in_map_iff in Hi as (d & <- & Hd). rewrite (Ht d o Hd Ho). unfold denc. cbn [te_mode]. by destruct (de_dir d).
  Qed.
  Lemma loc_ok x rf s o : good r U x rf s -> s_heap s !! x = Some o -> (forall c, kind_of (o_body o) <> KdNode c) ->
    exists id, r_loc rf = Some id /\ hex40 id /\ agrees U (s_heap s) x (kind_of (o_body o), ref_of (type_name_of (empty_body (kind_of (o_body o)))) id).
  Proof. intros Hg Ho Hk. destruct (good_ref _ _ _ _ _ _ Hg Ho) as [(_ & (c & Hc) & _)|(_ & id & H1 & H2 & _ & H3)]; [by apply Hk in Hc|by exists id]. Qed.
  Lemma wins_get {A : Type} l o (f : obj -> M pst A) s g : s_heap s !! l = Some o -> (fits (f o) s g -> wins (f o) s g) -> fits (mbind (getobj l) f) s g -> wins (mbind (getobj l) f) s g.
  Proof.
    intros Ho HW HF. assert (E : exec (getobj l s) g = ((Ok o, s), g)) by by rewrite x_getobj, Ho. destruct HW as (a & s' & g' & Ea); [by eapply fits_snd|]. exists a, s', g'. by rewrite x_bind, E.
  Qed.
  Section Rec.
    Context (rec : loc -> option pystr -> bool -> M pst reference) (n : nat) (Hw : writes r U rec) (Hs : forall x b, svm r (rec x (Some r) b)) (Hd : forall x b, held r (rec x (Some r) b)) (HW : winner rec n).
    Lemma wins_proxy ft x force s g ox : cok r s -> here g -> tidy U r s x -> s_heap s !! x = Some ox -> fit U r n (s_heap s) x -> uuids_given (look U (s_heap s) x) ->
      uncached r s -> (ft = true -> kind_of (o_body ox) = KdNode LMeta) -> kind_of (o_body ox) <> KdVl true ->
      fits (proxy_write_out rec ft x (Some r) force) s g -> wins (proxy_write_out rec ft x (Some r) force) s g.
    Proof.
      intros Hc Hh HT Hx HF HU Hun Hft Hk Hfit. unfold proxy_write_out in *. assert (Hd' : or_else (Some r) (h_realm (o_hdr ox)) = Some r) by (unfold or_else; by destruct r).
      assert (HD : forall o : obj, or_else (Some r) (h_realm (o_hdr o)) = Some r) by (intros o; unfold or_else; by destruct r).
      eapply (wins_bind r U Hloc); [| | | |exact Hfit| |]; clear Hfit; try done; [hold|intros o; rewrite !HD; destruct ft; hold|intros _; unfold wins; setoid_rewrite x_getobj; rewrite Hx; by eexists _, _, _|].
      intros o s1 g1 E _ _ _ Hfit. apply xi_getobj in E as (Ho & <- & <-). rewrite !HD in Hfit |- *. assert (o = ox) as -> by congruence.
      eapply (wins_bind r U Hloc); [| | | |exact Hfit| |]; clear Hfit; try done; [destruct ft; hold|destruct ft; hold|intros _; destruct ft; [by apply wins_cache_realm|apply wins_ret]|].
      intros u s1 g1 E C1 H1 _ Hfit.
      assert (HE : s_heap s1 = s_heap s /\ s_next s1 = s_next s /\ (uncached r s1 \/ flat (kind_of (o_body ox))) /\ (ft = true -> ~ uncached r s1)).
      { destruct ft; [|apply xi_ret in E as (_ & <- & _); split_and!; [done|done|by left|done]]. apply cache_realm_inv in E as (_ & Hu1 & _ & A & B & _); [|done]. split_and!; try done. right. right. by apply Hft. }
      destruct HE as (A1 & B1 & Hf1 & Hu1).
      eapply (wins_bind r U Hloc); [| | | |exact Hfit| |]; clear Hfit; try done; [destruct ft; hold|intros HFr; apply (HW x force s1 g1 ox); try done; [by eapply tidy_heap|by rewrite A1|by rewrite A1|by rewrite A1]|].
      intros ref s2 g2 E2 C2 H2 HO2 Hfit. destruct (Hs x force _ _ _ _ _ C1 E2) as [_ Hu2].
      destruct (Hw x force s1 g1 ref s2 g2 ox) as [_ G]; [done|by eapply tidy_heap|by rewrite A1|done|done|done|]. pose proof (good_loc _ _ _ G) as Hid.
      eapply (wins_bind r U Hloc); [| | | |exact Hfit| |]; clear Hfit; try done; [destruct ft; hold|hold| |].
      - intros _. destruct ft; [|apply wins_ret]. eapply wins_flush; try done. rewrite <- Hu2. by apply Hu1.
      - intros u3 s3 g3 _ C3 H3 _ Hfit. eapply (wins_bind r U Hloc); [| | | |exact Hfit| |]; clear Hfit; try done; [hold|hold|intros HFr; by apply wins_ref_step|]. intros. apply wins_ret.
    Qed.

    Section Out.
      Context (l : loc) (s0 : pst) (o0 : obj) (HT0 : tidy U r s0 l) (Ho0 : s_heap s0 !! l = Some o0) (Hm0 : h_mapped (o_hdr o0) = true) (HF0 : fit U r (S n) (s_heap s0) l) (HU0 : uuids_given (look U (s_heap s0) l)).
      Context (Hun0 : uncached r s0 \/ flat (kind_of (o_body o0))).
      Local Notation kids := (kids_of (o_body o0)).
      Lemma kid_flat k x ox : kid_spec (o_body o0) k (kind_of (o_body ox)) -> uncached r x \/ flat (kind_of (o_body o0)) -> uncached r x \/ flat (kind_of (o_body ox)).
      Proof.
        intros Hk [Hu|Hf]; [by left|right]. destruct (o_body o0) as [m|t|c d|i v m t|kk vs|us], k; cbn [kid_spec] in Hk; try done; destruct Hf as [Hf|Hf]; try done. cbn [kind_of] in Hf. injection Hf as ->.
        destruct Hk as [_ [E|E]]; [by right|by left].
      Qed.
      Lemma kid_ready s D k x : kinv r U s0 o0 s D -> dget kids k = Some x ->
        exists ox, s_heap s !! x = Some ox /\ tidy U r s x /\ fit U r n (s_heap s) x /\ uuids_given (look U (s_heap s) x) /\ kid_spec (o_body o0) k (kind_of (o_body ox)) /\ kind_of (o_body ox) <> KdVl true.
      Proof.
        intros HI Hk. destruct (kid_at r U l s0 o0 HT0 Ho0 Hm0 s D k x HI Hk) as (ox & Hox & Hsp). exists ox. split_and!; try done.
        - by eapply ki_tidy.
        - eapply fit_frame; [apply HI|]. by eapply fit_kid.
        - intros Hus. exfalso. assert (Hkx : kind_of (o_body ox) = KdUs) by (by rewrite <- (look_kind _ _ _ _ _ Hox Hus)).
          rewrite Hkx in Hsp. destruct (o_body o0) as [| |c d| | |], k; cbn [kid_spec] in Hsp; try done; [by destruct Hsp as [_ [E|E]]; [|destruct c]|by destruct Hsp as (rc & _ & _ & _ & E); destruct (is_etree _)|by destruct Hsp].
        - intros E. rewrite E in Hsp. by apply kid_spec_tvl in Hsp.
      Qed.
      Lemma kid_wins k x b s D g : kinv r U s0 o0 s D -> dget kids k = Some x -> cok r s -> here g -> (uncached r s <-> uncached r s0) -> fits (rec x (Some r) b) s g -> wins (rec x (Some r) b) s g.
      Proof.
        intros HI Hk Hc Hh Hu Hfit. destruct (kid_ready s D k x HI Hk) as (ox & Hox & HT & HF & HU & Hsp & _). eapply HW; try done. eapply kid_flat; [done|]. by rewrite Hu.
      Qed.
      Lemma wins_loop {A B : Type} (F : A -> M pst B) (kof : A -> key) ls : (forall a, In a ls -> held r (F a)) -> (forall a, In a ls -> svm r (F a)) ->
        (forall a s D g b s' g', In a ls -> kinv r U s0 o0 s D -> cok r s -> completes r U s' g' -> exec (F a s) g = ((Ok b, s'), g') ->
          exists x ref, dget kids (kof a) = Some x /\ wfr s s' x /\ good r U x ref s') ->
        (forall a s D g, In a ls -> kinv r U s0 o0 s D -> cok r s -> here g -> (uncached r s <-> uncached r s0) -> fits (F a) s g -> wins (F a) s g) ->
        forall D s g, NoDup (map kof ls) -> (forall a, In a ls -> kof a ∉ map fst D) -> kinv r U s0 o0 s D -> cok r s -> here g -> (uncached r s <-> uncached r s0) ->
          fits (mmap F ls) s g -> wins (mmap F ls) s g.
      Proof.
        intros HH HS HF HWn. induction ls as [|a ls IH]; intros D s g Hnd Hfr HI Hc Hh Hu Hfit; cbn [mmap] in *; [apply wins_ret|].
        assert (Hls : held r (mmap F ls)) by (apply held_mmap; intros y Hy; apply HH; by right).
        eapply (wins_bind r U Hloc); [| | | |exact Hfit| |]; clear Hfit; try done; [apply HH; by left|intros b; apply held_bind; [done|hold]|intros HFr; by eapply HWn; [left| | | | |]|].
        intros b s1 g1 E1 C1 H1 HO1 Hfit. destruct (HF a s D g b s1 g1) as (x & ref & Hk & HW1 & HG); [by left|done|done|done|done|].
        assert (HI1 : kinv r U s0 o0 s1 ((kof a, ref) :: D)). { eapply (kinv_step r U l s0 o0 HT0 Ho0 Hm0); try done. apply Hfr. by left. }
        cbn [map] in Hnd. apply NoDup_cons in Hnd as [Hna Hnd]. destruct (HS a (or_introl eq_refl) _ _ _ _ _ Hc E1) as [_ Hu1].
        eapply (wins_bind r U Hloc); [| | | |exact Hfit| |]; clear Hfit; try done; [hold| |intros; apply wins_ret].
        intros HFr. eapply (IH (fun y Hy => HH y (or_intror Hy)) (fun y Hy => HS y (or_intror Hy)) (fun y s D g b s' g' Hy => HF y s D g b s' g' (or_intror Hy)) (fun y s D g Hy => HWn y s D g (or_intror Hy))); try done.
        - intros y Hy. cbn. apply not_elem_of_cons. split; [|apply Hfr; by right]. intros E. apply Hna. rewrite <- E. by apply elem_of_list_In, in_map.
        - by rewrite <- Hu1.
      Qed.

      Lemma win_meta m g : o_body o0 = BMeta m -> cok r s0 -> here g -> fits (map_out_meta m r) s0 g -> wins (map_out_meta m r) s0 g.
      Proof using All.
        intros Hb Hc Hh Hfit. unfold map_out_meta in *. pose proof (own_label r U l s0 o0 HT0 Ho0 Hm0) as Hl. rewrite Hb in Hl. cbn in Hl.
        assert (Hsm : scalar_str (meta_to_json m)) by (rewrite meta_to_eq; by apply dumps_scalar, meta_json_ok, built_ok).
        assert (Hsr : forall x, hex40 x -> scalar_str (ref_to_json_str (ref_of (ps "Metadata") x))) by (intros x Hx; apply ref_scalar; split; [eexists; split; [done|scl]|by apply hex40_scalar]).
        eapply (wins_bind r U Hloc); [| | | |exact Hfit| |]; clear Hfit; try done; [hold|hold|intros _; by eexists _, _, _|].
        intros cs s1 g1 E C1 H1 HO1 Hfit. apply xi_get in E as (-> & <- & <-). unfold dmem in *. destruct (dget (s_caches s0) r) as [c|] eqn:Ec; cbn [is_some] in *.
        - assert (Hu : ~ uncached r s0) by (unfold uncached; by rewrite Ec).
          eapply (wins_bind r U Hloc); [| | | |exact Hfit| |]; clear Hfit; try done; [hold|hold|intros _; by apply (wins_cache_blob r U)|].
          intros x s1 g1 E1 C2 H2 _ Hfit. apply cache_blob_inv in E1 as (_ & U1 & -> & _); [|done|done].
          eapply (wins_bind r U Hloc); [| | | |exact Hfit| |]; clear Hfit; try done; [hold|hold|intros _; apply wins_oref|].
          intros u s2 g2 E2 C3 H3 HO3 Hfit. pose proof (keep_svm r _ (keep_oref _ _) _ _ _ _ _ C2 E2) as [_ U2].
          eapply (wins_bind r U Hloc); [| | | |exact Hfit| |]; clear Hfit; try done; [hold|hold| |intros; apply wins_ret].
          intros _. apply (wins_cache_blob r U); try done; [by rewrite <- U2|]. apply Hsr, oid_hex.
        - eapply (wins_bind r U Hloc); [| | | |exact Hfit| |]; clear Hfit; try done; [hold|hold|intros HFr; by apply (wins_save_str r U)|].
          intros x s1 g1 E1 C2 H2 _ Hfit. apply saved_str in E1 as (-> & -> & _ & _).
          eapply (wins_bind r U Hloc); [| | | |exact Hfit| |]; clear Hfit; try done; [hold|hold|intros _; apply wins_oref|].
          intros u s2 g2 E2 C3 H3 HO3 Hfit.
          eapply (wins_bind r U Hloc); [| | | |exact Hfit| |]; clear Hfit; try done; [hold|hold| |intros; apply wins_ret].
          intros HFr. apply (wins_save_str r U); try done. apply Hsr, oid_hex.
      Qed.
      Lemma win_node c d g : o_body o0 = BNode c d -> d <> [] -> cok r s0 -> here g ->
        fits (miter (fun x => rec x (Some r) false ;;; mret tt) (dvals d) ;;; mlet es <- mmap dir_entry d; mlet x <- git_save_tree_node r es; mret (ref_of (ps "MTreeNode") x)) s0 g ->
        wins (miter (fun x => rec x (Some r) false ;;; mret tt) (dvals d) ;;; mlet es <- mmap dir_entry d; mlet x <- git_save_tree_node r es; mret (ref_of (ps "MTreeNode") x)) s0 g.
      Proof using All.
        intros Hb Hne Hc Hh Hfit. pose proof (kids_nodup r U l s0 o0 HT0 Ho0) as Hkn. pose proof Hkn as Hnd. rewrite Hb in Hnd. cbn [kids_of] in Hnd. unfold dkeys in Hnd. rewrite map_map in Hnd. cbn [fst] in Hnd.
        assert (Hdd : forall nl, In nl d -> dget kids (KName (fst nl)) = Some (snd nl)).
        { intros [nm x] Hin. apply In_dget; [done|]. rewrite Hb. cbn [kids_of]. apply in_map_iff. by exists (nm, x). }
        assert (HSf : forall a : pystr * loc, svm r (rec (snd a) (Some r) false ;;; mret tt)).
        { intros a. apply svm_bind; [apply Hs|]. intros _. apply keep_svm, keep_ret. }
        assert (HSh : forall a : pystr * loc, held r (rec (snd a) (Some r) false ;;; mret tt)) by hold.
        assert (HSm : svm r (mmap (fun a : pystr * loc => rec (snd a) (Some r) false ;;; mret tt) d)) by (apply svm_mmap; intros a _; apply HSf).
        assert (HKf : forall (a : pystr * loc) s D g0 b s' g', In a d -> kinv r U s0 o0 s D -> cok r s -> completes r U s' g' -> exec ((rec (snd a) (Some r) false ;;; mret tt) s) g0 = ((Ok b, s'), g') ->
          exists x ref, dget kids (KName (fst a)) = Some x /\ wfr s s' x /\ good r U x ref s' /\ True).
        { intros a s D g0 b s' g' Hin HI Hc' HO' He. apply xi_bind in He as (rf & s2 & g2 & E & He). apply xi_ret in He as (_ & <- & <-).
          destruct (kid_writes r U l s0 o0 HT0 Ho0 Hm0 rec (KName (fst a)) (snd a) false s D g0 rf s2 g2) as [W G]; try done; [by apply Hdd|]. exists (snd a), rf. split_and!; try done. by apply Hdd. }
        eapply (wins_bind r U Hloc); [| | | |exact Hfit| |]; clear Hfit; try done; [hold|hold| |].
        - apply wins_miter. unfold dvals. rewrite mmap_map. intros HFr.
          eapply (wins_loop _ (fun nl => KName (fst nl))) with (D := @nil (key * reference)); [| | | | | | | | | |exact HFr]; try done.
          + intros a s D g0 b s' g' Hin HI Hc' HO' He. destruct (HKf a s D g0 b s' g') as (x & rf & ? & ? & ? & _); try done. eauto.
          + intros a s D g0 Hin HI Hc' Hh' Hu' Hfit. eapply (wins_bind r U Hloc); [| | | |exact Hfit| |]; clear Hfit; try done; [hold| |intros; apply wins_ret]. intros HFk.
            eapply (kid_wins (KName (fst a))); try done. by apply Hdd.
          + intros a _ Hin. by apply elem_of_nil in Hin.
          + by apply (kinv_init r U l).
        - intros u s1 g1 E1 C1 H1 HO1 Hfit. rewrite miter_mmap in E1. unfold dvals in E1. rewrite mmap_map in E1. destruct (exec (mmap _ d s0) g) as [[[us|e] s1'] g1'] eqn:Em; [|done]. injection E1 as _ -> ->.
          destruct (kinv_loop r U l s0 o0 HT0 Ho0 Hm0 (fun a : pystr * loc => rec (snd a) (Some r) false ;;; mret tt) (fun nl => KName (fst nl)) (fun _ _ _ => True) d) with (D := @nil (key * reference)) (s := s0) (g := g) (bs := us) (s' := s1) (g' := g1)
            as (D & rs & HI & _ & Hlr & Hlu & HD); try done.
          { intros a _ Hin. by apply elem_of_nil in Hin. } { by apply (kinv_init r U l). }
          assert (Hent : forall nl, In nl d -> exists rf ox, good r U (snd nl) rf s1 /\ s_heap s1 !! snd nl = Some ox /\ storable_name (fst nl) /\ (kind_of (o_body ox) = KdNode c \/ kind_of (o_body ox) = leaf_kd c) /\ de_id (node_entry (s_heap s1) nl) = opt_text (r_loc rf)).
          { intros nl Hin. assert (HDin : exists rf, In (KName (fst nl), rf) D).
            { apply elem_of_list_In, elem_of_list_lookup in Hin as [i Hi]. pose proof (lookup_lt_Some _ _ _ Hi) as Hlt.
              destruct (lookup_lt_is_Some_2 us i) as [b Hb']; [lia|]. destruct (lookup_lt_is_Some_2 rs i) as [rf Hrf]; [lia|]. exists rf. by destruct (HD i nl b rf Hi Hb' Hrf). }
            destruct HDin as (rf & HinD). pose proof (Hdd nl Hin) as Hk0. destruct (kid_at r U l s0 o0 HT0 Ho0 Hm0 _ _ _ _ HI Hk0) as (ox & Hox & Hk). rewrite Hb in Hk. destruct Hk as [Hn Hk].
            exists rf, ox. split_and!; try done; [by eapply kid_refs|]. cbn [node_entry de_id]. by eapply kid_id. }
          assert (HF1 : fit U r (S n) (s_heap s1) l) by (eapply fit_frame; [apply HI|done]). pose proof (kinv_self r U l s0 o0 HT0 Ho0 Hm0 _ _ HI) as Ho1.
          assert (Hid : forall nl, In nl d -> exists ox id, s_heap s1 !! snd nl = Some ox /\ tidy U r s1 (snd nl) /\ hex40 id /\ de_id (node_entry (s_heap s1) nl) = id /\ (kind_of (o_body ox) = KdNode c \/ kind_of (o_body ox) = leaf_kd c) /\
            agrees U (s_heap s1) (snd nl) (kind_of (o_body ox), ref_of (type_name_of (empty_body (kind_of (o_body ox)))) id)).
          { intros nl Hin. destruct (Hent nl Hin) as (rf & ox & Hg & Hox & Hn & Hk & Hi). destruct (good_ref _ _ _ _ _ _ Hg Hox) as [(_ & (c' & Hc') & _ & Hho)|(_ & id & Hl & Hh' & _ & Ha)].
            - exfalso. pose proof Hho as (cc & El & _)%hollow_at_iff. eapply (fit_entry U r _ _ _ _ (fst nl) _ HF1 Ho1 Hm0); [by apply Hdd|done|exact El].
            - exists ox, id. split_and!; try done; [apply Hg|]. by rewrite Hi, Hl. }
          eapply (wins_bind r U Hloc); [| | | |exact Hfit| |]; clear Hfit; try done; [hold|hold| |].
          { intros _. apply wins_entries. intros nl Hin. destruct (Hent nl Hin) as (rf & ox & (_ & _ & o & Ho & Hf) & _). eauto. }
          intros es s2 g2 E2 C2 H2 HO2 Hfit. apply entries_run in E2 as (-> & -> & ->).
          eapply (wins_bind r U Hloc); [| | | |exact Hfit| |]; clear Hfit; try done; [hold|hold| |intros; apply wins_ret].
          rewrite <- (map_map (node_entry (s_heap s1)) spec_fields). apply wins_tree; try done.
          + by destruct d.
          + apply List.Forall_forall. intros e He. apply in_map_iff in He as (nl & <- & Hin). destruct (Hent nl Hin) as (rf & ox & _ & _ & Hn & _). destruct (Hid nl Hin) as (_ & id & _ & _ & Hx & Hi & _). split; [by rewrite Hi|done].
          + intros e o He Ho. apply in_map_iff in He as (nl & <- & Hin). destruct (Hid nl Hin) as (ox & id & Hox & HT & Hx & Hi & Hk & Ha). rewrite Hi in Ho. rewrite (entry_type _ _ _ _ _ _ HT Hox Ha Hx Ho).
            cbn [node_entry de_dir]. rewrite Hox. unfold is_node. destruct (o_body ox) as [| |c' d'| | |]; try done. cbn [kind_of] in Hk. destruct Hk as [Hk|Hk]; [done|by destruct c].
      Qed.
      Lemma kid_wins_proxy ft k x b s D g : kinv r U s0 o0 s D -> dget kids k = Some x -> cok r s -> here g -> uncached r s -> (ft = true -> k = KTree) ->
        fits (proxy_write_out rec ft x (Some r) b) s g -> wins (proxy_write_out rec ft x (Some r) b) s g.
      Proof using All.
        intros HI Hk Hc Hh Hu Hft Hfit. destruct (kid_ready s D k x HI Hk) as (ox & Hox & HT & HF & HU & Hsp & Hnt). eapply wins_proxy; try done. intros ->. rewrite (Hft eq_refl) in Hsp. by destruct (o_body o0).
      Qed.
      Lemma win_mrr i v m t force g : o_body o0 = BMrr i v m t -> cok r s0 -> here g -> fits (map_out rec l r force) s0 g -> wins (map_out rec l r force) s0 g.
      Proof using All.
        intros Hb Hc Hh Hfit. unfold map_out in *. eapply wins_get; [exact Ho0| |exact Hfit]. clear Hfit. intros Hfit. rewrite Hb in Hfit |- *.
        pose proof (own_label r U l s0 o0 HT0 Ho0 Hm0) as Hlb. rewrite Hb in Hlb. cbn in Hlb. destruct Hlb as [(uu & -> & Hu) (w & -> & Hwv)].
        assert (Hun : uncached r s0) by (destruct Hun0 as [?|[E|E]]; try done; by rewrite Hb in E).
        assert (Hdt : dget kids KTree = t). { rewrite Hb. cbn [kids_of]. rewrite dget_app. destruct m; cbn; rewrite ?decide_False by done; destruct t; cbn; by rewrite ?decide_True. }
        assert (Hdm : dget kids KMeta = m). { rewrite Hb. cbn [kids_of]. rewrite dget_app. destruct m; cbn; rewrite ?decide_True by done; [done|]. destruct t; cbn; by rewrite ?decide_False. }
        assert (HS1 : svm r (match t with None => mret (get_none_reference (ps "FileTree"))
            | Some y => mlet rf <- proxy_write_out rec true y (Some r) force; (if is_none_reference rf then mret tt else mlet x <- loc_of rf; add_tree_reference x) ;;; mret rf end)).
        { destruct t; [|apply keep_svm, keep_ret]. apply svm_bind; [by apply svm_proxy|]. intros y. apply svm_bind; [apply svm_ref_step|]. intros _. apply keep_svm, keep_ret. }
        assert (HS2 : svm r (match m with None => mret (get_none_reference (ps "Metadata"))
            | Some y => mlet rf <- rec y (Some r) force; mlet x <- loc_of rf; add_blob_reference x ;;; mret rf end)).
        { destruct m; [|apply keep_svm, keep_ret]. apply svm_bind; [apply Hs|]. intros y. apply keep_svm. apply keep_bind; [apply keep_loc_of|]. intros z. apply keep_bind; [apply keep_oref|]. intros _. apply keep_ret. }
        pose proof (kinv_init r U l s0 o0 HT0 Ho0 Hm0) as HI0.
        eapply (wins_bind r U Hloc); [| | | |exact Hfit| |]; clear Hfit; try done; [hold|hold| |].
        { destruct t as [y|]; [|intros _; apply wins_ret]. intros Hfit. eapply (wins_bind r U Hloc); [| | | |exact Hfit| |]; clear Hfit; try done; [hold|hold|intros HFr; by eapply (kid_wins_proxy true KTree)|].
          intros rf s1 g1 E1 C1 H1 HO1 Hfit. destruct (kid_writes r U l s0 o0 HT0 Ho0 Hm0 (proxy_write_out rec true) KTree y force s0 [] g rf s1 g1) as [_ G]; try done; [by apply writes_proxy|].
          eapply (wins_bind r U Hloc); [| | | |exact Hfit| |]; clear Hfit; try done; [hold|hold|intros HFr; apply wins_ref_step; try done; by eapply good_loc|]. intros. apply wins_ret. }
        intros fref s1 g1 E1 C1 H1 HO1 Hfit. destruct (HS1 _ _ _ _ _ Hc E1) as [_ Hu1].
        apply (tree_part r Hr U rec Hw Hs l s0 o0 HT0 Ho0 Hm0 t force s0 [] g fref s1 g1) in E1; [|intros; congruence|apply not_elem_of_nil|done|done|done].
        assert (HI1 : exists D, kinv r U s0 o0 s1 D /\ KMeta ∉ map fst D /\ (forall y, t = Some y -> In (KTree, fref) D) /\ (t = None -> fref = get_none_reference (ps "FileTree"))).
        { destruct t as [y|].
          - eexists. split_and!; [exact E1|cbn; set_solver|intros _ _; by left|done].
          - destruct E1 as [-> ->]. exists []. split_and!; [done|apply not_elem_of_nil|done|done]. }
        clear E1. destruct HI1 as (D1 & HI1 & Hn1 & Hin1 & Hno1).
        eapply (wins_bind r U Hloc); [| | | |exact Hfit| |]; clear Hfit; try done; [hold|hold| |].
        { destruct m as [y|]; [|intros _; apply wins_ret]. intros Hfit. eapply (wins_bind r U Hloc); [| | | |exact Hfit| |]; clear Hfit; try done; [hold|intros HFr; by eapply (kid_wins KMeta)|].
          intros rf s2 g2 E2 C2 H2 HO2 Hfit. destruct (kid_writes r U l s0 o0 HT0 Ho0 Hm0 rec KMeta y force s1 D1 g1 rf s2 g2) as [_ G]; try done. destruct (good_loc _ _ _ G) as [id Hid].
          eapply (wins_bind r U Hloc); [| | | |exact Hfit| |]; clear Hfit; try done; [hold|hold|intros _; by eapply wins_loc_of|]. intros x s3 g3 _ C3 H3 HO3 Hfit.
          eapply (wins_bind r U Hloc); [| | | |exact Hfit| |]; clear Hfit; try done; [hold|hold|intros _; apply wins_oref|]. intros. apply wins_ret. }
        intros mref s2 g2 E2 C2 H2 HO2 Hfit.
        apply (meta_part r U rec Hw Hs l s0 o0 HT0 Ho0 Hm0 m force s1 D1 g1 mref s2 g2) in E2; [|intros; congruence|done|done|done|done].
        assert (HI2 : exists D, kinv r U s0 o0 s2 D /\ (forall y, t = Some y -> In (KTree, fref) D) /\ (forall y, m = Some y -> In (KMeta, mref) D) /\ (m = None -> mref = get_none_reference (ps "Metadata"))).
        { destruct m as [y|].
          - eexists. split_and!; [exact E2|intros y' Hy; right; by eapply Hin1|intros _ _; by left|done].
          - destruct E2 as [-> ->]. exists D1. split_and!; done. }
        destruct HI2 as (D & HI & HinT & HinM & Hno2).
        assert (HrT : ref_ok fref). { destruct t as [y|]; [|rewrite Hno1 by done; apply none_ok; scl]. eapply (good_ref_ok U r y). by eapply kid_refs; [exact HI|eapply HinT|]. }
        assert (HrM : ref_ok mref). { destruct m as [y|]; [|rewrite Hno2 by done; apply none_ok; scl]. eapply (good_ref_ok U r y). by eapply kid_refs; [exact HI|eapply HinM|]. }
        eapply (wins_bind r U Hloc); [| | | |exact Hfit| |]; clear Hfit; try done; [hold|hold| |intros; apply wins_ret].
        intros HFr. apply (wins_save_str r U); try done. apply dumps_scalar. by apply mrr_json.
      Qed.
      Lemma win_vl k vs force g : o_body o0 = BVlist k vs -> cok r s0 -> here g -> fits (map_out rec l r force) s0 g -> wins (map_out rec l r force) s0 g.
      Proof using All.
        intros Hb Hc Hh Hfit. unfold map_out in *. eapply wins_get; [exact Ho0| |exact Hfit]. clear Hfit. intros Hfit. rewrite Hb in Hfit |- *.
        pose proof (own_label r U l s0 o0 HT0 Ho0 Hm0) as Hlb. rewrite Hb in Hlb. cbn in Hlb.
        assert (Hun : uncached r s0) by (destruct Hun0 as [?|[E|E]]; try done; by rewrite Hb in E).
        assert (Hwk : well_keyed vs). { apply (td_keyed _ _ _ _ HT0 [] l (o_hdr o0) k vs eq_refl). rewrite Ho0. destruct o0. cbn in *. by rewrite Hb. }
        pose proof (kids_records k vs Hwk) as Hkr. rewrite <- Hb in Hkr. pose proof (kids_nodup r U l s0 o0 HT0 Ho0) as Hkn.
        pose proof Hkn as Hnd. rewrite Hkr in Hnd. unfold dkeys in Hnd. rewrite map_map in Hnd. cbn [fst] in Hnd.
        assert (Hdd : forall a, In a (vs_records vs) -> dget kids (KVer (fst a) (vr_path (snd a))) = Some (elt_loc (vr_elt (snd a)))).
        { intros a Hin. apply In_dget; [done|]. rewrite Hkr. apply in_map_iff. by exists a. }
        match type of Hfit with RunOutFacts.fits _ _ (mbind (mmap ?f _) _) _ _ => set (F := f) in * end.
        assert (HSf : forall a, svm r (F a)).
        { intros a. unfold F. apply svm_bind; [destruct (vr_elt (snd a)); [by apply svm_proxy|apply Hs]|]. intros ?. apply keep_svm, keep_ret. }
        assert (HSh : forall a, held r (F a)) by (intros a; unfold F; hold).
        assert (HKf : forall a s D g0 b s' g', In a (vs_records vs) -> kinv r U s0 o0 s D -> cok r s -> completes r U s' g' -> exec (F a s) g0 = ((Ok b, s'), g') ->
          exists x ref, dget kids (KVer (fst a) (vr_path (snd a))) = Some x /\ wfr s s' x /\ good r U x ref s' /\ b = assoc_doc (a, ref)).
        { intros a s D g0 b s' g' Hin HI Hc' HO' He. unfold F in He. apply xi_bind in He as (rf & s2 & g2' & E & He). apply xi_ret in He as (<- & <- & <-).
          exists (elt_loc (vr_elt (snd a))), rf. rewrite (Hdd a Hin).
          assert (HWW : wfr s s2 (elt_loc (vr_elt (snd a))) /\ good r U (elt_loc (vr_elt (snd a))) rf s2); [|by destruct HWW].
          pose proof (Hdd a Hin) as Hd1. destruct (vr_elt (snd a)) as [y|y]; cbn [elt_loc] in *.
          - eapply (kid_writes r U l s0 o0 HT0 Ho0 Hm0 (proxy_write_out rec false)); try done. by apply writes_proxy.
          - eapply (kid_writes r U l s0 o0 HT0 Ho0 Hm0 rec); done. }
        eapply (wins_bind r U Hloc); [| | | |exact Hfit| |]; clear Hfit; try done; [apply held_mmap; intros; apply HSh|hold| |].
        - intros HFr. eapply (wins_loop F (fun a => KVer (fst a) (vr_path (snd a)))) with (D := @nil (key * reference)); [| | | | | | | | | |exact HFr]; try done.
          + intros a s D g0 b s' g' Hin HI Hc' HO' He. destruct (HKf a s D g0 b s' g') as (x & rf & ? & ? & ? & _); try done. eauto.
          + intros a s D g0 Hin HI Hc' Hh' Hu' Hfit. unfold F in *. eapply (wins_bind r U Hloc); [| | | |exact Hfit| |]; clear Hfit; try done; [hold|hold| |intros; apply wins_ret].
            pose proof (Hdd a Hin) as Hd1. destruct (vr_elt (snd a)) as [y|y]; cbn [elt_loc] in *; intros HFk.
            * eapply (kid_wins_proxy false); try done. by apply Hu'.
            * by eapply kid_wins.
          + intros a _ Hin. by apply elem_of_nil in Hin.
          + by apply (kinv_init r U l).
        - intros js s1 g1 E1 C1 H1 HO1 Hfit.
          destruct (kinv_loop r U l s0 o0 HT0 Ho0 Hm0 F (fun a => KVer (fst a) (vr_path (snd a))) (fun a b rf => b = assoc_doc (a, rf)) (vs_records vs)) with (D := @nil (key * reference)) (s := s0) (g := g) (bs := js) (s' := s1) (g' := g1)
            as (D & rs & HI & _ & Hlr & Hlu & HD); try done.
          { intros a _ Hin. by apply elem_of_nil in Hin. } { by apply (kinv_init r U l). }
          assert (Hj : json_ok (JArr js)).
          { apply json_ok_arr. apply List.Forall_forall. intros j Hj. apply elem_of_list_In, elem_of_list_lookup in Hj as [i Hi]. pose proof (lookup_lt_Some _ _ _ Hi) as Hlt.
            destruct (lookup_lt_is_Some_2 (vs_records vs) i) as [a Ha]; [lia|]. destruct (lookup_lt_is_Some_2 rs i) as [rf Hrf]; [lia|]. destruct (HD i a j rf Ha Hi Hrf) as [-> HinD].
            assert (Hin : In a (vs_records vs)) by (apply elem_of_list_In; by eapply elem_of_list_lookup_2).
            destruct (Hlb (fst a) (vr_path (snd a)) (vr_time (snd a)) (is_etree (vr_elt (snd a)))) as (L1 & L2 & L3 & L4); [apply in_map_iff; by exists a|].
            apply record_json; cbn [fst snd]; try done. eapply good_ref_ok, kid_refs; [exact HI|exact HinD|by apply Hdd]. }
          eapply (wins_bind r U Hloc); [| | | |exact Hfit| |]; clear Hfit; try done; [hold|hold|intros HFr; apply (wins_save_str r U); try done; by apply dumps_scalar|].
          intros x s2 g2 E2 C2 H2 HO2 Hfit. apply saved_str in E2 as (-> & -> & _ & P2).
          eapply (wins_bind r U Hloc); [| | | |exact Hfit| |]; clear Hfit; try done; [hold|hold| |intros; apply wins_ret].
          intros _. destruct k; [|apply wins_ret]. eapply wins_update; [done|apply oid_hex|exact P2].
      Qed.
      Lemma win_us us force g : o_body o0 = BUset us -> cok r s0 -> here g -> fits (map_out rec l r force) s0 g -> wins (map_out rec l r force) s0 g.
      Proof using All.
        intros Hb Hc Hh Hfit. unfold map_out in *. eapply wins_get; [exact Ho0| |exact Hfit]. clear Hfit. intros Hfit. rewrite Hb in Hfit |- *.
        assert (Hun : uncached r s0) by (destruct Hun0 as [?|[E|E]]; try done; by rewrite Hb in E).
        pose proof (kids_nodup r U l s0 o0 HT0 Ho0) as Hkn.
        assert (Hdd : forall a, In a us -> dget kids (KUuid (fst a)) = Some (snd a)).
        { intros [nm x] Hin. apply In_dget; [done|]. rewrite Hb. cbn [kids_of]. apply in_map_iff. by exists (nm, x). }
        pose proof Hkn as Hnd. rewrite Hb in Hnd. cbn [kids_of] in Hnd. unfold dkeys in Hnd. rewrite map_map in Hnd. cbn [fst] in Hnd.
        assert (Hne : us <> []).
        { intros ->. destruct HU0 as (k & lb & Hk). { cbn [look]. by rewrite Ho0, Hm0, Hb. } cbn [look] in Hk. by rewrite Ho0, Hm0, Hb in Hk. }
        match type of Hfit with RunOutFacts.fits _ _ (mbind (mmap ?f _) _) _ _ => set (F := f) in * end.
        assert (HSf : forall a, svm r (F a)).
        { intros a. unfold F. apply svm_bind; [apply Hs|]. intros ?. apply keep_svm. apply keep_bind; [apply keep_loc_of|]. intros ?. apply keep_ret. }
        assert (HSh : forall a, held r (F a)) by (intros a; unfold F; hold).
        assert (HKf : forall a s D g0 b s' g', In a us -> kinv r U s0 o0 s D -> cok r s -> completes r U s' g' -> exec (F a s) g0 = ((Ok b, s'), g') ->
          exists x ref, dget kids (KUuid (fst a)) = Some x /\ wfr s s' x /\ good r U x ref s' /\ exists id, r_loc ref = Some id /\ b = (ps "100644", ps "blob", id, uuid_str (fst a))).
        { intros a s D g0 b s' g' Hin HI Hc' HO' He. unfold F in He. apply xi_bind in He as (rf & s2 & g2' & E & He). apply xi_bind in He as (id & s4 & g4 & E4 & He). apply h_loc_of in E4 as (Hlo & -> & ->).
          apply xi_ret in He as (<- & <- & <-). exists (snd a), rf. rewrite (Hdd a Hin).
          assert (HWW : wfr s s2 (snd a) /\ good r U (snd a) rf s2) by (eapply (kid_writes r U l s0 o0 HT0 Ho0 Hm0 rec); try done; by apply Hdd). destruct HWW. split_and!; try done. by exists id. }
        eapply (wins_bind r U Hloc); [| | | |exact Hfit| |]; clear Hfit; try done; [apply held_mmap; intros; apply HSh|hold| |].
        - intros HFr. eapply (wins_loop F (fun a => KUuid (fst a))) with (D := @nil (key * reference)); [| | | | | | | | | |exact HFr]; try done.
          + intros a s D g0 b s' g' Hin HI Hc' HO' He. destruct (HKf a s D g0 b s' g') as (x & rf & ? & ? & ? & _); try done. eauto.
          + intros a s D g0 Hin HI Hc' Hh' Hu' Hfit. unfold F in *. eapply (wins_bind r U Hloc); [| | | |exact Hfit| |]; clear Hfit; try done; [hold|intros HFk; eapply kid_wins; try done; by apply Hdd|].
            intros rf s2 g2 E2 C2 H2 HO2 Hfit. destruct (kid_writes r U l s0 o0 HT0 Ho0 Hm0 rec (KUuid (fst a)) (snd a) false s D g0 rf s2 g2) as [_ G]; try done; [by apply Hdd|]. destruct (good_loc _ _ _ G) as [id Hid].
            eapply (wins_bind r U Hloc); [| | | |exact Hfit| |]; clear Hfit; try done; [hold|hold|intros _; by eapply wins_loc_of|]. intros. apply wins_ret.
          + intros a _ Hin. by apply elem_of_nil in Hin.
          + by apply (kinv_init r U l).
        - intros es s1 g1 E1 C1 H1 HO1 Hfit.
          destruct (kinv_loop r U l s0 o0 HT0 Ho0 Hm0 F (fun a => KUuid (fst a)) (fun a b rf => exists id, r_loc rf = Some id /\ b = (ps "100644", ps "blob", id, uuid_str (fst a))) us) with (D := @nil (key * reference)) (s := s0) (g := g) (bs := es) (s' := s1) (g' := g1)
            as (D & rs & HI & _ & Hlr & Hlu & HD); try done.
          { intros a _ Hin. by apply elem_of_nil in Hin. } { by apply (kinv_init r U l). }
          assert (Hes : forall e, In e es -> exists ui : uuid * pystr, e = spec_fields (uuid_entry ui) /\ dentry_ok (uuid_entry ui) /\ (forall o, U !! snd ui = Some o -> obj_type o = TBlob)).
          { intros e He. apply elem_of_list_In, elem_of_list_lookup in He as [i Hi]. pose proof (lookup_lt_Some _ _ _ Hi) as Hlt. unfold pydict in *.
            destruct (lookup_lt_is_Some_2 us i) as [a Ha]; [lia|]. destruct (lookup_lt_is_Some_2 rs i) as [rf Hrf]; [lia|]. destruct (HD i a e rf Ha Hi Hrf) as [(id & Hid & ->) HinD].
            assert (Hin : In a us) by (apply elem_of_list_In; by eapply elem_of_list_lookup_2). pose proof (Hdd a Hin) as Hd1.
            destruct (kid_at r U l s0 o0 HT0 Ho0 Hm0 _ _ _ _ HI Hd1) as (ox & Hox & Hk). rewrite Hb in Hk. destruct Hk as [Hu Hk].
            pose proof (kid_refs _ _ _ _ _ _ _ _ _ HI HinD Hd1) as Hg. destruct (loc_ok _ _ _ _ Hg Hox) as (id' & Hid' & Hx & Ha'); [by rewrite Hk|]. assert (id' = id) as -> by congruence.
            exists (fst a, id). split_and!.
            - unfold spec_fields, uuid_entry, dir_entry_fields. cbn [fst snd de_dir de_id de_name]. f_equal.
              unfold escape_double_quotes. assert (existsb (fun c : N => (c =? 34)%N) (uuid_str (fst a)) = false) as ->; [|done].
              apply not_true_is_false. intros Ex. apply existsb_exists in Ex as (c & Hcin & Ec). apply N.eqb_eq in Ec. subst c. apply uuid_plain in Hcin; [|done]. unfold lower_hex_digit in Hcin. lia.
            - split; [done|by apply uuid_name].
            - intros o Ho. cbn [snd] in Ho. rewrite (entry_type _ _ _ _ _ _ (proj1 Hg) Hox Ha' Hx Ho). by rewrite Hk. }
          assert (Hso : exists us', set_order _ es = map spec_fields (map uuid_entry us') /\ us' <> [] /\ forall ui, In ui us' -> dentry_ok (uuid_entry ui) /\ (forall o, U !! snd ui = Some o -> obj_type o = TBlob)).
          { assert (Hes' : forall e, In e (set_order _ es) -> In e es). { intros e. intros He%elem_of_list_In. apply elem_of_list_In. by rewrite (set_order_perm _ es) in He. }
            assert (Hne' : set_order _ es <> []). { intros E. pose proof (set_order_perm _ es) as Hp. rewrite E in Hp. apply Permutation_nil in Hp. rewrite Hp in Hlu. unfold pydict in *. by destruct us. }
            revert Hes' Hne'. generalize (set_order _ es). intros es'. induction es' as [|e es' IH]; intros Hes' Hne'; [done|]. destruct (Hes e) as (ui & -> & Hk & Ho); [apply Hes'; by left|].
            destruct es' as [|e' es']; [exists [ui]; split_and!; try done; by intros ? [<-|[]]|]. destruct IH as (us' & E & _ & Hus'); [intros y Hy; apply Hes'; by right|done|]. exists (ui :: us'). split_and!.
            - cbn [map]. by rewrite E.
            - done.
            - intros ui' [<-|Hin]; [done|by apply Hus']. }
          destruct Hso as (us' & Eso & Hne' & Hus').
          eapply (wins_bind r U Hloc); [| | | |exact Hfit| |]; clear Hfit; try done; [hold|hold| |].
          { rewrite Eso. apply wins_tree; try done.
            - by destruct us'.
            - apply List.Forall_forall. intros e He. apply in_map_iff in He as (ui & <- & Hin). by apply Hus'.
            - intros e o He Ho. apply in_map_iff in He as (ui & <- & Hin). cbn [uuid_entry de_dir de_id] in *. by apply (Hus' ui Hin). }
          intros x s2 g2 E2 C2 H2 HO2 Hfit. apply saved_tree in E2 as (-> & Ht & input & ts & _ & _ & P2).
          eapply (wins_bind r U Hloc); [| | | |exact Hfit| |]; clear Hfit; try done; [hold|hold|intros _; by eapply wins_update|intros; apply wins_ret].
      Qed.
      Lemma win_all force g : cok r s0 -> here g -> fits (map_out rec l r force) s0 g -> wins (map_out rec l r force) s0 g.
      Proof using All.
        intros Hc Hh Hfit. assert (exists b, o_body o0 = b) as [b Hb] by eauto. destruct b as [m|t|c d|i v m t|k vs|us].
        - unfold map_out in *. eapply wins_get; [exact Ho0| |exact Hfit]. rewrite Hb. by apply win_meta.
        - pose proof (own_label r U l s0 o0 HT0 Ho0 Hm0) as Hl. by rewrite Hb in Hl.
        - unfold map_out in *. eapply wins_get; [exact Ho0| |exact Hfit]. rewrite Hb. destruct d as [|nl d]; [intros _; apply wins_ret|]. by apply (win_node c).
        - by eapply win_mrr.
        - by eapply win_vl.
        - by eapply win_us.
      Qed.
    End Out.
  End Rec.

  Lemma winner_write n : winner (write_out n) n.
  Proof using All.
    induction n as [|n IH]; intros l force s g o Hc Hh HT Ho HF HU Hun Hfit.
    - pose proof (fit_depth _ _ _ _ _ HF [] l eq_refl) as HD. cbn in HD. lia.
    - cbn [write_out] in *. eapply wins_get; [exact Ho| |exact Hfit]. clear Hfit. intros Hfit. destruct (tidy_root _ _ _ _ HT) as (o' & Ho' & Hho & Hbr). assert (o' = o) as -> by congruence.
      destruct (h_mapped (o_hdr o)) eqn:Em; cbn [negb] in *.
      + rewrite (dest_r r Hr) in Hfit |- *. rewrite Hloc in Hfit |- *.
        destruct (tidy_realm U r s l o r HT Ho Em) as (HT1 & HW1 & _). set (s1 := with_heap s (<[l := Obj (hd_realm (Some r) (o_hdr o)) (o_body o)]> (s_heap s))) in *.
        set (o1 := Obj (hd_realm (Some r) (o_hdr o)) (o_body o)) in *. assert (Ho1 : s_heap s1 !! l = Some o1) by (unfold s1; cbn [s_heap with_heap]; by rewrite heap_insert, decide_True).
        assert (HF1 : fit U r (S n) (s_heap s1) l) by (eapply fit_frame; [apply HW1|done]).
        assert (HL : forall p, look U (s_heap s1) l p = look U (s_heap s) l p) by (intros p; apply fo_look, fr_on, HW1).
        assert (HU1 : uuids_given (look U (s_heap s1) l)). { intros E. rewrite HL in E. destruct (HU E) as (k & lb & Hk). exists k, lb. by rewrite HL. }
        assert (Hhm : held r (map_out (write_out n) l r force)) by (apply held_map_out; [done|]; intros; by apply held_write_out).
        eapply (wins_bind r U Hloc); [| | | |exact Hfit| |]; clear Hfit; try done; [hold|hold| |].
        { intros _. eexists _, _, _. by apply x_set_hdr. }
        intros u s2 g2 E C2 H2 HO2 Hfit. rewrite (x_set_hdr _ _ _ _ _ Ho) in E. injection E as _ <- <-. fold s1 in C2, HO2, Hfit |- *.
        destruct (saved_runs r (S n) s1 (td_heap _ _ _ _ HT1) l) as [b Hb]; [by eexists|apply HF1|].
        eapply (wins_bind r U Hloc); [| | | |exact Hfit| |]; clear Hfit; try done; [hold|hold| |].
        { intros _. exists b, s1, g. change (exec (is_saved_on (S n) l (Some r) s1) g = ((Ok b, s1), g)). by rewrite x_is_saved, Hb. }
        intros b' s2 g2 E C3 H3 HO3 Hfit. change (exec (is_saved_on (S n) l (Some r) s1) g = (Ok b', s2, g2)) in E. rewrite x_is_saved, Hb in E. injection E as <- <- <-.
        destruct (b && negb force) eqn:Eb.
        * apply andb_true_iff in Eb as [-> _]. apply (saved_marked r (S n)) in Hb. destruct (td_marks _ _ _ _ HT1 [] l o1 eq_refl Ho1 Hb) as (rf & Hf & Hl).
          eexists _, _, _. by apply (x_own l o1 rf s1 g Ho1 Hf).
        * eapply (wins_bind r U Hloc); [| | | |exact Hfit| |]; clear Hfit; try done; [hold| |].
          { intros HFr. apply (win_all (write_out n) n (write_good r Hr U n) (svm_write_out r Hr n) (held_write_out r Hr n) IH l s1 o1 HT1 Ho1 Em HF1 HU1); done. }
          intros rf s2 g2 E1 C4 H4 HO4 Hfit.
          destruct (out_all r Hr U (write_out n) (write_good r Hr U n) (svm_write_out r Hr n) l s1 o1 HT1 Ho1 Em force s1 g rf s2 g2 eq_refl) as (D & HI & _); try done.
          pose proof (kinv_self r U l s1 o1 HT1 Ho1 Em _ _ HI) as Ho2.
          unfold wins. setoid_rewrite x_bind. setoid_rewrite (x_set_hdr _ _ _ _ _ Ho2).
          assert (Ho3 : s_heap (with_heap s2 (<[l := Obj (hd_ref (Some rf) (o_hdr o1)) (o_body o1)]> (s_heap s2))) !! l = Some (Obj (hd_ref (Some rf) (o_hdr o1)) (o_body o1))) by (cbn [s_heap with_heap]; by rewrite heap_insert, decide_True).
          unfold set_saved_on. setoid_rewrite x_bind. setoid_rewrite (x_set_hdr _ _ _ _ _ Ho3). by eexists _, _, _.
      + destruct (Hho eq_refl) as (Hrl & _ & ref & Hf & _). pose proof (fit_settled _ _ _ _ _ HF [] l o eq_refl Ho Em) as Hin.
        assert (Hsv : saved_on (S n) (s_heap s) l (Some r) = Ok true). { cbn [saved_on]. rewrite Ho, Em. unfold in_saved. by rewrite bool_decide_true. }
        unfold wins. rewrite Hrl, Hf. cbn [is_some]. setoid_rewrite x_bind. setoid_rewrite x_assert. setoid_rewrite x_bind. setoid_rewrite x_assert.
        setoid_rewrite x_bind. change (exists a s' g', match exec (is_saved_on (S n) l (Some r) s) g with
          | (Ok x, s1, g1) => exec ((if x then own_reference l else mraise RuntimeError) s1) g1 | (Err e, s1, g1) => (Err e, s1, g1) end = (Ok a, s', g')). rewrite x_is_saved, Hsv.
        eexists _, _, _. by apply (x_own l o ref).
  Qed.
End Win.

(** ** Either two objects have one id, or all objects of a run fit together *)
Section Final.
  Context `{Env}.
  Implicit Types (s : pst) (g : gstate).
  Definition claimed {A : Type} (r : pystr) (m : M pst A) s g : list (pystr * gobj) :=
    map_to_list (objs_of (snd (exec (m s) g)) r : gmap pystr gobj) ++
    map (fun o => (oid o, o)) (handed (m s) g ++ map (fun b => Blob (utf8_bytes b)) (waiting r (snd (fst (exec (m s) g))))).
  Lemma claimed_iff {A : Type} r (m : M pst A) s g x o : (x, o) ∈ claimed r m s g <-> claims r m s g x o.
  Proof.
    unfold claimed, claims. rewrite elem_of_app, elem_of_map_to_list, elem_of_list_In, in_map_iff. split.
    - intros [Ho|(o' & [= <- <-] & Hin)]; [by left|right]. split; [done|]. apply in_app_or in Hin as [Hin|Hin]; [by left|right]. apply in_map_iff in Hin as (b & <- & Hb). by exists b.
    - intros [Ho|(-> & Hin)]; [by left|right]. exists o. split; [done|]. apply in_or_app. destruct Hin as [Hin|(b & Hb & ->)]; [by left|right]. apply in_map_iff. by exists b.
  Qed.
  Lemma collide_or_fit {A : Type} r (m : M pst A) s g : collision r m s g \/ exists U, fits r U m s g.
  Proof.
    set (L := claimed r m s g). destruct (decide (Forall (fun a => Forall (fun b => fst a = fst b -> snd a = snd b) L) L)) as [HF|HF].
    - right. exists (list_to_map L). assert (HL : forall x o, claims r m s g x o -> (list_to_map L : gmap pystr gobj) !! x = Some o).
      { intros x o Ho. apply elem_of_list_to_map_1'; [|by apply claimed_iff]. intros o' Ho'. rewrite Forall_forall in HF. specialize (HF (x, o)). rewrite Forall_forall in HF.
        by apply (HF (proj2 (claimed_iff _ _ _ _ _ _) Ho) (x, o') Ho'). }
      intros res s' g' E. split; [apply completes_waiting; split|].
      + apply map_subseteq_spec. intros x o Ho. apply HL. left. by rewrite E.
      + intros b Hb. apply HL. right. split; [done|]. right. exists b. by rewrite E.
      + intros o Ho. apply HL. right. split; [done|]. by left.
    - left. apply not_Forall_Exists in HF; [|apply _]. apply Exists_exists in HF as ([x o1] & H1 & HF). apply not_Forall_Exists in HF; [|apply _]. apply Exists_exists in HF as ([y o2] & H2 & HF). cbn [fst snd] in HF.
      exists x, o1, o2. destruct (decide (x = y)) as [->|]; [|exfalso; by apply HF]. split_and!; [intros E; by apply HF|by apply claimed_iff|by apply claimed_iff].
  Qed.
  Lemma C35_written_lemma (r : pystr) : r <> [] -> is_remote r = false ->
    forall (fuel : nat) (l : loc) (force : bool) (m : M pst reference) s g,
    fitting fuel l r force (look (objs_of g r) (s_heap s) l) m -> is_Some (local_repo g r) -> caches_ok s -> dget (s_caches s) r = None ->
    tidy (objs_of g r) r s l -> settled r (s_heap s) l -> dirs_filled (look (objs_of g r) (s_heap s) l) -> uuids_given (look (objs_of g r) (s_heap s) l) -> shallow fuel (s_heap s) l ->
    (exists ref s' g', exec (m s) g = ((Ok ref, s'), g')) \/ collision r m s g.
  Proof.
    intros Hr Hloc fuel l force m s g Hm Hh Hc Hu HT Hse Hdi Huu Hsh. destruct (collide_or_fit r m s g) as [Hcol|[U Hfit]]; [by right|left].
    pose proof (fits_sub r U m s g Hfit) as HO. assert (HL : forall p, look U (s_heap s) l p = look (objs_of g r) (s_heap s) l p).
    { intros p. apply look_mono; [done|]. by destruct (td_complete _ _ _ _ HT p). }
    destruct (tidy_root _ _ _ _ HT) as (o & Ho & _ & _). apply (tidy_mono _ U) in HT; [|done].
    assert (HF : fit U r fuel (s_heap s) l).
    { split; [done| |done]. intros p nm cl E. rewrite HL in E. destruct (Hdi p nm cl E) as (k & lb & Hk). exists k, lb. by rewrite HL. }
    assert (HU : uuids_given (look U (s_heap s) l)). { intros E. rewrite HL in E. destruct (Huu E) as (k & lb & Hk). exists k, lb. by rewrite HL. }
    pose proof (winner_write r Hr U Hloc fuel) as HW. assert (Hun : uncached r s) by done. assert (Hco : cok r s) by (split; [done|]; intros c E; congruence). destruct Hm as [|El|El].
    - eapply (HW l force s g o); try done. by left.
    - eapply (wins_proxy r Hr U Hloc (write_out fuel) fuel (write_good r Hr U fuel) (svm_write_out r Hr fuel) (held_write_out r Hr fuel) HW true l force s g o); try done.
      + intros _. by rewrite <- (look_kind _ _ _ _ _ Ho El).
      + by rewrite <- (look_kind _ _ _ _ _ Ho El).
    - eapply (wins_proxy r Hr U Hloc (write_out fuel) fuel (write_good r Hr U fuel) (svm_write_out r Hr fuel) (held_write_out r Hr fuel) HW false l force s g o); try done.
      by rewrite <- (look_kind _ _ _ _ _ Ho El).
  Qed.
End Final.
