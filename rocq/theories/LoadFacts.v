(** What loading an object changes in memory, whatever git answers. *)
From Verif Require Import Base BaseFacts Path Json Refs Meta GitText Git GitFacts State BlobCache ObjRef Objects ExecFacts Spec_Look Spec_Heap Spec_Write WriteFacts.

(** ** Weakest preconditions over all answers *)
Definition mw {A : Type} (I : pst -> Prop) (Q : A -> pst -> Prop) (m : M pst A) (s : pst) : Prop :=
  pall (fun _ => True) (fun rs => match fst rs with Ok a => Q a (snd rs) | Err _ => I (snd rs) end) (m s).
Section Mw.
  Context (I : pst -> Prop).
  Lemma mw_bind {A B : Type} (Q : B -> pst -> Prop) (m : M pst A) (f : A -> M pst B) s :
    mw I (fun a s' => mw I Q (f a) s') m s -> mw I Q (mbind m f) s.
  Proof.
    unfold mw. intros Hm. unfold mbind. apply pall_bind. eapply pall_mono; [same| |exact Hm].
    intros [[a|e] s']; cbn; done.
  Qed.
  Lemma mw_ret {A : Type} (Q : A -> pst -> Prop) a s : Q a s -> mw I Q (mret a) s.
  Proof. done. Qed.
  Lemma mw_raise {A : Type} (Q : A -> pst -> Prop) e s : I s -> mw I Q (mraise e) s.
  Proof. done. Qed.
  Lemma mw_res {A : Type} (Q : A -> pst -> Prop) (x : res A) s : I s -> (forall a, x = Ok a -> Q a s) -> mw I Q (mres x) s.
  Proof. destruct x; intros Hi Hq; [by apply Hq|done]. Qed.
  Lemma mw_assert (Q : unit -> pst -> Prop) b s : I s -> (b = true -> Q tt s) -> mw I Q (massert b) s.
  Proof. destruct b; intros Hi Hq; [by apply Hq|done]. Qed.
  Lemma mw_getobj (Q : obj -> pst -> Prop) l s : I s -> (forall o, s_heap s !! l = Some o -> Q o s) -> mw I Q (getobj l) s.
  Proof. intros Hi Hq. unfold mw, getobj. destruct (s_heap s !! l) eqn:E; [by apply Hq|done]. Qed.
  Lemma mw_mono {A : Type} (I' : pst -> Prop) (Q Q' : A -> pst -> Prop) (m : M pst A) s :
    mw I' Q m s -> (forall s', I' s' -> I s') -> (forall a s', Q a s' -> Q' a s') -> mw I Q' m s.
  Proof. intros Hm HI HQ. eapply pall_mono; [same| |exact Hm]. intros [[a|e] s']; cbn; auto. Qed.
  Lemma mw_exec `{Env} {A : Type} (Q : A -> pst -> Prop) (m : M pst A) s g r s' g' :
    mw I Q m s -> exec (m s) g = ((r, s'), g') -> match r with Ok a => Q a s' | Err _ => I s' end.
  Proof. intros Hm He. pose proof (pall_exec _ _ _ g Hm) as HH. by rewrite He in HH. Qed.
End Mw.
(** git commands do not change the state of the process *)
Definition steady {A : Type} (m : M pst A) : Prop := forall s, pall (fun _ => True) (fun rs => snd rs = s) (m s).
Lemma mw_steady {A : Type} (I : pst -> Prop) (Q : A -> pst -> Prop) (m : M pst A) s : steady m -> I s -> (forall a, Q a s) -> mw I Q m s.
Proof. intros Hm Hi Hq. eapply pall_mono; [same| |exact (Hm s)]. intros [[a|e] s']; cbn; intros ->; auto. Qed.
Section Steady.
  Context `{Env}.
  Lemma st_mall {A : Type} (m : M pst A) : (forall s0, mall (fun _ => True) (eq s0) m) -> steady m.
  Proof. intros Hm s. eapply pall_mono; [same| |apply (Hm s s eq_refl)]. by intros [r s'] ->. Qed.
  Ltac st := first [ apply mall_ret | apply mall_raise | apply mall_res | apply mall_assert | apply mall_get | apply mall_checked; done | apply mall_execute; done
    | apply mall_bind; [st|intros ?; st] | match goal with |- mall _ _ (match ?x with _ => _ end) => destruct x; st | |- mall _ _ (if ?x then _ else _) => destruct x; st end ].
  Lemma st_adapt s0 r x : mall (fun _ => True) (eq s0) (adapt_for_remote (S := pst) r x).
  Proof. unfold adapt_for_remote, cache_object, ensure_cache_exists, git_init, git_fetch_object, git_fetch_reference, git_object_exists_locally. st. Qed.
  Lemma st_load_str_ s0 r x : mall (fun _ => True) (eq s0) (git_load_str (S := pst) r x).
  Proof. apply mall_bind; [apply st_adapt|]. intros ?. st. Qed.
  Lemma st_load_str r x : steady (git_load_str r x).
  Proof. apply st_mall. intros s0. apply st_load_str_. Qed.
  Lemma st_load_json r x : steady (git_load_json r x).
  Proof. apply st_mall. intros s0. apply mall_bind; [apply st_adapt|]. intros ?. apply mall_bind; [apply st_load_str_|]. intros. st. Qed.
  Lemma st_read_tree r x : steady (git_read_tree_node r x).
  Proof. apply st_mall. intros s0. apply mall_bind; [apply st_adapt|]. intros ?. st. Qed.
  Lemma st_ls_tree r x : steady (git_ls_tree r x).
  Proof. apply st_mall. intros s0. apply mall_bind; [apply st_adapt|]. intros ?. st. Qed.
  Lemma st_loc_of r : steady (loc_of r).
  Proof. apply st_mall. intros s0. unfold loc_of. st. Qed.
End Steady.

Definition rest_same (s s' : pst) : Prop :=
  s_caches s' = s_caches s /\ s_orefs s' = s_orefs s /\ s_legacy s' = s_legacy s /\ s_locks s' = s_locks s.
Lemma rs_refl s : rest_same s s.
Proof. done. Qed.
Lemma rs_trans a b c : rest_same a b -> rest_same b c -> rest_same a c.
Proof. unfold rest_same. intros (? & ? & ? & ?) (? & ? & ? & ?). split_and!; congruence. Qed.

(** Reading [l], from [s0] to [s]: the other objects are the same, new objects
    are not loaded, the parts of [l] are new. *)
Record rd (s0 : pst) (l : loc) (s : pst) : Prop := {
  rd_rest : rest_same s0 s;
  rd_next : (s_next s0 <= s_next s)%N;
  rd_old : forall x : loc, (x < s_next s0)%N -> x <> l -> s_heap s !! x = s_heap s0 !! x;
  rd_new : forall x : loc, (s_next s0 <= x)%N -> (x < s_next s)%N ->
    exists o, s_heap s !! x = Some o /\ h_mapped (o_hdr o) = false /\ exists k, o_body o = empty_body k;
  rd_none : forall x : loc, (s_next s <= x)%N -> s_heap s !! x = None;
}.
Definition parts_new (n m : loc) (b : body) : Prop :=
  (forall x, In x (sub_objects b) -> (n <= x < m)%N) /\ NoDup (sub_objects b) /\ NoDup (dkeys (kids_of b)).
Definition own_at (s0 : pst) (l : loc) (s : pst) (mp : bool) : Prop :=
  exists o, s_heap s !! l = Some o /\ h_mapped (o_hdr o) = mp /\ parts_new (s_next s0) (s_next s) (o_body o) /\
            option_map (fun o0 => kind_of (o_body o0)) (s_heap s0 !! l) = Some (kind_of (o_body o)).
Lemma sub_kids b : map snd (kids_of b) = sub_objects b.
Proof.
  destruct b as [m|t|c d|i v m t|k vs|us]; cbn [kids_of sub_objects]; try done.
  - unfold dvals. by rewrite map_map.
  - by destruct m, t.
  - unfold vs_records. rewrite !concat_map, !map_map. f_equal. apply map_ext. intros [v d]. cbn. rewrite !map_map. by apply map_ext.
  - unfold dvals. by rewrite map_map.
Qed.
Lemma empty_kids k : kids_of (empty_body k) = [].
Proof. by destruct k. Qed.
Lemma empty_sub k : sub_objects (empty_body k) = [].
Proof. by rewrite <- sub_kids, empty_kids. Qed.
Lemma parts_empty n m b : sub_objects b = [] -> parts_new n m b.
Proof.
  intros Hb. unfold parts_new. rewrite Hb. split; [done|]. split; [apply NoDup_nil_2|].
  rewrite <- sub_kids in Hb. apply map_eq_nil in Hb. unfold dkeys. rewrite Hb. apply NoDup_nil_2.
Qed.
Lemma parts_mono n m m' b : parts_new n m b -> (m <= m')%N -> parts_new n m' b.
Proof. intros (H1 & H2 & H3) Hm. split_and!; try done. intros x Hx. specialize (H1 x Hx). lia. Qed.

Section Load.
  Context `{Env}.
  Lemma rd_init s l : heap_ok s -> rd s l s.
  Proof.
    intros Hs. split; [done|lia|done|lia|]. intros x Hx. destruct (s_heap s !! x) as [o|] eqn:E; [|done]. apply Hs in E. lia.
  Qed.
  (** one new object *)
  Lemma rd_alloc s0 (l : loc) s o : (l < s_next s0)%N -> rd s0 l s -> h_mapped (o_hdr o) = false -> (exists k, o_body o = empty_body k) ->
    rd s0 l (PSt (<[s_next s := o]> (s_heap s)) (N.succ (s_next s)) (s_caches s) (s_orefs s) (s_legacy s) (s_locks s)).
  Proof.
    intros Hl [H1 H2 H3 H4 H5] Hm Hb. split; cbn; [done|lia| | |].
    - intros x Hx Hne. rewrite heap_insert. case_decide; [lia|]. by apply H3.
    - intros x Hx1 Hx2. rewrite heap_insert. case_decide; [by exists o|]. apply H4; lia.
    - intros x Hx. rewrite heap_insert. case_decide; [lia|]. apply H5. lia.
  Qed.
  Lemma rd_set s0 (l : loc) s o : (l < s_next s0)%N -> rd s0 l s -> rd s0 l (with_heap s (<[l := o]> (s_heap s))).
  Proof.
    intros Hl [H1 H2 H3 H4 H5]. split; cbn; [done|lia| | |].
    - intros x Hx Hne. rewrite heap_insert. case_decide; [congruence|]. by apply H3.
    - intros x Hx1 Hx2. rewrite heap_insert. case_decide; [lia|]. by apply H4.
    - intros x Hx. rewrite heap_insert. case_decide; [lia|]. by apply H5.
  Qed.
  (** [new_obj] of an object that is not loaded *)
  Lemma mw_new s0 (l : loc) s k ref realm (I : pst -> Prop) (Q : loc -> pst -> Prop) : (l < s_next s0)%N ->
    I s -> rd s0 l s ->
    (forall s', rd s0 l s' -> s_heap s' !! l = s_heap s !! l -> s_next s' = N.succ (s_next s) -> Q (s_next s) s') ->
    mw I Q (new_obj (empty_body k) (Some realm) (Some ref)) s.
  Proof.
    intros Hl Hi Hr Hq. unfold new_obj. apply mw_bind. apply mw_res; [done|]. intros x [= <-]. unfold alloc. cbn.
    pose proof (rd_next _ _ _ Hr) as Hn. apply Hq; [apply rd_alloc; try done; by exists k| |done]. cbn. rewrite heap_insert, decide_False; [done|]. lia.
  Qed.
  Definition LI (s0 : pst) (l : loc) (s : pst) : Prop := rd s0 l s /\ own_at s0 l s false.

  Lemma dset_in_snd {K V : Type} `{EqDecision K} (d : pydict K V) k v x : In x (map snd (dset d k v)) -> x = v \/ In x (map snd d).
  Proof.
    induction d as [|[k' v'] d IH]; cbn [dset map snd]; [intros [->|[]]; by left|].
    destruct (decide (k' = k)); cbn [map snd].
    - intros [->|Hx]; [by left|]. right. by right.
    - intros [->|Hx]; [right; by left|]. destruct (IH Hx); [by left|]. right. by right.
  Qed.
  Lemma dset_nodup_snd {K V : Type} `{EqDecision K} (d : pydict K V) k v : NoDup (map snd d) -> ~ In v (map snd d) -> NoDup (map snd (dset d k v)).
  Proof.
    induction d as [|[k' v'] d IH]; cbn [dset map snd]; intros Hd Hv; [apply NoDup_singleton|].
    apply NoDup_cons in Hd as [Hd1 Hd2]. destruct (decide (k' = k)); cbn [map snd]; apply NoDup_cons; split.
    - intros Hin. apply Hv. right. by apply elem_of_list_In.
    - done.
    - intros Hin%elem_of_list_In. destruct (dset_in_snd _ _ _ _ Hin) as [->|Hx]; [apply Hv; by left|]. apply Hd1. by apply elem_of_list_In.
    - apply IH; [done|]. intros Hx. apply Hv. by right.
  Qed.
  Lemma kids_node_keys (d : pydict pystr loc) c : NoDup (dkeys d) <-> NoDup (dkeys (kids_of (BNode c d))).
  Proof.
    unfold dkeys. cbn [kids_of]. rewrite map_map. cbn.
    rewrite <- (map_map fst KName). split; intros Hd; [by apply NoDup_fmap_2; [intros ? ? [=]|]|]. by eapply NoDup_fmap_1.
  Qed.
  Lemma kids_us_keys (d : pydict uuid loc) : NoDup (dkeys d) <-> NoDup (dkeys (kids_of (BUset d))).
  Proof.
    unfold dkeys. cbn [kids_of]. rewrite map_map. cbn.
    rewrite <- (map_map fst KUuid). split; intros Hd; [by apply NoDup_fmap_2; [intros ? ? [=]|]|]. by eapply NoDup_fmap_1.
  Qed.

  Lemma li_line s0 (l : loc) c realm line s : (l < s_next s0)%N -> LI s0 l s -> mw (LI s0 l) (fun _ s' => LI s0 l s') (map_in_line l c realm line) s.
  Proof.
    intros Hl HI. unfold map_in_line. apply mw_bind. apply mw_res; [done|]. intros [[ty hh] name] _.
    assert (HN : forall k ref, mw (LI s0 l) (fun child s' => mw (LI s0 l) (fun _ s' => LI s0 l s')
      (mlet o <- getobj l; match o_body o with BNode c' d => set_body l (BNode c' (dset d name child)) | _ => mraise Unmodelled end) s')
      (new_obj (empty_body k) (Some realm) (Some ref)) s).
    { intros k ref. destruct HI as [Hr (o & Ho & Hm & Hp & Hk)]. eapply mw_new; [exact Hl| |exact Hr|]; [by split; [|exists o]|].
      intros s' Hr' Hs' Hn'.
      assert (HI' : LI s0 l s').
      { split; [done|]. exists o. rewrite Hs', Hn'. split_and!; try done. eapply parts_mono; [exact Hp|]. lia. }
      apply mw_bind. apply mw_getobj; [done|]. intros o' Ho'. assert (o' = o) as -> by congruence.
      destruct (o_body o) as [| |c' d| | |] eqn:Eb; try by apply mw_raise. unfold set_body. apply mw_bind.
      apply mw_getobj; [done|]. intros o' Ho2. assert (o' = o) as -> by congruence.
      unfold setobj, mw. cbn [pall fst snd]. split; [by apply rd_set|].
      exists (Obj (o_hdr o) (BNode c' (dset d name (s_next s)))). cbn. rewrite heap_insert, decide_True by done. cbn. split_and!; try done.
      destruct Hp as (P1 & P2 & P3). pose proof (rd_next _ _ _ Hr). split_and!; cbn.
      - intros x Hx. destruct (dset_in_snd _ _ _ _ Hx) as [->|Hx']; [lia|]. specialize (P1 x Hx'). lia.
      - apply dset_nodup_snd; [done|]. intros Hx. specialize (P1 _ Hx). lia.
      - apply (kids_node_keys _ c'). apply dset_nodup. by apply (kids_node_keys _ c') in P3. }
    apply mw_bind. destruct (bool_decide _); [exact (HN (KdNode c) _)|]. destruct (bool_decide _); [|by apply mw_raise].
    destruct c; [exact (HN KdMeta _)|exact (HN KdMrr _)|exact (HN KdText _)].
  Qed.
  Lemma li_uuid s0 (l : loc) realm line s : (l < s_next s0)%N -> LI s0 l s -> mw (LI s0 l) (fun _ s' => LI s0 l s') (map_in_uuid_line l realm line) s.
  Proof.
    intros Hl HI. unfold map_in_uuid_line. apply mw_bind. apply mw_res; [done|]. intros [[[mo ty] hh] name] _.
    apply mw_bind. destruct HI as [Hr (o & Ho & Hm & Hp & Hk)]. eapply (mw_new _ _ _ (KdVl false)); [exact Hl| |exact Hr|]; [by split; [|exists o]|].
    intros s' Hr' Hs' Hn'.
    assert (HI' : LI s0 l s').
    { split; [done|]. exists o. rewrite Hs', Hn'. split_and!; try done. eapply parts_mono; [exact Hp|]. lia. }
    apply mw_bind. apply mw_res; [done|]. intros u _.
    apply mw_bind. apply mw_getobj; [done|]. intros o' Ho'. assert (o' = o) as -> by congruence.
    destruct (o_body o) as [| | | | |d] eqn:Eb; try by apply mw_raise. unfold set_body. apply mw_bind.
    apply mw_getobj; [done|]. intros o' Ho2. assert (o' = o) as -> by congruence.
    unfold setobj, mw. cbn [pall fst snd]. split; [by apply rd_set|].
    exists (Obj (o_hdr o) (BUset (dset d u (s_next s)))). cbn. rewrite heap_insert, decide_True by done. cbn. split_and!; try done.
    destruct Hp as (P1 & P2 & P3). pose proof (rd_next _ _ _ Hr). split_and!; cbn.
    - intros x Hx. destruct (dset_in_snd _ _ _ _ Hx) as [->|Hx']; [lia|]. specialize (P1 x Hx'). lia.
    - apply dset_nodup_snd; [done|]. intros Hx. specialize (P1 _ Hx). lia.
    - apply kids_us_keys. apply dset_nodup. by apply kids_us_keys in P3.
  Qed.
  Lemma li_iter {A : Type} s0 (l : loc) (f : A -> M pst unit) ls : (forall x s, LI s0 l s -> mw (LI s0 l) (fun _ s' => LI s0 l s') (f x) s) ->
    forall s, LI s0 l s -> mw (LI s0 l) (fun _ s' => LI s0 l s') (miter f ls) s.
  Proof.
    intros Hf. induction ls as [|x ls IH]; intros s Hs; [by apply mw_ret|]. cbn [miter]. apply mw_bind.
    eapply mw_mono; [by apply Hf|done|]. intros a s' Hs'. by apply IH.
  Qed.
  (** associations of a version list *)
  Definition elts_new (n m : loc) (rs : list (pystr * vrec)) : Prop :=
    (forall r, In r rs -> (n <= elt_loc (vr_elt (snd r)) < m)%N) /\ NoDup (map (fun r => elt_loc (vr_elt (snd r))) rs).
  Lemma li_assoc s0 (l : loc) realm j s : (l < s_next s0)%N -> LI s0 l s ->
    mw (LI s0 l) (fun r s' => LI s0 l s' /\ (s_next s <= elt_loc (vr_elt (snd r)) < s_next s')%N) (map_in_assoc realm j) s.
  Proof.
    intros Hl HI. unfold map_in_assoc. apply mw_bind. apply mw_res; [done|]. intros rj _. apply mw_bind. apply mw_res; [done|]. intros ref _.
    assert (HN : forall k c, (forall x, elt_loc (c x) = x) -> mw (LI s0 l) (fun e s' => LI s0 l s' /\ (s_next s <= elt_loc e < s_next s')%N)
       (mlet m <- new_obj (empty_body k) (Some realm) (Some ref); mret (c m)) s).
    { intros k c Hc. apply mw_bind. destruct HI as [Hr (o & Ho & Hm & Hp & Hk)]. eapply mw_new; [exact Hl| |exact Hr|]; [by split; [|exists o]|].
      intros s' Hr' Hs' Hn'. apply mw_ret. rewrite Hc. split; [|lia]. split; [done|]. exists o. rewrite Hs', Hn'. split_and!; try done. eapply parts_mono; [exact Hp|]. lia. }
    apply mw_bind. eapply mw_mono; [|same|].
    { instantiate (1 := fun e s' => LI s0 l s' /\ (s_next s <= elt_loc e < s_next s')%N).
      destruct (_ || _); [by apply (HN (KdNode LMrr) ETree)|]. destruct (jis_str _ _); [by apply (HN KdMrr EMrr)|]. by apply mw_raise. }
    intros e s' [HI' He]. cbn beta. apply mw_bind. apply mw_res; [done|]. intros v _. apply mw_bind. apply mw_res; [done|]. intros p _.
    destruct v, p; try by apply mw_raise. apply mw_bind. apply mw_res; [done|]. intros t _. destruct t; try by apply mw_raise.
    apply mw_ret. by split.
  Qed.
  Lemma li_assocs s0 (l : loc) realm js : (l < s_next s0)%N -> forall s, LI s0 l s ->
    mw (LI s0 l) (fun rs s' => LI s0 l s' /\ (s_next s <= s_next s')%N /\ elts_new (s_next s) (s_next s') rs) (mmap (map_in_assoc realm) js) s.
  Proof.
    intros Hl. induction js as [|j js IH]; intros s HI.
    { apply mw_ret. split; [done|]. split; [lia|]. split; [by intros ? []|]. apply NoDup_nil_2. }
    cbn [mmap]. apply mw_bind. eapply mw_mono; [by apply li_assoc|same|]. intros r s1 [HI1 Hr]. cbn beta.
    apply mw_bind. eapply mw_mono; [by apply IH|same|]. intros rs s2 (HI2 & Hn & Hrs1 & Hrs2). cbn beta.
    apply mw_ret. split; [done|]. split; [lia|]. split.
    - intros x [<-|Hx]; [lia|]. specialize (Hrs1 x Hx). lia.
    - cbn [map]. apply NoDup_cons. split; [|done]. intros Hin%elem_of_list_In. apply in_map_iff in Hin as (x & Hx & Hin).
      specialize (Hrs1 x Hin). lia.
  Qed.

  (** dictionaries of dictionaries *)
  Lemma dset_app {K V : Type} `{EqDecision K} (a b : pydict K V) k v :
    dset (a ++ b) k v = if decide (k ∈ dkeys a) then dset a k v ++ b else a ++ dset b k v.
  Proof.
    induction a as [|[k' v'] a IH]; [done|]. unfold dkeys in *. cbn [app dset map fst]. destruct (decide (k' = k)) as [->|Hne].
    - rewrite decide_True by set_solver. done.
    - rewrite IH. destruct (decide (k ∈ map fst a)) as [Hin|Hin].
      + rewrite decide_True by set_solver. done.
      + rewrite decide_False by set_solver. done.
  Qed.
  Lemma dget_app {K V : Type} `{EqDecision K} (a b : pydict K V) k :
    dget (a ++ b) k = match dget a k with Some v => Some v | None => dget b k end.
  Proof. induction a as [|[k' v'] a IH]; [done|]. cbn. by destruct (decide (k' = k)). Qed.
  Lemma dset_map {K K' V V' : Type} `{EqDecision K, EqDecision K'} (f : K -> K') (w : V -> V') (d : pydict K V) k v :
    (forall a b, f a = f b -> a = b) ->
    map (fun x => (f (fst x), w (snd x))) (dset d k v) = dset (map (fun x => (f (fst x), w (snd x))) d) (f k) (w v).
  Proof.
    intros Hf. induction d as [|[k' v'] d IH]; [done|]. cbn [dset map fst snd]. destruct (decide (k' = k)) as [->|Hne].
    - by rewrite decide_True by done.
    - rewrite decide_False by (intros Hc%Hf; done). cbn [map fst snd]. by rewrite IH.
  Qed.
  Lemma dget_map {K K' V V' : Type} `{EqDecision K, EqDecision K'} (f : K -> K') (w : V -> V') (d : pydict K V) k :
    (forall a b, f a = f b -> a = b) -> dget (map (fun x => (f (fst x), w (snd x))) d) (f k) = option_map w (dget d k).
  Proof.
    intros Hf. induction d as [|[k' v'] d IH]; [done|]. cbn [dget map fst snd]. destruct (decide (k' = k)) as [->|Hne].
    - by rewrite decide_True by done.
    - by rewrite decide_False by (intros Hc%Hf; done).
  Qed.
  Definition vget (vs : pydict pystr (pydict ppath vrec)) (v : pystr) (p : ppath) : option vrec :=
    match dget vs v with Some d => dget d p | None => None end.
  Definition vs_ok (vs : pydict pystr (pydict ppath vrec)) : Prop :=
    NoDup (dkeys vs) /\ forall v d, In (v, d) vs -> NoDup (dkeys d).
  (** all entries with their keys *)
  Definition vs_flat {A : Type} (w : vrec -> A) (vs : pydict pystr (pydict ppath vrec)) : pydict (pystr * ppath) A :=
    concat (map (fun vp => map (fun pr => ((fst vp, fst pr), w (snd pr))) (snd vp)) vs).
  Lemma flat_key_notin {A : Type} (w : vrec -> A) vs v p : v ∉ dkeys vs -> (v, p) ∉ dkeys (vs_flat w vs).
  Proof.
    intros Hv Hin. apply elem_of_list_In in Hin. unfold dkeys, vs_flat in Hin. apply in_map_iff in Hin as ([k a] & Hk & Hin). cbn in Hk. subst k.
    apply in_concat in Hin as (ys & Hys & Hin). apply in_map_iff in Hys as ([v' d] & <- & Hvd). cbn in Hin.
    apply in_map_iff in Hin as ([p' r] & [= -> -> _] & _). apply Hv. apply elem_of_list_In. unfold dkeys. apply in_map_iff. by exists (v, d).
  Qed.
  Lemma flat_cons {A : Type} (w : vrec -> A) (v : pystr) (d : pydict ppath vrec) vs : vs_flat w ((v, d) :: vs) = map (fun pr => ((v, fst pr), w (snd pr))) d ++ vs_flat w vs.
  Proof. done. Qed.
  Lemma flat_inner_keys {A : Type} (w : vrec -> A) (v : pystr) d q : q ∈ dkeys (map (fun pr : ppath * vrec => ((v, fst pr), w (snd pr))) d) -> fst q = v.
  Proof.
    intros Hin%elem_of_list_In. unfold dkeys in Hin. rewrite map_map in Hin. cbn in Hin. by apply in_map_iff in Hin as (x & <- & _).
  Qed.
  Lemma inner_notin {A : Type} (w : vrec -> A) (v v0 : pystr) p d : v0 <> v -> (v, p) ∉ dkeys (map (fun pr : ppath * vrec => ((v0, fst pr), w (snd pr))) d).
  Proof. intros Hne Hin. apply flat_inner_keys in Hin. cbn in Hin. congruence. Qed.
  Lemma flat_set {A : Type} (w : vrec -> A) vs v p r : NoDup (dkeys vs) -> vs_flat w (vs_set vs v p r) ≡ₚ dset (vs_flat w vs) (v, p) (w r).
  Proof.
    unfold vs_set. induction vs as [|[v0 d] vs IH]; intros Hnd; [done|]. unfold dkeys in *. cbn [map fst] in Hnd. apply NoDup_cons in Hnd as [Hv0 Hnd].
    rewrite flat_cons, dset_app.
    assert (HM : forall (d : pydict ppath vrec) (v : pystr), map (fun pr => ((v, fst pr), w (snd pr))) (dset d p r) = dset (map (fun pr => ((v, fst pr), w (snd pr))) d) (v, p) (w r)).
    { intros d' v'. apply (dset_map (fun q => (v', q)) w). by intros ? ? [=]. }
    cbn [dget dset]. destruct (decide (v0 = v)) as [->|Hne].
    - rewrite flat_cons, HM. destruct (decide _) as [Hin|Hin]; [done|].
      rewrite (dset_fresh (vs_flat w vs)) by by apply flat_key_notin. rewrite (dset_fresh (map _ d)) by done.
      rewrite <- !app_assoc. apply Permutation_app_head. apply Permutation_app_comm.
    - rewrite flat_cons. rewrite decide_False by by apply inner_notin. apply Permutation_app_head. by apply IH.
  Qed.
  Lemma flat_get {A : Type} (w : vrec -> A) vs v p : NoDup (dkeys vs) -> dget (vs_flat w vs) (v, p) = option_map w (vget vs v p).
  Proof.
    unfold vget. induction vs as [|[v0 d] vs IH]; intros Hnd; [done|]. unfold dkeys in *. cbn [map fst] in Hnd. apply NoDup_cons in Hnd as [Hv0 Hnd].
    rewrite flat_cons, dget_app. cbn [dget]. destruct (decide (v0 = v)) as [->|Hne].
    - rewrite (dget_map (fun q => (v, q)) w) by by intros ? ? [=]. destruct (dget d p); [done|]. cbn.
      apply dget_None. by apply flat_key_notin.
    - assert (dget (map (fun pr => (v0, fst pr, w (snd pr))) d) (v, p) = None) as -> by by apply dget_None, inner_notin. by apply IH.
  Qed.
  Lemma flat_nodup {A : Type} (w : vrec -> A) vs : vs_ok vs -> NoDup (dkeys (vs_flat w vs)).
  Proof.
    induction vs as [|[v d] vs IH]; intros [Hnd Hd]; [apply NoDup_nil_2|]. unfold dkeys in *. cbn [map fst] in Hnd. apply NoDup_cons in Hnd as [Hv Hnd].
    rewrite flat_cons, map_app. apply NoDup_app. split_and!.
    - rewrite map_map. cbn. rewrite <- (map_map fst (fun q => (v, q))). apply NoDup_fmap_2; [by intros ? ? [=]|]. eapply Hd. by left.
    - intros [v' q] Hin1 Hin2. apply (flat_inner_keys w v d) in Hin1. cbn in Hin1. subst v'. revert Hin2. by apply (flat_key_notin w).
    - apply IH. split; [done|]. intros. eapply Hd. by right.
  Qed.
  Lemma dset_in {K V : Type} `{EqDecision K} (d : pydict K V) k v k' v' : In (k', v') (dset d k v) -> (k' = k /\ v' = v) \/ In (k', v') d.
  Proof.
    induction d as [|[k0 v0] d IH]; cbn [dset]; [intros [[= <- <-]|[]]; by left|]. destruct (decide (k0 = k)) as [->|].
    - intros [[= <- <-]|Hin]; [by left|right; by right].
    - intros [[= <- <-]|Hin]; [right; by left|]. destruct (IH Hin) as [?|?]; [by left|right; by right].
  Qed.
  Lemma vs_set_ok vs v p r : vs_ok vs -> vs_ok (vs_set vs v p r).
  Proof.
    intros [Hnd Hd]. unfold vs_set. split; [by apply dset_nodup|]. intros v' d' Hin. apply dset_in in Hin as [[-> ->]|Hin]; [|by eapply Hd].
    apply dset_nodup. destruct (dget vs v) eqn:E; [|apply NoDup_nil_2]. apply dget_Some_In in E. by eapply Hd.
  Qed.
  Lemma vget_set vs v p r v' p' : vget (vs_set vs v p r) v' p' = if decide ((v, p) = (v', p')) then Some r else vget vs v' p'.
  Proof.
    unfold vget, vs_set. rewrite dget_dset. destruct (decide (v = v')) as [<-|Hne].
    - rewrite dget_dset. destruct (decide (p = p')) as [<-|Hne]; [by rewrite decide_True|]. rewrite decide_False by congruence. by destruct (dget vs v).
    - by rewrite decide_False by congruence.
  Qed.
  Definition kver (q : pystr * ppath) : key := KVer (fst q) (snd q).
  Lemma kids_flat k vs : kids_of (BVlist k vs) = map (fun x => (kver (fst x), snd x)) (vs_flat (fun r => elt_loc (vr_elt r)) vs).
  Proof.
    cbn [kids_of]. unfold vs_flat. rewrite concat_map, map_map. f_equal. apply map_ext. intros [v d]. cbn. by rewrite map_map.
  Qed.
  Lemma kids_flat_keys k vs : vs_ok vs -> NoDup (dkeys (kids_of (BVlist k vs))).
  Proof.
    intros Hv. rewrite kids_flat. unfold dkeys. rewrite map_map. cbn. rewrite <- (map_map fst kver). apply NoDup_fmap_2; [|by apply flat_nodup].
    intros [] [] [=]. by subst.
  Qed.
  Lemma sub_flat k vs : sub_objects (BVlist k vs) = map snd (vs_flat (fun r => elt_loc (vr_elt r)) vs).
  Proof. rewrite <- sub_kids, kids_flat, map_map. done. Qed.
  Lemma kids_vget k vs v p : vs_ok vs -> dget (kids_of (BVlist k vs)) (KVer v p) = option_map (fun r => elt_loc (vr_elt r)) (vget vs v p).
  Proof.
    intros [Hv _]. rewrite kids_flat. change (KVer v p) with (kver (v, p)). rewrite (dget_map kver (fun x => x)) by (intros [] [] [=]; by subst).
    rewrite flat_get by done. by destruct (vget vs v p).
  Qed.
  Lemma fold_vs_ok rs : forall vs, vs_ok vs -> vs_ok (fold_left (fun vs r => vs_set vs (fst r) (vr_path (snd r)) (snd r)) rs vs).
  Proof. induction rs as [|r rs IH]; intros vs Hv; [done|]. cbn. by apply IH, vs_set_ok. Qed.
  Lemma fold_vs_new k n m m' rs : forall vs, vs_ok vs -> (m <= m')%N -> parts_new n m (BVlist k vs) -> elts_new m m' rs -> (n <= m)%N ->
    parts_new n m' (BVlist k (fold_left (fun vs r => vs_set vs (fst r) (vr_path (snd r)) (snd r)) rs vs)).
  Proof.
    revert m. induction rs as [|r rs IH]; intros m vs Hv Hmm Hp [Hr1 Hr2] Hn.
    { by eapply parts_mono. }
    cbn [fold_left]. cbn [map] in Hr2. apply NoDup_cons in Hr2 as [Hr2 Hr3].
    set (m1 := elt_loc (vr_elt (snd r))) in *.
    assert (Hm1 : (m <= m1 < m')%N) by (apply Hr1; by left).
    destruct Hp as (P1 & P2 & P3). rewrite sub_flat in P1, P2.
    assert (HP : parts_new n m' (BVlist k (vs_set vs (fst r) (vr_path (snd r)) (snd r)))).
    { pose proof (flat_set (fun r => elt_loc (vr_elt r)) vs (fst r) (vr_path (snd r)) (snd r) (proj1 Hv)) as Hperm. fold m1 in Hperm.
      split_and!.
      - intros x Hx. rewrite sub_flat in Hx. apply (Permutation_in x (Permutation_map snd Hperm)) in Hx.
        apply dset_in_snd in Hx as [->|Hx]; [lia|]. specialize (P1 x Hx). lia.
      - rewrite sub_flat. rewrite (Permutation_map snd Hperm). apply dset_nodup_snd; [done|]. intros Hx. specialize (P1 _ Hx). lia.
      - apply kids_flat_keys. by apply vs_set_ok. }
    (* the elements still to come are different from those already there *)
    clear IH. revert HP Hr1 Hr2 Hr3. set (vs1 := vs_set vs (fst r) (vr_path (snd r)) (snd r)). intros HP Hr1 Hr2 Hr3.
    assert (Hv1 : vs_ok vs1) by by apply vs_set_ok.
    assert (Hdis : forall x, In x (sub_objects (BVlist k vs1)) -> ~ In x (map (fun r => elt_loc (vr_elt (snd r))) rs)).
    { intros x Hx Hin. rewrite sub_flat in Hx. pose proof (flat_set (fun r => elt_loc (vr_elt r)) vs (fst r) (vr_path (snd r)) (snd r) (proj1 Hv)) as Hperm.
      apply (Permutation_in x (Permutation_map snd Hperm)) in Hx. apply dset_in_snd in Hx as [->|Hx].
      - apply Hr2. by apply elem_of_list_In.
      - specialize (P1 x Hx). apply in_map_iff in Hin as (y & <- & Hy). specialize (Hr1 y ltac:(by right)). lia. }
    assert (Hb : forall x, In x (map (fun r => elt_loc (vr_elt (snd r))) rs) -> (n <= x < m')%N).
    { intros x Hin. apply in_map_iff in Hin as (y & <- & Hy). specialize (Hr1 y ltac:(by right)). lia. }
    clearbody vs1. clear - HP Hr3 Hv1 Hdis Hb. revert vs1 HP Hv1 Hdis. induction rs as [|r rs IH]; intros vs HP Hv Hdis; [done|]. cbn [fold_left].
    cbn [map] in Hr3. apply NoDup_cons in Hr3 as [Hr2 Hr3]. cbn [map] in Hb, Hdis.
    pose proof (flat_set (fun r => elt_loc (vr_elt r)) vs (fst r) (vr_path (snd r)) (snd r) (proj1 Hv)) as Hperm.
    destruct HP as (P1 & P2 & P3). rewrite sub_flat in P1, P2, Hdis.
    apply IH; [done| | |by apply vs_set_ok|].
    - intros x Hx. apply Hb. by right.
    - split_and!.
      + intros x Hx. rewrite sub_flat in Hx. apply (Permutation_in x (Permutation_map snd Hperm)) in Hx.
        apply dset_in_snd in Hx as [->|Hx]; [apply Hb; by left|]. by apply P1.
      + rewrite sub_flat. rewrite (Permutation_map snd Hperm). apply dset_nodup_snd; [done|]. intros Hx. apply (Hdis _ Hx). by left.
      + apply kids_flat_keys. by apply vs_set_ok.
    - intros x Hx Hin. rewrite sub_flat in Hx. apply (Permutation_in x (Permutation_map snd Hperm)) in Hx. apply dset_in_snd in Hx as [->|Hx].
      + apply Hr2. by apply elem_of_list_In.
      + apply (Hdis x Hx). by right.
  Qed.

  Lemma li_set s0 (l : loc) s o' : (l < s_next s0)%N -> LI s0 l s -> h_mapped (o_hdr o') = false -> parts_new (s_next s0) (s_next s) (o_body o') ->
    (forall o, s_heap s !! l = Some o -> kind_of (o_body o') = kind_of (o_body o)) ->
    LI s0 l (with_heap s (<[l := o']> (s_heap s))).
  Proof.
    intros Hl [Hr (o & Ho & Hm & Hp & Hk)] Hm' Hp' Hk'. split; [by apply rd_set|]. exists o'. cbn. rewrite heap_insert, decide_True by done.
    split_and!; try done. rewrite (Hk' _ Ho). by apply Hk.
  Qed.
  Lemma li_set_body s0 (l : loc) s b : (l < s_next s0)%N -> LI s0 l s -> parts_new (s_next s0) (s_next s) b ->
    (forall o, s_heap s !! l = Some o -> kind_of b = kind_of (o_body o)) -> mw (LI s0 l) (fun _ s' => LI s0 l s') (set_body l b) s.
  Proof.
    intros Hl HI Hp Hk. unfold set_body. apply mw_bind. apply mw_getobj; [done|]. intros o Ho. unfold mw, setobj. cbn [pall fst snd].
    apply li_set; try done.
    destruct HI as [_ (o1 & Ho1 & Hm & _)]. cbn. congruence.
  Qed.
  Lemma li_map_in_impl s0 (l : loc) s realm ref : (l < s_next s0)%N -> LI s0 l s ->
    mw (LI s0 l) (fun _ s' => LI s0 l s') (map_in_impl l realm ref) s.
  Proof.
    intros Hl HI. unfold map_in_impl. apply mw_bind. apply mw_getobj; [done|]. intros o Ho.
    assert (HK : forall b, kind_of b = kind_of (o_body o) -> forall o1, s_heap s !! l = Some o1 -> kind_of b = kind_of (o_body o1)).
    { intros b Hb o1 Ho1. congruence. }
    assert (HE : forall b n m, sub_objects b = [] -> parts_new n m b) by (intros; by apply parts_empty).
    destruct (o_body o) as [m|t|c d|i v m t|k vs|us] eqn:Eb.
    - apply mw_bind, mw_steady; [apply st_loc_of|done|]. intros x. apply mw_bind, mw_steady; [apply st_load_str|done|]. intros t.
      apply mw_bind, mw_res; [done|]. intros ref2 _. apply mw_bind, mw_steady; [apply st_loc_of|done|]. intros y.
      apply mw_bind, mw_steady; [apply st_load_str|done|]. intros t2. apply mw_bind, mw_res; [done|]. intros m' _.
      apply li_set_body; [done|done|by apply HE|by apply HK].
    - apply mw_bind, mw_steady; [apply st_loc_of|done|]. intros x. apply mw_bind, mw_steady; [apply st_load_str|done|]. intros t'.
      apply li_set_body; [done|done|by apply HE|by apply HK].
    - destruct (is_none_reference ref); [apply li_set_body; [done|done|by apply HE|by apply HK]|].
      apply mw_bind, mw_steady; [apply st_loc_of|done|]. intros x. apply mw_bind, mw_steady; [apply st_read_tree|done|]. intros ls.
      apply li_iter; [|done]. intros. by apply li_line.
    - apply mw_bind, mw_steady; [apply st_loc_of|done|]. intros x. apply mw_bind, mw_steady; [apply st_load_json|done|]. intros j.
      apply mw_bind, mw_res; [done|]. intros mj _. apply mw_bind, mw_res; [done|]. intros mref _.
      assert (HN : forall k r (n : loc) s1, LI s0 l s1 -> (n <= s_next s1)%N -> s_heap s1 !! l = Some o ->
         mw (LI s0 l) (fun md s2 => LI s0 l s2 /\ (s_next s1 <= s_next s2)%N /\ s_heap s2 !! l = Some o /\ match md with Some a => (s_next s1 <= a < s_next s2)%N | None => True end)
            (if is_none_reference r then mret None else mlet a <- new_obj (empty_body k) (Some realm) (Some r); mret (Some a)) s1).
      { intros k r n s1 HI1 Hn Ho1. destruct (is_none_reference r); [apply mw_ret; split_and!; try done; lia|]. apply mw_bind.
        destruct HI1 as [Hr1 (o1 & Ho1' & Hm1 & Hp1 & Hk1)]. eapply mw_new; [exact Hl| |exact Hr1|]; [by split; [|exists o1]|].
        intros s2 Hr2 Hs2 Hn2. apply mw_ret. split_and!; [split; [done|]|lia|congruence|lia|lia].
        exists o1. rewrite Hs2, Hn2. split_and!; try done. eapply parts_mono; [exact Hp1|]. lia. }
      apply mw_bind. eapply mw_mono; [apply (HN KdMeta mref (s_next s0)); [done|destruct HI as [[]]; done|done]|same|]. intros md s1 (HI1 & Hn1 & Ho1 & Hmd). cbn beta.
      apply mw_bind, mw_res; [done|]. intros fj _. apply mw_bind, mw_res; [done|]. intros fref _.
      apply mw_bind. eapply mw_mono; [apply (HN (KdNode LMeta) fref (s_next s0)); [done|destruct HI1 as [[]]; done|done]|same|]. intros ft s2 (HI2 & Hn2 & Ho2 & Hft). cbn beta.
      apply mw_bind, mw_res; [done|]. intros uj _. apply mw_bind, mw_res; [done|]. intros u _. apply mw_bind, mw_res; [done|]. intros vj _.
      assert (Hend : forall ver, mw (LI s0 l) (fun _ s' => LI s0 l s')
        (mlet x' <- mres (init_hdr (Some realm) (Some ref)); setobj l (Obj x' (BMrr (Some u) ver md ft))) s2).
      { intros ver. apply mw_bind, mw_res; [done|]. intros hd [= <-]. unfold setobj, mw. cbn [pall fst snd]. apply li_set; try done.
        - destruct HI as [Hr _]. pose proof (rd_next _ _ _ Hr). cbn [o_body]. split_and!.
          + intros y. cbn. destruct md, ft; cbn; intros Hy; repeat destruct Hy as [<-|Hy]; try done; lia.
          + cbn. destruct md, ft; cbn; try apply NoDup_singleton; try apply NoDup_nil_2. apply NoDup_cons. split; [|apply NoDup_singleton].
            intros Hin%elem_of_list_singleton. lia.
          + unfold dkeys. cbn. destruct md, ft; cbn; try apply NoDup_singleton; try apply NoDup_nil_2. apply NoDup_cons. split; [|apply NoDup_singleton].
            by intros Hin%elem_of_list_singleton.
        - intros o3 Ho3. cbn. assert (o3 = o) as -> by congruence. by rewrite Eb. }
      destruct vj; first [apply Hend | by apply mw_raise].
    - apply mw_bind, mw_steady; [apply st_loc_of|done|]. intros x. apply mw_bind, mw_steady; [apply st_load_json|done|]. intros j.
      apply mw_bind, mw_res; [done|]. intros js _.
      apply mw_bind. eapply mw_mono; [|same|].
      { instantiate (1 := fun rs s' => LI s0 l s' /\ (s_next s <= s_next s')%N /\ elts_new (s_next s) (s_next s') rs /\ True). 
        eapply mw_mono; [by apply li_assocs|same|]. intros rs s' (?&?&?). done. }
      intros rs s' (HI' & Hn & Hrs & _). cbn beta. apply li_set_body; [done|done| |].
      + eapply (fold_vs_new k (s_next s0) (s_next s)); [split; [apply NoDup_nil_2|by intros ? ? []]|done|by apply parts_empty|done|destruct HI as [[]]; done].
      + intros o1 Ho1. destruct HI as [_ (o2 & Ho2 & _ & _ & Hk2)], HI' as [_ (o3 & Ho3 & _ & _ & Hk3)].
        assert (o3 = o1) as -> by congruence. assert (o2 = o) as -> by congruence. rewrite Eb in Hk2. cbn in Hk2 |- *. congruence.
    - apply mw_bind. eapply mw_mono; [apply li_set_body; [done|done|by apply HE|by apply HK]|same|]. intros [] s1 HI1. cbn beta.
      apply mw_bind, mw_steady; [apply st_loc_of|done|]. intros x. apply mw_bind, mw_steady; [apply st_ls_tree|done|]. intros ls.
      apply li_iter; [|done]. intros. by apply li_uuid.
  Qed.

  Lemma li_set_hdr s0 (l : loc) s f : (l < s_next s0)%N -> LI s0 l s -> (forall x, h_mapped (f x) = h_mapped x) ->
    mw (LI s0 l) (fun _ s' => LI s0 l s') (set_hdr l f) s.
  Proof.
    intros Hl HI Hf. unfold set_hdr. apply mw_bind, mw_getobj; [done|]. intros o Ho. unfold mw, setobj. cbn [pall fst snd].
    pose proof HI as [_ (o1 & Ho1 & Hm & Hp & Hk)]. assert (o1 = o) as -> by congruence. apply li_set; try done.
    - cbn. by rewrite Hf.
    - intros o1 Ho'. cbn. congruence.
  Qed.
  Lemma li_map_in s0 (l : loc) s realm ref : (l < s_next s0)%N -> LI s0 l s -> mw (LI s0 l) (fun _ s' => LI s0 l s') (map_in l realm ref) s.
  Proof.
    intros Hl HI. unfold map_in. apply mw_bind, mw_getobj; [done|]. intros o Ho. cbv zeta. apply mw_bind.
    eapply mw_mono; [by apply li_set_hdr|same|]. intros [] s1 HI1. cbn beta. apply mw_bind, mw_assert; [done|]. intros _.
    by apply li_map_in_impl.
  Qed.
  (** loaded *)
  Definition LD (s0 : pst) (l : loc) (s : pst) : Prop := rd s0 l s /\ own_at s0 l s true.
  Lemma ld_set_mapped s0 (l : loc) s mp : (l < s_next s0)%N -> rd s0 l s -> own_at s0 l s mp ->
    mw (LI s0 l) (fun _ s' => LD s0 l s') (set_hdr l (hd_mapped true)) s.
  Proof.
    intros Hl Hr (o & Ho & Hm & Hp & Hk). unfold set_hdr, mw, getobj, mbind. cbn [pbind]. rewrite Ho. cbn. split; [by apply rd_set|].
    eexists. cbn. rewrite heap_insert, decide_True by done. split; [done|]. done.
  Qed.
  Lemma li_init s0 (l : loc) o : heap_ok s0 -> s_heap s0 !! l = Some o -> h_mapped (o_hdr o) = false -> LI s0 l s0.
  Proof.
    intros Hok Ho Hm. destruct (Hok l o Ho) as (Hl & _ & He & _). split; [by apply rd_init|]. exists o.
    split_and!; try done; [by apply parts_empty, He|]. by rewrite Ho.
  Qed.
  Lemma li_read_in s0 (l : loc) o fuel : heap_ok s0 -> s_heap s0 !! l = Some o -> h_mapped (o_hdr o) = false ->
    mw (LI s0 l) (fun _ s' => exists mp, rd s0 l s' /\ own_at s0 l s' mp) (read_in fuel l) s0.
  Proof.
    intros Hok Ho Hm. destruct (Hok l o Ho) as (Hl & _ & He & _). specialize (He Hm).
    pose proof (li_init s0 l o Hok Ho Hm) as HI.
    unfold read_in. apply mw_bind, mw_getobj; [done|]. intros o' Ho'. assert (o' = o) as -> by congruence. rewrite Hm.
    destruct (h_realm (o_hdr o)) as [realm|]; [|by apply mw_raise]. destruct (h_ref (o_hdr o)) as [ref|]; [|by apply mw_raise].
    destruct (is_none_reference ref).
    - apply mw_bind, mw_assert; [done|]. intros _. unfold purge_impl. apply mw_bind, mw_getobj; [done|]. intros o' Ho2. assert (o' = o) as -> by congruence.
      assert (HS : forall b, sub_objects b = [] -> kind_of b = kind_of (o_body o) ->
        mw (LI s0 l) (fun _ s' => exists mp, rd s0 l s' /\ own_at s0 l s' mp) (set_body l b) s0).
      { intros b Hb Hk. eapply mw_mono; [apply li_set_body; [done|done|by apply parts_empty|]|same|].
        - intros o1 Ho1. congruence.
        - intros [] s' [? ?]. by exists false. }
      destruct (o_body o) as [m|t|c d|i v m t|k vs|us] eqn:Eb; cbn in He.
      + by apply HS.
      + by apply HS.
      + rewrite He. apply mw_bind. by apply HS.
      + destruct m; [done|]. by apply mw_raise.
      + assert (Hv : vs_records vs = []) by by apply map_eq_nil in He. rewrite Hv. apply mw_bind. by apply HS.
      + rewrite He. apply mw_bind. by apply HS.
    - destruct (in_saved o (Some realm)); [|by apply mw_raise]. apply mw_bind. eapply mw_mono; [by apply li_map_in|same|].
      intros [] s1 [Hr1 Ho1]. cbn beta. eapply mw_mono; [by eapply ld_set_mapped|same|]. intros [] s2 [? ?]. by exists true.
  Qed.
  Lemma ld_ensure s0 (l : loc) o fuel g r s' g' : heap_ok s0 -> s_heap s0 !! l = Some o -> exec (ensure_mapped fuel l s0) g = ((r, s'), g') ->
    (h_mapped (o_hdr o) = true -> s' = s0 /\ g' = g /\ r = Ok false) /\
    (h_mapped (o_hdr o) = false -> match r with Ok b => b = true /\ LD s0 l s' | Err _ => LI s0 l s' end).
  Proof.
    intros Hok Ho He. split; intros Hm.
    - unfold ensure_mapped in He. rewrite x_bind, x_getobj, Ho in He. cbn beta iota in He. rewrite Hm, x_ret in He. by inversion He.
    - assert (HW : mw (LI s0 l) (fun b s' => b = true /\ LD s0 l s') (ensure_mapped fuel l) s0).
      { unfold ensure_mapped. apply mw_bind, mw_getobj; [by eapply li_init|]. intros o' Ho'. assert (o' = o) as -> by congruence. rewrite Hm.
        pose proof (li_read_in s0 l o fuel Hok Ho Hm) as HR. destruct (Hok l o Ho) as (Hl & _).
        apply mw_bind. eapply mw_mono; [exact HR|same|]. intros [] s1 (mp & Hr1 & Ho1). cbn beta.
        apply mw_bind. eapply mw_mono; [by eapply ld_set_mapped|same|]. intros [] s2 Hd. by apply mw_ret. }
      eapply mw_exec in HW; [|exact He]. by destruct r.
  Qed.
End Load.
