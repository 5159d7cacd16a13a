(** C30: git references are set last. *)
From Verif Require Import Base BaseFacts Path Json Refs Meta Spec_Meta GitText Spec_Git GitTextFacts Git GitFacts Spec_Store State BlobCache ObjRef Objects Common Spec_Look Spec_Heap Spec_Versions Spec_Write ExecFacts Spec_Cache CacheFacts WriteFacts LoadFacts PeekFacts TreeFacts VersionFacts LookFacts ReadFacts Spec_Content ContentFacts StoreFacts SaveFacts WriteBackFacts WriteAllFacts ReadBackFacts Spec_Publish.

(** A program that stores objects and then sets one reference. *)
Section Last.
  Context (d n : pystr).
  Fixpoint last_set (p : prog (res reference * pst)) : Prop :=
    match p with
    | Ret _ => True
    | Do c k => (store_cmd d c /\ forall x, last_set (k x)) \/
        (exists x e s1 ref s2, c = UpdateRef d n x /\ k None = Ret (Err e, s1) /\ k (Some []) = Ret (Ok ref, s2) /\ r_loc ref = Some x)
    end.
  Lemma store_last Q p : pall (store_cmd d) Q p -> last_set p.
  Proof. induction p as [a|c k IH]; cbn; [done|]. intros [H1 H2]. left. split; [done|]. intros x. by apply IH. Qed.
  Lemma bind_last {A} Q (p : prog A) f : pall (store_cmd d) Q p -> (forall a, Q a -> last_set (f a)) -> last_set (pbind p f).
  Proof. intros Hp Hf. induction p as [a|c k IH]; cbn in *; [by apply Hf|]. destruct Hp as [H1 H2]. left. split; [done|]. intros x. by apply IH. Qed.
  (** a tail without commands *)
  Lemma tail_last p f : last_set p -> (forall r s, exists r' s', f (r, s) = Ret (r', s')) -> (forall e s, exists e' s', f (Err e, s) = Ret (Err e', s')) ->
    (forall I, pall (fun _ => True) I p -> True) ->
    forall I : res reference * pst -> Prop, pall (fun _ => True) I p -> (forall ref s, I (Ok ref, s) -> exists s', f (Ok ref, s) = Ret (Ok ref, s')) -> last_set (pbind p f).
  Proof.
    intros Hp Hf He _ I HI Ho. induction p as [a|c k IH]; cbn in *.
    - destruct a as [r s]. destruct (Hf r s) as (r' & s' & ->). done.
    - destruct HI as [_ HI]. destruct Hp as [[H1 H2]|(x & e & s1 & ref & s2 & -> & H1 & H2 & H3)].
      + left. split; [done|]. intros x. by apply IH.
      + right. pose proof (HI (Some [])) as Hi. rewrite H2 in Hi. cbn in Hi. destruct (Ho _ _ Hi) as (s3 & Hs3). destruct (He e s1) as (e' & s4 & Hs4).
        exists x, e', s4, ref, s3. rewrite H1, H2. cbn [pbind]. done.
  Qed.
  Lemma update_last x ref (s : pst) : r_loc ref = Some x -> last_set ((git_update_ref d n x ;;; mret ref) s).
  Proof. intros Hl. cbn. right. exists x, RuntimeError, s, ref, s. done. Qed.
End Last.
Section Publish.
  Context `{Env}.
  Definition same_refs (g g' : gstate) : Prop := forall m x, refs_of g' m !! x = refs_of g m !! x.
  (** Before the last command the references are as before; after it the result is
      the reference that was set. *)
  Lemma last_trace d n p : last_set d n p -> forall g g', g' ∈ trace p g \/ g' = snd (exec p g) ->
    same_refs g g' \/
    (exists ref s' x h, exec p g = ((Ok ref, s'), g') /\ r_loc ref = Some x /\ refs_of g' d !! n = Some h /\ (object_id x = true -> h = x) /\
       forall m y, (m, y) <> (d, n) -> refs_of g' m !! y = refs_of g m !! y).
  Proof.
    induction p as [a|c k IH]; intros Hp g g'; cbn [trace exec].
    - intros [[]%elem_of_nil| ->]. by left.
    - cbn in Hp. destruct Hp as [[H1 H2]|(x & e & s1 & ref & s2 & -> & H1 & H2 & H3)].
      + assert (Hr : same_refs g (snd (git c g))).
        { intros m y. apply git_refs. destruct H1 as [[b ->]|[[bs ->]|[b ->]]]; done. }
        destruct (git c g) as [y g1]. cbn in Hr. intros Hin.
        assert (Hg : g' = g1 \/ g' ∈ trace (k y) g1 \/ g' = snd (exec (k y) g1)) by (destruct Hin as [[->|?]%elem_of_cons| ->]; auto).
        destruct Hg as [->|Hg]; [by left|]. destruct (IH y (H2 y) g1 g' Hg) as [HS|(ref & s' & x & h & E1 & E2 & E3 & E4 & E5)].
        * left. intros m z. by rewrite HS, Hr.
        * right. exists ref, s', x, h. split_and!; try done. intros m z Hz. by rewrite E5, Hr.
      + assert (Hg : (git (UpdateRef d n x) g = (None, g)) \/ exists h, git (UpdateRef d n x) g = (Some [], snd (git (UpdateRef d n x) g)) /\
          refs_of (snd (git (UpdateRef d n x) g)) d !! n = Some h /\ (object_id x = true -> h = x)).
        { cbn. destruct (local_repo g d) as [r|] eqn:El; [|by left]. destruct (resolve r x) as [h|] eqn:Er; [|by left]. destruct (r_objs r !! h); [|by left].
          right. exists h. cbn. rewrite refs_set, decide_True by done. cbn. rewrite lookup_insert. split_and!; try done. intros Hx. unfold resolve in Er. rewrite Hx in Er. by injection Er. }
        destruct Hg as [Eg|(h & Eg & Hh & Hx)]; rewrite Eg.
        * rewrite H1. cbn [trace exec]. intros Hin. left. destruct Hin as [[->|[]%elem_of_nil]%elem_of_cons| ->]; done.
        * rewrite H2. cbn [trace exec]. intros Hin. assert (Hg' : g' = snd (git (UpdateRef d n x) g)) by (destruct Hin as [[->|[]%elem_of_nil]%elem_of_cons| ->]; done).
          right. exists ref, s2, x, h. rewrite Hg'. split_and!; try done. intros m y Hy. apply git_refs. cbn. congruence.
  Qed.

  Definition name_of (b : body) : pystr := match b with BUset _ => UUID_SET | _ => TREE_VERSION_LIST end.
  Section One.
    Context (h0 : heap) (d : pystr) (Hd : d <> []) (Htop : top_level_only h0).
    Lemma map_out_last rec l o force s : s_heap s !! l = Some o ->
      (forall x f, In x (sub_objects (o_body o)) -> mall (store_cmd d) (keeps_bodies h0) (rec x (Some d) f)) ->
      keeps_bodies h0 s -> last_set d (name_of (o_body o)) (map_out rec l d force s).
    Proof using Hd.
      intros E Hrec Hs. 
      assert (HW : pall (write_cmd h0 d l) (fun rs => keeps_bodies h0 (snd rs)) (map_out rec l d force s)) by (apply kb_map_out; [done|by rewrite E|done]).
      destruct (kb_body _ _ _ _ Hs E) as [hx Hx].
      assert (Hp : forall x f, In x (sub_objects (o_body o)) -> mall (store_cmd d) (keeps_bodies h0) (proxy_write_out rec false x (Some d) f)).
      { intros x f Hin s1 Hs1. apply (kb_proxy h0 d); [done|done|intros; by apply dest_some|]. intros s2 Hs2 _. by apply Hrec. }
      assert (Hother : ~ is_tree_version_list h0 l -> ~ is_uuid_set h0 l -> last_set d (name_of (o_body o)) (map_out rec l d force s)).
      { intros N1 N2. eapply store_last, pall_mono; [|same|exact HW]. intros c [?|[[? _]|[? _]]]; done. }
      assert (HN : forall b, o_body o = b -> is_tree_version_list h0 l \/ is_uuid_set h0 l -> (exists vs, b = BVlist true vs) \/ (exists us, b = BUset us)).
      { intros b Hb [(x & vs & Hv)|(x & us & Hv)]; rewrite Hx in Hv; injection Hv as _ Hv; rewrite <- Hb, Hv; eauto. }
      destruct (o_body o) as [m|t|c dd|i v m t|k vs|us] eqn:Eb.
      1-4: apply Hother; intros Ht; [destruct (HN _ eq_refl (or_introl Ht)) as [[? ?]|[? ?]]|destruct (HN _ eq_refl (or_intror Ht)) as [[? ?]|[? ?]]]; done.
      - destruct k.
        2:{ apply Hother; intros Ht; [destruct (HN _ eq_refl (or_introl Ht)) as [[? ?]|[? ?]]|destruct (HN _ eq_refl (or_intror Ht)) as [[? ?]|[? ?]]]; done. }
        clear HW Hother HN. unfold map_out, mbind at 1. unfold getobj at 1. rewrite E. cbn [pbind fst snd]. rewrite Eb. cbn [name_of].
        unfold mbind at 1. eapply (bind_last d _ (fun rs => keeps_bodies h0 (snd rs))).
        { refine ((_ : mall _ (keeps_bodies h0) _) s Hs). apply mall_map. intros [v0 r] Hin. assert (Hin' : In (elt_loc (vr_elt r)) (sub_objects (BVlist true vs))).
          { cbn. apply in_map_iff. by exists (v0, r). }
          apply mall_bind; [|intros; apply mall_ret]. cbn [fst snd]. destruct (vr_elt r); [by apply Hp|by apply Hrec]. }
        intros [[js|e] s1] Hs1; cbn [snd fst] in *; [|done].
        unfold mbind at 1. eapply (bind_last d _ (fun rs => keeps_bodies h0 (snd rs))); [by apply kb_save_str|].
        intros [[x|e] s2] Hs2; cbn [snd fst] in *; [|done]. by apply update_last.
      - clear HW Hother HN. unfold map_out, mbind at 1. unfold getobj at 1. rewrite E. cbn [pbind fst snd]. rewrite Eb. cbn [name_of].
        unfold mbind at 1. eapply (bind_last d _ (fun rs => keeps_bodies h0 (snd rs))).
        { refine ((_ : mall _ (keeps_bodies h0) _) s Hs). apply mall_map. intros [u y] Hin. apply mall_bind; [apply Hrec|].
          - cbn. apply in_map_iff. by exists (u, y).
          - intros r. apply mall_bind; [apply kb_loc_of|]. intros. apply mall_ret. }
        intros [[es|e] s1] Hs1; cbn [snd fst] in *; [|done].
        unfold mbind at 1. eapply (bind_last d _ (fun rs => keeps_bodies h0 (snd rs))); [by apply kb_save_tree|].
        intros [[x|e] s2] Hs2; cbn [snd fst] in *; [|done]. by apply update_last.
    Qed.
    Lemma write_out_last fuel l o destination force s : s_heap s !! l = Some o -> keeps_bodies h0 s -> destination_of o destination = Some d ->
      last_set d (name_of (o_body o)) (write_out fuel l destination force s).
    Proof using Hd Htop.
      intros E Hs Hdest. destruct fuel as [|f]; [done|]. cbn [write_out].
      unfold mbind at 1. unfold getobj at 1. rewrite E. cbn [pbind fst snd].
      destruct (h_mapped (o_hdr o)) eqn:Em; cbn [negb].
      2:{ eapply store_last. match goal with |- pall _ _ (?m s) => refine ((_ : mall _ (keeps_bodies h0) m) s Hs) end.
          apply mall_bind; [apply mall_assert|]. intros _. apply mall_bind; [apply mall_assert|]. intros _.
          apply mall_bind; [apply kb_is_saved|]. intros []; [apply kb_own|apply mall_raise]. }
      unfold destination_of, or_else in Hdest.
      assert ((if truthy (h_realm (o_hdr o)) then or_else destination (h_realm (o_hdr o)) else destination) = Some d) as ->.
      { unfold or_else. destruct (truthy (h_realm (o_hdr o))) eqn:E1; [done|]. destruct (truthy destination); [done|].
        rewrite Hdest in E1. cbn in E1. by destruct d. }
      destruct (is_remote d); [done|].
      unfold mbind at 1. 
      eapply (bind_last d _ (fun rs => keeps_bodies h0 (snd rs) /\ exists o1, s_heap (snd rs) !! l = Some o1 /\ o_body o1 = o_body o)).
      { assert (HK := kb_set_hdr h0 d Hd Htop l (hd_realm (Some d)) ltac:(done) s Hs). unfold set_hdr, mbind, getobj in HK |- *. rewrite E in HK |- *. cbn [pbind pall fst snd] in HK |- *.
        cbn in HK |- *. split; [done|]. eexists. unfold heap in *. rewrite lookup_insert. split; [done|]. done. }
      intros [[u|e] s1] (Hs1 & o1 & E1 & Hb1); cbn [fst snd] in *; [|done].
      unfold mbind at 1. unfold is_saved_on, mbind at 1, mget. cbn [pbind fst snd].
      destruct (saved_on (S f) (s_heap s1) l (Some d)) as [b|e]; cbn [mres]; [|done]. unfold mret at 1. cbn [pbind fst snd].
      destruct (b && negb force); [eapply store_last; by apply (kb_own h0 (store_cmd d))|].
      assert (Hrec : forall x ff, In x (sub_objects (o_body o1)) -> mall (store_cmd d) (keeps_bodies h0) (write_out f x (Some d) ff)).
      { intros x ff Hx s3 Hs3. eapply pall_mono; [|same|apply (kb_write_out h0 d Hd Htop); [done|intros; by apply dest_some]]. intros c Hc.
        by eapply (write_cmd_sub h0 d Htop s1 l o1 x c). }
      unfold mbind at 1. rewrite <- Hb1.
      eapply tail_last.
      - by eapply map_out_last.
      - intros [ref|e] s3; cbn [fst snd]; [|by do 2 eexists]. unfold set_hdr, set_saved_on, mbind, getobj. destruct (s_heap s3 !! l); cbn; [|by do 2 eexists].
        unfold set_hdr, mbind, getobj. cbn. unfold heap in *. rewrite lookup_insert. cbn. by do 2 eexists.
      - intros e s3. by do 2 eexists.
      - done.
      - eapply pall_mono; [|same|]. 2: apply kb_map_out; [done|by rewrite E1|done]. done.
      - intros ref s3 Hs3. cbn [snd] in Hs3. destruct Hs3 as [_ Hm]. destruct (s_heap s3 !! l) as [o3|] eqn:E3.
        2:{ exfalso. destruct Hs1 as [_ Hm1]. specialize (Hm1 l). specialize (Hm l). rewrite E1 in Hm1. rewrite E3 in Hm. by destruct (h0 !! l). }
        cbn [fst snd]. unfold set_hdr, set_saved_on, mbind, getobj. rewrite E3. cbn. unfold set_hdr, mbind, getobj. cbn. unfold heap in *. rewrite lookup_insert. cbn. eauto.
    Qed.
  End One.

  Lemma us_ref_shape O ref : complete (look_stored O KdUs ref) -> exists x, ref = ref_of (ps "UUIDSet") x /\ object_id x = true.
  Proof.
    intros Hc. destruct (Hc []) as [Hb _]. apply look_stored_ok in Hb as [t Ht]. unfold stored in Ht. destruct (is_none_reference ref); [done|].
    destruct (jis_str _ _) eqn:Ej; [|done]. unfold stored_body in Ht. destruct ref as [c [x|]]; [|done]. cbn [ref_loc r_loc rbind] in Ht.
    exists x. unfold load_lines in Ht. destruct (object_id x); [|done]. split; [|done]. unfold conv_ref in Ej. cbn [r_class] in Ej.
    destruct (jis_str c _ || jis_str c _); [done|]. cbn in Ej. unfold ref_of. f_equal. destruct c; try done. cbn in Ej. apply bool_decide_eq_true in Ej. by f_equal.
  Qed.
  Lemma vl_ref_shape O k c x : complete (look_stored O (KdVl k) (Ref c (Some x))) -> object_id x = true.
  Proof.
    intros Hc. destruct (Hc []) as [Hb _]. apply look_stored_ok in Hb as [t Ht]. unfold stored in Ht. destruct (is_none_reference _); [done|].
    destruct (jis_str _ _) eqn:Ej; [|done]. unfold stored_body in Ht. cbn [ref_loc r_loc rbind] in Ht.
    unfold load_text in Ht. destruct (object_id x); done.
  Qed.
  Lemma sound_grow g g' n : objs_of g n ⊆ objs_of g' n -> (forall k ref, published g' n k ref -> published g n k ref \/ complete (look_stored (objs_of g' n) k ref)) ->
    sound g n -> sound g' n.
  Proof.
    intros HO HP Hs k ref [Hp|Hp]%HP; [|done]. specialize (Hs k ref Hp). eapply complete_ext; [|exact Hs]. intros q. apply look_stored_mono; [done|apply Hs].
  Qed.
  Lemma C30_others_lemma fuel l destination force m s o (d : pystr) g g' n : Spec_Write.writes fuel l destination force m -> caches_ok s -> top_level_only (s_heap s) ->
    s_heap s !! l = Some o -> kind_of (o_body o) <> KdVl true -> kind_of (o_body o) <> KdUs -> destination_of o destination = Some d -> d <> [] ->
    g' ∈ trace (m s) g \/ g' = snd (exec (m s) g) -> sound g n -> sound g' n.
  Proof.
    intros Hw Hc Ht Ho Hk1 Hk2 Hdest Hd Hg. destruct (C29_entry_lemma _ _ _ _ _ _ _ _ _ _ Hw Hc Ht Ho Hdest Hd Hg) as (H1 & H2 & H3).
    assert (HR : forall x, refs_of g' n !! x = refs_of g n !! x).
    { intros x. destruct (decide (n = d)) as [->|Hn]; [|unfold refs_of; by rewrite H1]. apply dec_stable. intros Hx. apply H3 in Hx.
      destruct Hx as [[_ (hx & vs & Hv)]|[_ (hx & us & Hv)]]; rewrite Ho in Hv; injection Hv as ->; done. }
    apply sound_grow.
    - destruct (decide (n = d)) as [->|Hn]; [done|]. unfold objs_of. by rewrite H1.
    - intros k ref (h & Hp). left. exists h. by rewrite !HR in Hp.
  Qed.
  Lemma C30_lemma (r : pystr) fuel l force s g g' o n : r <> [] -> caches_ok s -> dget (s_caches s) r = None -> top_level_only (s_heap s) ->
    tidy (objs_of g r) r s l -> s_heap s !! l = Some o ->
    g' ∈ trace (write_out fuel l (Some r) force s) g \/ g' = snd (exec (write_out fuel l (Some r) force s) g) -> sound g n -> sound g' n.
  Proof.
    intros Hr Hc Hu Htop HT Ho Hg.
    destruct (C29_entry_lemma _ _ _ _ _ _ _ _ _ _ (writes_any fuel l (Some r) force) Hc Htop Ho (dest_some r Hr o) Hr Hg) as (H1 & H2 & H3).
    assert (HO : objs_of g n ⊆ objs_of g' n) by (destruct (decide (n = r)) as [->|Hn]; [done|unfold objs_of; by rewrite H1]).
    pose proof (write_out_last (s_heap s) r Hr Htop fuel l o (Some r) force s Ho (kb_init s Hc) (dest_some r Hr o)) as HL.
    destruct (last_trace _ _ _ HL _ _ Hg) as [HS|(ref & s' & x & h & He & Hx & Hh & Hxh & Hoth)].
    { apply sound_grow; [done|]. intros k ref (h & Hp). left. exists h. by rewrite !HS in Hp. }
    destruct (written_before r Hr _ _ _ _ _ _ _ _ _ (writes_any fuel l (Some r) force) Hc Hu He) as (_ & Hc' & Hu').
    pose proof (tidy_mono _ _ _ _ _ H2 HT) as HT'.
    destruct (write_shows r Hr (objs_of g' r) fuel l force s g ref s' g' o) as (_ & _ & HSh); try done; [by apply uncached_cok|by apply uncached_completes|].
    assert (HC : complete (look_stored (objs_of g' r) (kind_of (o_body o)) (self_ref (kind_of (o_body o)) ref))).
    { eapply complete_ext; [|apply (td_complete _ _ _ _ HT')]. intros q. by rewrite HSh. }
    apply sound_grow; [done|]. intros k ref0 (h0 & Hp).
    destruct Hp as [(-> & Hp & ->)|(-> & Hp & ->)].
    - destruct (decide (refs_of g n !! TREE_VERSION_LIST = refs_of g' n !! TREE_VERSION_LIST)) as [E|E]; [left; exists h0; left; by rewrite E|right].
      assert (Hn : (n, TREE_VERSION_LIST) = (r, name_of (o_body o))) by (apply dec_stable; intros Hn; by rewrite (Hoth _ _ Hn) in E). injection Hn as -> Hn.
      rewrite <- Hn in Hh. rewrite Hp in Hh. injection Hh as ->. destruct (H3 TREE_VERSION_LIST) as [[_ (hx & vs & Hv)]|[Hv _]]; [congruence| |done].
      rewrite Ho in Hv. injection Hv as ->. cbn [o_body kind_of self_ref] in HC. rewrite Hx in HC. rewrite (Hxh (vl_ref_shape _ _ _ _ HC)). exact HC.
    - destruct (decide (refs_of g n !! UUID_SET = refs_of g' n !! UUID_SET)) as [E|E]; [left; exists h0; right; by rewrite E|right].
      assert (Hn : (n, UUID_SET) = (r, name_of (o_body o))) by (apply dec_stable; intros Hn; by rewrite (Hoth _ _ Hn) in E). injection Hn as -> Hn.
      rewrite <- Hn in Hh. rewrite Hp in Hh. injection Hh as ->. destruct (H3 UUID_SET) as [[Hv _]|[_ (hx & us & Hv)]]; [congruence|done|].
      rewrite Ho in Hv. injection Hv as ->. cbn [o_body kind_of self_ref] in HC. destruct (us_ref_shape _ _ HC) as (x0 & -> & Hx0). cbn in Hx. injection Hx as ->. by rewrite (Hxh Hx0).
  Qed.
End Publish.
