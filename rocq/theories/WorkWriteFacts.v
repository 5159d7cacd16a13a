(** Writing the top nodes after a look-up with [auto_create]: proofs for C55. *)
From Verif Require Import Base BaseFacts Path Spec_Path PathFacts Json Refs RefsFacts Meta Spec_Meta MetaFacts GitText Spec_Git Git GitFacts Spec_Store State BlobCache ObjRef Objects Spec_Objects Spec_Look Spec_Heap Spec_Versions Spec_Write ExecFacts LoadFacts PeekFacts TreeFacts TreeEditFacts VersionFacts PartFacts LookFacts ReadFacts Spec_Content ContentFacts WriteFacts StoreFacts SaveFacts WriteBackFacts WriteAllFacts ReadBackFacts PurgeFacts EditFacts RealmFacts GraftFacts AddFacts ListFacts Spec_History AnyWriteFacts UseFacts FrameFacts SessionFacts DatasetFacts HistoryFacts
  Common Spec_Common CommonFacts Spec_Publish Spec_Demand Spec_Workflow PublishFacts WorkFacts WorkStepFacts.

Definition cls_of (b : body) : pystr := match b with BUset _ => ps "UUIDSet" | _ => ps "TreeVersionList" end.
Section Refs.
  Context `{Env} (r : pystr) (Hr : r <> []).

  (** ** The reference that is set *)
  Lemma upd_ok (d n x : pystr) (s : pst) g u s' g' : exec (git_update_ref d n x s) g = ((Ok u, s'), g') ->
    exists h, refs_of g' d !! n = Some h /\ (object_id x = true -> h = x).
  Proof.
    intros He. unfold git_update_ref in He. apply xi_bind in He as (ls & s1 & g1 & E & He). apply xi_ret in He as (_ & _ & <-).
    unfold checked_execute in E. apply xi_bind in E as (a & s2 & g2 & E & E2). unfold execute in E. cbn [exec] in E.
    change (exec (Do (UpdateRef d n x) (fun a0 => Ret (Ok a0, s))) g = (Ok a, s2, g2)) in E. cbn [exec git] in E.
    destruct (local_repo g d) as [rp|] eqn:El; [|injection E as <- <- <-; done]. destruct (resolve rp x) as [h|] eqn:Er; [|injection E as <- <- <-; done].
    destruct (r_objs rp !! h); [|injection E as <- <- <-; done]. injection E as <- <- <-. apply xi_res in E2 as (_ & _ & <-).
    exists h. rewrite refs_set, decide_True by done. cbn. rewrite lookup_insert. split; [done|]. intros Hx. unfold resolve in Er. rewrite Hx in Er. by injection Er.
  Qed.
  Lemma map_out_sets rec l o force s g ref s' g' : s_heap s !! l = Some o -> topk (kind_of (o_body o)) -> exec (map_out rec l r force s) g = ((Ok ref, s'), g') ->
    exists x h, r_loc ref = Some x /\ refs_of g' r !! name_of (o_body o) = Some h /\ (object_id x = true -> h = x).
  Proof.
    intros Ho Hk He. unfold map_out in He. apply xi_bind in He as (o1 & s1 & g1 & E & He). apply xi_getobj in E as (E & <- & <-). assert (o1 = o) as -> by congruence.
    destruct (o_body o) as [m|t|c dd|i v m t|k vs|us]; try (by destruct Hk).
    - destruct k; [|by destruct Hk]. apply xi_bind in He as (js & s2 & g2 & E1 & He). apply xi_bind in He as (x & s3 & g3 & E2 & He).
      apply xi_bind in He as (u & s4 & g4 & E3 & He). apply xi_ret in He as (<- & <- & <-). destruct (upd_ok _ _ _ _ _ _ _ _ E3) as (h & H1 & H2). by exists x, h.
    - apply xi_bind in He as (js & s2 & g2 & E1 & He). apply xi_bind in He as (x & s3 & g3 & E2 & He).
      apply xi_bind in He as (u & s4 & g4 & E3 & He). apply xi_ret in He as (<- & <- & <-). destruct (upd_ok _ _ _ _ _ _ _ _ E3) as (h & H1 & H2). by exists x, h.
  Qed.
  (** with the realm set, as a write does first *)
  Definition homed (s : pst) (l : loc) (o : obj) : pst := with_heap s (<[l := Obj (hd_realm (Some r) (o_hdr o)) (o_body o)]> (s_heap s)).
  Lemma homed_frame s l o : s_heap s !! l = Some o -> h_mapped (o_hdr o) = true -> frame (s_heap s) (s_heap (homed s l o)).
  Proof.
    intros Ho Hm x. unfold homed. cbn [s_heap with_heap]. rewrite heap_insert. destruct (decide (l = x)) as [<-|]; [|apply ro_refl].
    rewrite Ho. cbn. split_and!; try done; cbn; congruence.
  Qed.
  Lemma homed_saved s l o (x : loc) o' : s_heap s !! l = Some o -> s_heap (homed s l o) !! x = Some o' -> exists ox, s_heap s !! x = Some ox /\ o_body ox = o_body o' /\ h_saved (o_hdr ox) = h_saved (o_hdr o') /\ h_mapped (o_hdr ox) = h_mapped (o_hdr o').
  Proof.
    intros Ho. unfold homed. cbn [s_heap with_heap]. rewrite heap_insert. destruct (decide (l = x)) as [<-|]; [|intros; by exists o'].
    intros [= <-]. by exists o.
  Qed.
  Lemma homed_all s l o : s_heap s !! l = Some o -> h_mapped (o_hdr o) = true -> all_saved r (s_heap s) l -> all_saved r (s_heap (homed s l o)) l.
  Proof.
    intros Ho Hm Ha p x o' Hp Hx. rewrite (fo_reach (s_heap s)) in Hp by by apply fr_on, homed_frame. destruct (homed_saved _ _ _ _ _ Ho Hx) as (ox & H1 & _ & <- & _). by eapply Ha.
  Qed.
  Lemma homed_dirty s l o : s_heap s !! l = Some o -> h_mapped (o_hdr o) = true -> dirty (s_heap s) l -> dirty (s_heap (homed s l o)) l.
  Proof.
    intros Ho Hm (p & x & Hp & (ox & Hx & Hxm & Hxs)). exists p, x. split; [by rewrite (fo_reach (s_heap s)) by by apply fr_on, homed_frame|].
    unfold homed, unsaved. cbn [s_heap with_heap]. rewrite heap_insert. destruct (decide (l = x)) as [<-|]; [|by exists ox]. eexists. split; [done|]. rewrite Ho in Hx. by injection Hx as ->.
  Qed.
  Lemma write_split f l s g ref s' g' o : s_heap s !! l = Some o -> h_mapped (o_hdr o) = true -> topk (kind_of (o_body o)) -> exec (write_out f l (Some r) false s) g = ((Ok ref, s'), g') ->
    (exists f', saved_on f' (s_heap (homed s l o)) l (Some r) = Ok true /\ s' = homed s l o /\ g' = g) \/
    (exists f', saved_on f' (s_heap (homed s l o)) l (Some r) = Ok false /\ exists x h, r_loc ref = Some x /\ refs_of g' r !! name_of (o_body o) = Some h /\ (object_id x = true -> h = x)).
  Proof.
    intros Ho Hm Hk He. destruct f as [|f]; [done|]. cbn [write_out] in He.
    apply xi_bind in He as (o1 & s1 & g1 & E & He). apply xi_getobj in E as (E & <- & <-). assert (o1 = o) as -> by congruence. rewrite Hm in He. cbn [negb] in He.
    assert (Hd : (if truthy (h_realm (o_hdr o)) then or_else (Some r) (h_realm (o_hdr o)) else Some r) = Some r).
    { unfold or_else. cbn. destruct r; [done|]. by destruct (truthy _). }
    rewrite Hd in He. destruct (is_remote r); [done|].
    rewrite (x_bind (set_hdr _ _)), (x_set_hdr _ _ _ _ _ Ho) in He. cbn beta iota in He. fold (homed s l o) in He.
    assert (Ho1 : s_heap (homed s l o) !! l = Some (Obj (hd_realm (Some r) (o_hdr o)) (o_body o))) by (unfold homed; cbn [s_heap with_heap]; by rewrite heap_insert, decide_True).
    apply xi_bind in He as (b & s2 & g2 & E2 & He). change (exec (is_saved_on (S f) l (Some r) (homed s l o)) g = (Ok b, s2, g2)) in E2. rewrite x_is_saved in E2. injection E2 as E2 <- <-.
    destruct b; cbn [andb negb] in He.
    - left. exists (S f). split; [done|]. unfold own_reference in He. apply xi_bind in He as (o2 & s3 & g3 & E3 & He). apply xi_getobj in E3 as (E3 & <- & <-).
      destruct (h_ref (o_hdr o2)); [|done]. by apply xi_ret in He as (_ & <- & <-).
    - right. exists (S f). split; [done|]. apply xi_bind in He as (rf & s3 & g3 & E3 & He). apply xi_bind in He as (u & s4 & g4 & E4 & He). apply xi_bind in He as (u2 & s5 & g5 & E5 & He).
      apply xi_ret in He as (<- & <- & <-). destruct (map_out_sets _ _ _ _ _ _ _ _ _ Ho1 Hk E3) as (x & h & H1 & H2 & H3). exists x, h. split; [done|]. split; [|done].
      unfold set_hdr in E4. apply xi_bind in E4 as (o4 & s6 & g6 & E6 & E4). apply xi_getobj in E6 as (E6 & <- & <-). apply xi_setobj in E4 as [_ <-].
      unfold set_saved_on, set_hdr in E5. apply xi_bind in E5 as (o5 & s7 & g7 & E7 & E5). apply xi_getobj in E7 as (E7 & <- & <-). apply xi_setobj in E5 as [_ <-]. done.
  Qed.

  (** ** Nothing else is set *)
  Section Closed.
    Context (h0 : heap) (K : loc -> Prop) (HK : forall l o l', K l -> h0 !! l = Some o -> h_mapped (o_hdr o) = true -> In l' (sub_objects (o_body o)) -> K l' /\ ~ is_tree_version_list h0 l' /\ ~ is_uuid_set h0 l').
    Lemma kc_write_out fuel : forall l force s, K l -> keeps_bodies h0 s -> pall (write_cmd h0 r l) (fun rs => keeps_bodies h0 (snd rs)) (write_out fuel l (Some r) force s).
    Proof using Hr HK.
      assert (Hh : forall l f, (forall x, h_mapped (f x) = h_mapped x /\ h_saved x ⊆ h_saved (f x)) -> mall (fun _ => False) (keeps_bodies h0) (set_hdr l f)).
      { intros l f Hf s [Hc Hm]. unfold set_hdr, mbind, getobj. destruct (s_heap s !! l) as [o|] eqn:E; [|done]. cbn [pbind pall fst snd]. cbn. split; [done|].
        intros x. cbn [s_heap with_heap]. rewrite heap_insert. destruct (decide (l = x)) as [<-|]; [|apply Hm]. specialize (Hm l). rewrite E in Hm. destruct (h0 !! l) as [o0|]; [|done].
        cbn in Hm |- *. destruct Hm as (H1 & H2 & H3). destruct (Hf (o_hdr o)) as [F1 F2]. split_and!; [done|by rewrite F1|set_solver]. }
      induction fuel as [|f IH]; intros l force s HKl Hs; [done|]. cbn [write_out].
      unfold mbind at 1. apply pall_bind. unfold getobj at 1. destruct (s_heap s !! l) as [o|] eqn:E; [|done]. cbn [pall fst snd].
      destruct (h_mapped (o_hdr o)) eqn:Em; cbn [negb].
      2:{ match goal with |- pall _ _ (?m s) => refine ((_ : mall _ (keeps_bodies h0) m) s Hs) end.
          apply mall_bind; [apply mall_assert|]. intros _. apply mall_bind; [apply mall_assert|]. intros _.
          apply mall_bind; [apply kb_is_saved|]. intros []; [apply kb_own|apply mall_raise]. }
      assert ((if truthy (h_realm (o_hdr o)) then or_else (Some r) (h_realm (o_hdr o)) else Some r) = Some r) as ->.
      { unfold or_else. cbn. destruct r; [done|]. by destruct (truthy _). }
      destruct (is_remote r); [done|].
      unfold mbind at 1. apply pall_bind.
      eapply (pall_mono (fun _ => False)); [by intros ? []| |apply (Hh l (hd_realm (Some r)) ltac:(done) s Hs)]. intros [[[]|e] s1] Hs1; cbn in Hs1; [|done]. cbn [fst snd].
      unfold mbind at 1. apply pall_bind. eapply (pall_mono (fun _ => False)); [by intros ? []| |apply (kb_is_saved h0 (fun _ => False) _ _ _ s1 Hs1)].
      intros [[b|e] s2] Hs2; cbn in Hs2; [|done]. cbn [fst snd].
      destruct (b && negb force); [by apply kb_own|].
      unfold mbind at 1. apply pall_bind. eapply pall_mono; [same| |apply kb_map_out; [done| |done]].
      - intros [[rf|e] s3] Hs3; cbn in Hs3; [|done]. cbn [fst snd].
        match goal with |- pall _ _ (?m s3) => refine ((_ : mall _ (keeps_bodies h0) m) s3 Hs3) end.
        apply mall_bind; [eapply (mall_weak _ (fun _ => False)); [by intros ? []|by apply Hh]|]. intros _.
        apply mall_bind; [eapply (mall_weak _ (fun _ => False)); [by intros ? []|apply Hh]|].
        { intros x. cbn. split; [done|]. set_solver. }
        intros _. apply mall_ret.
      - intros x f' Hx s3 Hs3. destruct (s_heap s2 !! l) as [o2|] eqn:E2; [|done].
        assert (Hb : o_body o2 = o_body o).
        { destruct Hs as [_ Hm], Hs2 as [_ Hm2]. specialize (Hm l). specialize (Hm2 l). rewrite E in Hm. rewrite E2 in Hm2. destruct (h0 !! l) as [o0|]; [|done]. cbn in Hm, Hm2. destruct Hm as (-> & _), Hm2 as (-> & _). done. }
        assert (H0 : exists o0, h0 !! l = Some o0 /\ o_body o0 = o_body o /\ h_mapped (o_hdr o0) = true).
        { destruct Hs as [_ Hm]. specialize (Hm l). rewrite E in Hm. destruct (h0 !! l) as [o0|]; [|done]. cbn in Hm. destruct Hm as (H1 & H2 & _). exists o0. split_and!; [done|done|congruence]. }
        destruct H0 as (o0 & H0 & Hb0 & Hm0). rewrite Hb, <- Hb0 in Hx. destruct (HK l o0 x HKl H0 Hm0 Hx) as (K1 & K2 & K3).
        eapply pall_mono; [|same|apply IH; [done|done]]. intros c [?|[[? _]|[? _]]]; done.
    Qed.
  End Closed.
  Lemma write_only f l o s g a s' g' : heap_ok s -> caches_ok s -> s_heap s !! l = Some o -> (forall k p y, reach (s_heap s) l (k :: p) = Some y -> ~ is_top s y) ->
    exec (write_out f l (Some r) false s) g = ((a, s'), g') -> adds_to (s_heap s) r l g g'.
  Proof using Hr.
    intros Hok Hc Ho Hlow He.
    assert (HP : pall (write_cmd (s_heap s) r l) (fun rs => keeps_bodies (s_heap s) (snd rs)) (write_out f l (Some r) false s)).
    { apply (kc_write_out (s_heap s) (fun y => exists p, reach (s_heap s) l p = Some y)); [|by exists []|by apply kb_init].
      intros y oy z (p & Hp) Hy Hm Hz. destruct (Hok y oy Hy) as (_ & _ & _ & Hn). rewrite <- sub_kids in Hz. apply in_map_iff in Hz as ([k y'] & <- & Hin). cbn [snd].
      assert (Hpk : reach (s_heap s) l (p ++ [k]) = Some y'). { rewrite reach_app, Hp. cbn [reach]. rewrite Hy, Hm. by rewrite (TreeFacts.In_dget _ _ _ Hn Hin). }
      assert (Ht : ~ is_top s y'). { destruct (p ++ [k]) as [|k0 p0] eqn:Ep; [by destruct p|]. by eapply Hlow. }
      split; [by eexists|]. split; [intros (hx & vs & Hv)|intros (hx & us & Hv)]; apply Ht; eexists; (split; [exact Hv|]); cbn; [by left|by right]. }
    eapply C29_lemma; [eapply pall_mono; [same| |exact HP]; done|]. right. by rewrite He.
  Qed.
End Refs.

(** ** Writing one of the top nodes *)
Lemma dirty_marked r h l : dirty h l -> ~ all_marked r h l.
Proof. intros (p & x & Hp & (o & Ho & Hm & Hs)) Ha. destruct (Ha p x o Hp Ho) as [Hi|[Hi _]]; [rewrite Hs in Hi; set_solver|congruence]. Qed.
Section Top.
  Context `{Env} (r : pystr) (Hr : r <> []).
  Lemma top_write f l s g ref s' g' o c : fresh r s -> ready (objs_of g r) r s l o -> held g r c s l ->
    ((forall q, look (objs_of g r) (s_heap s) l q = c q) -> exists h, refs_of g r !! name_of (o_body o) = Some h /\ forall q, c q = look_stored (objs_of g r) (kind_of (o_body o)) (ref_of (cls_of (o_body o)) h) q) ->
    exec (write_out f l (Some r) false s) g = ((Ok ref, s'), g') ->
    objs_of g r ⊆ objs_of g' r /\ fresh r s' /\ wfr s s' l /\ (forall k x, dget (kids_of (o_body o)) k = Some x -> tidy (objs_of g' r) r s' x) /\
    (forall n, n <> name_of (o_body o) -> refs_of g' r !! n = refs_of g r !! n) /\
    exists h, refs_of g' r !! name_of (o_body o) = Some h /\ forall q, look_stored (objs_of g' r) (kind_of (o_body o)) (ref_of (cls_of (o_body o)) h) q = look (objs_of g r) (s_heap s) l q.
  Proof using Hr.
    intros (Hok & Hc & Hu) R [_ Hh] HP He. pose proof (rd_obj _ _ _ _ _ R) as Ho. pose proof (rd_map _ _ _ _ _ R) as Hm. pose proof (rd_top _ _ _ _ _ R) as Hk.
    destruct (written_before r Hr _ _ _ _ _ _ _ _ _ (writes_any f l (Some r) false) Hc Hu He) as (HO & Hc' & Hu').
    destruct (any_write r _ _ _ _ _ _ _ _ _ Hr (writes_any f l (Some r) false) Hok Hc He) as (W & _ & _).
    assert (Hok' : heap_ok s') by (eapply frame_heap_ok; [exact Hok|apply W|apply W]).
    assert (Haway : forall k x q, dget (kids_of (o_body o)) k = Some x -> reach (s_heap s) x q <> Some l) by (intros k x q Hd; eapply rd_away; [exact R|done|by eapply rd_is_top]).
    assert (HA : adds_to (s_heap s) r l g g').
    { eapply write_only; [done|done|done|exact Ho| |exact He]. intros k p y Hp Hy. rewrite (rd_reach _ _ _ _ _ R) in Hp. destruct (dget _ k) as [x|] eqn:Ed; [|done].
      by eapply (rd_away _ _ _ _ _ R k x p y). }
    assert (HN : forall n, n <> name_of (o_body o) -> refs_of g' r !! n = refs_of g r !! n).
    { intros n Hn. apply dec_stable. intros Hx. destruct HA as (_ & _ & HA). apply HA in Hx. destruct Hx as [[-> (hx & vs & Hv)]|[-> (hx & us & Hv)]]; rewrite Ho in Hv; injection Hv as ->; by cbn in Hn. }
    split; [done|]. split; [done|]. split; [done|].
    destruct (write_split r Hr f l s g ref s' g' o Ho Hm Hk He) as [(f' & Hs & -> & ->)|(f' & Hs & x & h & Hx & Hh1 & Hxh)].
    - destruct Hh as [[Hl _]|Hd]; [|exfalso; eapply dirty_marked; [exact (homed_dirty r s l o Ho Hm Hd)|exact (saved_marked r _ _ _ Hs)]].
      split; [|split; [done|]].
      + intros k y Hd. eapply tidy_same; [by eapply (rd_kid _ _ _ _ _ R)|done|]. intros p z Hp. unfold homed. cbn [s_heap with_heap]. rewrite heap_insert, decide_False; [done|].
        intros <-. by eapply Haway.
      + destruct (HP Hl) as (h & H1 & H2). exists h. split; [done|]. intros q. by rewrite <- H2, Hl.
    - destruct Hh as [[_ Ha]|Hd].
      { exfalso. assert (E : saved_on f' (s_heap (homed r s l o)) l (Some r) = Ok true); [|congruence].
        assert (HF : frame (s_heap s) (s_heap (homed r s l o))) by exact (homed_frame r s l o Ho Hm). assert (Hok1 : heap_ok (homed r s l o)) by exact (frame_heap_ok _ _ Hok HF eq_refl).
        apply saved_on_fuel; [by rewrite Hs| |].
        - intros y Hy. destruct (below_reach _ _ _ Hok1 Hy) as (p & Hp). destruct (fr_get _ _ _ _ HF Ho) as (o' & Ho' & _). destruct (reach_some _ _ Hok1 l y (ex_intro _ _ Ho') Hp) as (oy & Hoy).
          exists oy. split; [done|]. split; [exact (homed_all r s l o Ho Hm Ha p y oy Hp Hoy)|]. intros z _ Hz. destruct (Hok1 y oy Hoy) as (_ & K & _). by apply K.
        - unfold homed. cbn [s_heap with_heap]. rewrite heap_insert, decide_True by done. by eexists. }
      assert (HT : tidy (objs_of g r) r s l). { eapply rd_tidy; [exact R|]. intros Ha. by destruct (dirty_marked _ _ _ Hd Ha). }
      pose proof (tidy_mono _ _ _ _ _ HO HT) as HT'. pose proof (complete_look_mono _ _ _ _ HO (td_complete _ _ _ _ HT)) as HL.
      split; [|split; [done|]].
      + intros k y Hy. destruct f as [|f]; [done|].
        destruct (write_cases r Hr (objs_of g' r) f l false s g ref s' g' o) as [[_ G]|(s1 & o1 & s2 & D & _ & HT1 & HW1 & Ho1 & Hb1 & Hm1 & HI & _ & _ & _ & ->)]; try done.
        * split; [by apply write_good|]. intros z b. by apply svm_write_out.
        * by apply uncached_cok.
        * by apply uncached_completes.
        * destruct (fr_get _ _ _ _ (proj1 W) Ho) as (o' & Ho' & (Hb' & Hm' & _)). eapply (tidy_kid _ _ _ l o' k); [apply G|done|by rewrite Hm'|by rewrite Hb'].
        * rewrite <- Hb1 in Hy. eapply (tidy_same _ _ s2); [by eapply (ki_tidy _ _ _ _ _ _ HI)|done|]. intros p z Hp. cbn [s_heap with_heap]. rewrite heap_insert, decide_False; [done|].
          intros <-. rewrite (fo_reach (s_heap s1)), (fo_reach (s_heap s)) in Hp; [|apply fr_on, HW1|apply fr_on, HI]. rewrite Hb1 in Hy. by eapply Haway.
      + destruct (write_shows r Hr (objs_of g' r) f l false s g ref s' g' o) as (_ & _ & HSh); try done; [by apply uncached_cok|by apply uncached_completes|].
        assert (HC : complete (look_stored (objs_of g' r) (kind_of (o_body o)) (self_ref (kind_of (o_body o)) ref))).
        { eapply complete_ext; [|apply (td_complete _ _ _ _ HT')]. intros q. by rewrite HSh. }
        exists h. split; [done|]. intros q. rewrite <- HL, <- HSh. f_equal.
        destruct (o_body o) as [| | | |[] vs|us]; try (by destruct Hk); cbn [kind_of self_ref cls_of] in HC |- *.
        * rewrite Hx in HC |- *. unfold ref_of. by rewrite (Hxh (vl_ref_shape _ _ _ _ HC)).
        * destruct (us_ref_shape _ _ HC) as (x0 & -> & Hx0). cbn in Hx. injection Hx as ->. by rewrite (Hxh Hx0).
  Qed.
End Top.

(** ** Writing both *)
Section Both.
  Context `{Env} (r : pystr) (g : gstate) (Hr : r <> []) (tvl us : loc) (c1 c2 : content).
  Local Notation O := (objs_of g r).
  Lemma after_first f s ot ou u v p m ref s1 g1 : ended r g tvl us c1 c2 s ot ou u v p m ->
    exec (write_out f tvl (Some r) false s) g = ((Ok ref, s1), g1) ->
    objs_of g r ⊆ objs_of g1 r -> fresh r s1 -> wfr s s1 tvl -> (forall k x, dget (kids_of (o_body ot)) k = Some x -> tidy (objs_of g1 r) r s1 x) ->
    ready (objs_of g1 r) r s1 us ou /\ held g1 r c2 s1 us /\ forall q, look (objs_of g1 r) (s_heap s1) us q = look O (s_heap s) us q.
  Proof using Hr.
    intros HE He HO (Hok1 & Hc1 & Hu1) (W1 & W2 & W3) HK.
    pose proof (proj1 (sd_based _ _ _ _ _ _ _ (en_t _ _ _ _ _ _ _ _ _ _ _ _ _ HE))) as RT. pose proof (proj1 (sd_based _ _ _ _ _ _ _ (en_u _ _ _ _ _ _ _ _ _ _ _ _ _ HE))) as RU.
    destruct (en_fresh _ _ _ _ _ _ _ _ _ _ _ _ _ HE) as (Hok & Hc & Hu).
    assert (Hne : tvl <> us).
    { intros E. pose proof (rd_obj _ _ _ _ _ RT) as H1. rewrite E, (rd_obj _ _ _ _ _ RU) in H1. injection H1 as H1. pose proof (en_kt _ _ _ _ _ _ _ _ _ _ _ _ _ HE) as K1. rewrite <- H1, (en_ku _ _ _ _ _ _ _ _ _ _ _ _ _ HE) in K1. done. }
    assert (Tt : is_top s tvl) by by eapply rd_is_top. assert (Tu : is_top s us) by by eapply rd_is_top.
    (* objects apart from the parts of the first *)
    assert (Hap : forall x, tidy O r s x -> (forall k z, dget (kids_of (o_body ot)) k = Some z -> apart (s_heap s) z x) -> (forall q, reach (s_heap s) x q <> Some tvl) ->
      same_below (s_heap s) (s_heap s1) x /\ tidy (objs_of g1 r) r s1 x).
    { intros x HT Hz Hx. destruct (write_elsewhere r r f tvl false _ s g (Ok ref) s1 g1 x Hr (writes_any f tvl (Some r) false) Hc HT) as (_ & _ & H1 & H2 & _); [|exact He|done].
      intros q1 q2 y H1 H2. destruct q2 as [|k q2]; [injection H2 as <-; by apply (Hx q1)|]. rewrite (rd_reach _ _ _ _ _ RT) in H2. destruct (dget _ k) as [z|] eqn:Ez; [|done]. exact (Hz k z Ez _ _ _ H2 H1). }
    assert (Hcell : forall y : loc, y <> tvl -> (forall k x q, dget (kids_of (o_body ot)) k = Some x -> reach (s_heap s) x q <> Some y) -> s_heap s1 !! y = s_heap s !! y).
    { intros y Hy Hn. apply W3. intros [|k q] Hq; [injection Hq as ->; done|]. rewrite (rd_reach _ _ _ _ _ RT) in Hq. destruct (dget _ k) as [x|] eqn:Ex; [|done]. by eapply Hn. }
    assert (Hus : s_heap s1 !! us = Some ou).
    { rewrite Hcell; [apply RU|by apply not_eq_sym|]. intros k x q Hd. exact (rd_away _ _ _ _ _ RT k x q us Hd Tu). }
    assert (HL : forall x, tidy O r s x -> forall q, look (objs_of g1 r) (s_heap s1) x q = look O (s_heap s) x q).
    { intros x HT q. rewrite (fo_look _ (s_heap s) (s_heap s1)) by by apply fr_on. apply (complete_look_mono O _ _ _ HO). apply HT. }
    assert (HB : forall k x, dget (kids_of (o_body ou)) k = Some x -> tidy (objs_of g1 r) r s1 x /\ (same_below (s_heap s) (s_heap s1) x \/ dirty (s_heap s1) us)).
    { intros k x Hd. assert (HT : tidy O r s x) by by eapply (rd_kid _ _ _ _ _ RU). assert (Hx : forall q, reach (s_heap s) x q <> Some tvl) by (intros q; exact (rd_away _ _ _ _ _ RU k x q tvl Hd Tt)).
      destruct (en_cross _ _ _ _ _ _ _ _ _ _ _ _ _ HE) as [HC|(vl & ov & V1 & V2 & V3 & V4 & V5 & V6 & V7 & V8 & V9)].
      - destruct (Hap x HT) as [H1 H2]; [intros k0 z Hz; by eapply HC|done|]. split; [done|by left].
      - destruct (decide (k = KUuid u)) as [->|Hk]; [|destruct (Hap x HT) as [H1 H2]; [intros k0 z Hz; by eapply V9|done|split; [done|by left]]].
        assert (x = vl) as -> by congruence.
        assert (Hvl : s_heap s1 !! vl = Some ov). { rewrite Hcell; [done| |done]. intros ->. by apply (Hx []). }
        assert (HD : dirty (s_heap s1) us).
        { exists [KUuid u], vl. split; [|by exists ov]. cbn [reach]. by rewrite Hus, (rd_map _ _ _ _ _ RU), Hd. }
        split; [|by right].
        assert (HV : forall k2 y, dget (kids_of (o_body ov)) k2 = Some y -> tidy (objs_of g1 r) r s1 y).
        { intros k2 y Hy. destruct (decide (k2 = KVer v p)) as [->|Hk2].
          - assert (y = m) as -> by congruence. rewrite (rd_reach _ _ _ _ _ RT) in V6. destruct (dget (kids_of (o_body ot)) (KVer v p)) as [z|] eqn:Ez; [|done].
            eapply (tidy_reach _ _ _ [KName root_record_name] z); [by eapply HK|]. by rewrite (fo_reach (s_heap s)) by by apply fr_on.
          - assert (HTy : tidy O r s y) by by eapply (tidy_kid _ _ _ vl ov). apply (Hap y HTy); [intros k0 z Hz; by eapply V8|].
            intros q Hq. apply (Hx (k2 :: q)). cbn [reach]. by rewrite V2, V3, Hy. }
        assert (Hb : exists vs kk, o_body ov = BVlist kk vs). { apply kids_fit in V5. destruct (o_body ov); try done. by do 2 eexists. }
        destruct Hb as (vs & kk & Hb).
        apply (tidy_up _ _ _ vl ov); try done.
        + intros p1 p2 y. rewrite !(fo_reach (s_heap s) (s_heap s1)) by by apply fr_on. apply HT.
        + eapply complete_ext; [|apply (td_complete _ _ _ _ HT)]. intros q. by apply HL.
        + intros k3 vs3 Hb3. destruct ov as [hv bv]. cbn in Hb3. subst bv. by eapply (td_keyed _ _ _ _ HT [] vl).
        + intros rf Hk3. rewrite Hb in Hk3. done.
        + intros i w mm t Hb3. rewrite Hb in Hb3. done.
        + intros Hma. exfalso. destruct (Hma [] vl ov eq_refl Hvl) as [Hi|[Hi _]]; [rewrite V4 in Hi; set_solver|congruence]. }
    assert (RU1 : ready (objs_of g1 r) r s1 us ou).
    { split.
      - done.
      - done.
      - apply RU.
      - apply RU.
      - intros k x Hd. by eapply HB.
      - intros k k' x x' Hd Hd' Hn p1 p2 y. rewrite !(fo_reach (s_heap s) (s_heap s1)) by by apply fr_on. by eapply (rd_two _ _ _ _ _ RU).
      - apply RU.
      - apply RU.
      - intros k x lb Hd. rewrite HL by by eapply (rd_kid _ _ _ _ _ RU). by eapply (rd_part _ _ _ _ _ RU). }
    assert (HLU : forall q, look (objs_of g1 r) (s_heap s1) us q = look O (s_heap s) us q).
    { intros q. rewrite (fo_look _ (s_heap s) (s_heap s1)) by by apply fr_on. apply (complete_look_mono O _ _ _ HO). by eapply rd_complete. }
    split; [done|]. split; [|done].
    destruct (sd_held _ _ _ _ _ _ _ (en_u _ _ _ _ _ _ _ _ _ _ _ _ _ HE)) as [Hw Hd]. split.
    - intros q lb Hq. rewrite HLU. by apply Hw.
    - destruct Hd as [[Hl Hs]|Hd].
      + left. split; [intros q; by rewrite HLU|]. intros q x o' Hq Ho'. rewrite (fo_reach (s_heap s)) in Hq by by apply fr_on. destruct (fr_back _ _ _ _ W1 Ho') as (o0 & Ho0 & (_ & _ & Hsv & _)).
        apply Hsv. by eapply Hs.
      + right. destruct Hd as (q & y & Hq & (oy & Hy & Hym & Hys)). destruct q as [|k q].
        * injection Hq as <-. exists [], us. split; [done|]. exists ou. split; [done|]. rewrite (rd_obj _ _ _ _ _ RU) in Hy. by injection Hy as ->.
        * pose proof Hq as Hq0. rewrite (rd_reach _ _ _ _ _ RU) in Hq. destruct (dget _ k) as [x|] eqn:Ex; [|done]. destruct (HB k x Ex) as [_ [HS|HD]]; [|done].
          exists (k :: q), y. split; [by rewrite (fo_reach (s_heap s)) by by apply fr_on|]. exists oy. split; [|done]. by rewrite (HS q y Hq).
  Qed.
End Both.
Section BothWrites.
  Context `{Env} (r : pystr) (Hr : r <> []) (tvl us : loc) (c1 c2 : content).
  Lemma both_writes f1 f2 s g ot ou u v p m ref1 s1 g1 ref2 s2 g2 : ended r g tvl us c1 c2 s ot ou u v p m ->
    publishes g r (KdVl true) c1 -> publishes g r KdUs c2 ->
    exec (write_out f1 tvl (Some r) false s) g = ((Ok ref1, s1), g1) -> exec (write_out f2 us (Some r) false s1) g1 = ((Ok ref2, s2), g2) ->
    fresh r s2 /\ exists h1 h2, refs_of g2 r !! TREE_VERSION_LIST = Some h1 /\ refs_of g2 r !! UUID_SET = Some h2 /\
      (forall q, look_stored (objs_of g2 r) (KdVl true) (ref_of (ps "TreeVersionList") h1) q = look (objs_of g r) (s_heap s) tvl q) /\
      (forall q, look_stored (objs_of g2 r) KdUs (ref_of (ps "UUIDSet") h2) q = look (objs_of g r) (s_heap s) us q).
  Proof using Hr.
    intros HE P1 P2 E1 E2.
    pose proof (proj1 (sd_based _ _ _ _ _ _ _ (en_t _ _ _ _ _ _ _ _ _ _ _ _ _ HE))) as RT. pose proof (proj1 (sd_based _ _ _ _ _ _ _ (en_u _ _ _ _ _ _ _ _ _ _ _ _ _ HE))) as RU.
    assert (NT : name_of (o_body ot) = TREE_VERSION_LIST /\ cls_of (o_body ot) = ps "TreeVersionList").
    { pose proof (en_kt _ _ _ _ _ _ _ _ _ _ _ _ _ HE) as K. by destruct (o_body ot). }
    assert (NU : name_of (o_body ou) = UUID_SET /\ cls_of (o_body ou) = ps "UUIDSet").
    { pose proof (en_ku _ _ _ _ _ _ _ _ _ _ _ _ _ HE) as K. by destruct (o_body ou). }
    destruct NT as [NT CT], NU as [NU CU].
    destruct (top_write r Hr f1 tvl s g ref1 s1 g1 ot c1) as (HO1 & HF1 & W1 & HK1 & HN1 & h1 & Hh1 & L1); [apply HE|done|apply (sd_held _ _ _ _ _ _ _ (en_t _ _ _ _ _ _ _ _ _ _ _ _ _ HE))| |done|].
    { intros Hl. rewrite NT, CT, (en_kt _ _ _ _ _ _ _ _ _ _ _ _ _ HE). destruct P1 as [(rf & (h & [(_ & Hp & ->)|(Hx & _)]) & Hq)|[_ Hq]]; [by exists h|done|].
      exfalso. pose proof (rd_nil _ _ _ _ _ RT) as E0. rewrite Hl, Hq in E0. done. }
    destruct (after_first r g Hr tvl us c1 c2 f1 s ot ou u v p m ref1 s1 g1 HE E1 HO1 HF1 W1 HK1) as (RU1 & HH1 & LU).
    rewrite NT, CT, (en_kt _ _ _ _ _ _ _ _ _ _ _ _ _ HE) in *.
    assert (Hn : TREE_VERSION_LIST <> UUID_SET) by (intros E; vm_compute in E; discriminate E).
    destruct (top_write r Hr f2 us s1 g1 ref2 s2 g2 ou c2) as (HO2 & HF2 & W2 & HK2 & HN2 & h2 & Hh2 & L2); [done|done|done| |done|].
    { intros Hl. rewrite NU, CU, (en_ku _ _ _ _ _ _ _ _ _ _ _ _ _ HE). destruct P2 as [(rf & (h & [(Hx & _)|(_ & Hp & ->)]) & Hq)|[_ Hq]]; [done| |].
      - exists h. rewrite HN1 by by apply not_eq_sym. split; [done|]. intros q. rewrite Hq. symmetry. apply look_stored_mono; [done|].
        rewrite <- Hq, <- Hl, LU. apply (rd_complete _ _ _ _ _ RU q).
      - exfalso. pose proof (rd_nil _ _ _ _ _ RU1) as E0. rewrite Hl, Hq in E0. done. }
    rewrite NU, CU, (en_ku _ _ _ _ _ _ _ _ _ _ _ _ _ HE) in *.
    split; [done|]. exists h1, h2. split; [by rewrite HN2|]. split; [done|]. split.
    - intros q. rewrite <- L1. apply look_stored_mono; [done|]. rewrite L1. apply (rd_complete _ _ _ _ _ RT q).
    - intros q. by rewrite L2.
  Qed.
End BothWrites.
