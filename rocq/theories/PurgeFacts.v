(** Purging objects that can be read again. *)
From Verif Require Import Base BaseFacts Path Json Refs Meta Spec_Meta GitText Spec_Git GitTextFacts Git GitFacts Spec_Store State BlobCache ObjRef Objects Spec_Look Spec_Heap Spec_Versions Spec_Write ExecFacts Spec_Cache CacheFacts WriteFacts LoadFacts PeekFacts TreeFacts VersionFacts LookFacts ReadFacts Spec_Content ContentFacts StoreFacts SaveFacts WriteBackFacts WriteAllFacts ReadBackFacts.

(** An object after purging. *)
Definition unloaded (b : body) : body :=
  match b with BMrr i v _ _ => BMrr i v None None | b => empty_body (kind_of b) end.
Definition dropped (o : obj) : obj := Obj (hd_mapped false (o_hdr o)) (unloaded (o_body o)).
Lemma unloaded_kind b : kind_of (unloaded b) = kind_of b.
Proof. by destruct b. Qed.
Lemma unloaded_kids b : kids_of (unloaded b) = [].
Proof. by destruct b. Qed.
Lemma unloaded_sub b : sub_objects (unloaded b) = [].
Proof. by destruct b. Qed.

(** Some objects were purged, all of them with [mk] for everything below. *)
Section Drops.
  Context (mk : obj -> Prop) (Hmk : forall o, mk o -> h_mapped (o_hdr o) = true -> mk (dropped o)).
  Definition all_mk (h : heap) (l : loc) : Prop := forall p x o, reach h l p = Some x -> h !! x = Some o -> mk o.
  Definition drop_obj (h : heap) (x : loc) (a b : option obj) : Prop :=
    match a, b with
    | Some o, Some o' => o' = o \/ (o' = dropped o /\ h_mapped (o_hdr o) = true /\ all_mk h x)
    | None, None => True
    | _, _ => False
    end.
  Definition drops (h h' : heap) : Prop := forall x : loc, drop_obj h x (h !! x) (h' !! x).
  Lemma dr_refl h : drops h h.
  Proof. intros x. destruct (h !! x); cbn; auto. Qed.
  Lemma dr_get h h' x o : drops h h' -> h !! x = Some o -> exists o', h' !! x = Some o' /\
    (o' = o \/ (o' = dropped o /\ h_mapped (o_hdr o) = true /\ all_mk h x)).
  Proof. intros Hd Ho. specialize (Hd x). rewrite Ho in Hd. destruct (h' !! x) as [o'|]; [|done]. eauto. Qed.
  Lemma dr_back h h' x o' : drops h h' -> h' !! x = Some o' -> exists o, h !! x = Some o /\
    (o' = o \/ (o' = dropped o /\ h_mapped (o_hdr o) = true /\ all_mk h x)).
  Proof. intros Hd Ho. specialize (Hd x). rewrite Ho in Hd. destruct (h !! x) as [o|]; [|done]. eauto. Qed.
  Lemma dr_reach h h' p : drops h h' -> forall l x, reach h' l p = Some x -> reach h l p = Some x.
  Proof.
    intros Hd. induction p as [|k p IH]; intros l x; cbn [reach]; [done|]. destruct (h' !! l) as [o'|] eqn:Ho'; [|done].
    destruct (dr_back _ _ _ _ Hd Ho') as (o & Ho & [->|(-> & _)]); [|done]. rewrite Ho. destruct (h_mapped (o_hdr o)); [|done].
    destruct (dget (kids_of (o_body o)) k) as [y|]; [|done]. apply IH.
  Qed.
  (** what cannot be reached any more has [mk] *)
  Lemma dr_lost h h' p : drops h h' -> forall l x o, reach h l p = Some x -> h !! x = Some o -> reach h' l p = Some x \/ mk o.
  Proof.
    intros Hd. induction p as [|k p IH]; intros l x o Hp Hx; cbn [reach] in Hp |- *; [by left|].
    destruct (h !! l) as [ol|] eqn:Hol; [|done]. destruct (h_mapped (o_hdr ol)) eqn:Em; [|done]. destruct (dget (kids_of (o_body ol)) k) as [y|] eqn:Ek; [|done].
    destruct (dr_get _ _ _ _ Hd Hol) as (o' & Ho' & [->|(-> & _ & Ha)]); rewrite Ho'.
    - rewrite Em, Ek. by apply IH.
    - right. apply (Ha (k :: p) x o); [|done]. cbn [reach]. by rewrite Hol, Em, Ek.
  Qed.
  Lemma dr_marked1 o o' : (o' = o \/ (o' = dropped o /\ h_mapped (o_hdr o) = true)) -> mk o -> mk o'.
  Proof. intros [->|[-> Hm]]; [done|]. intros Hi. by apply Hmk. Qed.
  Lemma dr_marked h h' x : drops h h' -> all_mk h' x <-> all_mk h x.
  Proof.
    intros Hd. split; intros Ha p y o Hp Hy.
    - destruct (dr_lost _ _ _ Hd _ _ _ Hp Hy) as [Hp'|?]; [|done]. destruct (dr_get _ _ _ _ Hd Hy) as (o' & Ho' & [->|(-> & Hm & Hma)]).
      + by eapply Ha.
      + by apply (Hma [] y o).
    - destruct (dr_back _ _ _ _ Hd Hy) as (o0 & Ho0 & Hc). apply (dr_marked1 o0).
      + destruct Hc as [->|(-> & Hm & _)]; auto.
      + apply (Ha p y); [by eapply dr_reach|done].
  Qed.
  Lemma dr_trans a b c : drops a b -> drops b c -> drops a c.
  Proof.
    intros H1 H2 x. pose proof (dr_marked a b x H1) as Hm. specialize (H1 x). specialize (H2 x). destruct (a !! x) as [o|], (b !! x) as [o1|], (c !! x) as [o2|]; cbn in *; try done.
    destruct H1 as [->|(-> & E & Ha)]; [destruct H2 as [->|(-> & E & Ha)]; [by left|]; right; split_and!; [done|done|by apply Hm]|].
    right. destruct H2 as [->|(-> & E2 & _)]; [done|]. done.
  Qed.
  Lemma dr_heap_ok s s' : heap_ok s -> drops (s_heap s) (s_heap s') -> s_next s' = s_next s -> heap_ok s'.
  Proof.
    intros Hk Hd Hn l o' Ho'. destruct (dr_back _ _ _ _ Hd Ho') as (o & Ho & Hc). destruct (Hk l o Ho) as (K1 & K2 & K3 & K4). rewrite Hn.
    destruct Hc as [->|(-> & _)]; [split_and!; try done|].
    - intros x Hx. destruct (K2 x Hx) as [ox Hox]. destruct (dr_get _ _ _ _ Hd Hox) as (ox' & -> & _). eauto.
    - unfold dropped. cbn [o_body o_hdr]. rewrite unloaded_sub, unloaded_kids. split_and!; [done|by intros x []|done|apply NoDup_nil_2].
  Qed.

  (** ** The call *)
  Definition purgeable (h : heap) (l : loc) : Prop := forall p x o, reach h l p = Some x -> h !! x = Some o ->
    (h_saved (o_hdr o) <> ∅ \/ h_mapped (o_hdr o) = false) -> mk o.
  Lemma pg_drops h h' l : drops h h' -> purgeable h l -> purgeable h' l.
  Proof.
    intros Hd Hp p x o' Hr Hx Hs. destruct (dr_back _ _ _ _ Hd Hx) as (o & Ho & Hc). apply (dr_reach _ _ _ Hd) in Hr. destruct Hc as [->|(-> & Hm & Ha)].
    - by eapply Hp.
    - apply Hmk; [|done]. by apply (Ha [] x o).
  Qed.
  Lemma pg_kid h l o k x : purgeable h l -> h !! l = Some o -> h_mapped (o_hdr o) = true -> dget (kids_of (o_body o)) k = Some x -> purgeable h x.
  Proof. intros Hp Ho Hm Hd p y oy Hr. apply (Hp (k :: p)). cbn [reach]. by rewrite Ho, Hm, Hd. Qed.
  (** Why purging fails. *)
  Definition purge_error (n : nat) (h : heap) (l : loc) (e : exn) : Prop :=
    (e = ValueError /\ exists p x o, reach h l p = Some x /\ h !! x = Some o /\ h_mapped (o_hdr o) = true /\ h_saved (o_hdr o) = ∅) \/
    (e = AttributeError /\ exists p x hx i v t, reach h l p = Some x /\ h !! x = Some (Obj hx (BMrr i v None t)) /\ h_mapped hx = true) \/
    (e = RecursionError /\ exists p, length p = n /\ is_Some (reach h l p)).
  Lemma pe_drops n h h' l e : drops h h' -> purge_error n h' l e -> purge_error n h l e.
  Proof.
    intros Hd [(-> & p & x & o & Hp & Hx & Hm & Hs)|[(-> & p & x & hx & i & v & t & Hp & Hx & Hm)|(-> & p & Hn & x & Hp)]]; [left|right; left|do 2 right; split; [done|]; exists p; split; [done|]; exists x; by eapply dr_reach].
    - split; [done|]. destruct (dr_back _ _ _ _ Hd Hx) as (o0 & Ho0 & [->|(-> & _)]); [|done]. exists p, x, o0. split_and!; try done. by eapply dr_reach.
    - split; [done|]. destruct (dr_back _ _ _ _ Hd Hx) as (o0 & Ho0 & [E|(E & _)]).
      + subst o0. exists p, x, hx, i, v, t. split_and!; try done. by eapply dr_reach.
      + destruct o0 as [h0 b0]. unfold dropped in E. injection E as -> _. done.
  Qed.
  Lemma pe_kid n h l o k x e : h !! l = Some o -> h_mapped (o_hdr o) = true -> dget (kids_of (o_body o)) k = Some x -> purge_error n h x e -> purge_error (S n) h l e.
  Proof.
    intros Ho Hm Hd [(-> & p & y & oy & Hp & Hx & Hm2 & Hs)|[(-> & p & y & hx & i & v & t & Hp & Hx & Hm2)|(-> & p & Hn & y & Hp)]]; [left|right; left|do 2 right]; (split; [done|]).
    - exists (k :: p), y, oy. split_and!; try done. cbn [reach]. by rewrite Ho, Hm, Hd.
    - exists (k :: p), y, hx, i, v, t. split_and!; try done. cbn [reach]. by rewrite Ho, Hm, Hd.
    - exists (k :: p). split; [cbn; by rewrite Hn|]. cbn [reach]. rewrite Ho, Hm, Hd. by exists y.
  Qed.
  Definition purged (n : nat) (l : loc) (s : pst) (res : Base.res unit) (s' : pst) : Prop :=
    (exists h', s' = with_heap s h') /\ drops (s_heap s) (s_heap s') /\
    match res with
    | Ok _ => all_mk (s_heap s) l /\ forall o, s_heap s' !! l = Some o -> h_mapped (o_hdr o) = false
    | Err e => purge_error n (s_heap s) l e
    end.

  Lemma x_purge_impl `{Env} rec l o s g : s_heap s !! l = Some o -> (forall i v t, o_body o <> BMrr i v None t) ->
    exec (purge_impl rec l s) g = exec ((miter rec (sub_objects (o_body o)) ;;; set_body l (unloaded (o_body o))) s) g.
  Proof.
    intros Ho Hn. unfold purge_impl. rewrite x_bind, x_getobj, Ho. cbn beta iota. destruct (o_body o) as [m|t|c d|i v m t|k vs|us]; cbn [sub_objects unloaded empty_body kind_of].
    - rewrite x_bind. cbn [miter]. by rewrite x_ret.
    - rewrite x_bind. cbn [miter]. by rewrite x_ret.
    - done.
    - destruct m as [x|]; [|by destruct (Hn i v t)]. destruct t as [y|]; cbn [app miter option_list].
      + rewrite !x_bind. destruct (exec (rec x s) g) as [[[u|e] s1] g1]; [|done]. rewrite !x_bind. destruct (exec (rec y s1) g1) as [[[u2|e] s2] g2]; [|done]. by rewrite x_ret.
      + rewrite !x_bind. destruct (exec (rec x s) g) as [[[u|e] s1] g1]; [|done]. by rewrite x_bind, !x_ret.
    - rewrite !x_bind. f_equal.
      replace (exec (miter (fun r : pystr * vrec => rec (elt_loc (vr_elt (snd r)))) (vs_records vs) s) g) with (exec (miter rec (map (fun r : pystr * vrec => elt_loc (vr_elt (snd r))) (vs_records vs)) s) g); [done|].
      generalize (vs_records vs). clear. intros ls. revert s g. induction ls as [|a ls IH]; intros s g; [done|]. cbn [map miter]. rewrite !x_bind. destruct (exec (rec _ s) g) as [[[u|e] s1] g1]; [apply IH|done].
    - done.
  Qed.
  Lemma iter_run `{Env} n rec h0 : (forall x s g, heap_ok s -> is_Some (s_heap s !! x) -> purgeable (s_heap s) x -> exists res s', exec (rec x s) g = ((res, s'), g) /\ purged n x s res s') ->
    forall ls s g, heap_ok s -> drops h0 (s_heap s) -> (forall x, In x ls -> is_Some (h0 !! x) /\ purgeable h0 x) ->
    exists res s', exec (miter rec ls s) g = ((res, s'), g) /\ (exists h', s' = with_heap s h') /\ heap_ok s' /\ drops h0 (s_heap s') /\
      match res with Ok _ => forall x, In x ls -> all_mk h0 x | Err e => exists x, In x ls /\ purge_error n h0 x e end.
  Proof.
    intros Hrec. induction ls as [|x ls IH]; intros s g Hok Hd Hls.
    - exists (Ok tt), s. cbn [miter]. rewrite x_ret. split_and!; try done. exists (s_heap s). by destruct s.
    - destruct (Hls x) as [[ox Hox] Hpx]; [by left|]. destruct (dr_get _ _ _ _ Hd Hox) as (ox' & Hox' & _).
      destruct (Hrec x s g) as (res & s1 & Hx & (h1 & ->) & Hd1 & Hres); [done|by exists ox'|by eapply pg_drops|].
      cbn [miter]. rewrite x_bind, Hx. assert (Hd01 : drops h0 (s_heap (with_heap s h1))) by by eapply dr_trans.
      assert (Hok1 : heap_ok (with_heap s h1)) by by eapply dr_heap_ok. destruct res as [u|e].
      + destruct (IH (with_heap s h1) g) as (res & s2 & Hx2 & (h2 & ->) & Hok2 & Hd2 & Hres2); [done|done|intros y Hy; apply Hls; by right|].
        exists res, (with_heap (with_heap s h1) h2). split_and!; try done; [by exists h2|]. destruct res as [u2|e].
        * intros y [<-|Hy]; [|by apply Hres2]. apply (dr_marked _ _ _ Hd). apply Hres.
        * destruct Hres2 as (y & Hy & He). exists y. split; [by right|done].
      + exists (Err e), (with_heap s h1). split_and!; try done; [by exists h1|]. exists x. split; [by left|]. by apply (pe_drops _ _ _ _ _ Hd Hres).
  Qed.
  Lemma purge_run `{Env} f : forall l s g, heap_ok s -> is_Some (s_heap s !! l) -> purgeable (s_heap s) l -> exists res s', exec (purge f l s) g = ((res, s'), g) /\ purged f l s res s'.
  Proof.
    induction f as [|f IH]; intros l s g Hok [o Ho] Hp.
    - exists (Err RecursionError), s. split; [done|]. split_and!; [exists (s_heap s); by destruct s|apply dr_refl|]. do 2 right. split; [done|]. exists []. split; [done|]. by exists l.
    - cbn [purge]. rewrite x_bind, x_getobj, Ho. cbn beta iota. destruct (h_mapped (o_hdr o)) eqn:Em.
      2: { exists (Ok tt), s. split; [done|]. split_and!; [exists (s_heap s); by destruct s|apply dr_refl| |].
           - intros [|k p] x ox Hr Hx; cbn [reach] in Hr; [injection Hr as <-; assert (ox = o) as -> by congruence; apply (Hp [] l o); auto|]. by rewrite Ho, Em in Hr.
           - intros o2 Ho2. by assert (o2 = o) as -> by congruence. }
      destruct (decide (h_saved (o_hdr o) = ∅)) as [Es|Es].
      { exists (Err ValueError), s. split; [done|]. split_and!; [exists (s_heap s); by destruct s|apply dr_refl|]. left. split; [done|]. by exists [], l, o. }
      assert (Hb : (exists i v t, o_body o = BMrr i v None t) \/ forall i v t, o_body o <> BMrr i v None t).
      { destruct (o_body o) as [m|t|c d|i v [m|] t|k vs|us]; try (right; done). left. eauto. }
      destruct Hb as [(i & v & t & Hb)|Hb].
      { exists (Err AttributeError), s. rewrite x_bind. unfold purge_impl. rewrite x_bind, x_getobj, Ho. cbn beta iota. rewrite Hb, x_raise. split; [done|].
        split_and!; [exists (s_heap s); by destruct s|apply dr_refl|]. right; left. split; [done|]. exists [], l, (o_hdr o), i, v, t. split_and!; [done| |done]. rewrite Ho, <- Hb. by destruct o. }
      destruct (Hok l o Ho) as (K1 & K2 & _ & K4).
      assert (Hkid : forall x, In x (sub_objects (o_body o)) -> exists k, dget (kids_of (o_body o)) k = Some x).
      { intros x Hx. rewrite <- sub_kids in Hx. apply in_map_iff in Hx as ([k y] & <- & Hin). exists k. by apply TreeFacts.In_dget. }
      destruct (iter_run f (purge f) (s_heap s) IH (sub_objects (o_body o)) s g Hok (dr_refl _)) as (res & s1 & Hx & (h1 & ->) & Hok1 & Hd1 & Hres).
      { intros x Hx. split; [by apply K2|]. destruct (Hkid x Hx) as [k Hk]. by eapply pg_kid. }
      rewrite x_bind, (x_purge_impl _ _ _ _ _ Ho Hb), x_bind, Hx. destruct res as [u|e].
      2: { exists (Err e), (with_heap s h1). split; [done|]. split_and!; [by exists h1|done|]. destruct Hres as (x & Hin & He). destruct (Hkid x Hin) as [k Hk]. by eapply pe_kid. }
      cbn beta iota. destruct (dr_get _ _ _ _ Hd1 Ho) as (o1 & Ho1 & Hc). rewrite (WriteFacts.x_set_body l _ o1) by done. cbn beta iota.
      rewrite (x_set_hdr l _ (Obj (o_hdr o1) (unloaded (o_body o)))) by (cbn [s_heap with_heap]; by rewrite heap_insert, decide_True).
      assert (Hall : all_mk (s_heap s) l).
      { intros [|k p] x ox Hr Hxx; cbn [reach] in Hr.
        - injection Hr as <-. assert (ox = o) as -> by congruence. apply (Hp [] l o); auto.
        - rewrite Ho, Em in Hr. destruct (dget (kids_of (o_body o)) k) as [y|] eqn:Ek; [|done]. apply (Hres y) with p x; [|done|done]. by eapply kids_in_sub. }
      assert (Hfin : Obj (hd_mapped false (o_hdr o1)) (unloaded (o_body o)) = dropped o) by by destruct Hc as [->|(-> & _)].
      eexists (Ok tt), _. split; [done|]. cbn [s_heap with_heap o_hdr o_body]. rewrite Hfin. split_and!.
      + eexists. done.
      + intros x. cbn [s_heap with_heap]. rewrite !heap_insert. destruct (decide (l = x)) as [<-|Hne].
        * rewrite Ho. cbn. right. done.
        * apply Hd1.
      + done.
      + intros o2. cbn [s_heap with_heap]. rewrite heap_insert, decide_True by done. by intros [= <-].
  Qed.
End Drops.

Lemma dr_one_realm r h h' l : drops (marked r) h h' -> one_realm r h l -> one_realm r h' l.
Proof.
  intros Hd Ho p x o' Hp Hx. destruct (dr_back _ _ _ _ _ Hd Hx) as (o & Hox & Hc). pose proof (Ho p x o (dr_reach _ _ _ _ Hd _ _ Hp) Hox) as Hr.
  by destruct Hc as [->|(-> & _)].
Qed.
Lemma marked_dropped r o : marked r o -> h_mapped (o_hdr o) = true -> marked r (dropped o).
Proof. intros [Hi|[Hf _]] Hm; [by left|congruence]. Qed.
Lemma dr_look O r s s' p : drops (marked r) (s_heap s) (s_heap s') -> forall l, tidy O r s l ->
  look O (s_heap s') l p = look O (s_heap s) l p /\ hollow_at O (s_heap s') l = hollow_at O (s_heap s) l.
Proof.
  intros Hd. induction p as [|k p IH]; intros l HT; destruct (tidy_root _ _ _ _ HT) as (o & Ho & _ & _);
    destruct (dr_get _ _ _ _ _ Hd Ho) as (o' & Ho' & [->|(-> & Hm & Ha)]).
  1, 3: unfold hollow_at; cbn [look]; rewrite Ho, Ho'; split; [|done].
  - done.
  - destruct (h_mapped (o_hdr o)) eqn:Em; [|done]. destruct (dget (kids_of (o_body o)) k) as [x|] eqn:Ek; [|done].
    destruct (IH x) as [E1 E2]; [by eapply tidy_kid|]. by rewrite E1, E2.
  - destruct (td_marks _ _ _ _ HT [] l o eq_refl Ho Ha) as (ref & Hf & Hl).
    assert (Hh : hollow_at O (s_heap s') l = hollow O (kind_of (o_body o)) ref) by (unfold hollow_at; rewrite Ho'; unfold dropped; cbn [o_body o_hdr hd_mapped h_mapped h_ref]; by rewrite Hf, unloaded_kind).
    split; [|rewrite Hh; by apply hollow_agree]. rewrite <- Hl. cbn [look]. rewrite Ho'. unfold dropped. cbn [o_body o_hdr hd_mapped h_mapped h_ref]. by rewrite Hf, unloaded_kind.
  - destruct (td_marks _ _ _ _ HT [] l o eq_refl Ho Ha) as (ref & Hf & Hl).
    assert (Hh : hollow_at O (s_heap s') l = hollow O (kind_of (o_body o)) ref) by (unfold hollow_at; rewrite Ho'; unfold dropped; cbn [o_body o_hdr hd_mapped h_mapped h_ref]; by rewrite Hf, unloaded_kind).
    split; [|rewrite Hh; by apply hollow_agree]. rewrite <- Hl. cbn [look]. rewrite Ho'. unfold dropped. cbn [o_body o_hdr hd_mapped h_mapped h_ref]. by rewrite Hf, unloaded_kind.
Qed.
Lemma dr_tidy O r s s' l : drops (marked r) (s_heap s) (s_heap s') -> s_next s' = s_next s -> r <> [] -> one_realm r (s_heap s) l -> tidy O r s l -> tidy O r s' l.
Proof.
  intros Hd Hn Hr Hone HT. pose proof HT as [T1 T2 T3 T4 TC TT T5 T6]. split.
  - by eapply dr_heap_ok.
  - intros p q x Hp Hq. eapply T2; by eapply dr_reach.
  - intros p x o' Hp Hx Hm. pose proof (dr_reach _ _ _ _ Hd _ _ Hp) as Hp0. destruct (dr_back _ _ _ _ _ Hd Hx) as (o & Ho & [->|(-> & Hm0 & Ha)]); [by eapply T3|].
    destruct (T5 p x o Hp0 Ho Ha) as (ref & Hf & _). unfold dropped. cbn [o_hdr o_body hd_mapped h_realm h_ref h_saved].
    assert (r ∈ h_saved (o_hdr o)) as Hin. { destruct (Ha [] x o eq_refl Ho) as [?|[? _]]; [done|congruence]. }
    split_and!.
    + apply (Hone p x o Hp0 Ho). set_solver.
    + intros m. destruct (o_body o); cbn; try done. by intros [= <-].
    + exists ref. split; [done|]. by right.
  - intros p x hx k vs Hp Hx. pose proof (dr_reach _ _ _ _ Hd _ _ Hp) as Hp0. destruct (dr_back _ _ _ _ _ Hd Hx) as (o & Ho & [E|(E & _)]).
    + subst o. by eapply T4.
    + destruct o as [h b]. unfold dropped in E. cbn in E. injection E as _ E. destruct b; try done. cbn in E. injection E as -> ->. apply wk_nil.
  - intros p x o' ref Hp Hx Hk Hf. pose proof (dr_reach _ _ _ _ Hd _ _ Hp) as Hp0. destruct (dr_back _ _ _ _ _ Hd Hx) as (o & Ho & [->|(-> & _)]).
    + by apply (TC p x o ref).
    + apply (TC p x o ref); try done. unfold dropped in Hk. cbn in Hk. by rewrite unloaded_kind in Hk.
  - intros p x hx i v m t Hp Hx. pose proof (dr_reach _ _ _ _ Hd _ _ Hp) as Hp0. destruct (dr_back _ _ _ _ _ Hd Hx) as (o & Ho & [E|(E & _)]).
    + subst o. destruct (TT p x hx i v m t Hp0 Ho) as (ht & d & Ht). destruct (dr_get _ _ _ _ _ Hd Ht) as (ot & Hot & [->|(-> & _)]); [eauto|]. unfold dropped in Hot. cbn in Hot. eauto.
    + destruct o as [h b]. unfold dropped in E. cbn in E. injection E as _ E. by destruct b.
  - intros p x o' Hp Hx Ha. pose proof (dr_reach _ _ _ _ Hd _ _ Hp) as Hp0. apply (dr_marked (marked r) (marked_dropped r) _ _ _ Hd) in Ha.
    destruct (dr_back _ _ _ _ _ Hd Hx) as (o & Ho & Hc). destruct (T5 p x o Hp0 Ho Ha) as (ref & Hf & Hl). exists ref.
    assert (h_ref (o_hdr o') = Some ref /\ kind_of (o_body o') = kind_of (o_body o)) as [E1 E2]. { destruct Hc as [->|(-> & _)]; [done|]. unfold dropped. cbn. by rewrite unloaded_kind. }
    split; [done|]. intros q. rewrite E2, Hl. symmetry. apply (dr_look O r s s' q Hd). by eapply tidy_reach.
  - eapply complete_ext; [|exact T6]. intros p. by apply (dr_look O r s s' p Hd).
Qed.

(** ** C23 *)
Definition safe (o : obj) : Prop := h_mapped (o_hdr o) = true -> h_saved (o_hdr o) <> ∅.
Lemma safe_dropped o : safe o -> h_mapped (o_hdr o) = true -> safe (dropped o).
Proof. intros _ _ Hm. done. Qed.
Lemma purgeable_safe h l : purgeable safe h l.
Proof. intros p x o _ _ [Hs|Hs] Hm; [done|congruence]. Qed.
Lemma below_reach s x y : heap_ok s -> loaded_below (s_heap s) x y -> exists p, reach (s_heap s) x p = Some y.
Proof.
  intros Hok. induction 1 as [x o Ho|x o z y Ho Hm Hz _ (p & Hp)]; [by exists []|]. destruct (Hok x o Ho) as (_ & _ & _ & Hn).
  rewrite <- sub_kids in Hz. apply in_map_iff in Hz as ([k y'] & <- & Hin). exists (k :: p). cbn [reach]. rewrite Ho, Hm.
  by rewrite (TreeFacts.In_dget _ _ _ Hn Hin).
Qed.
Lemma below_some h x y : loaded_below h x y -> is_Some (h !! y).
Proof. induction 1; eauto. Qed.
Lemma C23_lemma `{Env} fuel l s g res s' g' : heap_ok s -> is_Some (s_heap s !! l) -> exec (purge fuel l s) g = ((res, s'), g') ->
  g' = g /\
  (forall y o, s_heap s !! y = Some o -> s_heap s' !! y = Some o \/
     (forall z, loaded_below (s_heap s) y z -> ~ unsaved (s_heap s) z) /\ exists o', s_heap s' !! y = Some o' /\ o_hdr o' = hd_mapped false (o_hdr o)) /\
  match res with
  | Ok _ => forall y, loaded_below (s_heap s) l y -> ~ unsaved (s_heap s) y
  | Err ValueError => exists y, loaded_below (s_heap s) l y /\ unsaved (s_heap s) y
  | Err AttributeError => exists y x i v t, loaded_below (s_heap s) l y /\ s_heap s !! y = Some (Obj x (BMrr i v None t)) /\ h_mapped x = true
  | Err e => e = RecursionError /\ exists p, length p = fuel /\ is_Some (reach (s_heap s) l p)
  end.
Proof.
  intros Hok Hl He. destruct (purge_run safe safe_dropped fuel l s g Hok Hl (purgeable_safe _ _)) as (res1 & s1 & Hx & _ & Hd & Hres).
  rewrite Hx in He. injection He as <- <- <-. split; [done|].
  assert (HS : forall y, all_mk safe (s_heap s) y -> forall z, loaded_below (s_heap s) y z -> ~ unsaved (s_heap s) z).
  { intros y Ha z Hz (oz & Hoz & Hm & Hs). destruct (below_reach _ _ _ Hok Hz) as (p & Hp). by apply (Ha p z oz Hp Hoz Hm). }
  split.
  - intros y o Ho. destruct (dr_get _ _ _ _ _ Hd Ho) as (o' & Ho' & [->|(-> & Hm & Ha)]); [by left|right]. split; [by apply HS|]. by exists (dropped o).
  - destruct res1 as [u|e]; [apply HS, Hres|]. destruct Hres as [(-> & p & x & o & Hp & Ho & Hm & Hs)|[(-> & p & x & hx & i & v & t & Hp & Ho & Hm)|(-> & Hp)]]; [| |done].
    + exists x. split; [|by exists o]. by eapply reach_below; eauto.
    + exists x, hx, i, v, t. split; [|done]. by eapply reach_below; eauto.
Qed.

(** ** C25 *)
Lemma purgeable_tidy O r s l : tidy O r s l -> one_realm r (s_heap s) l -> purgeable (marked r) (s_heap s) l.
Proof.
  intros HT Ho p x o Hp Hx [Hs|Hm].
  - left. by apply (Ho p x o).
  - destruct (td_home _ _ _ _ HT p x o Hp Hx Hm) as (_ & _ & ref & Hf & [Hn|Hi]); [right; eauto|by left].
Qed.
Lemma purge_quiet `{Env} O r fuel l p x s g res s' g' : r <> [] -> tidy O r s l -> one_realm r (s_heap s) l -> reach (s_heap s) l p = Some x -> exec (purge fuel x s) g = ((res, s'), g') ->
  g' = g /\ (exists h', s' = with_heap s h') /\ drops (marked r) (s_heap s) (s_heap s') /\ tidy O r s' l /\ one_realm r (s_heap s') l /\ forall q, look O (s_heap s') l q = look O (s_heap s) l q.
Proof.
  intros Hr HT Ho Hx He. destruct (tidy_root _ _ _ _ (tidy_reach _ _ _ _ _ _ HT Hx)) as (o & Hl & _).
  assert (Hpx : purgeable (marked r) (s_heap s) x).
  { intros q y oy Hq. pose proof (purgeable_tidy _ _ _ _ HT Ho) as Hp. apply (Hp (p ++ q)). by rewrite reach_app, Hx. }
  destruct (purge_run (marked r) (marked_dropped r) fuel x s g (td_heap _ _ _ _ HT) (ex_intro _ o Hl) Hpx) as (res1 & s1 & Hx1 & (h' & ->) & Hd & Hres).
  rewrite Hx1 in He. injection He as <- <- <-. split_and!; [done|by exists h'|done|by eapply dr_tidy|by eapply dr_one_realm|]. intros q. by apply (dr_look O r s (with_heap s h') q Hd).
Qed.
Lemma handles_quiet `{Env} r fuel l p x m s g res s' g' : is_remote r = false -> r <> [] -> tidy (objs_of g r) r s l -> one_realm r (s_heap s) l -> reach (s_heap s) l p = Some x ->
  handles fuel x m -> exec (m s) g = ((res, s'), g') ->
  g' = g /\ tidy (objs_of g r) r s' l /\ one_realm r (s_heap s') l /\ forall q, look (objs_of g r) (s_heap s') l q = look (objs_of g r) (s_heap s) l q.
Proof.
  intros Hrem Hr HT Hone Hx Hh He. destruct (tidy_root _ _ _ _ (tidy_reach _ _ _ _ _ _ HT Hx)) as (o & Ho & Hh1 & Hlk). destruct (tidy_root _ _ _ _ HT) as (ol & Hol & _).
  assert (HQ : forall s1, quiet (objs_of g r) r s s1 -> tidy (objs_of g r) r s1 l /\ one_realm r (s_heap s1) l /\ forall q, look (objs_of g r) (s_heap s1) l q = look (objs_of g r) (s_heap s) l q).
  { intros s1 HQ. assert (is_Some (s_heap s !! l)) as Hs by by exists ol. split_and!; [by apply (qu_tidy _ _ _ _ HQ)|by apply (qu_one _ _ _ _ HQ)|]. intros q. by apply (qu_look _ _ _ _ HQ). }
  destruct Hh as [| |].
  - destruct (read_in_quiet r g Hrem Hr fuel s x o (td_heap _ _ _ _ HT) Ho Hh1 Hlk) as (s1 & Hx1 & HQ1). rewrite Hx1 in He. injection He as <- <- <-. split; [done|by apply HQ].
  - destruct (ensure_quiet r g Hrem Hr fuel s x o (td_heap _ _ _ _ HT) Ho Hh1 Hlk) as (b & s1 & o1 & Hx1 & HQ1 & _). rewrite x_bind, Hx1, x_ret in He. injection He as <- <- <-. split; [done|by apply HQ].
  - destruct (purge_quiet _ _ _ _ _ _ _ _ _ _ _ Hr HT Hone Hx He) as (-> & _ & _ & H1 & H2 & H3). done.
Qed.
Lemma C25_lemma `{Env} r fuel l p x m s g res s' g' : is_remote r = false -> r <> [] -> tidy (objs_of g r) r s l -> one_realm r (s_heap s) l -> reach (s_heap s) l p = Some x ->
  handles fuel x m -> exec (m s) g = ((res, s'), g') ->
  g' = g /\ tidy (objs_of g r) r s' l /\ one_realm r (s_heap s') l /\
  forall fuel1 fuel2 q, exists lb, fst (fst (exec (visit fuel1 l q s) g)) = Ok lb /\ fst (fst (exec (visit fuel2 l q s') g')) = Ok lb.
Proof.
  intros Hrem Hr HT Hone Hx Hh He. destruct (handles_quiet r fuel l p x m s g res s' g') as (-> & HT' & Hone' & HL); try done. split_and!; try done.
  intros fuel1 fuel2 q. destruct (visit_quiet r g Hrem Hr fuel1 q s l HT) as (s1 & Hx1 & _). destruct (visit_quiet r g Hrem Hr fuel2 q s' l HT') as (s2 & Hx2 & _).
  exists (look (objs_of g r) (s_heap s) l q). rewrite Hx1, Hx2, HL. done.
Qed.
