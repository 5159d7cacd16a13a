(** UUID sets as maps (C21); what holds after a write (C47, C50, C51). *)
From Verif Require Import Base BaseFacts Path Spec_Path PathFacts Json Refs RefsFacts Meta Spec_Meta GitText Spec_Git Git GitFacts Spec_Store State BlobCache ObjRef Objects Spec_Objects Spec_Look Spec_Heap Spec_Versions Spec_Write ExecFacts LoadFacts PeekFacts TreeFacts TreeEditFacts VersionFacts LookFacts ReadFacts Spec_Content ContentFacts WriteFacts StoreFacts SaveFacts WriteBackFacts WriteAllFacts ReadBackFacts PurgeFacts EditFacts RealmFacts GraftFacts AddFacts ListFacts Spec_Session SessionFacts Spec_Outcome Spec_Parts HomeFacts AnyWriteFacts.

Section Parts.
  Context `{Env}.
  Lemma x_uuid_entries l hx us s g : s_heap s !! l = Some (Obj hx (BUset us)) -> exec (uuid_entries l s) g = ((Ok us, s), g).
  Proof. intros Hl. unfold uuid_entries. rewrite x_bind, x_getobj, Hl. done. Qed.
  Lemma set_list_one l hx us u x s g : s_heap s !! l = Some (Obj hx (BUset us)) ->
    exec (set_version_list l u x s) g = ((Ok tt, with_heap s (<[l := Obj (hd_saved ∅ hx) (BUset (dset us u x))]> (s_heap s))), g).
  Proof.
    intros Hl. unfold set_version_list. rewrite x_bind, (x_touch _ _ _ _ Hl). cbn beta iota. cbn [o_hdr o_body].
    unfold uuid_entries. rewrite !x_bind, x_getobj. cbn [s_heap with_heap]. rewrite heap_insert, decide_True by done. cbn beta iota. cbn [o_body]. rewrite x_ret. cbn beta iota.
    unfold set_body. rewrite x_bind, x_getobj. cbn [s_heap with_heap]. rewrite heap_insert, decide_True by done. cbn. unfold with_heap. cbn. rewrite heap_ins2. done.
  Qed.
  Lemma C21_sets l calls : forall hx us s g, s_heap s !! l = Some (Obj hx (BUset us)) -> h_mapped hx = true -> NoDup (dkeys us) ->
    exists s' hx' us', exec (set_lists l calls s) g = ((Ok tt, s'), g) /\ s_heap s' !! l = Some (Obj hx' (BUset us')) /\ h_mapped hx' = true /\ NoDup (dkeys us') /\
      (forall x, x <> l -> s_heap s' !! x = s_heap s !! x) /\ forall u, dget us' u = last_list calls u (dget us u).
  Proof.
    unfold set_lists. induction calls as [|c cs IH]; intros hx us s g Hl Hm Hw; [by exists s, hx, us|].
    cbn [miter]. rewrite x_bind, (set_list_one _ _ _ _ _ _ _ Hl). cbn beta iota. set (s1 := with_heap s _).
    assert (Hl1 : s_heap s1 !! l = Some (Obj (hd_saved ∅ hx) (BUset (dset us (fst c) (snd c))))) by (cbn; rewrite heap_insert; by rewrite decide_True).
    destruct (IH _ _ s1 g Hl1) as (s' & hx' & us' & He & H1 & H2 & H3 & H5 & H6); [done|by apply dset_nodup|]. exists s', hx', us'. split_and!; try done.
    - intros x Hx. rewrite H5 by done. cbn. rewrite heap_insert. by rewrite decide_False.
    - intros u. rewrite H6. cbn [last_list]. f_equal. by rewrite dget_dset.
  Qed.
  Lemma C21_lemma l hx us calls s g : s_heap s !! l = Some (Obj hx (BUset us)) -> h_mapped hx = true -> NoDup (dkeys us) ->
    exists s', exec (set_lists l calls s) g = ((Ok tt, s'), g) /\ (forall x, x <> l -> s_heap s' !! x = s_heap s !! x) /\
    forall fuel2 g2, exists ids, exec (uuids fuel2 l s') g2 = ((Ok ids, s'), g2) /\ NoDup ids /\
      (forall u, In u ids <-> last_list calls u (dget us u) <> None) /\
      forall u, match last_list calls u (dget us u) with
        | None => exec (get_version_list fuel2 l u s') g2 = ((Err KeyError, s'), g2)
        | Some x => exec (get_version_list fuel2 l u s') g2 = exec ((read_in fuel2 x ;;; mret x) s') g2 /\
            forall o, s_heap s' !! x = Some o -> h_mapped (o_hdr o) = true -> exec (get_version_list fuel2 l u s') g2 = ((Ok x, s'), g2)
        end.
  Proof.
    intros Hl Hm Hw. destruct (C21_sets l calls hx us s g Hl Hm Hw) as (s' & hx' & us' & He & H1 & H2 & H3 & H5 & H6).
    exists s'. split; [done|]. split; [done|]. intros fuel2 g2. exists (dkeys us').
    pose proof (x_uuid_entries l hx' us' s' g2 H1) as Hv. pose proof (x_mapped_noop fuel2 l _ s' g2 H1 H2) as Hno. split_and!.
    - unfold uuids. rewrite x_bind, Hno. cbn beta iota. rewrite x_bind, Hv. done.
    - done.
    - intros u. rewrite <- H6, <- elem_of_list_In. destruct (dget us' u) as [x|] eqn:E.
      + split; [done|]. intros _. apply dget_Some_In in E. apply elem_of_list_In. by eapply dkeys_in.
      + apply dget_None in E. split; [done|]. by intros [].
    - intros u. rewrite <- H6.
      assert (Hg : exec (get_version_list fuel2 l u s') g2 = exec ((match dget us' u with None => mraise KeyError | Some x => read_in fuel2 x ;;; mret x end) s') g2).
      { unfold get_version_list. rewrite x_bind, Hno. cbn beta iota. rewrite x_bind, Hv. done. }
      rewrite Hg. destruct (dget us' u) as [x|]; [|done]. split; [done|].
      intros o Ho Hmo. unfold read_in. rewrite !x_bind, x_getobj, Ho. cbn beta iota. rewrite Hmo, !x_ret. done.
  Qed.

  (** ** What is true of marks *)
  Lemma C47_lemma r : r <> [] -> is_remote r = false -> forall fuel l s g o s1 g1, tidy (objs_of g r) r s l -> s_heap s !! l = Some o ->
    exec (is_saved_on fuel l (Some r) s) g = ((Ok true, s1), g1) ->
    exists ref, h_ref (o_hdr o) = Some ref /\
    forall s2 g2 fuel1 fuel2 p, heap_ok s2 -> objs_of g r ⊆ objs_of g2 r ->
    exists lb, fst (fst (exec (visit fuel1 l p s) g)) = Ok lb /\
               fst (fst (exec ((mlet a <- object_at (kind_of (o_body o)) r ref; visit fuel2 a p) s2) g2)) = Ok lb.
  Proof.
    intros Hr Hrem fuel l s g o s1 g1 HT Ho He. rewrite x_is_saved in He. injection He as He _ _. apply saved_marked in He.
    destruct (td_marks _ _ _ _ HT [] l o eq_refl Ho He) as (ref & Hrf & Hl). exists ref. split; [done|]. intros s2 g2 fuel1 fuel2 p Hok HO.
    destruct (visit_quiet r g Hrem Hr fuel1 p s l HT) as (s3 & Hx & _). exists (look (objs_of g r) (s_heap s) l p). rewrite Hx. split; [done|].
    destruct (read_back r g2 (kind_of (o_body o)) ref s2 (look (objs_of g r) (s_heap s) l) fuel2 p) as (s4 & Hx3); try done.
    - apply HT.
    - intros q. rewrite (look_stored_mono (objs_of g r)); [apply Hl|done|]. rewrite Hl. apply (td_complete _ _ _ _ HT).
    - intros Hk. by apply (td_class _ _ _ _ HT [] l o ref eq_refl Ho).
    - by rewrite Hx3.
  Qed.

  (** ** Sizes and runs *)
  Lemma loaded_label r : r <> [] -> is_remote r = false -> forall fuel l s g lb, tidy (objs_of g r) r s l -> fst (fst (exec (visit fuel l [] s) g)) = Ok (Seen lb) ->
    forall fuel2, exists b s' o, exec (ensure_mapped fuel2 l s) g = ((Ok b, s'), g) /\ quiet (objs_of g r) r s s' /\ s_heap s' !! l = Some o /\ label_of (o_body o) = lb /\ h_mapped (o_hdr o) = true.
  Proof.
    intros Hr Hrem fuel l s g lb HT Hv fuel2. destruct (visit_quiet r g Hrem Hr fuel [] s l HT) as (s1 & Hx & _). rewrite Hx in Hv. cbn [fst] in Hv. injection Hv as Hv.
    destruct (tidy_root _ _ _ _ HT) as (o & Ho & Hh & Hlk).
    destruct (ensure_quiet r g Hrem Hr fuel2 s l o (td_heap _ _ _ _ HT) Ho Hh Hlk) as (b & s' & o' & He & HQ & Ho' & Hm' & Hk). exists b, s', o'. split_and!; try done. clear fuel2 He.
    assert (E : look (objs_of g r) (s_heap s') l [] = Seen lb) by (rewrite (qu_look _ _ _ _ HQ); [done|by exists o]). cbn [look] in E. rewrite Ho', Hm' in E. by injection E.
  Qed.
  Lemma C50_len_lemma r : r <> [] -> is_remote r = false -> forall fuel l s g t rs, tidy (objs_of g r) r s l -> fst (fst (exec (visit fuel l [] s) g)) = Ok (Seen (LbVl t rs)) ->
    forall fuel2, fst (fst (exec (loaded_len fuel2 l s) g)) = Ok (length rs).
  Proof.
    intros Hr Hrem fuel l s g t rs HT Hv fuel2. destruct (loaded_label r Hr Hrem fuel l s g _ HT Hv fuel2) as (b & s' & o & He & _ & Ho & Hl & _).
    unfold loaded_len. rewrite x_bind, He. cbn beta iota. unfold version_list_len, versions. rewrite !x_bind, x_getobj, Ho. cbn beta iota. destruct o as [hx [| | | |k vs|]]; try done. cbn [o_body label_of] in *.
    injection Hl as _ <-. rewrite map_length. rewrite x_ret. cbn beta iota. by rewrite x_ret.
  Qed.
  Lemma C50_runs_lemma r : r <> [] -> is_remote r = false -> forall fuel l s g m, tidy (objs_of g r) r s l -> fst (fst (exec (visit fuel l [] s) g)) = Ok (Seen (LbMeta m)) ->
    forall fuel2, fst (fst (exec (loaded_runs fuel2 l s) g)) = Ok m.
  Proof.
    intros Hr Hrem fuel l s g m HT Hv fuel2. destruct (loaded_label r Hr Hrem fuel l s g _ HT Hv fuel2) as (b & s' & o & He & _ & Ho & Hl & _).
    unfold loaded_runs. rewrite x_bind, He. cbn beta iota. unfold runs_of. rewrite !x_bind, x_getobj, Ho. cbn beta iota. destruct o as [hx [| | | |k vs|]]; try done. cbn [o_body label_of] in *.
    by injection Hl as <-.
  Qed.

  (** ** Unloading what was written *)
  Lemma purge_ok O r fuel l s g : r <> [] -> tidy O r s l -> one_realm r (s_heap s) l -> all_marked r (s_heap s) l -> with_metadata (look O (s_heap s) l) -> shallow fuel (s_heap s) l ->
    exists s2 o2, exec (purge fuel l s) g = ((Ok tt, s2), g) /\ s_heap s2 !! l = Some o2 /\ h_mapped (o_hdr o2) = false /\ tidy O r s2 l /\ one_realm r (s_heap s2) l /\
      forall q, look O (s_heap s2) l q = look O (s_heap s) l q.
  Proof.
    intros Hr HT H1 Hm Hw Hsh. destruct (tidy_root _ _ _ _ HT) as (o & Ho & _).
    destruct (exec (purge fuel l s) g) as [[res s2] g2] eqn:He.
    destruct (C23_lemma fuel l s g res s2 g2 (td_heap _ _ _ _ HT) (ex_intro _ o Ho) He) as (-> & Hun & Hres).
    destruct (purge_quiet O r fuel l [] l s g res s2 g Hr HT H1 eq_refl He) as (_ & _ & Hd & HT2 & H12 & HL).
    assert (Hok : res = Ok tt).
    { destruct res as [[]|e]; [done|exfalso].
      assert (Hnu : forall y, loaded_below (s_heap s) l y -> ~ unsaved (s_heap s) y).
      { intros y Hy (oy & Hoy & Hmy & Hsy). apply below_reach in Hy as (p & Hp); [|apply HT]. destruct (Hm p y oy Hp Hoy) as [Hi|(Hf & _)]; [rewrite Hsy in Hi; set_solver|congruence]. }
      assert (Hnm : forall y x i v t, loaded_below (s_heap s) l y -> s_heap s !! y = Some (Obj x (BMrr i v None t)) -> h_mapped x = true -> False).
      { intros y x i v t Hy Hoy Hmy. apply below_reach in Hy as (p & Hp); [|apply HT]. pose proof (reach_look O (s_heap s) p l y _ Hp Hoy Hmy eq_refl) as HR.
        apply (Hw p i v).
        - rewrite <- (app_nil_r p), HR. cbn [look]. rewrite Hoy. cbn [o_hdr o_body]. by rewrite Hmy.
        - rewrite HR. cbn [look]. rewrite Hoy. cbn [o_hdr o_body]. rewrite Hmy. cbn [kids_of app]. destruct t; [|done]. cbn [dget]. by rewrite decide_False. }
      destruct e; try (destruct Hres as (? & p & Hp & [x Hx]); apply Hsh in Hx; lia).
      - destruct Hres as (y & Hy & Hu). by apply (Hnu y).
      - destruct Hres as (y & x & i & v & t & Hy & Hoy & Hmy). by eapply Hnm. }
    subst res. destruct (purge_run PurgeFacts.safe safe_dropped fuel l s g (td_heap _ _ _ _ HT) (ex_intro _ o Ho) (purgeable_safe _ _)) as (res1 & s1 & Hx & _ & Hd1 & Hres1).
    rewrite Hx in He. injection He as -> ->. destruct Hres1 as [_ Hm2]. destruct (dr_get _ _ _ _ _ Hd1 Ho) as (o2 & Ho2 & _). exists s2, o2. split_and!; try done. by apply Hm2.
  Qed.
  Lemma C51_lemma r : r <> [] -> is_remote r = false -> forall fuel l force m s g ref s' g' o, Spec_Write.writes fuel l (Some r) force m -> caches_ok s -> dget (s_caches s) r = None ->
    tidy (objs_of g r) r s l -> one_realm r (s_heap s) l -> s_heap s !! l = Some o -> kind_of (o_body o) <> KdVl true -> exec (m s) g = ((Ok ref, s'), g') ->
    forall fuel2 g2, with_metadata (look (objs_of g r) (s_heap s) l) -> shallow fuel2 (s_heap s) l -> objs_of g' r ⊆ objs_of g2 r ->
    exists s2 o2, exec (purge fuel2 l s') g2 = ((Ok tt, s2), g2) /\ s_heap s2 !! l = Some o2 /\ h_mapped (o_hdr o2) = false /\
      tidy (objs_of g2 r) r s2 l /\ one_realm r (s_heap s2) l /\
      forall fuel1 fuel3 p, exists lb, fst (fst (exec (visit fuel1 l p s) g)) = Ok lb /\ fst (fst (exec (visit fuel3 l p s2) g2)) = Ok lb.
  Proof.
    intros Hr Hrem fuel l force m s g ref s' g' o Hw Hc Hu HT H1 Ho Hk He fuel2 g2 Hwm Hsh HO2.
    destruct (written r Hr fuel l force m s g ref s' g' o Hw Hc Hu HT Ho Hk He) as (W & (HT' & Hm & _) & HL & HS).
    pose proof (write_one_realm r Hr fuel l force m s g _ s' g' l Hw He H1) as H1'.
    pose proof (tidy_mono _ _ _ _ _ HO2 HT') as HT2. pose proof (complete_look_mono _ _ _ _ HO2 (td_complete _ _ _ _ HT')) as HL2.
    destruct (purge_ok (objs_of g2 r) r fuel2 l s' g2 Hr HT2 H1' Hm) as (s2 & o2 & Hx & Ho2 & Hm2 & HT3 & H13 & HL3).
    - intros p i v. rewrite !HL2, !HL. apply Hwm.
    - intros p x Hp. apply (Hsh p x). rewrite <- Hp. symmetry. apply fo_reach, fr_on, W.
    - exists s2, o2. split_and!; try done. intros fuel1 fuel3 p.
      destruct (visit_quiet r g Hrem Hr fuel1 p s l HT) as (s4 & Hx4 & _). destruct (visit_quiet r g2 Hrem Hr fuel3 p s2 l HT3) as (s5 & Hx5 & _).
      exists (look (objs_of g r) (s_heap s) l p). rewrite Hx4, Hx5, HL3, HL2, HL. done.
  Qed.

  (** ** Recording a run *)
  Lemma get_tidy r : is_remote r = false -> r <> [] -> forall fuel g s l p a s' g', tidy (objs_of g r) r s l -> exec (get_metadata fuel l p s) g = ((a, s'), g') ->
    g' = g /\ quiet (objs_of g r) r s s' /\
    match look (objs_of g r) (s_heap s) l (map KName (all_parts p)) with
    | Seen (LbMeta m) => exists x hx, a = Ok (Some x) /\ reach (s_heap s') l (map KName (all_parts p)) = Some x /\ s_heap s' !! x = Some (Obj hx (BMeta m)) /\ h_mapped hx = true
    | Seen _ => a = Err AssertionError
    | _ => a = Ok None
    end.
  Proof.
    intros Hrem Hr fuel g s l p a s' g' HT He. pose proof (td_heap _ _ _ _ HT) as Hok.
    destruct (walk_quiet r g Hrem Hr fuel (all_parts p) s l HT) as (s1 & x & Hx & HQ & Hw). unfold get_metadata, get_object_at_path in He. rewrite x_bind, Hx in He. cbn beta iota in He.
    assert (Hl : is_Some (s_heap s !! l)) by (destruct (tidy_root _ _ _ _ HT) as (o & Ho & _); eauto).
    pose proof (qu_tidy _ _ _ _ HQ l Hl HT) as HT1. destruct x as [x|].
    2:{ rewrite x_ret in He. injection He as <- <- <-. split_and!; try done. specialize (Hw []). rewrite app_nil_r in Hw. by rewrite Hw. }
    destruct Hw as [Hrx Hlx]. pose proof (tidy_reach _ _ _ _ _ _ HT1 Hrx) as HTx. destruct (look_root _ _ _ _ HTx) as [lb Hlb]. specialize (Hlx []). rewrite app_nil_r, Hlb in Hlx. rewrite Hlx.
    destruct (tidy_root _ _ _ _ HTx) as (o & Ho & _). rewrite x_bind, x_getobj, Ho in He. cbn beta iota in He. pose proof (look_kind _ _ _ _ _ Ho Hlb) as Hk.
    destruct lb as [m| | | | |]; cbn [label_kind] in Hk.
    - destruct (meta_body o (eq_sym Hk)) as [m0 E]. destruct o as [h0 b0]. cbn in E. injection E as ->. cbn [o_body] in He.
      destruct (loaded_label r Hr Hrem fuel x s1 g (LbMeta m) HTx) with (fuel2 := fuel) as (b & s2 & o2 & Hx2 & HQ2 & Ho2 & Hm2 & Hmp).
      { destruct (visit_quiet r g Hrem Hr fuel [] s1 x HTx) as (s3 & -> & _). cbn [fst]. by rewrite Hlb. }
      rewrite x_bind, Hx2 in He. cbn beta iota in He. rewrite x_ret in He. injection He as <- <- <-. split_and!; [done|by eapply qu_trans|].
      destruct o2 as [hx [m2| | | | |]]; try done. cbn in Hm2. injection Hm2 as ->. exists x, hx. split_and!; try done.
      eapply loads_reach; [apply (gs_loads _ _ (qu_good _ _ _ _ HQ2))|done].
    - all: destruct o as [h0 b0]; cbn in Hk; destruct b0; try done; cbn [o_body] in He; rewrite x_raise in He; injection He as <- <- <-; split_and!; done.
    - all: destruct o as [h0 b0]; cbn in Hk; destruct b0; try done; cbn [o_body] in He; rewrite x_raise in He; injection He as <- <- <-; split_and!; done.
    - all: destruct o as [h0 b0]; cbn in Hk; destruct b0; try done; cbn [o_body] in He; rewrite x_raise in He; injection He as <- <- <-; split_and!; done.
    - all: destruct o as [h0 b0]; cbn in Hk; destruct b0; try done; cbn [o_body] in He; rewrite x_raise in He; injection He as <- <- <-; split_and!; done.
    - all: destruct o as [h0 b0]; cbn in Hk; destruct b0; try done; cbn [o_body] in He; rewrite x_raise in He; injection He as <- <- <-; split_and!; done.
  Qed.
  Lemma C46_lemma r : is_remote r = false -> r <> [] -> forall fuel g s l p ru res s' g', tidy (objs_of g r) r s l -> one_realm r (s_heap s) l -> run_ok ru ->
    exec (filetree_add_run fuel l p ru s) g = ((res, s'), g') ->
    let q := map KName (all_parts p) in let c := look (objs_of g r) (s_heap s) l in let c' := look (objs_of g r) (s_heap s') l in
    g' = g /\ tidy (objs_of g r) r s' l /\ one_realm r (s_heap s') l /\ (forall q', q' <> q -> c' q' = c q') /\
    match c q with
    | Seen (LbMeta m) => match add_extractor_run m ru with Ok m' => res = Ok tt /\ c' q = Seen (LbMeta m') | Err e => res = Err e /\ c' q = c q end
    | Seen _ => res = Err AssertionError /\ c' q = c q
    | _ => res = Err AttributeError /\ c' q = c q
    end.
  Proof.
    intros Hrem Hr fuel g s l p ru res s' g' HT H1 Hru He q c c'. unfold filetree_add_run in He. rewrite x_bind, x_try in He.
    destruct (exec (get_metadata fuel l p s) g) as [[a1 s1] g1] eqn:E1. destruct (get_tidy r Hrem Hr fuel g s l p a1 s1 g1 HT E1) as (-> & HQ & Ha).
    assert (Hl : is_Some (s_heap s !! l)) by (destruct (tidy_root _ _ _ _ HT) as (o & Ho & _); eauto).
    pose proof (qu_tidy _ _ _ _ HQ l Hl HT) as HT1. pose proof (qu_one _ _ _ _ HQ l Hl H1) as HO1. pose proof (fun z => qu_look _ _ _ _ HQ l z Hl) as HL1.
    fold q c in Ha. destruct (c q) as [| |lb] eqn:Ec.
    1,2: rewrite Ha in He; cbn beta iota in He; rewrite x_raise in He; injection He as <- <- <-; unfold c'; split_and!; try done; try (intros; apply HL1); rewrite HL1; exact Ec.
    destruct lb as [m| | | | |].
    2-6: rewrite Ha in He; cbn beta iota in He; rewrite x_raise in He; cbn beta iota in He; injection He as <- <- <-; unfold c'; split_and!; try done; try (intros; apply HL1); rewrite HL1; exact Ec.
    destruct Ha as (x & hx & -> & Hrx & Hx & Hm). cbn beta iota in He. rewrite (meta_run fuel g s1 x hx m ru Hx Hm) in He.
    assert (Hbm : built m). { destruct (td_complete _ _ _ _ HT q) as (_ & Hb & _). by apply (Hb (LbMeta m)). }
    assert (HE : forall m', built m' -> s' = edited s1 x (Obj (hd_saved ∅ hx) (BMeta m')) -> tidy (objs_of g r) r s' l /\ one_realm r (s_heap s') l /\ (forall q', q' <> q -> c' q' = c q') /\ c' q = Seen (LbMeta m')).
    { intros m' Hb' ->. split_and!.
      - exact (em_tidy r Hrem Hr 2 (le_n 2) _ s1 l x (all_parts p) hx m m' HT1 HO1 Hrx Hx Hm Hb').
      - exact (em_one r Hrem Hr 2 (le_n 2) _ s1 l x (all_parts p) hx m m' HT1 HO1 Hrx Hx Hm Hb').
      - intros q' Hq'. unfold c'. rewrite (em_off r Hrem Hr 2 (le_n 2) _ s1 l x (all_parts p) hx m m' HT1 HO1 Hrx Hx Hm Hb' q' Hq'). apply HL1.
      - exact (em_at r Hrem Hr 2 (le_n 2) _ s1 l x (all_parts p) hx m m' HT1 HO1 Hrx Hx Hm Hb'). }
    destruct (add_extractor_run m ru) as [m'|e] eqn:Er; injection He as <- <- <-.
    - assert (Hb' : built m') by by eapply built_run. destruct (HE m' Hb' eq_refl) as (A1 & A2 & A3 & A4). by split_and!.
    - destruct (HE m Hbm eq_refl) as (A1 & A2 & A3 & A4). by split_and!.
  Qed.

  (** ** After a failed write *)
  Lemma write_elsewhere (d r : pystr) fuel x force m s g a s' g' l : d <> [] -> Spec_Write.writes fuel x (Some d) force m -> caches_ok s -> tidy (objs_of g r) r s l ->
    apart (s_heap s) l x -> exec (m s) g = ((a, s'), g') ->
    caches_ok s' /\ (d <> r -> dget (s_caches s') r = dget (s_caches s) r) /\
    same_below (s_heap s) (s_heap s') l /\ tidy (objs_of g' r) r s' l /\ forall q, look (objs_of g' r) (s_heap s') l q = look (objs_of g r) (s_heap s) l q.
  Proof.
    intros Hd Hw Hc HT Hap He. destruct (any_write d fuel x force m s g a s' g' Hd Hw (td_heap _ _ _ _ HT) Hc He) as ((W1 & W2 & W3) & Hc' & Hcs).
    assert (HO : objs_of g r ⊆ objs_of g' r). { pose proof (exec_grow (m s) g) as Hg. rewrite He in Hg. apply Hg. }
    assert (HB : same_below (s_heap s) (s_heap s') l). { intros p y Hp. apply W3. intros q Hq. by apply (Hap p q y). }
    split; [done|]. split; [intros Hn; by apply Hcs, not_eq_sym|]. split; [done|].
    assert (HT' : tidy (objs_of g r) r s' l). { eapply tidy_same; [done| |done]. by eapply frame_heap_ok; [apply HT| |]. }
    split; [by eapply tidy_mono|]. intros q. rewrite <- (fo_look (objs_of g r) (s_heap s) (s_heap s')) by by apply sb_fo. apply complete_look_mono; [done|apply HT'].
  Qed.
  Lemma C34_lemma (d r : pystr) : d <> [] -> r <> [] -> is_remote r = false -> forall fuel1 x force1 m1 s g a s1 g1 l o,
    Spec_Write.writes fuel1 x (Some d) force1 m1 -> caches_ok s -> dget (s_caches s) r = None -> tidy (objs_of g r) r s l -> apart (s_heap s) l x ->
    s_heap s !! l = Some o -> kind_of (o_body o) <> KdVl true -> exec (m1 s) g = ((a, s1), g1) -> (d = r -> dget (s_caches s1) r = None) ->
    (caches_ok s1 /\ dget (s_caches s1) r = None /\ tidy (objs_of g1 r) r s1 l) /\
    forall fuel2 force2 m2 ref s2 g2, Spec_Write.writes fuel2 l (Some r) force2 m2 -> exec (m2 s1) g1 = ((Ok ref, s2), g2) ->
    forall s3 g3 fuel3 fuel4 p, heap_ok s3 -> objs_of g2 r ⊆ objs_of g3 r ->
    exists lb, fst (fst (exec (visit fuel3 l p s) g)) = Ok lb /\
               fst (fst (exec ((mlet b <- object_at (kind_of (o_body o)) r ref; visit fuel4 b p) s3) g3)) = Ok lb.
  Proof.
    intros Hd Hr Hrem fuel1 x force1 m1 s g a s1 g1 l o Hw Hc Hu HT Hap Ho Hk He Hsame.
    destruct (write_elsewhere d r fuel1 x force1 m1 s g a s1 g1 l Hd Hw Hc HT Hap He) as (Hc1 & Hu1 & HB & HT1 & HL).
    assert (Hu1' : dget (s_caches s1) r = None) by (destruct (decide (d = r)) as [E|E]; [by apply Hsame|by rewrite Hu1]).
    split; [by split_and!|]. intros fuel2 force2 m2 ref s2 g2 Hw2 He2 s3 g3 fuel3 fuel4 p Hok3 HO3.
    assert (Ho1 : s_heap s1 !! l = Some o) by (rewrite <- Ho; by apply (HB [] l)).
    destruct (C24_lemma r Hr Hrem fuel2 l force2 m2 s1 g1 ref s2 g2 o Hw2 Hc1 Hu1' HT1 Ho1 Hk He2 s3 g3 fuel3 fuel4 p Hok3 HO3) as (lb & E1 & E2). exists lb. split; [|done]. rewrite <- E1.
    destruct (visit_quiet r g Hrem Hr fuel3 p s l HT) as (s4 & Hx4 & _). destruct (visit_quiet r g1 Hrem Hr fuel3 p s1 l HT1) as (s5 & Hx5 & _). by rewrite Hx4, Hx5, HL.
  Qed.
End Parts.
