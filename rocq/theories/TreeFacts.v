(** Lookups, additions, removals and listings of trees (C15, C16, C17, C18). *)
From Verif Require Import Base BaseFacts Path Spec_Path PathFacts Json Refs Meta GitText Git GitFacts State BlobCache ObjRef Objects ExecFacts Spec_Look Spec_Heap Spec_Write WriteFacts LoadFacts PeekFacts TreeEditFacts.

Lemma mpath_wf p : is_metadata_path p -> wfp p.
Proof. intros [args ->]. apply MetadataPath_wf. Qed.
Lemma wf_mpath p : wfp p -> is_metadata_path p.
Proof. intros Hp. exists [APath p]. by rewrite MetadataPath_of_path. Qed.
Lemma wf_pp parts : good_names parts -> wfp (PP [] parts).
Proof. by split. Qed.

Section Tree.
  Context `{Env}.
  Lemma look_peek fuel l p s g x : peek (s_heap s) l (all_parts p) = Some x -> exec (get_object_at_path fuel l p s) g = ((Ok x, s), g).
  Proof. unfold get_object_at_path. apply walk_peek. Qed.
  Lemma look_loaded fuel l p s g x g' : heap_ok s -> is_Some (s_heap s !! l) ->
    exec (get_object_at_path fuel l p s) g = ((Ok x, s), g') -> peek (s_heap s) l (all_parts p) = Some x.
  Proof. intros Hok Hl He. unfold get_object_at_path in He; apply gs_walk in He as [_ [_ He]]; done. Qed.

  Lemma C15_added_lemma fuel fuel1 l child p q s g r s1 g1 g2 u s2 g3 : heap_ok s -> node_at (s_heap s) l -> nodes_unshared (s_heap s) l ->
    is_metadata_path p -> is_metadata_path q ->
    exec (get_object_at_path fuel l q s) g = ((Ok r, s1), g1) ->
    exec (add_child_at fuel1 l child p s1) g2 = ((Ok u, s2), g3) ->
    forall fuel2 g4,
      exec (get_object_at_path fuel2 l p s2) g4 = ((Ok (Some child), s2), g4) /\
      (~ extends (all_parts q) (all_parts p) -> r <> None \/ ~ extends (all_parts p) (all_parts q) ->
       exec (get_object_at_path fuel2 l q s2) g4 = ((Ok r, s2), g4)).
  Proof.
    intros Hok Hl Hu Hp%mpath_wf Hq%mpath_wf He Ha fuel2 g4. assert (HlS : is_Some (s_heap s !! l)) by (destruct Hl as (? & ? & ? & ->); by eexists).
    unfold get_object_at_path in He; apply gs_walk in He as [Hlo [Hgs He]]; [|done|done].
    unfold add_child_at in Ha; apply add_run in Ha as (s1' & Hgs' & Had); [|apply Hgs|done|done|by eapply node_step].
    pose proof (gs_trans _ _ _ Hgs Hgs') as Hgt.
    assert (Hl' : is_Some (s_heap s1' !! l)) by (eapply loads_some; [apply Hgt|done]).
    pose proof (gs_nodes _ _ Hgt l HlS Hu) as Hu'. pose proof (gs_ok _ _ Hgt) as Hok'.
    split; [apply look_peek; by eapply added_self|]. intros Hne Hr. apply look_peek.
    pose proof (loads_peek _ _ (gs_loads _ _ Hgs') _ _ _ He) as Hpk.
    destruct Hr as [Hr|Hr]; [|by eapply added_other]. destruct r as [x|]; [|done]. by eapply added_prefix.
  Qed.
  Lemma C15_failed_lemma fuel fuel1 l child p q s g r s1 g1 g2 e s2 g3 : heap_ok s -> node_at (s_heap s) l ->
    is_metadata_path p ->
    exec (get_object_at_path fuel l q s) g = ((Ok r, s1), g1) ->
    exec (add_child_at fuel1 l child p s1) g2 = ((Err e, s2), g3) ->
    forall fuel2 g4, exec (get_object_at_path fuel2 l q s2) g4 = ((Ok r, s2), g4).
  Proof.
    intros Hok Hl Hp%mpath_wf He Ha fuel2 g4. assert (HlS : is_Some (s_heap s !! l)) by (destruct Hl as (? & ? & ? & ->); by eexists).
    unfold get_object_at_path in He; apply gs_walk in He as [Hlo [Hgs He]]; [|done|done].
    unfold add_child_at in Ha; apply add_run in Ha; [|apply Hgs|done|done|by eapply node_step]. apply look_peek. by eapply loads_peek.
  Qed.
  (** a leaf on the way to [p] *)
  Lemma C16_lemma fuel fuel1 l child p s g r s1 g1 g2 : heap_ok s -> node_at (s_heap s) l ->
    is_metadata_path p -> all_parts p <> [] ->
    exec (get_object_at_path fuel l p s) g = ((Ok r, s1), g1) ->
    let leaf_on_path := exists q z x o, is_metadata_path q /\ all_parts q <> [] /\ z <> [] /\ all_parts p = all_parts q ++ z /\
      exec (get_object_at_path fuel l q s1) g2 = ((Ok (Some x), s1), g2) /\ s_heap s1 !! x = Some o /\ is_node o = false in
    (r <> None \/ leaf_on_path -> exec (add_child_at fuel1 l child p s1) g2 = ((Err ValueError, s1), g2)) /\
    (r = None -> ~ leaf_on_path -> exists s2, exec (add_child_at fuel1 l child p s1) g2 = ((Ok tt, s2), g2)).
  Proof.
    intros Hok Hl Hp%mpath_wf Hne He leaf. assert (HlS : is_Some (s_heap s !! l)) by (destruct Hl as (? & ? & ? & ->); by eexists).
    unfold get_object_at_path in He; apply gs_walk in He as [Hlo [Hgs He]]; [|done|done]. pose proof (gs_ok _ _ Hgs) as Hok1. pose proof (node_step _ _ _ Hlo Hl) as Hl1.
    destruct (add_outcome (length (all_parts p)) fuel1 l child p s1 g2 r Hok1 Hp Hne (Nat.le_refl _) Hl1 He) as [A1 A2].
    assert (Hlf : leaf <-> blocked (s_heap s1) l (all_parts p)).
    { split.
      - intros (q & z & x & o & Hq%mpath_wf & Hq0 & Hz & Heq & Hx & Ho & Hno). exists (all_parts q), z, x. split_and!; try done.
        + eapply look_loaded; [done| |exact Hx]. by eapply loads_some.
        + intros Hx'%(node_iff _ _ _ Ho). congruence.
      - intros (q & z & x & Hq0 & Hz & Heq & Hx & Hno).
        assert (Hgq : good_names q). { rewrite wfp_all in Heq by done. destruct Hp as [_ Hg]. rewrite Heq in Hg. by apply Forall_app in Hg as [? _]. }
        assert (Hso : is_Some (s_heap s1 !! x)).
        { assert (HlS1 : is_Some (s_heap s1 !! l)) by by eapply loads_some. clear - Hok1 Hx HlS1. revert l HlS1 Hx. induction q as [|m q IH]; intros l [ol Hol]; cbn [peek]; [intros [= <-]; by eexists|].
          rewrite Hol. destruct (o_body ol) as [| |ca da| | |] eqn:Eb; try done. destruct (h_mapped _); [|done]. destruct (dget da m) as [b|] eqn:Ed; [|done]. apply IH.
          apply (Hok1 l ol Hol). rewrite Eb. cbn. apply in_map_iff. exists (m, b). split; [done|]. by apply dget_Some_In. }
        destruct Hso as [o Ho]. exists (PP [] q), z, x, o. split_and!; try done.
        + by apply wf_mpath.
        + by apply look_peek.
        + destruct (is_node o) eqn:E; [|done]. exfalso. by apply Hno, (node_iff _ _ _ Ho). }
    split; [intros [?|Hx]; apply A1; [by left|right; by apply Hlf]|]. intros Hr Hx. apply A2; [done|]. intros Hb. by apply Hx, Hlf.
  Qed.
  Lemma C18_removed_lemma fuel fuel1 l p q s g r s1 g1 g2 u s2 g3 : heap_ok s -> node_at (s_heap s) l -> nodes_unshared (s_heap s) l ->
    is_metadata_path p -> is_metadata_path q ->
    exec (get_object_at_path fuel l q s) g = ((Ok r, s1), g1) ->
    exec (remove_child_at fuel1 l p s1) g2 = ((Ok u, s2), g3) ->
    forall fuel2 g4,
      (extends (all_parts q) (all_parts p) -> exec (get_object_at_path fuel2 l q s2) g4 = ((Ok None, s2), g4)) /\
      (~ extends (all_parts q) (all_parts p) -> exec (get_object_at_path fuel2 l q s2) g4 = ((Ok r, s2), g4)).
  Proof.
    intros Hok Hl Hu Hp%mpath_wf Hq%mpath_wf He Ha fuel2 g4. assert (HlS : is_Some (s_heap s !! l)) by (destruct Hl as (? & ? & ? & ->); by eexists).
    unfold get_object_at_path in He; apply gs_walk in He as [Hlo [Hgs He]]; [|done|done].
    apply remove_run in Ha as (s1' & Hgs' & Had); [|apply Hgs|done|by eapply node_step].
    pose proof (gs_trans _ _ _ Hgs Hgs') as Hgt.
    assert (Hl' : is_Some (s_heap s1' !! l)) by (eapply loads_some; [apply Hgt|done]).
    pose proof (gs_nodes _ _ Hgt l HlS Hu) as Hu'. pose proof (gs_ok _ _ Hgt) as Hok'.
    split.
    - intros [z Hz]. apply look_peek. rewrite Hz. by eapply removed_self.
    - intros Hne. apply look_peek. eapply removed_other; [done|done|done|done|done|]. by eapply loads_peek; [apply (gs_loads _ _ Hgs')|].
  Qed.
  Lemma C18_failed_lemma fuel fuel1 l p q s g r s1 g1 g2 e s2 g3 : heap_ok s -> node_at (s_heap s) l ->
    is_metadata_path p ->
    exec (get_object_at_path fuel l q s) g = ((Ok r, s1), g1) ->
    exec (remove_child_at fuel1 l p s1) g2 = ((Err e, s2), g3) ->
    forall fuel2 g4, exec (get_object_at_path fuel2 l q s2) g4 = ((Ok r, s2), g4).
  Proof.
    intros Hok Hl Hp%mpath_wf He Ha fuel2 g4. assert (HlS : is_Some (s_heap s !! l)) by (destruct Hl as (? & ? & ? & ->); by eexists).
    unfold get_object_at_path in He; apply gs_walk in He as [Hlo [Hgs He]]; [|done|done].
    apply remove_run in Ha; [|apply Hgs|done|by eapply node_step]. apply look_peek. by apply Ha.
  Qed.

  (** ** Listing *)
  Lemma mmap_pure {A B : Type} (f : A -> M pst B) (F : A -> res B) (s : pst) g (l : list A) :
    (forall x, In x l -> exec (f x s) g = ((F x, s), g)) -> exec (mmap f l s) g = ((rmap F l, s), g).
  Proof.
    induction l as [|a l IH]; intros Hf; [done|]. cbn [mmap]. rewrite x_bind, Hf by by left. cbn [rmap]. destruct (F a) as [b|e]; [|done]. cbn beta iota.
    rewrite x_bind, IH by (intros; apply Hf; by right). cbn. by destruct (rmap F l).
  Qed.
  Lemma loaded_kid h l x c d e y : loaded_tree h l -> h !! l = Some (Obj x (BNode c d)) -> dget d e = Some y -> loaded_tree h y.
  Proof.
    intros Hld Hl Hd p z hz cz dz Hz. apply (Hld (e :: p)). destruct (Hld [] l x c d eq_refl Hl) as [Hm _]. cbn [map reach]. rewrite Hl. cbn [o_hdr o_body]. by rewrite Hm, dget_name, Hd.
  Qed.
  Lemma dkeys_in {K V : Type} (d : pydict K V) k v : In (k, v) d -> In k (dkeys d).
  Proof. intros Hi. unfold dkeys. apply in_map_iff. by exists (k, v). Qed.
  Lemma In_dget {K V : Type} `{EqDecision K} (d : pydict K V) k v : NoDup (dkeys d) -> In (k, v) d -> dget d k = Some v.
  Proof.
    induction d as [|[k' v'] d IH]; [done|]. cbn. intros [Hk Hd]%NoDup_cons [[= -> ->]|Hi]; [by rewrite decide_True|].
    rewrite decide_False; [by apply IH|]. intros ->. apply Hk, elem_of_list_In. by eapply dkeys_in.
  Qed.
  Lemma In_concat {A : Type} (ls : list (list A)) x : In x (concat ls) <-> exists l, In l ls /\ In x l.
  Proof. rewrite in_concat. done. Qed.
  Lemma rmap_ok {A B : Type} (F : A -> res B) l r : rmap F l = Ok r -> Forall2 (fun x y => F x = Ok y) l r.
  Proof.
    revert r. induction l as [|a l IH]; intros r; cbn; [intros [= <-]; constructor|]. destruct (F a) eqn:E; [|done]. cbn. destruct (rmap F l) eqn:E2; [|done].
    cbn. intros [= <-]. constructor; [done|by apply IH].
  Qed.
  Lemma rmap_err {A B : Type} (F : A -> res B) l e : rmap F l = Err e -> exists x, In x l /\ F x = Err e.
  Proof.
    induction l as [|a l IH]; cbn; [done|]. destruct (F a) as [b|e'] eqn:E; cbn; [|intros [= ->]; exists a; split; [by left|done]].
    destruct (rmap F l) eqn:E2; cbn; [done|]. intros [= ->]. destruct (IH eq_refl) as (x & Hx & Hfx). exists x. split; [by right|done].
  Qed.
  Lemma Forall2_in {A B : Type} (P : A -> B -> Prop) d r : Forall2 P d r -> Forall2 (fun a b => In a d /\ P a b) d r.
  Proof.
    induction 1 as [|a b d r Hab Hr IH]; constructor; [split; [by left|done]|]. eapply Forall2_impl; [exact IH|]. intros x y [? ?]. split; [by right|done].
  Qed.
  (** what a listing of a loaded tree gives *)
  Definition listed (h : heap) (inter : bool) (l : loc) (r : res (list (ppath * loc))) (fuel : nat) : Prop :=
    match r with
    | Ok xs => (forall p x, In (p, x) xs <-> exists parts, p = PP [] parts /\ good_names parts /\ peek h l parts = Some (Some x) /\ (node_at h x -> inter = true)) /\
               NoDup (map fst xs)
    | Err e => e = RecursionError /\ exists parts x, length parts = fuel /\ peek h l parts = Some (Some x) /\ node_at h x
    end.
  Lemma nodup_pp {A : Type} (d : list (pystr * A)) (r : list (list (ppath * loc))) : NoDup (dkeys d) ->
    Forall2 (fun (ne : pystr * A) ys => NoDup (map fst ys) /\ forall (p : ppath) (x : loc), In (p, x) ys -> exists z, p = PP [] (fst ne :: z)) d r -> NoDup (map fst (concat r)).
  Proof.
    intros Hd Hr. induction Hr as [|[n a] ys d r [H1 H2] Hr IH]; cbn; [apply NoDup_nil_2|]. cbn in Hd. apply NoDup_cons in Hd as [Hn Hd].
    rewrite map_app. apply NoDup_app. split_and!; [done| |by apply IH].
    intros p Hp Hq. apply elem_of_list_In, in_map_iff in Hp as ([p' x] & <- & Hp). destruct (H2 _ _ Hp) as [z Hz]. cbn in Hz. subst p'. cbn in Hq.
    apply elem_of_list_In, in_map_iff in Hq as ([p' x'] & Hpe & Hq). cbn in Hpe. subst p'. apply In_concat in Hq as (ys' & Hys & Hin).
    apply Hn, elem_of_list_In. clear - Hr Hys Hin. induction Hr as [|[m b] ys d r [H1 H2] Hr IH]; [done|]. destruct Hys as [->|Hys].
    - left. destruct (H2 _ _ Hin) as [z' [= ->]]. done.
    - right. by apply IH.
  Qed.
  Lemma list_loaded inter fuel : forall l s g, heap_ok s -> node_at (s_heap s) l -> loaded_tree (s_heap s) l ->
    exists r, exec (get_paths_recursive fuel inter l s) g = ((r, s), g) /\ listed (s_heap s) inter l r fuel.
  Proof.
    induction fuel as [|f IH]; intros l s g Hok (x & c & d & Hl) Hld.
    { exists (Err RecursionError). split; [done|]. split; [done|]. exists [], l. split_and!; try done. by eexists _, _, _. }
    destruct (Hld [] l x c d eq_refl Hl) as [Hm Hgn]. pose proof (Hok l _ Hl) as (_ & Hsub & _ & Hnd). apply (kids_node_keys _ c) in Hnd. cbn [o_body sub_objects] in Hsub.
    set (F := fun nl : pystr * loc => fst (fst (exec ((mlet node <- is_mtreenode (snd nl);
                  if node : bool then
                    mlet sub <- get_paths_recursive f inter (snd nl);
                    mret (map (fun px => (truediv (MetadataPath [AStr (fst nl)]) (APath (fst px)), snd px)) sub)
                  else mret [(MetadataPath [AStr (fst nl)], snd nl)]) s) g))).
    assert (Hmp : forall n, good_name n -> MetadataPath [AStr n] = PP [] [n]).
    { intros n Hn. rewrite MetadataPath_eq. unfold PurePosixPath, flatten_args. cbn [map concat app]. rewrite parse_good; [done|]. by apply List.Forall_cons. }
    assert (HF : forall nl, In nl d -> exec ((mlet node <- is_mtreenode (snd nl);
                  if node : bool then
                    mlet sub <- get_paths_recursive f inter (snd nl);
                    mret (map (fun px => (truediv (MetadataPath [AStr (fst nl)]) (APath (fst px)), snd px)) sub)
                  else mret [(MetadataPath [AStr (fst nl)], snd nl)]) s) g = ((F nl, s), g) /\
            match F nl with
            | Ok ys => NoDup (map fst ys) /\ forall p y, In (p, y) ys <-> exists z, p = PP [] (fst nl :: z) /\ good_names z /\ peek (s_heap s) (snd nl) z = Some (Some y) /\ (node_at (s_heap s) y -> inter = true)
            | Err e => e = RecursionError /\ exists parts y, length parts = f /\ peek (s_heap s) (snd nl) parts = Some (Some y) /\ node_at (s_heap s) y
            end).
    { intros [n y] Hin. cbn [fst snd] in *. assert (Hy : is_Some (s_heap s !! y)). { apply Hsub, in_map_iff. by exists (n, y). } destruct Hy as [oy Hy].
      pose proof (In_dget _ _ _ Hnd Hin) as Hdg.
      assert (Hgnm : good_name n) by (rewrite List.Forall_forall in Hgn; apply Hgn; by eapply dkeys_in).
      unfold F. cbn [fst snd]. rewrite x_bind, (x_is_node _ _ _ _ Hy). cbn beta iota. destruct (is_node oy) eqn:Hn.
      - apply (node_iff _ _ _ Hy) in Hn. destruct (IH y s g Hok Hn) as (r & Hr & HL); [by eapply loaded_kid|].
        rewrite x_bind, Hr. cbn beta iota. destruct r as [ys|e]; [|done]. cbn beta iota. rewrite x_ret. cbn [fst snd]. split; [done|]. destruct HL as [HL HN].
        assert (Htd : forall p : ppath, (exists (x : loc), In (p, x) ys) -> truediv (MetadataPath [AStr n]) (APath p) = PP [] (n :: p_parts p)).
        { intros p [a Ha]. apply HL in Ha as (parts & -> & Hg & _). rewrite truediv_path; [|apply MetadataPath_wf|by apply wf_pp]. by rewrite Hmp. }
        split.
        + assert (Heq : map fst (map (fun px => (truediv (MetadataPath [AStr n]) (APath (fst px)), snd px)) ys) = map (fun p => PP [] (n :: p_parts p)) (map fst ys)).
          { rewrite !map_map. apply map_ext_in. intros [p a] Ha. cbn. apply Htd. by exists a. }
          rewrite Heq. apply (NoDup_ListNoDup (map _ _)).
          assert (Hwf : forall p, In p (map fst ys) -> wfp p).
          { intros p ([p' a] & <- & Ha)%in_map_iff. apply HL in Ha as (parts & Hp' & Hg & _). cbn. subst p'. by apply wf_pp. }
          clear - HN Hwf. apply NoDup_ListNoDup in HN. induction HN as [|p l Hp HN IH]; cbn; constructor.
          * intros (q & Hq & Hin)%in_map_iff. apply Hp. assert (q = p) as <-; [|done]. apply wfp_eq; [apply Hwf; by right|apply Hwf; by left|]. congruence.
          * apply IH. intros; apply Hwf; by right.
        + intros p a. rewrite in_map_iff. split.
          * intros ([p' a'] & Heq & Ha). cbn in Heq. rewrite Htd in Heq by by exists a'. injection Heq as <- <-. apply HL in Ha as (parts & -> & Hg & Hpk & Hi). by exists parts.
          * intros (z & -> & Hg & Hpk & Hi). exists (PP [] z, a). assert (Hin' : In (PP [] z, a) ys) by (apply HL; by exists z). split; [|done]. cbn [fst snd]. rewrite Htd by by exists a. done.
      - rewrite x_ret. cbn [fst snd]. split; [done|]. split; [cbn; apply NoDup_singleton|]. rewrite Hmp by done.
        assert (Hnn : ~ node_at (s_heap s) y) by (intros HH%(node_iff _ _ _ Hy); congruence).
        intros p a. split.
        + intros [[= <- <-]|[]]. exists []. split_and!; try done. apply List.Forall_nil.
        + intros (z & -> & Hg & Hpk & Hi). destruct z as [|m z]; cbn [peek] in Hpk; [injection Hpk as <-; by left|]. rewrite Hy in Hpk. destruct oy as [hy by_]. cbn in Hpk, Hn. by destruct by_. }
    cbn [get_paths_recursive]. rewrite x_bind. unfold with_mapped. rewrite x_bind, (x_mapped_noop _ _ _ _ _ Hl Hm). cbn beta iota.
    rewrite x_finally, x_bind, (x_children _ _ _ _ _ _ Hl). cbn beta iota. cbn [fst snd].
    erewrite (mmap_pure _ F); [|intros; by apply HF].
    destruct (rmap F d) as [r|e] eqn:Er.
    - rewrite x_ret. cbn beta iota. rewrite x_ret. eexists. split; [done|]. apply rmap_ok in Er. cbn [listed].
      assert (Hall : Forall2 (fun nl ys => In nl d /\ F nl = Ok ys) d r).
      { by apply Forall2_in. }
      assert (Hall2 : Forall2 (fun (nl : pystr * loc) ys => NoDup (map fst ys) /\ forall p y, In (p, y) ys <-> exists z, p = PP [] (fst nl :: z) /\ good_names z /\ peek (s_heap s) (snd nl) z = Some (Some y) /\ (node_at (s_heap s) y -> inter = true)) d r).
      { eapply Forall2_impl; [exact Hall|]. intros nl ys [Hin Hys]. destruct (HF nl Hin) as [_ HF2]. rewrite Hys in HF2. done. }
      assert (Hconc : forall p y, In (p, y) (concat r) <-> exists n z, p = PP [] (n :: z) /\ good_name n /\ good_names z /\ peek (s_heap s) l (n :: z) = Some (Some y) /\ (node_at (s_heap s) y -> inter = true)).
      { intros p y. rewrite In_concat. split.
        - intros (ys & Hys & Hin). apply elem_of_list_In, elem_of_list_lookup in Hys as [i Hi]. destruct (Forall2_lookup_r _ _ _ _ _ Hall2 Hi) as ([n a] & Hd & _ & HE).
          destruct (proj1 (HE _ _) Hin) as (z & Hpz & Hg & Hpk & Hi'). cbn [fst snd] in *. apply elem_of_list_lookup_2, elem_of_list_In in Hd. exists n, z. split_and!; try done.
          + rewrite List.Forall_forall in Hgn. apply Hgn. by eapply dkeys_in.
          + cbn [peek]. rewrite Hl. cbn [o_body o_hdr]. by rewrite Hm, (In_dget _ _ _ Hnd Hd).
        - intros (n & z & -> & Hgn1 & Hg & Hpk & Hi). cbn [peek] in Hpk. rewrite Hl in Hpk. cbn [o_body o_hdr] in Hpk. rewrite Hm in Hpk. destruct (dget d n) as [a|] eqn:Ed; [|done].
          apply dget_Some_In, elem_of_list_In, elem_of_list_lookup in Ed as [i Hi']. destruct (Forall2_lookup_l _ _ _ _ _ Hall2 Hi') as (ys & Hys & _ & HE).
          exists ys. split; [by eapply elem_of_list_In, elem_of_list_lookup_2|]. apply HE. by exists z. }
      assert (HND : NoDup (map fst (concat r))).
      { eapply nodup_pp; [exact Hnd|]. eapply Forall2_impl; [exact Hall2|]. intros nl ys [HN HE]. split; [done|]. intros p y (z & -> & _)%HE. by exists z. }
      assert (Hroot : MetadataPath [AStr []] = PP [] []) by reflexivity.
      destruct inter; cbn [app].
      + rewrite Hroot. split.
        * intros p y. cbn [In]. rewrite Hconc. split.
          -- intros [[= <- <-]|(n & z & -> & H1 & H2 & H3 & H4)]; [exists []; split_and!; try done; apply List.Forall_nil|]. exists (n :: z). split_and!; try done. by apply List.Forall_cons.
          -- intros ([|n z] & -> & H1 & H2 & H3); [left; cbn in H2; congruence|]. right. exists n, z. apply List.Forall_cons_iff in H1 as [? ?]. done.
        * cbn [map fst]. apply NoDup_cons. split; [|done]. intros Hin%elem_of_list_In. apply in_map_iff in Hin as ([p y] & Heq & Hin). cbn in Heq. subst p. apply Hconc in Hin as (n & z & [=] & _).
      + split; [|done]. intros p y. rewrite Hconc. split.
        * intros (n & z & -> & H1 & H2 & H3 & H4). exists (n :: z). split_and!; try done. by apply List.Forall_cons.
        * intros ([|n z] & -> & H1 & H2 & H3); [|exists n, z; apply List.Forall_cons_iff in H1 as [? ?]; done]. exfalso. cbn in H2. injection H2 as <-.
          assert (false = true) by (apply H3; by eexists _, _, _). done.
    - exists (Err e). split; [done|]. apply rmap_err in Er as ([n a] & Hin & Ha). destruct (HF _ Hin) as [_ HF2]. rewrite Ha in HF2. destruct HF2 as (-> & parts & y & Hlen & Hpk & Hny).
      split; [done|]. exists (n :: parts), y. split_and!; [cbn; lia| |done]. cbn [peek]. rewrite Hl. cbn [o_body o_hdr]. by rewrite Hm, (In_dget _ _ _ Hnd Hin).
  Qed.
End Tree.
