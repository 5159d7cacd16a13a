(** Adding to and removing from trees (C15, C16, C18, C19). *)
From Verif Require Import Base BaseFacts Path Spec_Path PathFacts Json Refs Meta GitText Git GitFacts State BlobCache ObjRef Objects ExecFacts Spec_Look Spec_Heap Spec_Write WriteFacts LoadFacts PeekFacts.

(** New nodes from [y] to [child]. *)
Fixpoint chain (n : loc) (h : heap) (y : loc) (rest : list pystr) (child : loc) : Prop :=
  match rest with
  | [] => y = child
  | m :: r => (n <= y)%N /\ exists x c y', h !! y = Some (Obj x (BNode c [(m, y')])) /\ h_mapped x = true /\ h_saved x = ∅ /\ chain (N.succ y) h y' r child
  end.
(** Between [s] and [s'] a child was added below [l]; nothing was loaded. *)
Record added (s s' : pst) (l child : loc) (parts : list pystr) : Prop := {
  ad_rest : rest_same s s';
  ad_next : (s_next s <= s_next s')%N;
  ad_bound : forall (x : loc), (s_next s' <= x)%N -> s_heap s' !! x = None;
  ad_ok : heap_ok s -> is_Some (s_heap s !! child) -> heap_ok s';
  ad_where : exists pre e rest (n : loc) x c d y,
    parts = pre ++ e :: rest /\ reach (s_heap s) l (map KName pre) = Some n /\
    s_heap s !! n = Some (Obj x (BNode c d)) /\ h_mapped x = true /\ dget d e = None /\
    s_heap s' !! n = Some (Obj (hd_saved ∅ x) (BNode c (dset d e y))) /\
    (forall z : loc, (z < s_next s)%N -> z <> n -> s_heap s' !! z = s_heap s !! z) /\
    (rest = [] -> s_next s' = s_next s) /\
    chain (s_next s) (s_heap s') y rest child
}.

Lemma heap_ins2 (h : heap) l a b : <[l := a]> (<[l := b]> h) = <[l := a]> h.
Proof. unfold heap in *. apply (insert_insert (M := gmap loc)). Qed.
Section Edit.
  Context `{Env}.
  Lemma parts_again rest : good_names rest -> all_parts (MetadataPath [AStr (join [slash] rest)]) = rest /\ wfp (MetadataPath [AStr (join [slash] rest)]).
  Proof.
    intros Hg. split; [|apply MetadataPath_wf]. rewrite wfp_all by apply MetadataPath_wf. rewrite MetadataPath_eq. unfold PurePosixPath, flatten_args. cbn [map concat app].
    by rewrite parse_join.
  Qed.
  Lemma good_assert e : good_name e -> negb (bool_decide (e = dot_str)) = true /\ negb (existsb (N.eqb slash) e) = true.
  Proof.
    intros (H1 & H2 & H3). split; apply negb_true_iff; [by apply bool_decide_eq_false|]. apply not_true_iff_false. intros Hx.
    apply existsb_exists in Hx as (c & Hc & Heq). apply N.eqb_eq in Heq. subst c. done.
  Qed.
  (** [add_child] on a loaded node *)
  Lemma x_add_child fuel l x c d e child s g : good_name e -> s_heap s !! l = Some (Obj x (BNode c d)) -> h_mapped x = true ->
    exec (add_child fuel l e child s) g =
      (match dget d e with
       | Some _ => (Err ValueError, s)
       | None => (Ok tt, with_heap s (<[l := Obj (hd_saved ∅ x) (BNode c (dset d e child))]> (s_heap s)))
       end, g).
  Proof.
    intros He Hl Hm. destruct (good_assert e He) as [A1 A2]. unfold add_child. rewrite x_bind, x_assert, A1. cbn beta iota. rewrite x_bind, x_assert, A2. cbn beta iota.
    rewrite x_bind, (x_mapped_noop _ _ _ _ _ Hl Hm). cbn beta iota. rewrite x_bind, (x_children _ _ _ _ _ _ Hl). cbn beta iota. cbn [fst snd].
    unfold dmem. destruct (dget d e); [done|]. rewrite x_bind. unfold touch. rewrite (x_set_hdr _ _ _ _ _ Hl). cbn beta iota.
    unfold set_body. rewrite x_bind, x_getobj. cbn [s_heap with_heap]. rewrite heap_insert, decide_True by done. cbn. unfold with_heap. cbn.
    by rewrite heap_ins2.
  Qed.
  Lemma x_new b s g : exec (new_obj b None None s) g =
    ((Ok (s_next s), PSt (<[s_next s := Obj (Hdr None None true ∅) b]> (s_heap s)) (N.succ (s_next s)) (s_caches s) (s_orefs s) (s_legacy s) (s_locks s)), g).
  Proof. done. Qed.
  Lemma ok_alloc s c hx : heap_ok s -> heap_ok (PSt (<[s_next s := Obj hx (BNode c [])]> (s_heap s)) (N.succ (s_next s)) (s_caches s) (s_orefs s) (s_legacy s) (s_locks s)).
  Proof.
    intros Hok l o. cbn. rewrite heap_insert. destruct (decide (s_next s = l)) as [<-|Hne].
    - intros [= <-]. cbn. split_and!; try done; [lia|apply NoDup_nil_2].
    - intros Ho. destruct (Hok l o Ho) as (H1 & H2 & H3 & H4). split_and!; try done; [lia|]. intros x Hx. rewrite heap_insert. case_decide; [by eexists|by apply H2].
  Qed.
  Lemma ok_set_node s l x x' c d e child : heap_ok s -> s_heap s !! l = Some (Obj x (BNode c d)) -> h_mapped x' = true -> is_Some (s_heap s !! child) ->
    heap_ok (with_heap s (<[l := Obj x' (BNode c (dset d e child))]> (s_heap s))).
  Proof.
    intros Hok Hl Hm Hc l1 o. cbn. rewrite heap_insert. destruct (decide (l = l1)) as [<-|Hne].
    - intros [= <-]. destruct (Hok l _ Hl) as (H1 & H2 & H3 & H4). cbn in *. split_and!; [lia| |congruence|].
      + intros y Hy. rewrite heap_insert. case_decide; [by eexists|]. apply dset_in_snd in Hy as [->|Hy]; [done|]. by apply H2.
      + apply (kids_node_keys _ c). apply dset_nodup. by apply (kids_node_keys _ c).
    - intros Ho. destruct (Hok l1 o Ho) as (H1 & H2 & H3 & H4). split_and!; try done. intros y Hy. rewrite heap_insert. case_decide; [by eexists|by apply H2].
  Qed.
  Lemma mdeep_ok n : forall fuel x c hd child p s g, wfp p -> all_parts p <> [] -> (length (all_parts p) <= n)%nat ->
    s_heap s !! x = Some (Obj hd (BNode c [])) -> h_mapped hd = true -> (forall z : loc, (s_next s <= z)%N -> s_heap s !! z = None) ->
    exists s', exec (add_child_at_n n fuel x child p s) g = ((Ok tt, s'), g) /\ rest_same s s' /\ (s_next s <= s_next s')%N /\
      (forall z : loc, (s_next s' <= z)%N -> s_heap s' !! z = None) /\ (heap_ok s -> is_Some (s_heap s !! child) -> heap_ok s') /\
      (forall z : loc, (z < s_next s)%N -> z <> x -> s_heap s' !! z = s_heap s !! z) /\
      (exists e rest y, all_parts p = e :: rest /\ s_heap s' !! x = Some (Obj (hd_saved ∅ hd) (BNode c [(e, y)])) /\
         (rest = [] -> s_next s' = s_next s) /\ chain (s_next s) (s_heap s') y rest child).
  Proof.
    induction n as [|n IH]; intros fuel x c hd child p s g Hp Hne Hn Hx Hm Hb; [by destruct (all_parts p); cbn in Hn; [|lia]|].
    cbn [add_child_at_n]. rewrite wfp_all in * by done. destruct Hp as [Hr Hg]. destruct (p_parts p) as [|e rest] eqn:Ep; [done|].
    apply List.Forall_cons_iff in Hg as [Hge Hgr]. rewrite x_bind, (x_get_child _ _ _ _ _ _ _ _ Hx Hm). cbn beta iota. cbn [dget].
    assert (Hxb : (x < s_next s)%N).
    { destruct (N.lt_ge_cases x (s_next s)) as [|Hge']; [done|]. rewrite Hb in Hx by done. done. }
    destruct rest as [|e2 rest].
    - rewrite x_bind, x_ret. cbn beta iota. rewrite (x_add_child _ _ _ _ _ _ _ _ _ Hge Hx Hm). cbn [dget dset].
      eexists. split; [done|]. cbn. split_and!; try done; try lia.
      + intros z Hz. rewrite heap_insert. case_decide; [lia|]. by apply Hb.
      + intros Hok Hc. by apply (ok_set_node s x hd _ c []).
      + intros z Hz Hzx. rewrite heap_insert. by rewrite decide_False.
      + exists e, [], child. rewrite heap_insert, decide_True by done. split_and!; done.
    - rewrite x_bind, x_bind, (x_children _ _ _ _ _ _ Hx). cbn beta iota. rewrite x_bind, x_new. cbn beta iota. cbn [fst].
      set (hx := Hdr None None true ∅). set (y := s_next s).
      set (s1 := PSt (<[y := Obj hx (BNode c [])]> (s_heap s)) (N.succ y) (s_caches s) (s_orefs s) (s_legacy s) (s_locks s)).
      assert (Hx1 : s_heap s1 !! x = Some (Obj hd (BNode c []))) by (cbn; rewrite heap_insert, decide_False; [done|unfold y; intros HH; rewrite HH in Hxb; lia]).
      rewrite x_bind, (x_add_child fuel x hd c [] e y s1 g Hge Hx1 Hm). cbn [dget dset]. cbn beta iota. rewrite x_ret. cbn beta iota.
      set (s2 := with_heap s1 _).
      assert (Hy2 : s_heap s2 !! y = Some (Obj hx (BNode c []))).
      { cbn. rewrite heap_insert, decide_False by (unfold y; intros HH; rewrite HH in Hxb; lia). rewrite heap_insert. by rewrite decide_True. }
      rewrite x_bind, (x_is_node _ _ _ _ Hy2). cbn beta iota. unfold is_node. cbn [o_body].
      destruct (parts_again (e2 :: rest) Hgr) as [Hall Hwf].
      destruct (IH fuel y c hx child _ s2 g Hwf) as (s' & He' & R1 & R2 & R3 & RK & R4 & e' & rest' & y' & Hparts & Hy' & Hlen & Hch).
      + by rewrite Hall.
      + rewrite Hall. cbn in Hn |- *. lia.
      + done.
      + done.
      + intros z Hz. cbn in Hz |- *. rewrite !heap_insert. case_decide; [lia|]. case_decide; [lia|]. apply Hb. lia.
      + rewrite He'. rewrite Hall in Hparts. injection Hparts as <- <-. exists s'. split; [done|]. unfold s2, s1 in *; cbn in *. split_and!; try done; try lia.
        * intros Hok Hc. apply RK.
          -- apply (ok_set_node s1 x hd _ c []); [by apply ok_alloc|done|done|]. cbn. rewrite heap_insert, decide_True by done. by eexists.
          -- rewrite !heap_insert. case_decide; [by eexists|]. case_decide; [by eexists|done].
        * intros z Hz Hzx. rewrite R4; [|lia|unfold y; lia]. rewrite !heap_insert. rewrite decide_False by done. rewrite decide_False by (unfold y; lia). done.
        * exists e, (e2 :: rest), y. split_and!; try done.
          -- rewrite R4; [|unfold y; lia|unfold y; intros HH; rewrite HH in Hxb; lia]. rewrite heap_insert. by rewrite decide_True.
          -- cbn [chain]. split; [unfold y; lia|]. eexists _, _, y'. split_and!; [exact Hy'|done|done|].
             exact Hch.
  Qed.

  Lemma is_node_exec l s g : exec (is_mtreenode l s) g =
    ((match s_heap s !! l with Some o => Ok (is_node o) | None => Err Unmodelled end, s), g).
  Proof. unfold is_mtreenode. rewrite x_bind, x_getobj. by destruct (s_heap s !! l). Qed.
  Lemma add_run n : forall fuel l child p s g r s' g', heap_ok s -> wfp p -> (length (all_parts p) <= n)%nat -> node_at (s_heap s) l ->
    exec (add_child_at_n n fuel l child p s) g = ((r, s'), g') ->
    match r with
    | Ok _ => exists s1, good_step s s1 /\ added s1 s' l child (all_parts p)
    | Err _ => loads s s'
    end.
  Proof.
    induction n as [|n IH]; intros fuel l child p s g r s' g' Hok Hp Hn Hl He.
    { cbn [add_child_at_n] in He. destruct (all_parts p); [|cbn in Hn; lia]. injection He as <- <- <-. apply lo_refl. }
    cbn [add_child_at_n] in He. rewrite wfp_all in * by done. destruct (p_parts p) as [|e rest] eqn:Ep; [injection He as <- <- <-; apply lo_refl|].
    pose proof Hp as [_ Hg]. rewrite Ep in Hg. apply List.Forall_cons_iff in Hg as [Hge Hgr].
    rewrite x_bind in He. destruct (exec (get_child fuel l e s) g) as [[r1 s1] g1] eqn:E1.
    apply gs_get_child in E1 as [Hlo E1]; [|done|done]. destruct r1 as [y|err]; [|injection He as <- <- <-; done].
    destruct E1 as [Hgs (x & c & d & Hl1 & Hm1 & ->)]. cbn beta iota in He.
    pose proof (gs_ok _ _ Hgs) as Hok1.
    destruct rest as [|e2 rest].
    - (* the last name *)
      assert (Hfin : forall b s2 g2, exec (match dget d e with Some x => is_mtreenode x | None => mret false end s1) g1 = ((b, s2), g2) -> s2 = s1 /\ g2 = g1).
      { intros b s2 g2. destruct (dget d e) as [z|]; [rewrite is_node_exec|rewrite x_ret]; by intros [= <- <- <-]. }
      rewrite x_bind in He. destruct (exec (match dget d e with Some x => is_mtreenode x | None => mret false end s1) g1) as [[b s2] g2] eqn:E2.
      destruct (Hfin _ _ _ eq_refl) as [-> ->]. destruct b as [[]|err]; [injection He as <- <- <-; done| |injection He as <- <- <-; done].
      rewrite (x_add_child _ _ _ _ _ _ _ _ _ Hge Hl1 Hm1) in He. destruct (dget d e) eqn:Ed; [injection He as <- <- <-; done|].
      injection He as <- <- <-. exists s1. split; [done|]. split; cbn; [done|lia| | |].
      + intros z Hz. rewrite heap_insert. destruct (s_heap s1 !! z) as [oz|] eqn:Ez; [pose proof (Hok1 z oz Ez); lia|].
        case_decide; [|done]. subst. by rewrite Hl1 in Ez.
      + intros _ Hc. by apply (ok_set_node s1 l x).
      + exists [], e, [], l, x, c, d, child. cbn. rewrite heap_insert, decide_True by done. split_and!; try done.
        intros z _ Hz. rewrite heap_insert. by rewrite decide_False.
    - destruct (dget d e) as [z|] eqn:Ed.
      + rewrite x_bind, x_ret in He. cbn beta iota in He. rewrite x_bind, is_node_exec in He.
        assert (Hz : is_Some (s_heap s1 !! z)).
        { apply (Hok1 l _ Hl1). cbn. apply in_map_iff. exists (e, z). split; [done|]. by apply dget_Some_In. }
        destruct Hz as [oz Hz]. rewrite Hz in He. cbn beta iota in He. destruct (is_node oz) eqn:Hnz; [|injection He as <- <- <-; done].
        destruct (parts_again (e2 :: rest) Hgr) as [Hall Hwf].
        apply IH in He; [|done|done|rewrite Hall; cbn in Hn |- *; lia|by eapply node_iff]. rewrite Hall in He.
        destruct r as [u|err]; [|by eapply lo_trans].
        destruct He as (s2 & Hg2 & Had). exists s2. split; [by eapply gs_trans|]. destruct Had as [A1 A2 A3 A4 (pre & e' & rest' & N & x' & c' & d' & y & B1 & B2 & B3 & B4 & B5 & B6 & B7 & B8 & B9)].
        split; [done|done|done|done|]. exists (e :: pre), e', rest', N, x', c', d', y. rewrite B1. split_and!; try done.
        cbn [map reach]. destruct (lo_obj _ _ (gs_loads _ _ Hg2) l _ Hl1) as (o' & -> & _ & Hsame). rewrite (Hsame Hm1). cbn [o_hdr o_body].
        by rewrite Hm1, dget_name, Ed.
      + rewrite x_bind, x_bind, (x_children _ _ _ _ _ _ Hl1) in He. cbn beta iota in He. rewrite x_bind, x_new in He. cbn beta iota in He. cbn [fst] in He.
        set (hx := Hdr None None true ∅) in He. set (y := s_next s1) in He.
        set (s2 := PSt (<[y := Obj hx (BNode c [])]> (s_heap s1)) (N.succ y) (s_caches s1) (s_orefs s1) (s_legacy s1) (s_locks s1)) in He.
        assert (Hlb : (l < s_next s1)%N) by apply (Hok1 l _ Hl1).
        assert (Hly : y <> l) by (unfold y; intros HH; rewrite HH in Hlb; lia).
        assert (Hl2 : s_heap s2 !! l = Some (Obj x (BNode c d))) by (cbn; rewrite heap_insert, decide_False; done).
        rewrite x_bind, (x_add_child fuel l x c d e y s2 g1 Hge Hl2 Hm1), Ed in He. cbn beta iota in He. rewrite x_ret in He. cbn beta iota in He.
        set (s3 := with_heap s2 _) in He.
        assert (Hy3 : s_heap s3 !! y = Some (Obj hx (BNode c []))).
        { cbn. rewrite heap_insert, decide_False by done. rewrite heap_insert. by rewrite decide_True. }
        rewrite x_bind, (x_is_node _ _ _ _ Hy3) in He. cbn beta iota in He. unfold is_node in He. cbn [o_body] in He.
        destruct (parts_again (e2 :: rest) Hgr) as [Hall Hwf].
        destruct (mdeep_ok n fuel y c hx child _ s3 g1 Hwf) as (s'' & He' & R1 & R2 & R3 & RK & R4 & e' & rest' & y' & Hparts & Hy' & Hlen & Hch).
        * by rewrite Hall.
        * rewrite Hall. cbn in Hn |- *. lia.
        * done.
        * done.
        * intros z Hz. cbn in Hz |- *. rewrite !heap_insert. unfold y in *. case_decide; [subst; lia|]. case_decide; [lia|].
          destruct (s_heap s1 !! z) as [oz|] eqn:Ez; [pose proof (Hok1 z oz Ez); lia|done].
        * rewrite He' in He. injection He as <- <- <-. exists s1. split; [done|]. rewrite Hall in Hparts. injection Hparts as <- <-. cbn in R1, R2. split; [done|lia|done| |].
          { intros _ Hc. apply RK.
            - apply (ok_set_node s2 l x); [by apply ok_alloc|done|done|]. cbn. rewrite heap_insert, decide_True by done. by eexists.
            - cbn. rewrite !heap_insert. case_decide; [by eexists|]. case_decide; [by eexists|done]. }
          exists [], e, (e2 :: rest), l, x, c, d, y. split_and!; try done.
          -- rewrite R4; [|cbn; unfold y; lia|by apply not_eq_sym]. cbn. rewrite heap_insert. by rewrite decide_True.
          -- intros z Hz Hzl. rewrite R4; [|cbn; unfold y; lia|unfold y; lia]. cbn. rewrite !heap_insert, !decide_False; [done|unfold y; lia|done].
          -- cbn [chain]. split; [unfold y; lia|]. eexists _, _, y'. split_and!; [exact Hy'|done|done|].
             exact Hch.
  Qed.

  (** lookups after adding *)
  Lemma chain_peek n h y rest child : chain n h y rest child -> peek h y rest = Some (Some child).
  Proof.
    revert n y. induction rest as [|m r IH]; intros n y; cbn [chain peek]; [by intros ->|]. intros (_ & x & c & y' & -> & Hm & _ & Hc). cbn [o_body o_hdr].
    rewrite Hm. cbn [dget]. rewrite decide_True by done. by eapply IH.
  Qed.
  Lemma chain_other n h y rest child q : chain n h y rest child -> ~ extends q rest -> ~ extends rest q -> peek h y q = Some None.
  Proof.
    revert n y q. induction rest as [|m r IH]; intros n y q; cbn [chain].
    { intros _ Hq _. exfalso. apply Hq. by exists q. }
    intros (_ & x & c & y' & Hy & Hm & _ & Hc) Hq1 Hq2. destruct q as [|e q]; [exfalso; apply Hq2; by eexists|]. cbn [peek]. rewrite Hy. cbn [o_body o_hdr]. rewrite Hm.
    cbn [dget]. destruct (decide (m = e)) as [->|]; [|done]. eapply IH; [done| |].
    - intros [z ->]. apply Hq1. by exists z.
    - intros [z ->]. apply Hq2. by exists z.
  Qed.
  Lemma added_self s s' l child parts : heap_ok s -> is_Some (s_heap s !! l) -> nodes_unshared (s_heap s) l -> added s s' l child parts -> peek (s_heap s') l parts = Some (Some child).
  Proof.
    intros Hok Hl Hu [_ _ _ _ (pre & e & rest & N & x & c & d & y & -> & B2 & B3 & B4 & B5 & B6 & B7 & B8 & B9)].
    assert (HN : node_at (s_heap s) N) by by eexists _, _, _.
    assert (Hpre : forall p1 p2 a, pre = p1 ++ p2 -> reach (s_heap s) l (map KName p1) = Some a -> is_Some (s_heap s !! a) -> peek (s_heap s') a (p2 ++ e :: rest) = Some (Some child)).
    { intros p1 p2. revert p1. induction p2 as [|m p2 IH]; intros p1 a -> Ha Hao.
      - rewrite app_nil_r in B2. rewrite B2 in Ha. injection Ha as <-. cbn [app peek]. rewrite B6. cbn [o_body o_hdr hd_saved h_mapped]. rewrite B4, dget_dset_eq.
        by eapply chain_peek.
      - rewrite map_app, reach_app, Ha in B2. cbn [map reach] in B2. destruct Hao as [oa Hoa]. rewrite Hoa in B2. destruct (h_mapped (o_hdr oa)) eqn:Em; [|done].
        destruct (dget (kids_of (o_body oa)) (KName m)) as [b|] eqn:Ed; [|done].
        assert (a <> N).
        { intros ->. assert (Heq : p1 ++ m :: p2 = p1).
          { apply (Hu _ _ N); try done. rewrite map_app, reach_app, Ha. cbn [map reach]. by rewrite Hoa, Em, Ed. }
          assert (length (p1 ++ m :: p2) = length p1) as HH by by rewrite Heq. rewrite app_length in HH. cbn in HH. lia. }
        cbn [app peek]. rewrite B7 by (try done; apply (Hok a oa Hoa)). rewrite Hoa.
        destruct (o_body oa) as [| |ca da| | |] eqn:Eb.
        1,2: done.
        2: cbn in Ed; destruct meta, tree; cbn in Ed; repeat case_decide; done.
        2: rewrite kids_flat in Ed; apply dget_Some_In, in_map_iff in Ed as (? & [= ? ?] & _).
        2: cbn in Ed; apply dget_Some_In, in_map_iff in Ed as (? & [= ? ?] & _).
        rewrite Em. rewrite dget_name in Ed. rewrite Ed. apply (IH (p1 ++ [m])).
        + by rewrite <- app_assoc.
        + rewrite map_app, reach_app, Ha. cbn [map reach]. by rewrite Hoa, Em, Eb, dget_name, Ed.
        + apply (Hok a oa Hoa). rewrite Eb. cbn. apply in_map_iff. exists (m, b). split; [done|]. by apply dget_Some_In. }
    by apply (Hpre [] pre l).
  Qed.
  Lemma added_other s s' l child parts q r : heap_ok s -> is_Some (s_heap s !! l) -> nodes_unshared (s_heap s) l -> added s s' l child parts ->
    ~ extends q parts -> ~ extends parts q -> peek (s_heap s) l q = Some r -> peek (s_heap s') l q = Some r.
  Proof.
    intros Hok Hl Hu [_ _ _ _ (pre & e & rest & N & x & c & d & y & -> & B2 & B3 & B4 & B5 & B6 & B7 & B8 & B9)] Hq1 Hq2.
    assert (HN : node_at (s_heap s) N) by by eexists _, _, _.
    assert (Hgo : forall q1 q2 a, q = q1 ++ q2 -> reach (s_heap s) l (map KName q1) = Some a -> is_Some (s_heap s !! a) ->
       peek (s_heap s) a q2 = Some r -> peek (s_heap s') a q2 = Some r).
    { intros q1 q2. revert q1. induction q2 as [|m q2 IH]; intros q1 a -> Ha Hao; [done|].
      destruct Hao as [oa Hoa]. cbn [peek]. rewrite Hoa. destruct (decide (a = N)) as [->|Hne].
      - assert (q1 = pre) as -> by by apply (Hu _ _ N). rewrite B6. rewrite B3 in Hoa. injection Hoa as <-. cbn [o_body o_hdr hd_saved h_mapped]. rewrite B4.
        rewrite dget_dset. destruct (decide (e = m)) as [<-|Hem].
        + rewrite B5. intros [= <-]. eapply chain_other; [exact B9| |].
          * intros [z ->]. apply Hq1. exists z. rewrite <- app_assoc. done.
          * intros [z ->]. apply Hq2. exists z. rewrite <- app_assoc. done.
        + destruct (dget d m) as [b|] eqn:Ed; [|done]. apply (IH (pre ++ [m])).
          * by rewrite <- app_assoc.
          * rewrite map_app, reach_app, Ha. cbn [map reach]. rewrite B3. cbn [o_hdr o_body]. by rewrite B4, dget_name, Ed.
          * apply (Hok N _ B3). cbn. apply in_map_iff. exists (m, b). split; [done|]. by apply dget_Some_In.
      - rewrite B7 by (try done; apply (Hok a oa Hoa)). rewrite Hoa. destruct (o_body oa) as [| |ca da| | |] eqn:Eb; try done.
        destruct (h_mapped (o_hdr oa)) eqn:Em; [|done]. destruct (dget da m) as [b|] eqn:Ed; [|done]. apply (IH (q1 ++ [m])).
        + by rewrite <- app_assoc.
        + rewrite map_app, reach_app, Ha. cbn [map reach]. by rewrite Hoa, Em, Eb, dget_name, Ed.
        + apply (Hok a oa Hoa). rewrite Eb. cbn. apply in_map_iff. exists (m, b). split; [done|]. by apply dget_Some_In. }
    by apply (Hgo [] q l).
  Qed.

  (** a leaf object in the way *)
  Definition blocked (h : heap) (l : loc) (parts : list pystr) : Prop :=
    exists q z x, q <> [] /\ z <> [] /\ parts = q ++ z /\ peek h l q = Some (Some x) /\ ~ node_at h x.
  Lemma add_outcome n : forall fuel l child p s g r, heap_ok s -> wfp p -> all_parts p <> [] -> (length (all_parts p) <= n)%nat -> node_at (s_heap s) l ->
    peek (s_heap s) l (all_parts p) = Some r ->
    (r <> None \/ blocked (s_heap s) l (all_parts p) -> exec (add_child_at_n n fuel l child p s) g = ((Err ValueError, s), g)) /\
    (r = None -> ~ blocked (s_heap s) l (all_parts p) -> exists s', exec (add_child_at_n n fuel l child p s) g = ((Ok tt, s'), g)).
  Proof.
    induction n as [|n IH]; intros fuel l child p s g r Hok Hp Hne Hn (x & c & d & Hl) Hpk; [by destruct (all_parts p); cbn in Hn; [|lia]|].
    rewrite wfp_all in * by done. cbn [add_child_at_n]. rewrite wfp_all by done. pose proof Hp as [_ Hg]. destruct (p_parts p) as [|e rest] eqn:Ep; [done|].
    apply List.Forall_cons_iff in Hg as [Hge Hgr].
    cbn [peek] in Hpk. rewrite Hl in Hpk. cbn [o_body o_hdr] in Hpk. destruct (h_mapped x) eqn:Hm; [|done].
    rewrite x_bind, (x_get_child _ _ _ _ _ _ _ _ Hl Hm). cbn beta iota.
    assert (Hbl : forall q z y, q <> [] -> z <> [] -> e :: rest = q ++ z -> peek (s_heap s) l q = Some (Some y) -> ~ node_at (s_heap s) y ->
              exists a, dget d e = Some a /\ ((~ node_at (s_heap s) a /\ rest <> []) \/ blocked (s_heap s) a rest)).
    { intros q z y Hq Hz Heq Hpq Hny. destruct q as [|e' q]; [done|]. cbn in Heq. injection Heq as -> ->. cbn [peek] in Hpq. rewrite Hl in Hpq. cbn [o_body o_hdr] in Hpq.
      rewrite Hm in Hpq. destruct (dget d e') as [a|]; [|done]. exists a. split; [done|]. destruct q as [|e2 q].
      - left. cbn in Hpq. injection Hpq as <-. done.
      - right. exists (e2 :: q), z, y. done. }
    destruct rest as [|e2 rest].
    - destruct (dget d e) as [a|] eqn:Ed.
      + cbn in Hpk. injection Hpk as <-. assert (Ha : is_Some (s_heap s !! a)).
        { apply (Hok l _ Hl). cbn. apply in_map_iff. exists (e, a). split; [done|]. by apply dget_Some_In. }
        destruct Ha as [oa Ha]. rewrite x_bind, (x_is_node _ _ _ _ Ha). cbn beta iota. split; [|done]. intros _. destruct (is_node oa); [done|].
        rewrite (x_add_child _ _ _ _ _ _ _ _ _ Hge Hl Hm). by rewrite Ed.
      + injection Hpk as <-. rewrite x_bind, x_ret. cbn beta iota. rewrite (x_add_child _ _ _ _ _ _ _ _ _ Hge Hl Hm), Ed. split.
        * intros [?|(q & z & y & Hq & Hz & Heq & Hpq & Hny)]; [done|]. destruct (Hbl _ _ _ Hq Hz Heq Hpq Hny) as (a & ? & _). done.
        * intros _ _. by eexists.
    - destruct (dget d e) as [a|] eqn:Ed.
      + assert (Ha : is_Some (s_heap s !! a)).
        { apply (Hok l _ Hl). cbn. apply in_map_iff. exists (e, a). split; [done|]. by apply dget_Some_In. }
        destruct Ha as [oa Ha]. rewrite x_bind, x_ret. cbn beta iota. rewrite x_bind, (x_is_node _ _ _ _ Ha). cbn beta iota. destruct (is_node oa) eqn:Hna.
        * destruct (parts_again (e2 :: rest) Hgr) as [Hall Hwf]. pose proof (proj1 (node_iff _ _ _ Ha) Hna) as Hnode.
          destruct (IH fuel a child _ s g r Hok Hwf) as [I1 I2]; [by rewrite Hall|rewrite Hall; cbn in Hn |- *; lia|done|by rewrite Hall|].
          rewrite Hall in I1, I2. split.
          -- intros [Hr|(q & z & y & Hq & Hz & Heq & Hpq & Hny)]; [apply I1; by left|]. apply I1. right.
             destruct (Hbl _ _ _ Hq Hz Heq Hpq Hny) as (a' & [= <-] & [[? _]|?]); done.
          -- intros Hr Hnb. apply I2; [done|]. intros (q & z & y & Hq & Hz & Heq & Hpq & Hny). apply Hnb. exists (e :: q), z, y. split_and!; try done.
             ++ cbn. by rewrite Heq.
             ++ cbn [peek]. rewrite Hl. cbn [o_body o_hdr]. by rewrite Hm, Ed.
        * split; [done|]. intros Hr Hnb. exfalso. apply Hnb. exists [e], (e2 :: rest), a. split_and!; try done.
          -- cbn [peek]. rewrite Hl. cbn [o_body o_hdr]. by rewrite Hm, Ed.
          -- intros Hnode. apply (node_iff _ _ _ Ha) in Hnode. congruence.
      + injection Hpk as <-. split.
        { intros [?|(q & z & y & Hq & Hz & Heq & Hpq & Hny)]; [done|]. destruct (Hbl _ _ _ Hq Hz Heq Hpq Hny) as (a & ? & _). done. }
        intros _ _.
        rewrite x_bind, x_bind, (x_children _ _ _ _ _ _ Hl). cbn beta iota. rewrite x_bind, x_new. cbn beta iota. cbn [fst].
        set (hx := Hdr None None true ∅). set (y := s_next s).
        set (s2 := PSt (<[y := Obj hx (BNode c [])]> (s_heap s)) (N.succ y) (s_caches s) (s_orefs s) (s_legacy s) (s_locks s)).
        assert (Hlb : (l < s_next s)%N) by apply (Hok l _ Hl).
        assert (Hly : y <> l) by (unfold y; intros HH; rewrite HH in Hlb; lia).
        assert (Hl2 : s_heap s2 !! l = Some (Obj x (BNode c d))) by (cbn; rewrite heap_insert, decide_False; done).
        rewrite x_bind, (x_add_child fuel l x c d e y s2 g Hge Hl2 Hm), Ed. cbn beta iota. rewrite x_ret. cbn beta iota.
        set (s3 := with_heap s2 _).
        assert (Hy3 : s_heap s3 !! y = Some (Obj hx (BNode c []))).
        { cbn. rewrite heap_insert, decide_False by done. rewrite heap_insert. by rewrite decide_True. }
        rewrite x_bind, (x_is_node _ _ _ _ Hy3). cbn beta iota. unfold is_node. cbn [o_body].
        destruct (parts_again (e2 :: rest) Hgr) as [Hall Hwf].
        destruct (mdeep_ok n fuel y c hx child _ s3 g Hwf) as (s'' & He' & _).
        * by rewrite Hall.
        * rewrite Hall. cbn in Hn |- *. lia.
        * done.
        * done.
        * intros z Hz. cbn in Hz |- *. rewrite !heap_insert. unfold y in *. case_decide; [subst; lia|]. case_decide; [lia|].
          destruct (s_heap s !! z) as [oz|] eqn:Ez; [pose proof (Hok z oz Ez); lia|done].
        * by eexists.
  Qed.

  (** ** Removing *)
  Record removed (s s' : pst) (l : loc) (parts : list pystr) : Prop := {
    rm_where : exists pre e (n : loc) x c d y,
      parts = pre ++ [e] /\ reach (s_heap s) l (map KName pre) = Some n /\
      s_heap s !! n = Some (Obj x (BNode c d)) /\ h_mapped x = true /\ dget d e = Some y /\
      s' = with_heap s (<[n := Obj (hd_saved ∅ x) (BNode c (ddel d e))]> (s_heap s)) }.
  Lemma removelast_last {A : Type} (l : list A) e : removelast (l ++ [e]) = l /\ last (l ++ [e]) = Some e.
  Proof. split; [apply List.removelast_last|]. induction l as [|x l IH]; [done|]. cbn. destruct (l ++ [e]) eqn:E; [by destruct l|]. exact IH. Qed.
  Definition lookups_kept (s s' : pst) : Prop := forall q l r, peek (s_heap s) l q = Some r -> peek (s_heap s') l q = Some r.
  Lemma touch_peek s x : lookups_kept s (snd (fst (exec (touch x s) (GState ∅ ∅)))).
  Proof.
    intros q l r. unfold touch, set_hdr. rewrite x_bind, x_getobj. destruct (s_heap s !! x) as [o|] eqn:E; [|done]. cbn. revert l.
    induction q as [|e q IH]; intros l; [done|]. cbn [peek]. rewrite heap_insert. destruct (decide (x = l)) as [<-|]; cbn [o_body o_hdr].
    - rewrite E. destruct (o_body o); try done. cbn. destruct (h_mapped _); [|done]. destruct (dget _ e); [apply IH|done].
    - destruct (s_heap s !! l) as [ol|]; [|done]. destruct (o_body ol); try done. destruct (h_mapped _); [|done]. destruct (dget _ e); [apply IH|done].
  Qed.
  Lemma x_touch l o s g : s_heap s !! l = Some o -> exec (touch l s) g = ((Ok tt, with_heap s (<[l := Obj (hd_saved ∅ (o_hdr o)) (o_body o)]> (s_heap s))), g).
  Proof. intros Ho. unfold touch. by rewrite (x_set_hdr _ _ _ _ _ Ho). Qed.
  Lemma remove_run fuel l p s g r s' g' : heap_ok s -> wfp p -> node_at (s_heap s) l -> exec (remove_child_at fuel l p s) g = ((r, s'), g') ->
    match r with
    | Ok _ => exists s1, good_step s s1 /\ removed s1 s' l (all_parts p)
    | Err _ => lookups_kept s s'
    end.
  Proof.
    intros Hok Hp Hl He. unfold remove_child_at in He. rewrite wfp_all in * by done. rewrite x_bind in He. unfold get_object_at_path in He.
    assert (Hg : good_names (removelast (p_parts p))).
    { destruct Hp as [_ Hg]. destruct (p_parts p) as [|e rest] using rev_ind; [done|]. rewrite List.removelast_last. by apply Forall_app in Hg as [? _]. }
    destruct (parts_again _ Hg) as [Hall _]. rewrite Hall in He.
    destruct (exec (walk fuel l (removelast (p_parts p)) s) g) as [[r1 s1] g1] eqn:E1.
    apply gs_walk in E1 as [Hlo E1]; [|done|destruct Hl as (? & ? & ? & ->); by eexists].
    assert (HLK : lookups_kept s s1) by (intros q a ra; by apply loads_peek).
    destruct r1 as [y|err]; [|injection He as <- <- <-; done]. destruct E1 as [Hgs Hpk]. cbn beta iota in He.
    destruct y as [x|]; [|injection He as <- <- <-; done].
    rewrite x_bind, is_node_exec in He. destruct (s_heap s1 !! x) as [ox|] eqn:Ex; [|injection He as <- <- <-; done]. cbn beta iota in He.
    destruct (is_node ox) eqn:Hn; [|injection He as <- <- <-; done]. pose proof (proj1 (node_iff _ _ _ Ex) Hn) as Hnode.
    destruct (last (p_parts p)) as [e|] eqn:El; [|injection He as <- <- <-; done].
    assert (Hparts : p_parts p = removelast (p_parts p) ++ [e]).
    { destruct (p_parts p) as [|z rest _] using rev_ind; [done|]. rewrite List.removelast_last. destruct (removelast_last rest z) as [_ H2]. rewrite H2 in El. by injection El as ->. }
    unfold remove_child in He. rewrite x_bind in He. destruct (exec (ensure_mapped fuel x s1) g1) as [[r2 s2] g2] eqn:E2.
    assert (HG : exec (get_child fuel x e s1) g1 = match exec (ensure_mapped fuel x s1) g1 with ((Ok _, s2), g2) => exec ((mlet cd <- children x; mret (dget (snd cd) e)) s2) g2 | ((Err er, s2), g2) => ((Err er, s2), g2) end).
    { unfold get_child. rewrite x_bind. by destruct (exec (ensure_mapped fuel x s1) g1) as [[[b|er] s3] g3]. }
    rewrite E2 in HG. destruct r2 as [b|er].
    - assert (Hch : exists rc, exec ((mlet cd <- children x; mret (dget (snd cd) e)) s2) g2 = ((rc, s2), g2)).
      { rewrite x_bind. unfold children. rewrite x_bind, x_getobj. destruct (s_heap s2 !! x) as [o2|]; [|by eexists]. cbn beta iota. destruct (o_body o2); by eexists. }
      destruct Hch as [rc Hch]. rewrite Hch in HG. apply gs_get_child in HG as [Hlo2 HG]; [|apply Hgs|done].
      assert (HLK2 : lookups_kept s s2) by (intros q a ra Hq; eapply loads_peek; [exact Hlo2|]; by apply HLK).
      destruct rc as [y|er].
      2:{ exfalso. rewrite x_bind in Hch. pose proof (node_step _ _ _ Hlo2 Hnode) as (xx & cc & dd & Hxx). rewrite (x_children _ _ _ _ _ _ Hxx) in Hch. done. }
      destruct HG as [Hgs2 (hx & c & d & Hx2 & Hm2 & Hy)].
      cbn beta iota in He. rewrite x_bind, (x_touch _ _ _ _ Hx2) in He. cbn beta iota in He. cbn [o_hdr o_body] in He.
      pose proof (touch_peek s2 x) as HT. rewrite (x_touch _ _ _ _ Hx2) in HT. cbn [fst snd o_hdr o_body] in HT.
      set (s3 := with_heap s2 _) in *.
      assert (Hx3 : s_heap s3 !! x = Some (Obj (hd_saved ∅ hx) (BNode c d))) by (cbn; rewrite heap_insert; by rewrite decide_True).
      rewrite x_bind, (x_children _ _ _ _ _ _ Hx3) in He. cbn beta iota in He. cbn [fst snd] in He. unfold dmem in He. destruct (dget d e) as [z|] eqn:Ed.
      + unfold set_body in He. rewrite x_bind, x_getobj, Hx3 in He. cbn beta iota in He. unfold setobj in He. cbn [exec] in He. injection He as <- <- <-.
        exists s2. split; [by eapply gs_trans|]. split. exists (removelast (p_parts p)), e, x, hx, c, d, z. split_and!; try done.
        * eapply loads_reach; [exact Hlo2|]. by apply peek_reach.
        * cbn. unfold with_heap. cbn. by rewrite heap_ins2.
      + injection He as <- <- <-. intros q a ra Hq. apply HT. by apply HLK2.
    - cbn beta iota in He. apply gs_get_child in HG as [Hlo2 _]; [|apply Hgs|done]. injection He as <- <- <-. intros q a ra Hq. eapply loads_peek; [exact Hlo2|]. by apply HLK.
  Qed.
  Lemma removed_self s s' l parts q : heap_ok s -> is_Some (s_heap s !! l) -> nodes_unshared (s_heap s) l -> removed s s' l parts -> peek (s_heap s') l (parts ++ q) = Some None.
  Proof.
    intros Hok Hl Hu [(pre & e & N & x & c & d & y & -> & B2 & B3 & B4 & B5 & ->)]. cbn [s_heap with_heap].
    assert (HN : node_at (s_heap s) N) by by eexists _, _, _.
    assert (Hnd : NoDup (dkeys d)) by (apply (kids_node_keys _ c), (Hok N _ B3)).
    assert (Hpre : forall p1 p2 a, pre = p1 ++ p2 -> reach (s_heap s) l (map KName p1) = Some a -> is_Some (s_heap s !! a) ->
       peek (<[N := Obj (hd_saved ∅ x) (BNode c (ddel d e))]> (s_heap s)) a (p2 ++ [e] ++ q) = Some None).
    { intros p1 p2. revert p1. induction p2 as [|m p2 IH]; intros p1 a -> Ha Hao.
      - rewrite app_nil_r in B2. rewrite B2 in Ha. injection Ha as <-. cbn [app peek]. rewrite heap_insert, decide_True by done. cbn [o_body o_hdr hd_saved h_mapped]. rewrite B4.
        by rewrite dget_ddel_eq.
      - rewrite map_app, reach_app, Ha in B2. cbn [map reach] in B2. destruct Hao as [oa Hoa]. rewrite Hoa in B2. destruct (h_mapped (o_hdr oa)) eqn:Em; [|done].
        destruct (dget (kids_of (o_body oa)) (KName m)) as [b|] eqn:Ed; [|done].
        assert (a <> N).
        { intros ->. assert (Heq : p1 ++ m :: p2 = p1).
          { apply (Hu _ _ N); try done. rewrite map_app, reach_app, Ha. cbn [map reach]. by rewrite Hoa, Em, Ed. }
          assert (length (p1 ++ m :: p2) = length p1) as HH by by rewrite Heq. rewrite app_length in HH. cbn in HH. lia. }
        cbn [app peek]. rewrite heap_insert, decide_False by done. rewrite Hoa.
        destruct (o_body oa) as [| |ca da| | |] eqn:Eb.
        1,2: done.
        2: cbn in Ed; destruct meta, tree; cbn in Ed; repeat case_decide; done.
        2: rewrite kids_flat in Ed; apply dget_Some_In, in_map_iff in Ed as (? & [= ? ?] & _).
        2: cbn in Ed; apply dget_Some_In, in_map_iff in Ed as (? & [= ? ?] & _).
        rewrite Em. rewrite dget_name in Ed. rewrite Ed. apply (IH (p1 ++ [m])).
        + by rewrite <- app_assoc.
        + rewrite map_app, reach_app, Ha. cbn [map reach]. by rewrite Hoa, Em, Eb, dget_name, Ed.
        + apply (Hok a oa Hoa). rewrite Eb. cbn. apply in_map_iff. exists (m, b). split; [done|]. by apply dget_Some_In. }
    rewrite <- app_assoc. by apply (Hpre [] pre l).
  Qed.
  Lemma removed_other s s' l parts q r : heap_ok s -> is_Some (s_heap s !! l) -> nodes_unshared (s_heap s) l -> removed s s' l parts ->
    ~ extends q parts -> peek (s_heap s) l q = Some r -> peek (s_heap s') l q = Some r.
  Proof.
    intros Hok Hl Hu [(pre & e & N & x & c & d & y & -> & B2 & B3 & B4 & B5 & ->)] Hq. cbn [s_heap with_heap].
    assert (HN : node_at (s_heap s) N) by by eexists _, _, _.
    assert (Hgo : forall q1 q2 a, q = q1 ++ q2 -> reach (s_heap s) l (map KName q1) = Some a -> is_Some (s_heap s !! a) ->
       peek (s_heap s) a q2 = Some r -> peek (<[N := Obj (hd_saved ∅ x) (BNode c (ddel d e))]> (s_heap s)) a q2 = Some r).
    { intros q1 q2. revert q1. induction q2 as [|m q2 IH]; intros q1 a -> Ha Hao; [done|].
      destruct Hao as [oa Hoa]. cbn [peek]. rewrite Hoa, heap_insert. destruct (decide (N = a)) as [<-|Hne].
      - assert (q1 = pre) as -> by by apply (Hu _ _ N). rewrite B3 in Hoa. injection Hoa as <-. cbn [o_body o_hdr hd_saved h_mapped]. rewrite B4.
        assert (e <> m). { intros <-. apply Hq. exists q2. by rewrite <- app_assoc. }
        rewrite dget_ddel_ne by done. destruct (dget d m) as [b|] eqn:Ed; [|done]. apply (IH (pre ++ [m])).
        + by rewrite <- app_assoc.
        + rewrite map_app, reach_app, Ha. cbn [map reach]. rewrite B3. cbn [o_hdr o_body]. by rewrite B4, dget_name, Ed.
        + apply (Hok N _ B3). cbn. apply in_map_iff. exists (m, b). split; [done|]. by apply dget_Some_In.
      - rewrite Hoa. destruct (o_body oa) as [| |ca da| | |] eqn:Eb; try done.
        destruct (h_mapped (o_hdr oa)) eqn:Em; [|done]. destruct (dget da m) as [b|] eqn:Ed; [|done]. apply (IH (q1 ++ [m])).
        + by rewrite <- app_assoc.
        + rewrite map_app, reach_app, Ha. cbn [map reach]. by rewrite Hoa, Em, Eb, dget_name, Ed.
        + apply (Hok a oa Hoa). rewrite Eb. cbn. apply in_map_iff. exists (m, b). split; [done|]. by apply dget_Some_In. }
    by apply (Hgo [] q l).
  Qed.

  (** every lookup after adding: as before, or in the new part *)
  Lemma chain_inv n h y rest child q x : chain n h y rest child -> peek h y q = Some (Some x) ->
    (exists z, q = rest ++ z /\ peek h child z = Some (Some x)) \/
    (exists z, z <> [] /\ rest = q ++ z /\ (n <= x)%N /\ exists hx c d, h !! x = Some (Obj hx (BNode c d)) /\ h_mapped hx = true).
  Proof.
    revert n y q. induction rest as [|m r IH]; intros n y q; cbn [chain].
    { intros -> Hq. left. by exists q. }
    intros (Hn & hx & c & y' & Hy & Hm & _ & Hc). destruct q as [|e q]; cbn [peek].
    { intros [= <-]. right. exists (m :: r). split_and!; try done. by eexists _, _, _. }
    rewrite Hy. cbn [o_body o_hdr]. rewrite Hm. cbn [dget]. destruct (decide (m = e)) as [->|]; [|done]. intros Hq.
    destruct (IH _ _ _ Hc Hq) as [(z & -> & Hz)|(z & Hz & -> & Hx & Hnode)]; [left; by exists z|]. right. exists z. split_and!; try done. lia.
  Qed.
  Lemma chain_inj n h y rest child a b x : chain n h y rest child -> peek h y a = Some (Some x) -> peek h y b = Some (Some x) ->
    (exists z, z <> [] /\ rest = a ++ z) -> (exists z, z <> [] /\ rest = b ++ z) -> a = b.
  Proof.
    revert n y a b. induction rest as [|m r IH]; intros n y a b; cbn [chain].
    { intros _ _ _ (z & Hz & Heq). destruct a; [by destruct z|done]. }
    intros (Hn & hx & c & y' & Hy & Hm & _ & Hc) Ha Hb (z1 & Hz1 & Ea) (z2 & Hz2 & Eb).
    destruct a as [|e1 a], b as [|e2 b]; [done| | |].
    - cbn in Eb. injection Eb as <- Eb. cbn [peek] in Ha, Hb. injection Ha as <-. rewrite Hy in Hb. cbn [o_body o_hdr] in Hb. rewrite Hm in Hb. cbn [dget] in Hb.
      rewrite decide_True in Hb by done. destruct (chain_inv _ _ _ _ _ _ _ Hc Hb) as [(z & -> & _)|(z & _ & _ & Hx & _)]; [|lia].
      rewrite <- app_assoc in Eb. exfalso. apply (f_equal length) in Eb. rewrite !app_length in Eb. destruct z2; [done|cbn in Eb; lia].
    - cbn in Ea. injection Ea as <- Ea. cbn [peek] in Ha, Hb. injection Hb as <-. rewrite Hy in Ha. cbn [o_body o_hdr] in Ha. rewrite Hm in Ha. cbn [dget] in Ha.
      rewrite decide_True in Ha by done. destruct (chain_inv _ _ _ _ _ _ _ Hc Ha) as [(z & -> & _)|(z & _ & _ & Hx & _)]; [|lia].
      rewrite <- app_assoc in Ea. exfalso. apply (f_equal length) in Ea. rewrite !app_length in Ea. destruct z1; [done|cbn in Ea; lia].
    - cbn in Ea, Eb. injection Ea as <- Ea. injection Eb as <- Eb. cbn [peek] in Ha, Hb. rewrite Hy in Ha, Hb. cbn [o_body o_hdr] in Ha, Hb. rewrite Hm in Ha, Hb.
      cbn [dget] in Ha, Hb. rewrite decide_True in Ha, Hb by done. f_equal. eapply IH; [exact Hc|exact Ha|exact Hb|exists z1; split; [done|exact Ea]|exists z2; split; [done|exact Eb]].
  Qed.
  Lemma added_inv s s' l child parts : heap_ok s -> is_Some (s_heap s !! l) -> nodes_unshared (s_heap s) l -> added s s' l child parts ->
    exists pre e rest y, parts = pre ++ e :: rest /\ chain (s_next s) (s_heap s') y rest child /\ peek (s_heap s) l (pre ++ [e]) = Some None /\
      (forall q x, peek (s_heap s') l (pre ++ e :: q) = Some (Some x) <-> peek (s_heap s') y q = Some (Some x)) /\
      (forall q x, peek (s_heap s') l q = Some (Some x) -> ~ extends q (pre ++ [e]) -> peek (s_heap s) l q = Some (Some x)) /\
      (forall q r, peek (s_heap s) l q = Some r -> ~ extends q (pre ++ [e]) -> peek (s_heap s') l q = Some r).
  Proof.
    intros Hok Hl Hu [_ _ _ _ (pre & e & rest & N & x0 & c & d & y & -> & B2 & B3 & B4 & B5 & B6 & B7 & B8 & B9)].
    assert (HN : node_at (s_heap s) N) by by eexists _, _, _.
    assert (Hfwd : forall r q q1 q2 a, q = q1 ++ q2 -> reach (s_heap s) l (map KName q1) = Some a -> is_Some (s_heap s !! a) ->
       peek (s_heap s) a q2 = Some r -> ~ extends q (pre ++ [e]) -> peek (s_heap s') a q2 = Some r).
    { intros r q q1 q2. revert q1. induction q2 as [|m q2 IH]; intros q1 a -> Ha Hao; [done|].
      destruct Hao as [oa Hoa]. cbn [peek]. rewrite Hoa. destruct (decide (a = N)) as [->|Hne].
      - assert (q1 = pre) as -> by by apply (Hu _ _ N). rewrite B6. rewrite B3 in Hoa. injection Hoa as <-. cbn [o_body o_hdr hd_saved h_mapped]. rewrite B4.
        intros Hp Hq. rewrite dget_dset. destruct (decide (e = m)) as [<-|Hem]; [exfalso; apply Hq; exists q2; by rewrite <- app_assoc|].
        destruct (dget d m) as [b|] eqn:Ed; [|done]. apply (IH (pre ++ [m])); [by rewrite <- app_assoc| | |done|done].
        + rewrite map_app, reach_app, Ha. cbn [map reach]. rewrite B3. cbn [o_hdr o_body]. by rewrite B4, dget_name, Ed.
        + apply (Hok N _ B3). cbn. apply in_map_iff. exists (m, b). split; [done|]. by apply dget_Some_In.
      - rewrite B7 by (try done; apply (Hok a oa Hoa)). rewrite Hoa. destruct (o_body oa) as [| |ca da| | |] eqn:Eb; try done.
        destruct (h_mapped (o_hdr oa)) eqn:Em; [|done]. destruct (dget da m) as [b|] eqn:Ed; [|done]. intros Hp Hq. apply (IH (q1 ++ [m])); [by rewrite <- app_assoc| | |done|done].
        + rewrite map_app, reach_app, Ha. cbn [map reach]. by rewrite Hoa, Em, Eb, dget_name, Ed.
        + apply (Hok a oa Hoa). rewrite Eb. cbn. apply in_map_iff. exists (m, b). split; [done|]. by apply dget_Some_In. }
    assert (Hbwd : forall x q q1 q2 a, q = q1 ++ q2 -> reach (s_heap s) l (map KName q1) = Some a -> is_Some (s_heap s !! a) ->
       peek (s_heap s') a q2 = Some (Some x) -> ~ extends q (pre ++ [e]) -> peek (s_heap s) a q2 = Some (Some x)).
    { intros x q q1 q2. revert q1. induction q2 as [|m q2 IH]; intros q1 a -> Ha Hao; [done|].
      destruct Hao as [oa Hoa]. cbn [peek]. rewrite Hoa. destruct (decide (a = N)) as [->|Hne].
      - assert (q1 = pre) as -> by by apply (Hu _ _ N). rewrite B6. rewrite B3 in Hoa. injection Hoa as <-. cbn [o_body o_hdr hd_saved h_mapped]. rewrite B4.
        intros Hp Hq. rewrite dget_dset in Hp. destruct (decide (e = m)) as [<-|Hem]; [exfalso; apply Hq; exists q2; by rewrite <- app_assoc|].
        destruct (dget d m) as [b|] eqn:Ed; [|done]. apply (IH (pre ++ [m])); [by rewrite <- app_assoc| | |done|done].
        + rewrite map_app, reach_app, Ha. cbn [map reach]. rewrite B3. cbn [o_hdr o_body]. by rewrite B4, dget_name, Ed.
        + apply (Hok N _ B3). cbn. apply in_map_iff. exists (m, b). split; [done|]. by apply dget_Some_In.
      - rewrite B7 by (try done; apply (Hok a oa Hoa)). rewrite Hoa. destruct (o_body oa) as [| |ca da| | |] eqn:Eb; try done.
        destruct (h_mapped (o_hdr oa)) eqn:Em; [|done]. destruct (dget da m) as [b|] eqn:Ed; [|done]. intros Hp Hq. apply (IH (q1 ++ [m])); [by rewrite <- app_assoc| | |done|done].
        + rewrite map_app, reach_app, Ha. cbn [map reach]. by rewrite Hoa, Em, Eb, dget_name, Ed.
        + apply (Hok a oa Hoa). rewrite Eb. cbn. apply in_map_iff. exists (m, b). split; [done|]. by apply dget_Some_In. }
    assert (Hpre : peek (s_heap s') l pre = Some (Some N)).
    { apply (Hfwd (Some N) pre [] pre l); try done; [by apply reach_peek|]. intros [z Hz]. apply (f_equal length) in Hz. rewrite !app_length in Hz. cbn in Hz. lia. }
    exists pre, e, rest, y. split_and!; try done.
    - rewrite peek_app, (reach_peek _ _ _ _ B2). cbn [peek]. rewrite B3. cbn [o_body o_hdr]. by rewrite B4, B5.
    - intros q x. rewrite peek_app, Hpre. cbn [peek]. rewrite B6. cbn [o_body o_hdr hd_saved h_mapped]. by rewrite B4, dget_dset_eq.
    - intros q x Hx Hq. by apply (Hbwd x q [] q l).
    - intros q r Hx Hq. by apply (Hfwd r q [] q l).
  Qed.
  Lemma added_prefix s s' l child parts q x : heap_ok s -> is_Some (s_heap s !! l) -> nodes_unshared (s_heap s) l -> added s s' l child parts ->
    peek (s_heap s) l q = Some (Some x) -> ~ extends q parts -> peek (s_heap s') l q = Some (Some x).
  Proof.
    intros Hok Hl Hu Ha Hq Hne. destruct (added_inv _ _ _ _ _ Hok Hl Hu Ha) as (pre & e & rest & y & -> & B1 & B2 & B3 & B4 & B5).
    apply B5; [done|]. intros [z ->]. by rewrite peek_app, B2 in Hq.
  Qed.
  (** adding an object that is no tree keeps the tree unshared *)
  Lemma added_nodes s s' l child parts : heap_ok s -> is_Some (s_heap s !! l) -> nodes_unshared (s_heap s) l -> added s s' l child parts ->
    is_Some (s_heap s !! child) -> ~ node_at (s_heap s) child -> nodes_unshared (s_heap s') l.
  Proof.
    intros Hok Hl Hu Ha Hc Hnc. pose proof Ha as [_ _ _ _ (pre0 & e0 & rest0 & N & x0 & c0 & d0 & y0 & _ & _ & D1 & _ & _ & D2 & D3 & _)].
    destruct (added_inv _ _ _ _ _ Hok Hl Hu Ha) as (pre & e & rest & y & -> & B1 & B2 & B3 & B4 & B5).
    assert (Hold : forall q x, peek (s_heap s) l q = Some (Some x) -> is_Some (s_heap s !! x)).
    { intros q. revert Hl. generalize l. induction q as [|m q IH]; intros a Hao x; cbn [peek]; [by intros [= <-]|]. destruct Hao as [oa Hoa]. rewrite Hoa.
      destruct (o_body oa) as [| |ca da| | |] eqn:Eb; try done. destruct (h_mapped _); [|done]. destruct (dget da m) as [b|] eqn:Ed; [|done]. apply IH.
      apply (Hok a oa Hoa). rewrite Eb. cbn. apply in_map_iff. exists (m, b). split; [done|]. by apply dget_Some_In. }
    assert (Hlt : forall q x, peek (s_heap s) l q = Some (Some x) -> (x < s_next s)%N) by (intros q x Hq; destruct (Hold q x Hq) as [o Ho]; apply (Hok x o Ho)).
    assert (Hback : forall x, (x < s_next s)%N -> node_at (s_heap s') x -> node_at (s_heap s) x).
    { intros x Hx Hnx. destruct (decide (x = N)) as [->|Hne]; [by eexists _, _, _|]. unfold node_at in *. by rewrite D3 in Hnx. }
    assert (Hcl : (child < s_next s)%N) by (destruct Hc as [o Ho]; apply (Hok child o Ho)).
    assert (Hnc' : ~ node_at (s_heap s') child) by (intros HH; by apply Hnc, Hback).
    assert (Hcp : forall z x, peek (s_heap s') child z = Some (Some x) -> node_at (s_heap s') x -> False).
    { intros z x Hz Hnx. destruct z as [|m z]; cbn [peek] in Hz; [injection Hz as <-; done|]. destruct (s_heap s' !! child) as [oc|] eqn:Eoc; [|done].
      destruct oc as [hc bc]. cbn [o_body] in Hz. destruct bc; try done. apply Hnc'. unfold node_at. rewrite Eoc. by eexists _, _, _. }
    assert (Hkind : forall q x, peek (s_heap s') l q = Some (Some x) -> node_at (s_heap s') x ->
       (peek (s_heap s) l q = Some (Some x) /\ ~ extends q (pre ++ [e])) \/
       (exists z, q = pre ++ e :: z /\ peek (s_heap s') y z = Some (Some x) /\ (s_next s <= x)%N /\ exists w, w <> [] /\ rest = z ++ w)).
    { intros q x Hq Hnx. destruct (decide (firstn (length (pre ++ [e])) q = pre ++ [e])) as [Hf|Hf].
      - right. rewrite <- (firstn_skipn (length (pre ++ [e])) q), Hf, <- app_assoc in Hq |- *. cbn [app] in Hq |- *. set (z := skipn _ _) in *. exists z.
        apply B3 in Hq. split_and!; try done; destruct (chain_inv _ _ _ _ _ _ _ B1 Hq) as [(w & -> & Hw)|(w & Hw & -> & Hx & _)]; try done; try (exfalso; by eapply Hcp).
        by exists w.
      - left. assert (~ extends q (pre ++ [e])). { intros [z ->]. apply Hf. rewrite firstn_app, Nat.sub_diag, firstn_O, app_nil_r. by rewrite firstn_all. }
        split; [by apply B4|done]. }
    intros p q x Hp Hq Hnx. apply reach_peek in Hp, Hq.
    destruct (Hkind p x Hp Hnx) as [[Hp1 _]|(z1 & -> & Hz1 & Hx1 & Hw1)], (Hkind q x Hq Hnx) as [[Hq1 _]|(z2 & -> & Hz2 & Hx2 & Hw2)].
    - apply (Hu p q x); [by apply peek_reach|by apply peek_reach|]. apply Hback; [by eapply Hlt|done].
    - pose proof (Hlt _ _ Hp1). lia.
    - pose proof (Hlt _ _ Hq1). lia.
    - do 2 f_equal. destruct Hw1 as (w1 & ? & ?), Hw2 as (w2 & ? & ?). eapply chain_inj; [exact B1|exact Hz1|exact Hz2|by exists w1|by exists w2].
  Qed.
End Edit.
