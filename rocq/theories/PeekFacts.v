(** Lookups in trees, as far as they are loaded. *)
From Verif Require Import Base BaseFacts Path Spec_Path PathFacts Json Refs Meta GitText Git GitFacts State BlobCache ObjRef Objects ExecFacts Spec_Look Spec_Heap Spec_Write WriteFacts LoadFacts.

(** Loading: loaded objects stay as they are. *)
Record loads (s s' : pst) : Prop := {
  lo_rest : rest_same s s';
  lo_next : (s_next s <= s_next s')%N;
  lo_obj : forall (x : loc) o, s_heap s !! x = Some o -> exists o', s_heap s' !! x = Some o' /\ kind_of (o_body o') = kind_of (o_body o) /\
             (h_mapped (o_hdr o) = true -> o' = o);
}.
Lemma lo_refl s : loads s s.
Proof. split; [done|lia|]. intros x o Ho. by exists o. Qed.
Lemma lo_trans a b c : loads a b -> loads b c -> loads a c.
Proof.
  intros [A1 A2 A3] [B1 B2 B3]. split; [by eapply rs_trans|lia|]. intros x o Ho. destruct (A3 x o Ho) as (o1 & Ho1 & Hk1 & Hm1).
  destruct (B3 x o1 Ho1) as (o2 & Ho2 & Hk2 & Hm2). exists o2. split_and!; [done|congruence|]. intros Hm. specialize (Hm1 Hm). subst o1. by apply Hm2.
Qed.
Lemma rd_own_loads s (l : loc) s' mp o : (forall (x : loc) o, s_heap s !! x = Some o -> (x < s_next s)%N) -> s_heap s !! l = Some o -> h_mapped (o_hdr o) = false ->
  rd s l s' -> own_at s l s' mp -> loads s s'.
Proof.
  intros Hb Ho Hm [R1 R2 R3 R4 R5] (o' & Ho' & _ & _ & Hk). split; [done|done|]. intros x ox Hx. destruct (decide (x = l)) as [->|Hne].
  - exists o'. rewrite Ho in Hk. cbn in Hk. assert (ox = o) as -> by congruence. split_and!; [done|congruence|congruence].
  - exists ox. rewrite R3; [done|by eapply Hb|done].
Qed.

Lemma loads_reach s s' : loads s s' -> forall p l x, reach (s_heap s) l p = Some x -> reach (s_heap s') l p = Some x.
Proof.
  intros [_ _ Ho]. induction p as [|k p IH]; intros l x; cbn; [done|]. destruct (s_heap s !! l) as [o|] eqn:E; [|done].
  destruct (h_mapped (o_hdr o)) eqn:Em; [|done]. destruct (Ho l o E) as (o' & -> & _ & Hm'). rewrite (Hm' Em), Em.
  destruct (dget _ k); [apply IH|done].
Qed.
(** a step of loading that went well *)
Record good_step (s s' : pst) : Prop := {
  gs_loads : loads s s';
  gs_ok : heap_ok s';
  gs_nodes : forall a, is_Some (s_heap s !! a) -> nodes_unshared (s_heap s) a -> nodes_unshared (s_heap s') a;
  gs_unshared : forall a, is_Some (s_heap s !! a) -> unshared (s_heap s) a -> unshared (s_heap s') a;
  gs_apart : forall a b, is_Some (s_heap s !! a) -> is_Some (s_heap s !! b) -> apart (s_heap s) a b -> apart (s_heap s') a b;
  gs_old : forall a p x, is_Some (s_heap s !! a) -> is_Some (s_heap s !! x) -> reach (s_heap s') a p = Some x -> reach (s_heap s) a p = Some x;
}.
Lemma gs_refl s : heap_ok s -> good_step s s.
Proof. intros. split; [apply lo_refl|done|done|done|done|done]. Qed.
Lemma loads_some s s' a : loads s s' -> is_Some (s_heap s !! a) -> is_Some (s_heap s' !! a).
Proof. intros [_ _ Ho] [o Hs]. destruct (Ho a o Hs) as (o' & -> & _). by eexists. Qed.
Lemma gs_trans a b c : good_step a b -> good_step b c -> good_step a c.
Proof.
  intros [A1 A2 A3 A4 A5 A6] [B1 B2 B3 B4 B5 B6]. split; [by eapply lo_trans|done| | | |].
  - intros x Hx Hu. apply B3; [by eapply loads_some|]. by apply A3.
  - intros x Hx Hu. apply B4; [by eapply loads_some|]. by apply A4.
  - intros x y Hx Hy Hu. apply B5; [by eapply loads_some|by eapply loads_some|]. by apply A5.
  - intros x p y Hx Hy Hp. apply A6; [done|done|]. apply B6; [by eapply loads_some|by eapply loads_some|done].
Qed.
Lemma kids_in_sub b k x : dget (kids_of b) k = Some x -> In x (sub_objects b).
Proof. intros Hd%dget_Some_In. rewrite <- sub_kids. apply in_map_iff. by exists (k, x). Qed.
Lemma dget_inj {K V : Type} `{EqDecision K} (d : pydict K V) k1 k2 x : NoDup (map snd d) -> dget d k1 = Some x -> dget d k2 = Some x -> k1 = k2.
Proof.
  intros Hd H1%dget_Some_In H2%dget_Some_In. induction d as [|[k v] d IH]; [done|]. cbn [map snd] in Hd. apply NoDup_cons in Hd as [Hd1 Hd2].
  destruct H1 as [H1|H1], H2 as [H2|H2]; [congruence| | |by apply IH].
  - exfalso. injection H1 as -> ->. apply Hd1, elem_of_list_In, in_map_iff. by exists (k2, x).
  - exfalso. injection H2 as -> ->. apply Hd1, elem_of_list_In, in_map_iff. by exists (k1, x).
Qed.
Lemma ld_reach s l s' : heap_ok s -> LD s l s' -> forall p a x, is_Some (s_heap s !! a) -> reach (s_heap s') a p = Some x ->
  (is_Some (s_heap s !! x) /\ (reach (s_heap s) a p = Some x)) \/
  (exists p' k o, p = p' ++ [k] /\ reach (s_heap s) a p' = Some l /\ s_heap s' !! l = Some o /\ dget (kids_of (o_body o)) k = Some x /\ (s_next s <= x)%N).
Proof.
  intros Hok [[R1 R2 R3 R4 R5] (ol & Hol & Hml & (P1 & P2 & P3) & Hkl)]. induction p as [|k p IH]; intros a x Ha; cbn [reach].
  { intros [= <-]. by left. }
  destruct Ha as [oa Hoa]. pose proof (Hok a oa Hoa) as (Hn & Hsub & _). destruct (decide (a = l)) as [->|Hne].
  - rewrite Hol, Hml. destruct (dget (kids_of (o_body ol)) k) as [y|] eqn:Ed; [|done]. intros Hr.
    pose proof (P1 y (kids_in_sub _ _ _ Ed)) as Hy. destruct p as [|k2 p].
    + cbn in Hr. injection Hr as <-. right. exists [], k, ol. split_and!; try done. lia.
    + cbn [reach] in Hr. destruct (R4 y) as (oy & Hoy & Hmy & _); [lia|lia|]. by rewrite Hoy, Hmy in Hr.
  - rewrite R3 by done. rewrite Hoa. destruct (h_mapped (o_hdr oa)) eqn:Em; [|done].
    destruct (dget (kids_of (o_body oa)) k) as [y|] eqn:Ed; [|done]. intros Hr.
    destruct (IH y x) as [[H1 H2]|(p' & k' & o' & -> & H1 & H2 & H3 & H4)]; [by eapply Hsub, kids_in_sub|done|by left|].
    right. exists (k :: p'), k', o'. split_and!; try done. cbn [reach]. by rewrite Hoa, Em, Ed.
Qed.
Lemma ld_good s l s' o : heap_ok s -> s_heap s !! l = Some o -> h_mapped (o_hdr o) = false -> LD s l s' -> good_step s s'.
Proof.
  intros Hok Ho Hm HD. pose proof HD as [Hrd Hown].
  assert (Hlo : loads s s') by (eapply rd_own_loads; [intros x ox Hx; apply (Hok x ox Hx)|exact Ho|exact Hm|exact Hrd|exact Hown]).
  pose proof Hrd as [R1 R2 R3 R4 R5]. destruct Hown as (ol & Hol & Hml & (P1 & P2 & P3) & Hkl). split; [done| | | | |].
  - intros x ox Hx. destruct (decide (x = l)) as [->|Hne].
    + assert (ox = ol) as -> by congruence. split_and!; [pose proof (Hok l o Ho); lia| |congruence|done].
      intros y Hy. specialize (P1 y Hy). destruct (R4 y) as (oy & -> & _); [lia|lia|by eexists].
    + destruct (N.lt_ge_cases x (s_next s)) as [Hlt|Hge].
      * rewrite R3 in Hx by done. destruct (Hok x ox Hx) as (H1 & H2 & H3 & H4). split_and!; [lia| |done|done].
        intros y Hy. eapply loads_some; [done|]. by apply H2.
      * destruct (N.lt_ge_cases x (s_next s')) as [Hlt2|Hge2]; [|rewrite R5 in Hx by done; done].
        destruct (R4 x) as (ox' & Hx' & Hmx & kx & Hbx); [done|done|]. assert (ox' = ox) as -> by congruence.
        rewrite Hbx, empty_sub, empty_kids. split_and!; try done. apply NoDup_nil_2.
  - intros a Ha Hu p q x Hp Hq Hn. apply (ld_reach s l s' Hok HD) in Hp, Hq; [|done|done].
    destruct Hp as [[Hx1 Hp]|(p1 & k1 & o1 & Ep & Hp1 & Ho1 & Hd1 & Hf1)], Hq as [[Hx2 Hq]|(q1 & k2 & o2 & Eq & Hq1 & Ho2 & Hd2 & Hf2)].
    + apply (Hu p q x); try done. destruct Hn as (xx & c & d & Hxx), Hx1 as [ox1 Hox1]. destruct (lo_obj _ _ Hlo x ox1 Hox1) as (o' & Ho' & Hk' & _).
      rewrite Hxx in Ho'. injection Ho' as <-. cbn in Hk'. destruct ox1 as [hx1 bx1], bx1; try done. by eexists _, _, _.
    + destruct Hx1 as [ox1 Hox1%Hok]. lia.
    + destruct Hx2 as [ox1 Hox1%Hok]. lia.
    + assert (o1 = ol) as -> by congruence. assert (o2 = ol) as -> by congruence.
      assert (k1 = k2) as -> by (eapply dget_inj; [|exact Hd1|exact Hd2]; by rewrite sub_kids).
      apply map_eq_app in Ep as (p1' & p2' & -> & <- & Ep2). apply map_eq_app in Eq as (q1' & q2' & -> & <- & Eq2).
      assert (p1' = q1') as ->.
      { apply (Hu _ _ l); try done. destruct p2' as [|n p2']; [done|]. cbn in Ep2. injection Ep2 as <- _.
        destruct ol as [hl bl]. cbn in *. destruct o as [ho bo]. rewrite Ho in Hkl. cbn in Hkl.
        destruct bl; [done|done| |exfalso|exfalso|exfalso].
        - destruct bo; try done. by eexists _, _, _.
        - cbn in Hd1. destruct meta, tree; cbn in Hd1; repeat case_decide; done.
        - rewrite kids_flat in Hd1. apply dget_Some_In, in_map_iff in Hd1 as (? & [= ? ?] & _).
        - cbn in Hd1. apply dget_Some_In, in_map_iff in Hd1 as (? & [= ? ?] & _). }
      f_equal. destruct p2' as [|n [|]], q2' as [|m [|]]; try done. cbn in *. congruence.
  - intros a Ha Hu p q x Hp Hq. apply (ld_reach s l s' Hok HD) in Hp, Hq; [|done|done].
    destruct Hp as [[Hx1 Hp]|(p1 & k1 & o1 & Ep & Hp1 & Ho1 & Hd1 & Hf1)], Hq as [[Hx2 Hq]|(q1 & k2 & o2 & Eq & Hq1 & Ho2 & Hd2 & Hf2)].
    + by apply (Hu p q x).
    + destruct Hx1 as [ox1 Hox1%Hok]. lia.
    + destruct Hx2 as [ox1 Hox1%Hok]. lia.
    + assert (o1 = ol) as -> by congruence. assert (o2 = ol) as -> by congruence.
      assert (k1 = k2) as -> by (eapply dget_inj; [|exact Hd1|exact Hd2]; by rewrite sub_kids). subst p q. f_equal. by apply (Hu _ _ l).
  - intros a b Ha Hb Hu p q x Hp Hq. apply (ld_reach s l s' Hok HD) in Hp, Hq; [|done|done].
    destruct Hp as [[Hx1 Hp]|(p1 & k1 & o1 & Ep & Hp1 & Ho1 & Hd1 & Hf1)], Hq as [[Hx2 Hq]|(q1 & k2 & o2 & Eq & Hq1 & Ho2 & Hd2 & Hf2)].
    + by apply (Hu p q x).
    + destruct Hx1 as [ox1 Hox1%Hok]. lia.
    + destruct Hx2 as [ox1 Hox1%Hok]. lia.
    + by apply (Hu p1 q1 l).
  - intros a p x Ha Hx Hp. apply (ld_reach s l s' Hok HD) in Hp as [[_ Hp]|(p1 & k1 & o1 & _ & _ & _ & _ & Hf1)]; [done| |done].
    destruct Hx as [ox1 Hox1%Hok]. lia.
Qed.

(** ** Lookups *)
Fixpoint peek (h : heap) (l : loc) (parts : list pystr) : option (option loc) :=
  match parts with
  | [] => Some (Some l)
  | e :: rest =>
      match h !! l with
      | None => None
      | Some o =>
          match o_body o with
          | BNode _ d =>
              if h_mapped (o_hdr o) then match dget d e with Some x => peek h x rest | None => Some None end else None
          | _ => Some None
          end
      end
  end.
Lemma loads_peek s s' : loads s s' -> forall p l r, peek (s_heap s) l p = Some r -> peek (s_heap s') l p = Some r.
Proof.
  intros [_ _ Ho]. induction p as [|e p IH]; intros l r; cbn [peek]; [done|]. destruct (s_heap s !! l) as [o|] eqn:E; [|done].
  destruct (Ho l o E) as (o' & -> & Hk & Hm). destruct (o_body o) as [| |c d| | |] eqn:Eb; destruct (o_body o') as [| |c' d'| | |] eqn:Eb'; try done.
  destruct (h_mapped (o_hdr o)) eqn:Em; [|done]. specialize (Hm eq_refl). subst o'. rewrite Em.
  rewrite Eb in Eb'. injection Eb' as <- <-. destruct (dget d e); [apply IH|done].
Qed.
Lemma dget_name (c : leafcls) (d : pydict pystr loc) e : dget (kids_of (BNode c d)) (KName e) = dget d e.
Proof. cbn [kids_of]. rewrite (dget_map KName (fun x => x)) by by intros ? ? [=]. by destruct (dget d e). Qed.
Lemma peek_reach h p : forall l x, peek h l p = Some (Some x) -> reach h l (map KName p) = Some x.
Proof.
  induction p as [|e p IH]; intros l x; cbn [peek reach map]; [by intros [= <-]|]. destruct (h !! l) as [o|]; [|done].
  destruct (o_body o) as [| |c d| | |]; try done. destruct (h_mapped (o_hdr o)); [|done]. rewrite dget_name. destruct (dget d e); [apply IH|done].
Qed.
Lemma reach_peek h p : forall l x, reach h l (map KName p) = Some x -> peek h l p = Some (Some x).
Proof.
  induction p as [|e p IH]; intros l x; cbn [peek reach map]; [by intros [= <-]|]. destruct (h !! l) as [[hd b]|]; [|done]. cbn [o_body o_hdr].
  destruct (h_mapped hd); [|done]. destruct (dget (kids_of b) (KName e)) as [y|] eqn:Ed; [|done]. destruct b as [| |c d|i v m t|k vs|us].
  - done.
  - done.
  - rewrite dget_name in Ed. rewrite Ed. apply IH.
  - cbn in Ed. destruct m, t; cbn in Ed; repeat case_decide; done.
  - rewrite kids_flat in Ed. apply dget_Some_In, in_map_iff in Ed as (? & [= ? ?] & _).
  - cbn in Ed. apply dget_Some_In, in_map_iff in Ed as (? & [= ? ?] & _).
Qed.
Lemma peek_app h p q : forall l, peek h l (p ++ q) =
  match peek h l p with Some (Some x) => peek h x q | r => r end.
Proof.
  induction p as [|e p IH]; intros l; cbn [peek app]; [done|]. destruct (h !! l) as [o|]; [|done]. destruct (o_body o); try done.
  destruct (h_mapped (o_hdr o)); [|done]. destruct (dget _ e); [apply IH|done].
Qed.
Lemma reach_app h p q : forall l, reach h l (p ++ q) = match reach h l p with Some x => reach h x q | None => None end.
Proof.
  induction p as [|e p IH]; intros l; cbn [reach app]; [done|]. destruct (h !! l) as [o|]; [|done].
  destruct (h_mapped (o_hdr o)); [|done]. destruct (dget _ e); [apply IH|done].
Qed.

Section Trees.
  Context `{Env}.
  Lemma x_is_node l o s g : s_heap s !! l = Some o -> exec (is_mtreenode l s) g = ((Ok (is_node o), s), g).
  Proof. intros Ho. unfold is_mtreenode. by rewrite x_bind, x_getobj, Ho. Qed.
  Lemma x_children l x c d s g : s_heap s !! l = Some (Obj x (BNode c d)) -> exec (children l s) g = ((Ok (c, d), s), g).
  Proof. intros Ho. unfold children. by rewrite x_bind, x_getobj, Ho. Qed.
  Lemma x_mapped_noop fuel l o s g : s_heap s !! l = Some o -> h_mapped (o_hdr o) = true -> exec (ensure_mapped fuel l s) g = ((Ok false, s), g).
  Proof. intros Ho Hm. unfold ensure_mapped. by rewrite x_bind, x_getobj, Ho, Hm. Qed.
  Lemma x_get_child fuel l x c d e s g : s_heap s !! l = Some (Obj x (BNode c d)) -> h_mapped x = true ->
    exec (get_child fuel l e s) g = ((Ok (dget d e), s), g).
  Proof.
    intros Ho Hm. unfold get_child. rewrite x_bind, (x_mapped_noop _ _ _ _ _ Ho Hm), x_bind, (x_children _ _ _ _ _ _ Ho). done.
  Qed.
  Lemma walk_peek fuel parts : forall l r s g, peek (s_heap s) l parts = Some r -> exec (walk fuel l parts s) g = ((Ok r, s), g).
  Proof.
    induction parts as [|e rest IH]; intros l r s g; cbn [peek walk]; [by intros [= <-]|].
    destruct (s_heap s !! l) as [[x b]|] eqn:E; [|done]. cbn [o_body o_hdr].
    rewrite x_bind, (x_is_node _ _ _ _ E). cbn beta iota. unfold is_node. cbn [o_body].
    destruct b as [| |c d| | |]; try by intros [= <-]. destruct (h_mapped x) eqn:Em; [|done].
    rewrite x_bind, (x_get_child _ _ _ _ _ _ _ _ E Em). cbn beta iota. destruct (dget d e); [apply IH|]. by intros [= <-].
  Qed.

  (** one lookup *)
  Lemma gs_get_child fuel l e s g r s' g' : heap_ok s -> node_at (s_heap s) l -> exec (get_child fuel l e s) g = ((r, s'), g') ->
    loads s s' /\ match r with
    | Ok y => good_step s s' /\ exists x c d, s_heap s' !! l = Some (Obj x (BNode c d)) /\ h_mapped x = true /\ y = dget d e
    | Err _ => True
    end.
  Proof.
    intros Hok (x & c & d & Hl) He. unfold get_child in He. rewrite x_bind in He.
    destruct (exec (ensure_mapped fuel l s) g) as [[r1 s1] g1] eqn:E1.
    pose proof (ld_ensure s l _ fuel g r1 s1 g1 Hok Hl E1) as [Hyes Hno]. cbn in Hyes, Hno. destruct (h_mapped x) eqn:Em.
    - destruct (Hyes eq_refl) as (-> & -> & ->). cbn beta iota in He. rewrite x_bind, (x_children _ _ _ _ _ _ Hl) in He. cbn in He. injection He as <- <- <-.
      split; [apply lo_refl|]. split; [by apply gs_refl|]. by exists x, c, d.
    - specialize (Hno eq_refl). destruct r1 as [b|err].
      + destruct Hno as [_ HD]. pose proof (ld_good s l s1 _ Hok Hl Em HD) as Hg.
        destruct HD as [_ ([x1 b1] & Ho1 & Hm1 & _ & Hk1)]. rewrite Hl in Hk1. cbn in Hk1. destruct b1 as [| |c1 d1| | |]; try done.
        rewrite x_bind, (x_children _ _ _ _ _ _ Ho1) in He. cbn in He. injection He as <- <- <-.
        split; [apply Hg|]. split; [done|]. by exists x1, c1, d1.
      + cbn beta iota in He. injection He as <- <- <-. split; [|done]. destruct Hno as [Hr Ho]. eapply rd_own_loads; [|exact Hl|exact Em|exact Hr|exact Ho].
        intros y oy Hy. apply (Hok y oy Hy).
  Qed.
  Lemma node_step s s' l : loads s s' -> node_at (s_heap s) l -> node_at (s_heap s') l.
  Proof. intros [_ _ Ho] (x & c & d & Hl). destruct (Ho l _ Hl) as ([x' b'] & Ho' & Hk & _). cbn in Hk. destruct b'; try done. by eexists _, _, _. Qed.
  Lemma node_iff h l o : h !! l = Some o -> is_node o = true <-> node_at h l.
  Proof.
    intros Hl. split.
    - destruct o as [x b]. unfold is_node. cbn. destruct b; try done. intros _. by eexists _, _, _.
    - intros (x & c & d & Hl'). rewrite Hl in Hl'. by injection Hl' as ->.
  Qed.
  Lemma gs_walk fuel parts : forall l s g r s' g', heap_ok s -> is_Some (s_heap s !! l) -> exec (walk fuel l parts s) g = ((r, s'), g') ->
    loads s s' /\ match r with Ok y => good_step s s' /\ peek (s_heap s') l parts = Some y | Err _ => True end.
  Proof.
    induction parts as [|e rest IH]; intros l s g r s' g' Hok Hl He; cbn [walk] in He.
    { injection He as <- <- <-. split; [apply lo_refl|]. split; [by apply gs_refl|done]. }
    destruct Hl as [o Hl]. rewrite x_bind, (x_is_node _ _ _ _ Hl) in He. cbn beta iota in He.
    destruct (is_node o) eqn:Hn.
    - rewrite x_bind in He. destruct (exec (get_child fuel l e s) g) as [[r1 s1] g1] eqn:E1.
      pose proof (proj1 (node_iff _ _ _ Hl) Hn) as Hnode.
      apply gs_get_child in E1 as [Hlo E1]; [|done|done]. destruct r1 as [y|err]; [|injection He as <- <- <-; done].
      destruct E1 as [Hg (x & c & d & Hl1 & Hm1 & ->)]. destruct (dget d e) as [z|] eqn:Ed; cbn beta iota in He.
      + apply IH in He as [Hlo2 He]; [|apply Hg|].
        2:{ apply (gs_ok _ _ Hg l _ Hl1). cbn. apply in_map_iff. exists (e, z). split; [done|]. by apply dget_Some_In. }
        split; [by eapply lo_trans|]. destruct r as [y|err]; [|done]. destruct He as [Hg2 Hp]. split; [by eapply gs_trans|].
        cbn [peek]. destruct (lo_obj _ _ Hlo2 l _ Hl1) as (o' & -> & _ & Hsame). rewrite (Hsame Hm1). cbn [o_body o_hdr]. by rewrite Hm1, Ed.
      + injection He as <- <- <-. split; [done|]. split; [done|]. cbn [peek]. rewrite Hl1. cbn [o_body o_hdr]. by rewrite Hm1, Ed.
    - injection He as <- <- <-. split; [apply lo_refl|]. split; [by apply gs_refl|]. cbn [peek]. rewrite Hl. unfold is_node in Hn. by destruct (o_body o).
  Qed.
End Trees.
