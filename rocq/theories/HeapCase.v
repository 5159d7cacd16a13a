(** Checks of concrete heaps, for the cases beside the theorems. *)
From Verif Require Import Base BaseFacts Path Spec_Path PathFacts Refs Meta GitText Git State Objects Spec_Look Spec_Heap LoadFacts PeekFacts TreeFacts.

Definition entries (h : heap) : list (loc * obj) := map_to_list (h : gmap loc obj).
Lemma entries_in (h : heap) l o : h !! l = Some o <-> In (l, o) (entries h).
Proof. unfold entries. rewrite <- elem_of_list_In. symmetry. apply (elem_of_map_to_list (M := gmap loc) (h : gmap loc obj) l o). Qed.

Definition obj_okb (s : pst) (lo : loc * obj) : bool :=
  (fst lo <? s_next s)%N &&
  forallb (fun x => bool_decide (is_Some (s_heap s !! x))) (sub_objects (o_body (snd lo))) &&
  (h_mapped (o_hdr (snd lo)) || match sub_objects (o_body (snd lo)) with [] => true | _ => false end) &&
  bool_decide (NoDup (dkeys (kids_of (o_body (snd lo))))).
Definition heap_okb (s : pst) : bool := forallb (obj_okb s) (entries (s_heap s)).
Lemma heap_ok_check s : heap_okb s = true -> heap_ok s.
Proof.
  unfold heap_okb. rewrite forallb_forall. intros Hf l o Ho. specialize (Hf (l, o) (proj1 (entries_in _ _ _) Ho)). unfold obj_okb in Hf. cbn [fst snd] in Hf.
  rewrite !andb_true_iff in Hf. destruct Hf as [[[H1 H2] H3] H4]. split_and!.
  - by apply N.ltb_lt.
  - intros x Hx. rewrite forallb_forall in H2. specialize (H2 x Hx). by apply bool_decide_eq_true in H2.
  - intros Hm. rewrite Hm in H3. cbn in H3. by destruct (sub_objects (o_body o)).
  - by apply bool_decide_eq_true in H4.
Qed.
(** every object is part of one object at most, [l] of none *)
Definition parts_of (h : heap) : list loc := concat (map (fun lo => sub_objects (o_body (snd lo))) (entries h)).
Definition unsharedb (h : heap) (l : loc) : bool := bool_decide (NoDup (parts_of h)) && negb (bool_decide (l ∈ parts_of h)).
Lemma nodup_concat_same {A B : Type} (f : A -> list B) (ls : list A) a b x : NoDup (concat (map f ls)) -> In a ls -> In b ls -> In x (f a) -> In x (f b) -> a = b.
Proof.
  induction ls as [|c ls IH]; [done|]. cbn. intros (H1 & H2 & H3)%NoDup_app Ha Hb Hxa Hxb.
  destruct Ha as [->|Ha], Hb as [->|Hb]; [done| | |by apply IH]; exfalso.
  - apply (H2 x); [by apply elem_of_list_In|]. apply elem_of_list_In, In_concat. exists (f b). split; [by apply in_map|done].
  - apply (H2 x); [by apply elem_of_list_In|]. apply elem_of_list_In, In_concat. exists (f a). split; [by apply in_map|done].
Qed.
Lemma nodup_concat_each {A B : Type} (f : A -> list B) (ls : list A) a : NoDup (concat (map f ls)) -> In a ls -> NoDup (f a).
Proof. induction ls as [|c ls IH]; [done|]. cbn. intros (H1 & H2 & H3)%NoDup_app [->|Ha]; [done|by apply IH]. Qed.
Lemma unshared_check h l : unsharedb h l = true -> unshared h l.
Proof.
  unfold unsharedb. intros [Hn Hl]%andb_true_iff. apply bool_decide_eq_true in Hn. apply negb_true_iff, bool_decide_eq_false in Hl.
  assert (Hstep : forall p k x, reach h l (p ++ [k]) = Some x -> exists a o, reach h l p = Some a /\ h !! a = Some o /\ dget (kids_of (o_body o)) k = Some x).
  { intros p k x. rewrite reach_app. destruct (reach h l p) as [a|]; [|done]. cbn [reach]. destruct (h !! a) as [o|] eqn:Ho; [|done]. destruct (h_mapped (o_hdr o)); [|done].
    destruct (dget (kids_of (o_body o)) k) as [y|] eqn:E; [|done]. intros [= <-]. by exists a, o. }
  assert (Hroot : forall a o, h !! a = Some o -> ~ In l (sub_objects (o_body o))).
  { intros a o Ho Hin. apply Hl, elem_of_list_In, In_concat. eexists. split; [|exact Hin]. apply in_map_iff. exists (a, o). split; [done|]. by apply entries_in. }
  intros p. induction p as [|k p IH] using rev_ind; intros q x Hp Hq.
  - injection Hp as <-. destruct q as [|k' q _] using rev_ind; [done|]. apply Hstep in Hq as (a & o & _ & Ho & Hk). exfalso. eapply Hroot; [exact Ho|]. by eapply kids_in_sub.
  - apply Hstep in Hp as (a & o & Ha & Ho & Hk). destruct q as [|k' q _] using rev_ind.
    + injection Hq as <-. exfalso. eapply Hroot; [exact Ho|]. by eapply kids_in_sub.
    + apply Hstep in Hq as (b & ob & Hb & Hob & Hkb).
      assert ((a, o) = (b, ob)) as [= <- <-].
      { eapply nodup_concat_same; [exact Hn|by apply entries_in|by apply entries_in| |]; cbn; by eapply kids_in_sub. }
      assert (k = k') as <-.
      { eapply dget_inj; [|exact Hk|exact Hkb]. rewrite sub_kids. apply (nodup_concat_each _ _ (a, o) Hn). by apply entries_in. }
      f_equal. by eapply IH.
Qed.
Lemma map_kname_inj p : forall q, map KName p = map KName q -> p = q.
Proof. induction p as [|a p IH]; intros [|b q]; cbn; intros Hq; try done. injection Hq as -> Hq. f_equal. by apply IH. Qed.
Lemma unshared_nodes h l : unshared h l -> nodes_unshared h l.
Proof. intros Hu p q x Hp Hq _. apply map_kname_inj. by apply (Hu _ _ x). Qed.
(** all nodes are loaded and have names that can be part of paths *)
Definition good_nameb (n : pystr) : bool :=
  negb (bool_decide (n = [])) && negb (bool_decide (n = dot_str)) && negb (bool_decide (47%N ∈ n)).
Definition loadedb (h : heap) : bool := forallb (fun lo : loc * obj => match o_body (snd lo) with
  | BNode _ d => h_mapped (o_hdr (snd lo)) && forallb good_nameb (dkeys d) | _ => true end) (entries h).
Lemma loaded_check h l : loadedb h = true -> loaded_tree h l.
Proof.
  unfold loadedb. rewrite forallb_forall. intros Hf p x hx c d _ Hx. specialize (Hf (x, Obj hx (BNode c d)) (proj1 (entries_in _ _ _) Hx)). cbn in Hf.
  apply andb_true_iff in Hf as [Hm Hn]. split; [done|]. rewrite forallb_forall in Hn. apply List.Forall_forall. intros n Hin. specialize (Hn n Hin). unfold good_nameb in Hn.
  rewrite !andb_true_iff, !negb_true_iff, !bool_decide_eq_false in Hn. destruct Hn as [[H1 H2] H3]. split_and!; [done|done|]. by rewrite <- elem_of_list_In.
Qed.
