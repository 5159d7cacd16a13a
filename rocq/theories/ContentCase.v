(** Checks of concrete object graphs, for the cases beside the theorems. *)
From Verif Require Import Base BaseFacts Path Json Refs Meta Spec_Meta GitText Spec_Git Git State Objects Spec_Look Spec_Heap Spec_Versions Spec_Content HeapCase StoreFacts.

Definition hexb (c : N) : bool := ((48 <=? c) && (c <=? 57) || (97 <=? c) && (c <=? 102))%N.
Definition uuid_okb (u : uuid) : bool := (length u =? 32)%nat && forallb hexb u.
Definition scalar_strb (x : pystr) : bool := forallb scalarb x.
Definition label_okb (lb : label) : bool :=
  match lb with
  | LbMeta _ => true
  | LbText _ => false
  | LbNode c => match c with LText => false | _ => true end
  | LbMrr (Some u) (Some w) => uuid_okb u && scalar_strb w
  | LbMrr _ _ => false
  | LbVl _ rs => forallb (fun r : pystr * ppath * pystr * bool => let '(v, p, t, _) := r in
      scalar_strb v && scalar_strb t && bool_decide (p = MetadataPath [AStr (mp_as_posix p)]) && scalar_strb (mp_as_posix p)) rs
  | LbUs => true
  end.
Definition storable_nameb (n : pystr) : bool :=
  negb (bool_decide (n = [])) && scalar_strb n && forallb (fun c => negb (c =? 47)%N && negb (c =? 0)%N && negb (c =? 10)%N) n.
Definition part_okb (lb : label) (k : key) (lb' : label) : bool :=
  match lb, k with
  | LbNode c, KName n => storable_nameb n &&
      match lb', c with LbNode LMeta, LMeta | LbNode LMrr, LMrr | LbMeta _, LMeta | LbMrr _ _, LMrr => true | _, _ => false end
  | LbMrr _ _, KMeta => match lb' with LbMeta _ => true | _ => false end
  | LbMrr _ _, KTree => match lb' with LbNode LMeta => true | _ => false end
  | LbVl _ rs, KVer v p => match lb' with
      | LbNode LMrr => existsb (fun r : pystr * ppath * pystr * bool => let '(v', p', _, b) := r in bool_decide (v' = v) && bool_decide (p' = p) && b) rs
      | LbMrr _ _ => existsb (fun r : pystr * ppath * pystr * bool => let '(v', p', _, b) := r in bool_decide (v' = v) && bool_decide (p' = p) && negb b) rs
      | _ => false end
  | LbUs, KUuid u => uuid_okb u && match lb' with LbVl false _ => true | _ => false end
  | _, _ => false
  end.
Lemma scalar_strb_ok x : scalar_strb x = true -> scalar_str x.
Proof. unfold scalar_strb, scalar_str. rewrite forallb_forall. intros Hf. apply List.Forall_forall. intros c Hc. apply scalarb_spec. by apply Hf. Qed.
Lemma uuid_okb_ok u : uuid_okb u = true -> uuid_ok u.
Proof.
  unfold uuid_okb. intros [Hl Hf]%andb_true_iff. apply Nat.eqb_eq in Hl. split; [done|]. rewrite forallb_forall in Hf. apply List.Forall_forall. intros c Hc. specialize (Hf c Hc).
  unfold hexb in Hf. unfold lower_hex_digit. rewrite orb_true_iff, !andb_true_iff, !N.leb_le in Hf. lia.
Qed.
Lemma storable_nameb_ok n : storable_nameb n = true -> storable_name n.
Proof.
  unfold storable_nameb. rewrite !andb_true_iff, negb_true_iff, bool_decide_eq_false, forallb_forall. intros [[H1 H2] H3].
  split_and!; [done|by apply scalar_strb_ok| | |]; intros Hin%H3; done.
Qed.
Lemma label_okb_ok lb : label_okb lb = true -> (forall m, lb = LbMeta m -> built m) -> label_ok lb.
Proof.
  destruct lb as [m|t|c|i v|k rs|]; cbn [label_okb label_ok].
  - auto.
  - done.
  - by destruct c.
  - destruct i as [u|], v as [w|]; try done. intros [Hu Hw]%andb_true_iff _. split; [exists u; split; [done|by apply uuid_okb_ok]|exists w; split; [done|by apply scalar_strb_ok]].
  - rewrite forallb_forall. intros Hf _ v p t b Hin. specialize (Hf _ Hin). cbn in Hf. rewrite !andb_true_iff, bool_decide_eq_true in Hf. destruct Hf as [[[H1 H2] H3] H4].
    split_and!; [by apply scalar_strb_ok|by apply scalar_strb_ok|by eexists|by apply scalar_strb_ok].
  - done.
Qed.
Lemma part_okb_ok lb k lb' : part_okb lb k lb' = true -> part_ok lb k lb'.
Proof.
  destruct lb as [m|t|c|i v|kk rs|], k as [n| | |v' p|u]; cbn [part_okb part_ok]; try done.
  - intros [Hn Hc]%andb_true_iff. split; [by apply storable_nameb_ok|]. destruct lb' as [|?|[]| | |], c; done.
  - destruct lb'; try done. eauto.
  - destruct lb' as [|?|[]| | |]; done.
  - destruct lb' as [|?|[]| | |]; try done; rewrite existsb_exists; intros ([[[v1 p1] t1] b1] & Hin & Hb); rewrite !andb_true_iff, !bool_decide_eq_true in Hb; destruct Hb as [[-> ->] Hb].
    + exists t1, b1. done.
    + exists t1, b1. split; [done|]. by destruct b1.
  - intros [Hu Hl]%andb_true_iff. split; [by apply uuid_okb_ok|]. destruct lb' as [|?|?|?|[]|]; try done. eauto.
Qed.
(** everything is loaded, nothing is marked as saved *)
Definition newb (h : heap) (lo : loc * obj) : bool :=
  let o := snd lo in
  h_mapped (o_hdr o) && bool_decide (h_saved (o_hdr o) = ∅) && negb (is_some (h_ref (o_hdr o))) &&
  label_okb (label_of (o_body o)) &&
  forallb (fun kx : key * loc => match h !! snd kx with Some ox => part_okb (label_of (o_body o)) (fst kx) (label_of (o_body ox)) | None => false end) (kids_of (o_body o)) &&
  match o_body o with
  | BVlist _ vs => bool_decide (NoDup (dkeys vs)) && forallb (fun vd : pystr * pydict ppath vrec => bool_decide (NoDup (dkeys (snd vd))) && forallb (fun pr => bool_decide (vr_path (snd pr) = fst pr)) (snd vd)) vs
  | _ => true
  end.
Definition all_newb (s : pst) (l : loc) : bool := heap_okb s && unsharedb (s_heap s) l && bool_decide (is_Some (s_heap s !! l)) && forallb (newb (s_heap s)) (entries (s_heap s)).
Lemma tidy_check O r s l : all_newb s l = true -> (forall x hx m, s_heap s !! x = Some (Obj hx (BMeta m)) -> built m) -> tidy O r s l.
Proof.
  unfold all_newb. rewrite !andb_true_iff, bool_decide_eq_true, forallb_forall. intros [[[Hok Hu] Hl] Hnew] Hb.
  assert (HN : forall x o, s_heap s !! x = Some o -> newb (s_heap s) (x, o) = true) by (intros x o Ho; by apply Hnew, entries_in).
  assert (HN1 : forall x o, s_heap s !! x = Some o -> h_mapped (o_hdr o) = true /\ h_saved (o_hdr o) = ∅ /\ h_ref (o_hdr o) = None /\ label_ok (label_of (o_body o)) /\
    (forall k y, dget (kids_of (o_body o)) k = Some y -> exists oy, s_heap s !! y = Some oy /\ part_ok (label_of (o_body o)) k (label_of (o_body oy))) /\
    (forall k vs, o_body o = BVlist k vs -> well_keyed vs)).
  { intros x o Ho. pose proof (HN x o Ho) as Hx. unfold newb in Hx. cbn [snd] in Hx. rewrite !andb_true_iff, bool_decide_eq_true, negb_true_iff in Hx.
    destruct Hx as [[[[[H1 H2] H3] H4] H5] H6]. split_and!; [done|done|by destruct (h_ref (o_hdr o))| | |].
    - apply label_okb_ok; [done|]. intros m Hm. destruct o as [hx b]. cbn in *. destruct b; try done. cbn in Hm. injection Hm as <-. by eapply Hb.
    - intros k y Hd. rewrite forallb_forall in H5. specialize (H5 (k, y) (dget_Some_In _ _ _ Hd)). cbn in H5. destruct (s_heap s !! y) as [oy|]; [|done]. exists oy. split; [done|by apply part_okb_ok].
    - intros k vs Hv. rewrite Hv in H6. rewrite andb_true_iff, bool_decide_eq_true, forallb_forall in H6. destruct H6 as [H6 H7]. split; [done|]. intros v d Hin. specialize (H7 _ Hin). cbn in H7.
      rewrite andb_true_iff, bool_decide_eq_true, forallb_forall in H7. destruct H7 as [H7 H8]. split; [done|]. intros p r0 Hin2. specialize (H8 _ Hin2). by apply bool_decide_eq_true in H8. }
  assert (HR : forall p x, reach (s_heap s) l p = Some x -> is_Some (s_heap s !! x)).
  { intros p. assert (forall a x, is_Some (s_heap s !! a) -> reach (s_heap s) a p = Some x -> is_Some (s_heap s !! x)) as Hg; [|intros x; by apply Hg].
    induction p as [|k p IH]; intros a x Ha Hp; cbn [reach] in Hp; [by injection Hp as <-|]. destruct Ha as [o Ho]. rewrite Ho in Hp. destruct (h_mapped _); [|done].
    destruct (dget (kids_of (o_body o)) k) as [y|] eqn:Ey; [|done]. apply IH in Hp; [done|]. destruct (HN1 a o Ho) as (_ & _ & _ & _ & Hk & _). destruct (Hk k y Ey) as (oy & Hy & _). eauto. }
  split.
  - by apply heap_ok_check.
  - by apply unshared_check.
  - intros p x o Hp Ho Hm. destruct (HN1 x o Ho) as (H1 & _). congruence.
  - intros p x hx k vs Hp Ho. destruct (HN1 x _ Ho) as (_ & _ & _ & _ & _ & H1). by eapply H1.
  - intros p x o ref Hp Ho _ Hf. destruct (HN1 x o Ho) as (_ & _ & H1 & _). congruence.
  - intros p x hx i v m t Hp Ho. destruct (HN1 x _ Ho) as (_ & _ & _ & _ & Hk & _). cbn [o_body] in Hk. destruct (Hk KTree t) as (ot & Hot & Hpt).
    { cbn [kids_of]. destruct m; done. }
    destruct ot as [ht bt]. cbn in Hpt. destruct bt as [| |c d| | |]; try done. cbn in Hpt. injection Hpt as ->. eauto.
  - intros p x o Hp Ho Ha. exfalso. destruct (HN1 x o Ho) as (H1 & H2 & _). destruct (Ha [] x o eq_refl Ho) as [H3|[H3 _]]; [rewrite H2 in H3; by apply elem_of_empty in H3|congruence].
  - assert (HC : forall p a o, s_heap s !! a = Some o -> look O (s_heap s) a p <> Broken /\ (forall lb, look O (s_heap s) a p = Seen lb -> label_ok lb) /\
      (forall k lb', look O (s_heap s) a (p ++ [k]) = Seen lb' -> exists lb, look O (s_heap s) a p = Seen lb /\ part_ok lb k lb')).
    { induction p as [|k p IH]; intros a o Ho; destruct (HN1 a o Ho) as (H1 & _ & _ & H4 & H5 & _); cbn [look app]; rewrite Ho, H1.
      - split_and!; [done|by intros lb [= <-]|]. intros k lb'. destruct (dget (kids_of (o_body o)) k) as [y|] eqn:Ey; [|done]. destruct (H5 k y Ey) as (oy & Hy & Hpt).
        destruct (is_ktree k && hollow_at O (s_heap s) y); [done|]. cbn [look]. rewrite Hy. destruct (HN1 y oy Hy) as (-> & _). intros [= <-]. eauto.
      - destruct (dget (kids_of (o_body o)) k) as [y|] eqn:Ey; [|by split_and!]. destruct (H5 k y Ey) as (oy & Hy & Hpt). destruct (is_ktree k && hollow_at O (s_heap s) y); [by split_and!|]. by apply (IH y oy). }
    intros p. destruct Hl as [o Ho]. by eapply HC.
Qed.
Definition one_realmb (r : pystr) (h : heap) : bool := forallb (fun lo : loc * obj => bool_decide (h_saved (o_hdr (snd lo)) = ∅) ||
  (bool_decide (r ∈ h_saved (o_hdr (snd lo))) && bool_decide (h_realm (o_hdr (snd lo)) = Some r))) (entries h).
Lemma one_realm_check r h l : one_realmb r h = true -> one_realm r h l.
Proof.
  unfold one_realmb. rewrite forallb_forall. intros Hf p x o _ Ho Hne. specialize (Hf (x, o) (proj1 (entries_in _ _ _) Ho)). cbn [snd] in Hf.
  rewrite orb_true_iff, andb_true_iff, !bool_decide_eq_true in Hf. by destruct Hf as [?|?].
Qed.
