(** Boolean checks for graphs that can be written, for cases. *)
From Verif Require Import Base BaseFacts Path Json Refs Meta GitText Git Spec_Store State BlobCache ObjRef Objects Spec_Look Spec_Heap Spec_Content LookFacts PeekFacts TreeFacts HeapCase ContentCase Spec_Outcome.

Definition settledb (r : pystr) (h : heap) : bool := forallb (fun lo : loc * obj => h_mapped (o_hdr (snd lo)) || bool_decide (r ∈ h_saved (o_hdr (snd lo)))) (entries h).
Lemma settled_check r h l : settledb r h = true -> settled r h l.
Proof.
  unfold settledb. rewrite forallb_forall. intros Hb p x o _ Ho Hm. apply entries_in in Ho. specialize (Hb _ Ho). cbn [snd] in Hb. rewrite Hm in Hb. by apply bool_decide_eq_true in Hb.
Qed.
Fixpoint shallowb (n : nat) (h : heap) (l : loc) : bool :=
  match n with
  | O => false
  | S n => match h !! l with
           | Some o => negb (h_mapped (o_hdr o)) || forallb (fun kx : key * loc => shallowb n h (snd kx)) (kids_of (o_body o))
           | None => true
           end
  end.
Lemma shallow_check n h : forall l, shallowb n h l = true -> shallow n h l.
Proof.
  induction n as [|n IH]; intros l Hb p x Hp; [done|]. destruct p as [|k p]; [cbn; lia|]. cbn [shallowb reach length] in *. destruct (h !! l) as [o|]; [|done].
  destruct (h_mapped (o_hdr o)); [|done]. cbn [negb orb] in Hb. destruct (dget (kids_of (o_body o)) k) as [y|] eqn:Ed; [|done]. rewrite forallb_forall in Hb.
  specialize (Hb _ (dget_Some_In _ _ _ Ed)). apply IH in Hb. apply Hb in Hp. lia.
Qed.
(** everything is loaded, and no tree is empty *)
Definition filledb (h : heap) : bool := forallb (fun lo : loc * obj =>
  h_mapped (o_hdr (snd lo)) && match o_body (snd lo) with
  | BNode _ [] => false
  | BNode _ ((_, x) :: _) => match h !! x with Some _ => true | None => false end
  | _ => true
  end) (entries h).
Lemma filled_check O h l : filledb h = true -> dirs_filled (look O h l).
Proof.
  unfold filledb. rewrite forallb_forall. intros Hb.
  assert (HN : forall x o, h !! x = Some o -> h_mapped (o_hdr o) = true /\ forall c d, o_body o = BNode c d -> exists m y d' oy, d = (m, y) :: d' /\ h !! y = Some oy).
  { intros x o Ho. apply entries_in in Ho. specialize (Hb _ Ho). cbn [fst snd] in Hb. apply andb_true_iff in Hb as [Hm Hb]. split; [done|]. intros c d Hd. rewrite Hd in Hb.
    destruct d as [|[m y] d]; [done|]. destruct (h !! y) as [oy|] eqn:Hy; [|done]. by exists m, y, d, oy. }
  clear Hb. intros p. revert l. induction p as [|k p IH]; intros l n cl; cbn [app look]; destruct (h !! l) as [o|] eqn:Ho; try done; destruct (HN l o Ho) as [-> _].
  - destruct (dget (kids_of (o_body o)) (KName n)) as [y|] eqn:Ed; [|done]. cbn [is_ktree andb look]. destruct (h !! y) as [oy|] eqn:Hy; [|done]. destruct (HN y oy Hy) as [Hm Hd]. rewrite Hm.
    intros [= El]. destruct (o_body oy) as [| |c d| | |] eqn:Eb; try done. destruct (Hd c d eq_refl) as (m & z & d' & oz & -> & Hz).
    exists (KName m), (label_of (o_body oz)). cbn [kids_of map dget fst snd]. rewrite decide_True by done. cbn [look is_ktree andb]. rewrite Hz. destruct (HN z oz Hz) as [-> _]. done.
  - destruct (dget (kids_of (o_body o)) k) as [y|] eqn:Ed; [|done]. destruct (is_ktree k && hollow_at O h y); [done|]. apply IH.
Qed.
