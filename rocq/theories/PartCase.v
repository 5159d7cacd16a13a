(** Boolean checks for the cases of Props_Parts. *)
From Verif Require Import Base BaseFacts Path Json Refs Meta GitText Git Spec_Store State BlobCache ObjRef Objects Spec_Look Spec_Heap Spec_Content LookFacts PeekFacts TreeFacts HeapCase ContentCase Spec_Parts.

(** everything is loaded, and all records have metadata *)
Definition recordsb (h : heap) : bool := forallb (fun lo : loc * obj =>
  h_mapped (o_hdr (snd lo)) && match o_body (snd lo) with
  | BMrr _ _ None _ => false
  | BMrr _ _ (Some x) _ => match h !! x with Some _ => true | None => false end
  | _ => true
  end) (entries h).
Lemma records_check O h l : recordsb h = true -> with_metadata (look O h l).
Proof.
  unfold recordsb. rewrite forallb_forall. intros Hb.
  assert (HN : forall x o, h !! x = Some o -> h_mapped (o_hdr o) = true /\ forall i v m t, o_body o = BMrr i v m t -> exists y oy, m = Some y /\ h !! y = Some oy).
  { intros x o Ho. apply entries_in in Ho. specialize (Hb _ Ho). cbn [fst snd] in Hb. apply andb_true_iff in Hb as [Hm Hb]. split; [done|]. intros i v m t Hd. rewrite Hd in Hb.
    destruct m as [y|]; [|done]. destruct (h !! y) as [oy|] eqn:Hy; [|done]. by exists y, oy. }
  clear Hb. intros p. revert l. induction p as [|k p IH]; intros l i v; cbn [app look]; destruct (h !! l) as [o|] eqn:Ho; try done; destruct (HN l o Ho) as [-> Hb].
  - intros [= El]. destruct (o_body o) as [| | |i' v' m t| |]; try done. destruct (Hb i' v' m t eq_refl) as (y & oy & -> & Hy). cbn [kids_of app dget]. rewrite decide_True by done. cbn [is_ktree andb look].
    rewrite Hy. by destruct (HN y oy Hy) as [-> _].
  - destruct (dget (kids_of (o_body o)) k) as [y|] eqn:Ed; [|done]. destruct (is_ktree k && hollow_at O h y); [done|]. apply IH.
Qed.
Lemma reach_parts h : forall p l x, reach h l p = Some x -> x = l \/ In x (parts_of h).
Proof.
  induction p as [|k p IH]; intros l x Hp; [injection Hp as ->; by left|]. cbn [reach] in Hp. destruct (h !! l) as [o|] eqn:Eo; [|done]. destruct (h_mapped (o_hdr o)); [|done].
  destruct (dget (kids_of (o_body o)) k) as [y|] eqn:Ed; [|done]. destruct (IH y x Hp) as [->|Hin]; [|by right]. right. unfold parts_of. rewrite In_concat. exists (sub_objects (o_body o)).
  split; [apply in_map_iff; exists (l, o); split; [done|]; by apply entries_in|]. by eapply kids_in_sub.
Qed.
(** [x] has no parts and is part of nothing *)
Definition loneb (h : heap) (l x : loc) : bool :=
  negb (bool_decide (x = l)) && negb (bool_decide (x ∈ parts_of h)) && match h !! x with Some o => bool_decide (kids_of (o_body o) = []) | None => false end.
Lemma lone_check h l x : loneb h l x = true -> apart h l x.
Proof.
  unfold loneb. rewrite !andb_true_iff, !negb_true_iff, !bool_decide_eq_false. intros [[H1 H2] H3] p q y Hp Hq.
  assert (y = x) as ->. { destruct q as [|k q]; [by injection Hq|]. cbn [reach] in Hq. destruct (h !! x) as [o|]; [|done]. apply bool_decide_eq_true in H3. rewrite H3 in Hq. by destruct (h_mapped _). }
  destruct (reach_parts _ _ _ _ Hp) as [->|Hin]; [done|]. apply H2. by apply elem_of_list_In.
Qed.
