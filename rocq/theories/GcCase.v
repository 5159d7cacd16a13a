(** Check of concrete object graphs, for the case beside the theorem about git gc. *)
From Verif Require Import Base BaseFacts Path Json Refs Meta Spec_Meta GitText Spec_Git Git State Objects Spec_Look Spec_Heap Spec_Write Spec_Content HeapCase StoreFacts ContentCase Spec_Gc.

Definition kid_fitsb (b : body) (x : loc) (k : kd) : bool :=
  match b with
  | BMeta _ | BText _ => false
  | BNode c _ => bool_decide (k = KdNode c) || bool_decide (k = leaf_kd c)
  | BMrr _ _ m t => (negb (bool_decide (m = Some x)) || bool_decide (k = KdMeta)) && (negb (bool_decide (t = Some x)) || bool_decide (k = KdNode LMeta))
  | BVlist _ vs => forallb (fun rc : pystr * vrec => negb (bool_decide (elt_loc (vr_elt (snd rc)) = x)) || bool_decide (k = if is_etree (vr_elt (snd rc)) then KdNode LMrr else KdMrr)) (vs_records vs)
  | BUset _ => bool_decide (k = KdVl false)
  end.
Definition typedb (h : heap) (lo : loc * obj) : bool :=
  let o := snd lo in
  negb (is_some (h_ref (o_hdr o))) && label_okb (label_of (o_body o)) &&
  forallb (fun x : loc => match h !! x with Some ox => kid_fitsb (o_body o) x (kind_of (o_body ox)) | None => false end) (sub_objects (o_body o)).
Lemma kid_fitsb_ok b x k : kid_fitsb b x k = true -> kid_fits b x k.
Proof.
  destruct b as [m|t|c d|i v m t|kk vs|us]; cbn [kid_fitsb kid_fits]; try done.
  - rewrite orb_true_iff, !bool_decide_eq_true. done.
  - rewrite andb_true_iff, !orb_true_iff, !negb_true_iff, !bool_decide_eq_true, !bool_decide_eq_false. intros [[H1|H1] [H2|H2]]; split; done.
  - rewrite forallb_forall. intros Hf rc Hrc Hx. specialize (Hf rc Hrc). by rewrite orb_true_iff, negb_true_iff, bool_decide_eq_true, bool_decide_eq_false in Hf; destruct Hf.
  - by rewrite bool_decide_eq_true.
Qed.
Lemma typed_check (h : heap) l : forallb (typedb h) (entries h) = true -> (forall x hx m, h !! x = Some (Obj hx (BMeta m)) -> built m) -> well_typed h l.
Proof.
  rewrite forallb_forall. intros Hf Hb y o _ Ho. specialize (Hf (y, o) (proj1 (entries_in _ _ _) Ho)). unfold typedb in Hf. cbn [snd] in Hf. rewrite !andb_true_iff, negb_true_iff, forallb_forall in Hf.
  destruct Hf as [[H1 H2] H3]. split; [intros _ ref E; by rewrite E in H1|]. intros _. split.
  - apply label_okb_ok; [done|]. intros m Hm. destruct o as [hx b]. cbn in *. destruct b; try done. cbn in Hm. injection Hm as <-. by eapply Hb.
  - intros x Hx. specialize (H3 x Hx). destruct (h !! x) as [ox|]; [|done]. exists ox. split; [done|by apply kid_fitsb_ok].
Qed.
