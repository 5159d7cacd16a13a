(** Proofs about Refs.v *)
From Verif Require Import Base BaseFacts Json Spec_Json JsonFacts Refs Meta Spec_Meta.

Lemma rbind_ok {A B} (x : res A) (f : A -> res B) b :
  rbind x f = Ok b -> exists a, x = Ok a /\ f a = Ok b.
Proof. destruct x; simpl; [eauto|discriminate]. Qed.
Lemma jsub_ok j k v : jsub j k = Ok v <-> member j k v.
Proof. unfold member. split.
  - destruct j; simpl; try discriminate. destruct (dget kvs k) eqn:E; [|discriminate].
    intros [= ->]. eauto.
  - intros (kvs & -> & H). simpl. by rewrite H. Qed.
Lemma rassert_ok b u : rassert b = Ok u -> b = true.
Proof. destruct b; [done|discriminate]. Qed.
Lemma jis_str_ok j s : jis_str j s = true -> j = JStr s.
Proof. destruct j; simpl; try discriminate. intros H%bool_decide_eq_true. congruence. Qed.
Lemma jis_str_refl s : jis_str (JStr s) s = true.
Proof. simpl. by apply bool_decide_eq_true. Qed.

Ltac rinv H :=
  repeat match type of H with
  | rbind _ _ = Ok _ =>
      let a := fresh "x" in let H1 := fresh "E" in
      apply rbind_ok in H as (a & H1 & H)
  end.

Lemma assert_type_ok obj ty u : assert_type obj ty = Ok u ->
  exists kvs tag, obj = JObj kvs /\ dget kvs (ps "@") = Some (JObj tag)
    /\ dget tag (ps "type") = Some (JStr ty).
Proof. unfold assert_type. intros H. apply rbind_ok in H as (a & E1 & H). apply rbind_ok in H as (b & E2 & H).
  apply rassert_ok, jis_str_ok in H. subst. apply jsub_ok in E1 as (kvs & -> & E1).
  apply jsub_ok in E2 as (kvs2 & -> & E2). eauto. Qed.

Lemma check_version_ok obj u : check_serialized_version obj = Ok u ->
  exists kvs tag, obj = JObj kvs /\ dget kvs (ps "@") = Some (JObj tag)
    /\ dget tag (ps "version") = Some (JStr (ps "2.0")).
Proof. unfold check_serialized_version. intros H. rinv H.
  destruct (jis_str _ _) eqn:E3 in H; [|discriminate]. apply jis_str_ok in E3. subst.
  apply jsub_ok in E1 as (kvs & -> & E1). apply jsub_ok in E2 as (kvs2 & -> & E2). eauto. Qed.

Lemma tagged_intro obj ty u v :
  assert_type obj ty = Ok u -> check_serialized_version obj = Ok v -> tagged ty obj.
Proof. intros H1%assert_type_ok H2%check_version_ok.
  destruct H1 as (kvs & tag & -> & E1 & E2). destruct H2 as (kvs2 & tag2 & [= <-] & E3 & E4).
  rewrite E1 in E3. injection E3 as <-. unfold tagged. eauto 10. Qed.

Lemma tagged_pass obj ty : tagged ty obj ->
  assert_type obj ty = Ok tt /\ check_serialized_version obj = Ok tt.
Proof. intros (kvs & tag & -> & E1 & E2 & E3). unfold assert_type, check_serialized_version.
  simpl. rewrite E1. simpl. rewrite E2. simpl. rewrite E3. simpl.
  rewrite !bool_decide_true by done. done. Qed.

Lemma tagged_at ty r : tagged ty (JObj (at_entry ty :: r)).
Proof. eexists _, _. split; [reflexivity|]. split; [reflexivity|]. split; reflexivity. Qed.

Lemma at_entry_ok ty : scalar_str ty -> json_ok (snd (at_entry ty)).
Proof. intros H. apply json_ok_obj. split.
  - repeat constructor; set_solver.
  - repeat constructor; simpl; try done; unfold scalar; lia. Qed.

(** literal strings are scalar strings *)
Lemma scalar_forallb s : forallb scalarb s = true -> scalar_str s.
Proof. intros H. apply Forall_forall. intros c Hc. apply elem_of_list_In in Hc.
  rewrite forallb_forall in H. apply scalarb_spec. auto. Qed.

Ltac scal := apply scalar_forallb; vm_compute; reflexivity.

Ltac fcons := apply List.Forall_cons; [split|].

Lemma jloads_dumps j : json_ok j -> jloads (dumps j) = Ok j.
Proof. intros H. unfold jloads. by rewrite loads_dumps. Qed.

(** ** C09 *)
Lemma ref_json_ok r : json_ok (r_class r) ->
  match r_loc r with Some l => scalar_str l | None => True end -> json_ok (ref_to_json_obj r).
Proof. intros H1 H2. apply json_ok_obj. split.
  - repeat constructor; set_solver.
  - fcons; [scal|apply at_entry_ok; scal|]. fcons; [scal|done|]. fcons; [scal|simpl; by destruct (r_loc r)|].
    apply List.Forall_nil. Qed.

Lemma ref_obj_roundtrip r : ref_from_json_obj (ref_to_json_obj r) = Ok r.
Proof. destruct r as [c [l|]]; reflexivity. Qed.

Lemma ref_roundtrip r : json_ok (r_class r) ->
  match r_loc r with Some l => scalar_str l | None => True end ->
  ref_from_json_str (ref_to_json_str r) = Ok r.
Proof. intros H1 H2. unfold ref_from_json_str, ref_to_json_str.
  rewrite jloads_dumps by by apply ref_json_ok. simpl. apply ref_obj_roundtrip. Qed.

(** only the four keys matter: any other members are ignored *)
Lemma ref_extra_keys (kvs : list (pystr * json)) (r : reference) :
  (forall k, In k [ps "@"; ps "class_name"; ps "location"] ->
     dget kvs k = match ref_to_json_obj r with JObj d => dget d k | _ => None end) ->
  ref_from_json_obj (JObj kvs) = Ok r.
Proof. intros H. pose proof (H (ps "@") (or_introl eq_refl)) as H1.
  pose proof (H (ps "class_name") (or_intror (or_introl eq_refl))) as H2.
  pose proof (H (ps "location") (or_intror (or_intror (or_introl eq_refl)))) as H3.
  unfold ref_from_json_obj, assert_type, check_serialized_version, jsub.
  rewrite H1, H2, H3. destruct r as [c [l|]]; reflexivity. Qed.

Lemma none_ref_iff r : is_none_reference r = true <-> r_loc r = Some none_location.
Proof. unfold is_none_reference. by rewrite bool_decide_eq_true. Qed.

Lemma hex_not_none (cls loc : pystr) : hex_text loc -> is_none_reference (ref_of cls loc) = false.
Proof. intros H. unfold is_none_reference. apply bool_decide_eq_false. simpl.
  intros [= ->]. inversion H as [|? ? Hc]; subst. lia. Qed.
