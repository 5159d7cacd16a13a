(** Facts about [stored], [look_stored] and [look]. *)
From Verif Require Import Base BaseFacts Path Json Refs Meta GitText Spec_Git Git Spec_Store State BlobCache ObjRef Objects Spec_Look Spec_Heap WriteFacts LoadFacts PeekFacts TreeFacts.

(** ** More objects in the store *)
Lemma store_weaken (O O' : store) x o : O ⊆ O' -> O !! x = Some o -> O' !! x = Some o.
Proof. unfold store in *. intros HO E. exact (lookup_weaken O O' _ _ E HO). Qed.
Lemma load_text_mono (O O' : store) x t : O ⊆ O' -> load_text O x = Ok t -> load_text O' x = Ok t.
Proof.
  intros HO. unfold load_text. destruct (object_id x); [|done]. destruct (O !! x) eqn:E; [|done].
  by rewrite (store_weaken O O' _ _ HO E).
Qed.
Lemma load_lines_mono (O O' : store) x t : O ⊆ O' -> load_lines O x = Ok t -> load_lines O' x = Ok t.
Proof.
  intros HO. unfold load_lines. destruct (object_id x); [|done]. destruct (O !! x) eqn:E; [|done].
  by rewrite (store_weaken O O' _ _ HO E).
Qed.
Lemma rbind_inv {A B : Type} (x : res A) (f : A -> res B) b : rbind x f = Ok b -> exists a, x = Ok a /\ f a = Ok b.
Proof. destruct x; [|done]. cbn. eauto. Qed.
Ltac rstep H := let a := fresh "a" in let E := fresh "E" in apply rbind_inv in H as (a & E & H).
Lemma stored_mono (O O' : store) k ref t : O ⊆ O' -> stored O k ref = Ok t -> stored O' k ref = Ok t.
Proof.
  intros HO. unfold stored. destruct (is_none_reference ref); [done|]. destruct (jis_str _ _); [|done]. unfold stored_body.
  intros H. rstep H. rewrite E. cbn [rbind]. destruct k.
  all: rstep H; (rewrite (load_text_mono O O' _ _ HO E0) || rewrite (load_lines_mono O O' _ _ HO E0)); cbn [rbind]; try done.
  rstep H. rewrite E1. cbn [rbind]. rstep H. rewrite E2. cbn [rbind]. rstep H. rewrite (load_text_mono O O' _ _ HO E3). done.
Qed.
Lemma hollow_mono (O O' : store) k ref t : O ⊆ O' -> stored O k ref = Ok t -> hollow O' k ref = hollow O k ref.
Proof. intros HO Ht. unfold hollow. by rewrite Ht, (stored_mono O O' _ _ _ HO Ht). Qed.
Lemma look_stored_ok O k ref p : look_stored O k ref p <> Broken -> exists t, stored O k ref = Ok t.
Proof. destruct p; cbn [look_stored]; destruct (stored O k ref); eauto; done. Qed.
Lemma look_stored_mono (O O' : store) p : O ⊆ O' -> forall k ref, look_stored O k ref p <> Broken -> look_stored O' k ref p = look_stored O k ref p.
Proof.
  intros HO. induction p as [|x p IH]; intros k ref Hb; pose proof (look_stored_ok _ _ _ _ Hb) as [[b ks] Hs]; cbn [look_stored] in *;
    rewrite (stored_mono O O' _ _ _ HO Hs), Hs in *; [done|].
  destruct (dget (kids_of b) x) as [i|]; [|done]. destruct (part ks i) as [[k' ref']|]; [|done].
  destruct (is_ktree x) eqn:Ex; cbn [andb] in *; [|by apply IH].
  destruct (hollow O k' ref') eqn:Eh.
  - assert (hollow O' k' ref' = true) as ->; [|done]. unfold hollow in Eh. destruct (stored O k' ref') eqn:Es; [|done].
    rewrite (hollow_mono O O' k' ref' _ HO Es). unfold hollow. by rewrite Es.
  - pose proof (look_stored_ok _ _ _ _ Hb) as [t Ht]. rewrite (hollow_mono O O' _ _ _ HO Ht), Eh. by apply IH.
Qed.

(** ** References that stand for the same *)
Lemma stored_class O k r1 r2 : r_loc r1 = r_loc r2 -> jis_str (r_class r1) (type_name_of (empty_body k)) = true ->
  jis_str (r_class r2) (type_name_of (empty_body k)) = true -> stored O k r1 = stored O k r2.
Proof.
  intros Hl H1 H2.
  assert (r_class r1 = JStr (type_name_of (empty_body k))) as E1.
  { unfold jis_str in H1. destruct (r_class r1); try done. by apply bool_decide_eq_true in H1 as ->. }
  assert (r_class r2 = JStr (type_name_of (empty_body k))) as E2.
  { unfold jis_str in H2. destruct (r_class r2); try done. by apply bool_decide_eq_true in H2 as ->. }
  destruct r1, r2. cbn in *. by subst.
Qed.
Lemma stored_conv O k ref : is_none_reference ref = false -> stored O k (conv_ref ref) = stored O k ref.
Proof.
  intros Hn. unfold stored. assert (is_none_reference (conv_ref ref) = false) as ->.
  { unfold conv_ref. by destruct (_ || _). }
  rewrite Hn. assert (conv_ref (conv_ref ref) = conv_ref ref) as ->.
  { unfold conv_ref at 2 3. destruct (_ || _) eqn:E; [reflexivity|]. unfold conv_ref. by rewrite E. }
  unfold stored_body, ref_loc. assert (r_loc (conv_ref ref) = r_loc ref) as -> by (unfold conv_ref; by destruct (_ || _)). done.
Qed.
Lemma look_stored_eq O k r1 r2 p : stored O k r1 = stored O k r2 -> look_stored O k r1 p = look_stored O k r2 p.
Proof. intros E. destruct p; cbn [look_stored]; by rewrite E. Qed.

(** ** Moving the numbered parts of a template to addresses *)
Definition shift_elt (n : loc) (e : elt) : elt := match e with ETree i => ETree (n + i)%N | EMrr i => EMrr (n + i)%N end.
Definition shift_vs (n : loc) (vs : pydict pystr (pydict ppath vrec)) : pydict pystr (pydict ppath vrec) :=
  map (fun vp => (fst vp, map (fun pr => (fst pr, VRec (vr_time (snd pr)) (vr_path (snd pr)) (shift_elt n (vr_elt (snd pr))))) (snd vp))) vs.
Definition shift (n : loc) (b : body) : body :=
  match b with
  | BMeta m => BMeta m | BText t => BText t
  | BNode c d => BNode c (map (fun nl => (fst nl, (n + snd nl)%N)) d)
  | BMrr i v m t => BMrr i v (option_map (N.add n) m) (option_map (N.add n) t)
  | BVlist k vs => BVlist k (shift_vs n vs)
  | BUset us => BUset (map (fun nl => (fst nl, (n + snd nl)%N)) us)
  end.
Lemma shift_kids n b : kids_of (shift n b) = map (fun kl => (fst kl, (n + snd kl)%N)) (kids_of b).
Proof.
  destruct b as [m|t|c d|i v m t|k vs|us]; cbn [shift kids_of]; try done.
  - rewrite !map_map. done.
  - by destruct m, t.
  - unfold shift_vs. rewrite map_map, concat_map, map_map. f_equal. apply map_ext. intros [v d]. cbn. rewrite !map_map. apply map_ext.
    intros [p r]. cbn. by destruct (vr_elt r).
  - rewrite !map_map. done.
Qed.
Lemma shift_label n b : label_of (shift n b) = label_of b.
Proof.
  destruct b as [m|t|c d|i v m t|k vs|us]; cbn [shift label_of]; try done. f_equal.
  unfold vs_records, shift_vs. rewrite !map_map, !concat_map, !map_map. f_equal. apply map_ext. intros [v d]. cbn. rewrite !map_map. apply map_ext.
  intros [p r]. cbn. by destruct (vr_elt r).
Qed.
Lemma shift_kind n b : kind_of (shift n b) = kind_of b.
Proof. by destruct b. Qed.
Lemma dget_shift {K : Type} `{EqDecision K} n (d : pydict K loc) k : dget (map (fun kl => (fst kl, (n + snd kl)%N)) d) k = option_map (N.add n) (dget d k).
Proof. induction d as [|[k' v] d IH]; [done|]. cbn. by destruct (decide (k' = k)). Qed.
Lemma dset_shift {K : Type} `{EqDecision K} n (d : pydict K loc) k v : map (fun kl => (fst kl, (n + snd kl)%N)) (dset d k v) = dset (map (fun kl => (fst kl, (n + snd kl)%N)) d) k (n + v)%N.
Proof. induction d as [|[k' v'] d IH]; [done|]. cbn. destruct (decide (k' = k)); [done|]. cbn. by rewrite IH. Qed.
Definition shift_rec (n : loc) (r : vrec) : vrec := VRec (vr_time r) (vr_path r) (shift_elt n (vr_elt r)).
Lemma shift_vs_set n vs v p r : shift_vs n (vs_set vs v p r) = vs_set (shift_vs n vs) v p (shift_rec n r).
Proof.
  unfold shift_vs, vs_set. set (w := fun d : pydict ppath vrec => map (fun pr => (fst pr, shift_rec n (snd pr))) d).
  change (map (fun vp => (fst vp, w (snd vp))) (dset vs v (dset (match dget vs v with Some d => d | None => [] end) p r))
          = dset (map (fun vp => (fst vp, w (snd vp))) vs) v (dset (match dget (map (fun vp => (fst vp, w (snd vp))) vs) v with Some d => d | None => [] end) p (shift_rec n r))).
  rewrite (dset_map (fun x => x) w) by done. f_equal. rewrite (dget_map (fun x => x) w) by done.
  destruct (dget vs v) as [d|]; cbn [option_map]; unfold w at 1; rewrite (dset_map (fun x => x) (shift_rec n)) by done; done.
Qed.
