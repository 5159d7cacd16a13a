(** Property theorems about writes of objects of histories: C35, C51,
    C57. *)
From Verif Require Import Base Path Spec_Path Json Spec_Json Refs Meta Spec_Meta GitText Git Spec_Store State BlobCache ObjRef Objects Spec_Objects Spec_Look Spec_Heap
  Spec_Versions Spec_Write Spec_Content Spec_Outcome Spec_Parts Spec_Unget Spec_History Spec_Settle SettleFacts OutcomeCase HeapCase ContentCase HistoryCase Props_Write Props_History.

(** C35: after any sequence of calls as in C27, every object that is in use can be
    written, if directories and UUID sets have entries and what is not loaded is
    not an empty tree.  It is sufficient that the recursion limit is above the
    number of objects.  The contents are those that the calls amount to, and those
    that are seen.  Missing: the statement fails for objects without entries (the
    [_refuted] theorems); two objects with one id. *)
Theorem C35_history_partial : forall `{Env} (r : pystr), is_remote r = false -> r <> [] ->
  forall (es : list event) (s : pst) (g : gstate) (R : gset loc), history r es s g R -> is_Some (local_repo g r) ->
  exists C, accounts es R C /\ (forall (l : loc) (fuel : nat) (p : list key), l ∈ R -> fst (fst (exec (visit fuel l p s) g)) = Ok (C l p)) /\
  forall l, l ∈ R -> referenced (s_heap s) l -> dirs_filled (C l) -> uuids_given (C l) ->
  forall (fuel : nat) (force : bool) (m : M pst reference), (size (s_heap s) < fuel)%nat -> fitting fuel l r force (C l) m ->
  (exists ref s' g', exec (m s) g = ((Ok ref, s'), g')) \/ collision r m s g.
Proof. exact @C35_history_lemma. Qed.
Print Assumptions C35_history_partial.

(** C35: objects that are not shared are nested less than there are objects. *)
Theorem C35_depth : forall (h : heap) (l : loc), unshared h l -> shallow (S (size h)) h l.
Proof. exact depth_lemma. Qed.
Print Assumptions C35_depth.

(** C51: after any sequence of calls as in C27, whatever part of an object was
    just written can be purged, if records have dataset level metadata and it is no
    tree version list, and shows the same content then. *)
Theorem C51_history_partial : forall `{Env} (r : pystr), is_remote r = false -> r <> [] ->
  forall (es : list event) (s : pst) (g : gstate) (R : gset loc), history r es s g R ->
  forall (l : loc) (p : list key) (y : loc) (k : kd), l ∈ R -> reach (s_heap s) l p = Some y -> is_kind (s_heap s) y k -> k <> KdVl true ->
  forall (fuel : nat) (force : bool) (m : M pst reference) (ref : reference) (s' : pst) (g' : gstate),
  writes fuel y (Some r) force m -> exec (m s) g = ((Ok ref, s'), g') -> with_metadata (look (objs_of g r) (s_heap s) y) ->
  forall (fuel2 : nat), (size (s_heap s) < fuel2)%nat ->
  exists s2 o2, exec (purge fuel2 y s') g' = ((Ok tt, s2), g') /\ s_heap s2 !! y = Some o2 /\ h_mapped (o_hdr o2) = false /\
    forall fuel1 fuel3 q, exists sn, fst (fst (exec (visit fuel1 y q s) g)) = Ok sn /\ fst (fst (exec (visit fuel3 y q s2) g')) = Ok sn.
Proof. exact @C51_history_lemma. Qed.
Print Assumptions C51_history_partial.

(** C57: after any sequence of calls as in C27, every element of a loaded version
    list, every entry of a loaded tree and every list of a loaded UUID set that is
    in memory and in the repository can be let go, under the conditions of C35 and
    C51. *)
Theorem C57_history_partial : forall `{Env} (r : pystr), is_remote r = false -> r <> [] ->
  forall (es : list event) (s : pst) (g : gstate) (R : gset loc), history r es s g R ->
  forall (l : loc) (p0 : list key) (y : loc) (fuel : nat), l ∈ R -> reach (s_heap s) l p0 = Some y -> (size (s_heap s) < fuel)%nat ->
  (forall hx k vs v p vr, s_heap s !! y = Some (Obj hx (BVlist k vs)) -> h_mapped hx = true -> record_of vs v p = Some vr ->
     (forall t, vr_elt vr = ETree t -> look (objs_of g r) (s_heap s) t [] = Seen (LbNode LMrr)) -> releasable r (elt_loc (vr_elt vr)) s g ->
     (exists s' g', exec (unget_versioned_element fuel y v p (Some r) s) g = ((Ok tt, s'), g') /\ let_go r y (elt_loc (vr_elt vr)) s g s' g') \/
     collision r (elt_write_out fuel (vr_elt vr) (Some r)) s g) /\
  (forall hx c d n x, s_heap s !! y = Some (Obj hx (BNode c d)) -> h_mapped hx = true -> dget d n = Some x -> releasable r x s g ->
     (exists s' g', exec (unget_metadata fuel x (Some r) s) g = ((Ok tt, s'), g') /\ let_go r y x s g s' g') \/ collision r (write_out fuel x (Some r) false) s g) /\
  (forall hx us u x ox, s_heap s !! y = Some (Obj hx (BUset us)) -> h_mapped hx = true -> dget us u = Some x -> s_heap s !! x = Some ox -> h_mapped (o_hdr ox) = true ->
     h_realm (o_hdr ox) = Some r -> releasable r x s g ->
     (exists s' g', exec (unget_version_list fuel y u s) g = ((Ok tt, s'), g') /\ let_go r y x s g s' g') \/ collision r (write_out fuel x (Some r) false) s g).
Proof. exact @C57_history_lemma. Qed.
Print Assumptions C57_history_partial.

Section Case.
  Local Existing Instance check_env.
  Definition referencedb (h : heap) : bool := forallb (fun lo : loc * obj => h_mapped (o_hdr (snd lo)) ||
    match h_ref (o_hdr (snd lo)) with Some ref => negb (is_none_reference ref) | None => true end) (entries h).
  Lemma referenced_check h l : referencedb h = true -> referenced h l.
  Proof.
    unfold referencedb. rewrite forallb_forall. intros Hb p x o ref _ Ho Hm Hr. apply entries_in in Ho. specialize (Hb _ Ho). cbn [snd] in Hb. rewrite Hm, Hr in Hb. by destruct (is_none_reference ref).
  Qed.
  Lemma case_history R : at_ 16 h16 -> roots_of (take 16 es19) = R -> history W (take 16 es19) (fst h16) (snd h16) R.
  Proof. unfold at_. intros HA <-. exact HA. Qed.
  Lemma case_roots : roots_of (take 16 es19) = {[0%N]}.
  Proof. apply (bool_decide_unpack _); vm_compute; exact I. Qed.
  Lemma case_filled : filledb (s_heap (fst h16)) = true.
  Proof. vm_compute. reflexivity. Qed.
  Lemma case_referenced : referencedb (s_heap (fst h16)) = true.
  Proof. vm_compute. reflexivity. Qed.
  Lemma case_repo : bool_decide (is_Some (local_repo (snd h16) W)) = true.
  Proof. vm_compute. reflexivity. Qed.
  Lemma case_size : size (s_heap (fst h16)) = 6%nat.
  Proof. vm_compute. reflexivity. Qed.
  Lemma case_out : out (write_out 7 0%N (Some W) false) h16 = Ok ref17.
  Proof. vm_compute. reflexivity. Qed.
  Lemma case_root : look (objs_of (snd h16) W) (s_heap (fst h16)) 0%N [] = Seen (LbNode LMrr).
  Proof. vm_compute. reflexivity. Qed.
  Lemma node_uuids (c : content) : c [] = Seen (LbNode LMrr) -> uuids_given c.
  Proof. intros E F. congruence. Qed.
  (** the dataset tree of the case of C27, read back and changed *)
  Example C35_history_case : history W (take 16 es19) (fst h16) (snd h16) {[0%N]} /\ is_Some (local_repo (snd h16) W) /\ referenced (s_heap (fst h16)) 0%N /\
    dirs_filled (look (objs_of (snd h16) W) (s_heap (fst h16)) 0%N) /\
    uuids_given (look (objs_of (snd h16) W) (s_heap (fst h16)) 0%N) /\ size (s_heap (fst h16)) = 6%nat /\ out (write_out 7 0%N (Some W) false) h16 = Ok ref17.
  Proof.
    exact (conj (case_history _ hist16 case_roots) (conj (bool_decide_eq_true_1 _ case_repo) (conj (referenced_check _ _ case_referenced)
      (conj (filled_check _ _ _ case_filled) (conj (node_uuids _ case_root) (conj case_size case_out)))))).
  Qed.
  (** the metadata that was changed, in the tree at a *)
  Definition q_a : list key := q_rec ++ [KTree; KName (ps "a")].
  Definition metab (h : heap) (x : loc) : bool := match h !! x with Some (Obj hx (BMeta _)) => h_mapped hx | _ => false end.
  Lemma meta_parts O h x : metab h x = true -> uuids_given (look O h x) /\ with_metadata (look O h x).
  Proof.
    unfold metab. intros Hm. destruct (h !! x) as [[hx []]|] eqn:E; try discriminate Hm. split.
    - intros F. cbn [look] in F. rewrite E in F. cbn [o_hdr o_body] in F. rewrite Hm in F. discriminate F.
    - intros [|k q] i v F; cbn [look] in F; rewrite E in F; cbn [o_hdr o_body] in F; rewrite Hm in F; discriminate F.
  Qed.
  Lemma case_reach : reach (s_heap (fst h16)) 0%N q_a = Some 4%N.
  Proof. vm_compute. reflexivity. Qed.
  Definition entryb (h : heap) (y : loc) (n : pystr) (x : loc) : bool :=
    match h !! y with Some (Obj hx (BNode _ d)) => h_mapped hx && bool_decide (dget d n = Some x) | _ => false end.
  Lemma entry_check h y n x : entryb h y n x = true -> exists hx c d, h !! y = Some (Obj hx (BNode c d)) /\ h_mapped hx = true /\ dget d n = Some x.
  Proof.
    unfold entryb. destruct (h !! y) as [[hx []]|]; try discriminate. intros [Hm Hd]%andb_true_iff. apply bool_decide_eq_true in Hd. by eexists _, _, _.
  Qed.
  Lemma case_entry : entryb (s_heap (fst h16)) 4%N (ps "b") 5%N = true.
  Proof. vm_compute. reflexivity. Qed.
  Lemma case_meta : metab (s_heap (fst h16)) 5%N = true.
  Proof. vm_compute. reflexivity. Qed.
  Lemma case_unget : is_ok (out (unget_metadata 7 5%N (Some W)) h16) = true.
  Proof. vm_compute. reflexivity. Qed.
  Lemma releasable_check st x : bool_decide (is_Some (local_repo (snd st) W)) = true -> referencedb (s_heap (fst st)) = true -> filledb (s_heap (fst st)) = true -> metab (s_heap (fst st)) x = true ->
    releasable W x (fst st) (snd st).
  Proof.
    intros H1 H2 H3 H4. destruct (meta_parts (objs_of (snd st) W) _ _ H4). split_and!; [by apply bool_decide_eq_true_1 in H1|by apply referenced_check|by apply filled_check|done|done].
  Qed.
  Example C57_history_case : reach (s_heap (fst h16)) 0%N q_a = Some 4%N /\
    (exists hx c d, s_heap (fst h16) !! 4%N = Some (Obj hx (BNode c d)) /\ h_mapped hx = true /\ dget d (ps "b") = Some 5%N) /\
    releasable W 5%N (fst h16) (snd h16) /\ is_ok (out (unget_metadata 7 5%N (Some W)) h16) = true.
  Proof.
    exact (conj case_reach (conj (entry_check _ _ _ _ case_entry) (conj (releasable_check h16 5%N case_repo case_referenced case_filled case_meta) case_unget))).
  Qed.
  (** the metadata is written and purged *)
  Definition w16 := next (write_out 7 5%N (Some W) false) h16.
  Lemma case_written : is_ok (out (write_out 7 5%N (Some W) false) h16) = true.
  Proof. vm_compute. reflexivity. Qed.
  Lemma case_purged : is_ok (out (purge 7 5%N) w16) = true.
  Proof. vm_compute. reflexivity. Qed.
  Lemma case_reach_b : reach (s_heap (fst h16)) 0%N q_ab = Some 5%N.
  Proof. vm_compute. reflexivity. Qed.
  Example C51_history_case : reach (s_heap (fst h16)) 0%N q_ab = Some 5%N /\ with_metadata (look (objs_of (snd h16) W) (s_heap (fst h16)) 5%N) /\
    is_ok (out (write_out 7 5%N (Some W) false) h16) = true /\ is_ok (out (purge 7 5%N) w16) = true.
  Proof. exact (conj case_reach_b (conj (proj2 (meta_parts _ _ _ case_meta)) (conj case_written case_purged))). Qed.
End Case.
