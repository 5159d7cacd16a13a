(** Property theorems about getters and listings in histories: C17, C19, C58. *)
From Verif Require Import Base Path Spec_Path Json Spec_Json Refs Meta Spec_Meta GitText Git Spec_Store State BlobCache ObjRef Objects Spec_Objects Spec_Look Spec_Heap
  Spec_Versions Spec_Write Spec_Content Spec_History Spec_Getters GetterFacts ListingFacts HeapCase ContentCase HistoryCase Props_Write Props_Findings Props_Session Props_History Props_Settle Props_Compound Props_Top.

(** C58: in every history the getters of all parts of the objects, loaded or not,
    return what the earlier calls amount to.  The contents of the objects follow
    from the calls as in C27, the parts that getters return show what the content
    has there, and getters can be called on them in turn. *)
Theorem C58_getters : forall `{Env} (r : pystr), is_remote r = false -> r <> [] ->
  forall (es : list event) (s : pst) (g : gstate) (R : gset loc), history r es s g R ->
  exists C, accounts es R C /\ forall l, l ∈ R -> displays s g l (C l) /\
  forall (p : list key) (y : loc), reach (s_heap s) l p = Some y -> (exists c, displays s g y c) /\
  forall c, displays s g y c ->
  forall (fuel : nat) A (m : M pst A) P a s' g', getter fuel y c A m P -> exec (m s) g = ((a, s'), g') ->
  P s' g' a /\ history r (es ++ [EUse]) s' g' R.
Proof. exact @C58_lemma. Qed.
Print Assumptions C58_getters.

(** C17: in every history [get_paths_recursive] of a tree, loaded or not, lists
    exactly the paths with content, once each and with objects that show it, and
    the tree stays as it is.  Empty directories, files named "." and records
    without metadata are excluded ([listable]). *)
(** C19: and [dataset_paths] lists exactly the paths with a root record. *)
Theorem C17_history_partial : forall `{Env} (r : pystr), is_remote r = false -> r <> [] ->
  forall (es : list event) (s : pst) (g : gstate) (R : gset loc) (l : loc) (p : list key) (y : loc) (c : content) (cl : leafcls),
  history r es s g R -> l ∈ R -> reach (s_heap s) l p = Some y -> displays s g y c -> c [] = Seen (LbNode cl) -> listable c ->
  (exists k lb, c [k] = Seen lb) \/ (exists o, s_heap s !! y = Some o /\ h_mapped (o_hdr o) = true) ->
  (forall (fuel : nat) (inter : bool) a s' g', exec (get_paths_recursive fuel inter y s) g = ((a, s'), g') ->
     lists_paths fuel inter names c s' g' a /\ displays s' g' y c /\ history r (es ++ [EUse]) s' g' R) /\
  (forall (fuel : nat) a s' g', exec (dataset_paths fuel y s) g = ((a, s'), g') ->
     lists_paths fuel false (fun q => names (record_path q)) c s' g' a /\ displays s' g' y c /\ history r (es ++ [EUse]) s' g' R).
Proof. exact @listing_history. Qed.
Print Assumptions C17_history_partial.

Section Case.
  Local Existing Instance check_env.
  (** the file tree of the case of C27, see [C35_history_case] for the history:
      metadata at a/b, a directory at a, nothing at sub *)
  Definition p_a : ppath := MetadataPath [AStr (ps "a")].
  Lemma gets_ab : out (get_metadata 9 3%N p_ab) h16 = Ok (Some 5%N).
  Proof. vm_compute. reflexivity. Qed.
  Lemma gets_a : out (get_metadata 9 3%N p_a) h16 = Err AssertionError.
  Proof. vm_compute. reflexivity. Qed.
  Lemma gets_sub : out (get_metadata 9 3%N p_sub) h16 = Ok None.
  Proof. vm_compute. reflexivity. Qed.
  Example C58_getters_case : history W (take 16 es19) (fst h16) (snd h16) {[0%N]} /\ reach (s_heap (fst h16)) 0%N q_tree = Some 3%N /\
    out (get_metadata 9 3%N p_ab) h16 = Ok (Some 5%N) /\ out (get_metadata 9 3%N p_a) h16 = Err AssertionError /\ out (get_metadata 9 3%N p_sub) h16 = Ok None.
  Proof. exact (conj (proj1 C35_history_case) (conj case_tree (conj gets_ab (conj gets_a gets_sub)))). Qed.
  Ltac inR := apply (bool_decide_unpack _); vm_compute; exact I.
  Ltac vmr := vm_compute; reflexivity.
  (** a UUID set with a version list with a root record *)
  Definition k0 : pst * gstate := (init_pst, gw).
  Definition k1 := next new_uuid_set k0.
  Definition k2 := next new_version_list k1.
  Definition k3 := next (new_mrr (Some u1) (Some (ps "v1")) None None) k2.
  Definition k4 := next (set_versioned_element 9 1%N (ps "v1") (ps "1.0") (path (ps "d")) (EMrr 2%N)) k3.
  Definition k5 := next (set_version_list 0%N u1 1%N) k4.
  Definition es_k : list event := [ENew 0%N LbUs; ENew 1%N (LbVl false []); ERecord 2%N u1 (ps "v1") None None;
    EOp 1%N [] (OVersion (ps "v1") (ps "1.0") (path (ps "d")) false) (Some 2%N) true; EOp 0%N [] (OList u1) (Some 1%N) true].
  Definition at_k (n : nat) (st : pst * gstate) : Prop := hist W (take n es_k) st (roots_of (take n es_k)).
  Lemma hist_k : at_k 5 k5.
  Proof.
    assert (B0 : at_k 0 k0) by apply hist_start, fresh_init.
    assert (B1 : at_k 1 k1) by (refine (st_new _ _ _ _ _ _ _ B0 makes_uuid_set _); vmr).
    assert (B2 : at_k 2 k2) by (refine (st_new _ _ _ _ _ _ _ B1 makes_version_list _); vmr).
    assert (B3 : at_k 3 k3).
    { refine (hist_next _ _ _ _ _ _ B2 (do_record _ _ _ _ _ _ _ _ _ _ _ _ _ _ _ _ _ _ (x_next _ k2 (Ok 2%N) _)));
      [by apply uuid_okb_ok|by apply scalar_strb_ok|inR|inR|inR|done|done|vmr]. }
    assert (B4 : at_k 4 k4) by (refine (st_op _ _ k3 _ 9 1%N [] 1%N _ _ _ (Ok tt) B3 _ _ _ _ (call_version _ _ _ _ _ (EMrr 2%N)) _);
      [inR|vmr|inR|apply ver_ok with (k := false); [apply path_ok|vmr|vmr|vmr]|vmr]).
    refine (st_op _ _ k4 _ 9 0%N [] 0%N _ _ _ (Ok tt) B4 _ _ _ _ (call_list _ _ _ _) _); [inR|vmr|inR| |vmr].
    split; [by apply uuid_okb_ok|]. split; [exists 1%N; split; [done|by apply kindb_ok; vmr]|]. eexists _, _. split; vmr.
  Qed.
  Lemma reach_k : reach (s_heap (fst k5)) 0%N [KUuid u1] = Some 1%N.
  Proof. vmr. Qed.
  Lemma gets_uuids : out (uuids 9 0%N) k5 = Ok [u1].
  Proof. vmr. Qed.
  Lemma gets_list : out (get_version_list 9 0%N u1) k5 = Ok 1%N.
  Proof. vmr. Qed.
  Lemma gets_versions : out (versions_and_prefix_paths 9 1%N) k5 = Ok [(ps "v1", path (ps "d"))].
  Proof. vmr. Qed.
  Lemma gets_element : out (get_versioned_element 9 1%N (ps "v1") (path (ps "d"))) k5 = Ok (VRec (ps "1.0") (path (ps "d")) (EMrr 2%N)).
  Proof. vmr. Qed.
  Lemma gets_no_element : out (get_versioned_element 9 1%N (ps "v2") (path (ps "d"))) k5 = Err KeyError.
  Proof. vmr. Qed.
  Lemma gets_no_meta : out (get_dataset_level_metadata 9 2%N) k5 = Err AttributeError.
  Proof. vmr. Qed.
  Example C58_lists_case : at_k 5 k5 /\ reach (s_heap (fst k5)) 0%N [KUuid u1] = Some 1%N /\ out (uuids 9 0%N) k5 = Ok [u1] /\ out (get_version_list 9 0%N u1) k5 = Ok 1%N /\
    out (versions_and_prefix_paths 9 1%N) k5 = Ok [(ps "v1", path (ps "d"))] /\
    out (get_versioned_element 9 1%N (ps "v1") (path (ps "d"))) k5 = Ok (VRec (ps "1.0") (path (ps "d")) (EMrr 2%N)) /\
    out (get_versioned_element 9 1%N (ps "v2") (path (ps "d"))) k5 = Err KeyError /\ out (get_dataset_level_metadata 9 2%N) k5 = Err AttributeError.
  Proof. exact (conj hist_k (conj reach_k (conj gets_uuids (conj gets_list (conj gets_versions (conj gets_element (conj gets_no_element gets_no_meta))))))). Qed.
  (** the record of the case of C27 gets metadata, then the datasets are listed *)
  Definition i17 := next new_metadata h16.
  Definition i18 := next (set_dataset_level_metadata 9 2%N (Some 6%N)) i17.
  Definition es_i : list event := (take 16 es19 ++ [ENew 6%N (LbMeta [])]) ++ [EOp 0%N q_rec OMeta (Some 6%N) true].
  Lemma meta_ok st y x : kindb KdMrr st y = true -> kindb KdMeta st x = true -> op_ok (s_heap (fst st)) y OMeta (Some x).
  Proof. intros Hy Hx. split; [by apply kindb_ok|]. exists x. split; [done|by apply kindb_ok]. Qed.
  Definition roots_i : gset loc := roots (EOp 0%N q_rec OMeta (Some 6%N) true) (roots (ENew 6%N (LbMeta [])) {[0%N]}).
  Lemma hist_i17 : hist W (take 16 es19 ++ [ENew 6%N (LbMeta [])]) i17 (roots (ENew 6%N (LbMeta [])) {[0%N]}).
  Proof. refine (st_new _ _ h16 _ _ _ _ (proj1 C35_history_case) makes_metadata _). vmr. Qed.
  Lemma hist_i18 : history W es_i (fst i18) (snd i18) roots_i.
  Proof.
    refine (st_op W _ i17 _ 9 0%N q_rec 2%N OMeta (Some 6%N) _ (Ok tt) hist_i17 _ _ _ _ (call_meta _ _ _) _); [inR|vmr|inR|apply meta_ok; vmr|vmr].
  Qed.
  Lemma root_i : 0%N ∈ roots_i.
  Proof. inR. Qed.
  Lemma shows_root (h : heap) (x : loc) O : match h !! x with Some (Obj hx (BNode LMrr _)) => h_mapped hx | _ => false end = true ->
    look O h x [] = Seen (LbNode LMrr) /\ is_Some (h !! x) /\ exists o, h !! x = Some o /\ h_mapped (o_hdr o) = true.
  Proof.
    intros Hm. cbn [look]. destruct (h !! x) as [[hx b]|]; [|discriminate Hm]. destruct b as [| |c d| | |]; try discriminate Hm. destruct c; try discriminate Hm. cbn [o_hdr]. rewrite Hm.
    split; [done|]. split; by eexists.
  Qed.
  Definition shown_at (st : pst * gstate) (x : loc) : content := look (objs_of (snd st) W) (s_heap (fst st)) x.
  Definition rootb (st : pst * gstate) (x : loc) : bool := match s_heap (fst st) !! x with Some (Obj hx (BNode LMrr _)) => h_mapped hx | _ => false end.
  Definition listing_ok (es : list event) (st : pst * gstate) (R : gset loc) (x : loc) : Prop :=
    history W es (fst st) (snd st) R /\ x ∈ R /\ displays (fst st) (snd st) x (shown_at st x) /\ shown_at st x [] = Seen (LbNode LMrr) /\ listable (shown_at st x) /\
    exists o, s_heap (fst st) !! x = Some o /\ h_mapped (o_hdr o) = true.
  Lemma listing_check es st R x : history W es (fst st) (snd st) R -> x ∈ R -> rootb st x = true -> plainb (s_heap (fst st)) = true -> listing_ok es st R x.
  Proof.
    intros HH Hx Hb Hp. destruct (shows_root (s_heap (fst st)) x (objs_of (snd st) W) Hb) as (H1 & H2 & H3). split; [exact HH|]. split; [exact Hx|].
    split; [exact (history_displays W es (fst st) (snd st) R x [] x eq_refl ltac:(discriminate) HH Hx eq_refl)|]. split; [exact H1|]. split; [|exact H3]. exact (plain_listable _ _ _ Hp H2).
  Qed.
  Lemma root_check : rootb i18 0%N = true.
  Proof. vmr. Qed.
  Lemma plain_i : plainb (s_heap (fst i18)) = true.
  Proof. vmr. Qed.
  Lemma paths_i : out (get_paths_recursive 9 false 0%N) i18 = Ok [(record_path p_sub, 2%N)].
  Proof. vmr. Qed.
  Lemma datasets_i : out (dataset_paths 9 0%N) i18 = Ok [(p_sub, 2%N)].
  Proof. vmr. Qed.
  Example C17_history_case : listing_ok es_i i18 roots_i 0%N /\
    out (get_paths_recursive 9 false 0%N) i18 = Ok [(record_path p_sub, 2%N)] /\ out (dataset_paths 9 0%N) i18 = Ok [(p_sub, 2%N)].
  Proof. exact (conj (listing_check es_i i18 roots_i 0%N hist_i18 root_i root_check plain_i) (conj paths_i datasets_i)). Qed.
End Case.
