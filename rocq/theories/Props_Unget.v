(** Property theorems about elements that are let go: C57, and more about C20 and
    C31. *)
From Verif Require Import Base Path Spec_Path Json Spec_Json Refs Meta Spec_Meta GitText Git Spec_Store State BlobCache ObjRef Objects Spec_Objects Spec_Look Spec_Heap
  Spec_Versions Spec_Write Spec_Content Spec_History Spec_Outcome Spec_Parts Spec_Unget ContentFacts ReadBackFacts UngetFacts HeapCase ContentCase OutcomeCase PartCase HistoryCase
  Props_Write Props_Findings Props_Content Props_Parts.

(** C57: [unget_versioned_element] with a destination that returns has written the
    element and removed it from memory; nothing else changes, and the content is
    the same. *)
Theorem C57_element_partial : forall `{Env} (r : pystr), is_remote r = false -> r <> [] ->
  forall (fuel : nat) (l : loc) (hx : hdr) (k : bool) (vs : pydict pystr (pydict ppath vrec)) (v : pystr) (p : ppath) (s : pst) (g : gstate) (s' : pst) (g' : gstate),
  fresh r s -> tidy (objs_of g r) r s l /\ one_realm r (s_heap s) l -> s_heap s !! l = Some (Obj hx (BVlist k vs)) -> h_mapped hx = true ->
  exec (unget_versioned_element fuel l v p (Some r) s) g = ((Ok tt, s'), g') ->
  exists vr, record_of vs v p = Some vr /\ let_go r l (elt_loc (vr_elt vr)) s g s' g'.
Proof. intros ?. exact unget_element_lemma. Qed.
Print Assumptions C57_element_partial.
(** The same for [unget_metadata], for metadata that is part of a tree, *)
Theorem C57_metadata_partial : forall `{Env} (r : pystr), is_remote r = false -> r <> [] ->
  forall (fuel : nat) (l : loc) (hx : hdr) (c : leafcls) (d : pydict pystr loc) (n : pystr) (x : loc) (s : pst) (g : gstate) (s' : pst) (g' : gstate),
  fresh r s -> tidy (objs_of g r) r s l /\ one_realm r (s_heap s) l -> s_heap s !! l = Some (Obj hx (BNode c d)) -> h_mapped hx = true ->
  dget d n = Some x -> exec (unget_metadata fuel x (Some r) s) g = ((Ok tt, s'), g') -> let_go r l x s g s' g'.
Proof. intros ?. exact unget_metadata_lemma. Qed.
Print Assumptions C57_metadata_partial.
(** and for [unget_version_list], for lists that have a realm. *)
Theorem C57_list_partial : forall `{Env} (r : pystr), is_remote r = false -> r <> [] ->
  forall (fuel : nat) (l : loc) (hx : hdr) (us : pydict uuid loc) (u : uuid) (x : loc) (ox : obj) (s : pst) (g : gstate) (s' : pst) (g' : gstate),
  fresh r s -> tidy (objs_of g r) r s l /\ one_realm r (s_heap s) l -> s_heap s !! l = Some (Obj hx (BUset us)) -> h_mapped hx = true ->
  dget us u = Some x -> s_heap s !! x = Some ox -> h_realm (o_hdr ox) = Some r ->
  exec (unget_version_list fuel l u s) g = ((Ok tt, s'), g') -> let_go r l x s g s' g'.
Proof. intros ?. exact unget_list_lemma. Qed.
Print Assumptions C57_list_partial.

(** Under the conditions of C35 and C51 these calls return, unless two objects
    have one id: for every record, *)
Theorem C57_element_returns : forall `{Env} (r : pystr), is_remote r = false -> r <> [] ->
  forall (fuel : nat) (l : loc) (hx : hdr) (k : bool) (vs : pydict pystr (pydict ppath vrec)) (v : pystr) (p : ppath) (vr : vrec) (s : pst) (g : gstate),
  fresh r s -> tidy (objs_of g r) r s l /\ one_realm r (s_heap s) l -> s_heap s !! l = Some (Obj hx (BVlist k vs)) -> h_mapped hx = true ->
  record_of vs v p = Some vr -> (forall t, vr_elt vr = ETree t -> look (objs_of g r) (s_heap s) t [] = Seen (LbNode LMrr)) -> removable r fuel (elt_loc (vr_elt vr)) s g ->
  (exists s' g', exec (unget_versioned_element fuel l v p (Some r) s) g = ((Ok tt, s'), g')) \/ collision r (elt_write_out fuel (vr_elt vr) (Some r)) s g.
Proof. intros ?. exact element_returns. Qed.
Print Assumptions C57_element_returns.
(** for every entry of a tree, *)
Theorem C57_metadata_returns : forall `{Env} (r : pystr), is_remote r = false -> r <> [] ->
  forall (fuel : nat) (l : loc) (hx : hdr) (c : leafcls) (d : pydict pystr loc) (n : pystr) (x : loc) (s : pst) (g : gstate),
  fresh r s -> tidy (objs_of g r) r s l /\ one_realm r (s_heap s) l -> s_heap s !! l = Some (Obj hx (BNode c d)) -> h_mapped hx = true ->
  dget d n = Some x -> removable r fuel x s g ->
  (exists s' g', exec (unget_metadata fuel x (Some r) s) g = ((Ok tt, s'), g')) \/ collision r (write_out fuel x (Some r) false) s g.
Proof. intros ?. exact metadata_returns. Qed.
Print Assumptions C57_metadata_returns.
(** and for every list that is in memory and was read or written before. *)
Theorem C57_list_returns : forall `{Env} (r : pystr), is_remote r = false -> r <> [] ->
  forall (fuel : nat) (l : loc) (hx : hdr) (us : pydict uuid loc) (u : uuid) (x : loc) (ox : obj) (s : pst) (g : gstate),
  fresh r s -> tidy (objs_of g r) r s l /\ one_realm r (s_heap s) l -> s_heap s !! l = Some (Obj hx (BUset us)) -> h_mapped hx = true ->
  dget us u = Some x -> s_heap s !! x = Some ox -> h_mapped (o_hdr ox) = true -> h_realm (o_hdr ox) = Some r -> removable r fuel x s g ->
  (exists s' g', exec (unget_version_list fuel l u s) g = ((Ok tt, s'), g')) \/ collision r (write_out fuel x (Some r) false) s g.
Proof. intros ?. exact list_returns. Qed.
Print Assumptions C57_list_returns.

(** C20: [get_versioned_elements] returns the records of the version, each once. *)
Theorem C20_elements : forall `{Env} (fuel : nat) (l : loc) (hx : hdr) (k : bool) (vs : pydict pystr (pydict ppath vrec)) (v : pystr) (s : pst) (g : gstate),
  s_heap s !! l = Some (Obj hx (BVlist k vs)) -> h_mapped hx = true -> well_keyed vs ->
  (forall p vr, record_of vs v p = Some vr -> exists o, s_heap s !! elt_loc (vr_elt vr) = Some o /\ h_mapped (o_hdr o) = true) ->
  (exists rs, exec (get_versioned_elements fuel l v s) g = ((Ok rs, s), g) /\ NoDup (map vr_path rs) /\ forall vr, In vr rs <-> record_of vs v (vr_path vr) = Some vr) \/
  (exec (get_versioned_elements fuel l v s) g = ((Err KeyError, s), g) /\ forall p, record_of vs v p = None).
Proof. intros ?. exact elements_lemma. Qed.
Print Assumptions C20_elements.

(** C31: the realms that are remote *)
Theorem C31_remote_realms : forall r : pystr, is_remote r = true <-> remote_realm r.
Proof. exact remote_realms_lemma. Qed.
Print Assumptions C31_remote_realms.
Example C31_realms_case : remote_realm (ps "ssh://h/x") /\ ~ remote_realm (ps "/ssh:/x").
Proof. split; [apply C31_remote_realms; reflexivity|]. intros Hx%C31_remote_realms. discriminate Hx. Qed.

Section Case.
  Local Existing Instance check_env.
  Lemma fresh5 : fresh W s5.
  Proof. destruct C24_case_hypotheses as (H1 & H2 & H3 & _). split; [apply H3|]. split; [exact H1|exact H2]. Qed.
  (** the version list of [s5] and its first record *)
  Definition f5 : pst := after (unget_versioned_element 9 1%N (ps "v1") (path []) (Some W)) s5 gw.
  Definition h5 : gstate := git_after (unget_versioned_element 9 1%N (ps "v1") (path []) (Some W)) s5 gw.
  Definition vl5 : hdr * bool * pydict pystr (pydict ppath vrec) :=
    match s_heap s5 !! 1%N with Some (Obj hx (BVlist k vs)) => (hx, k, vs) | _ => (Hdr None None false ∅, false, []) end.
  Lemma vl5_at : s_heap s5 !! 1%N = Some (Obj (fst (fst vl5)) (BVlist (snd (fst vl5)) (snd vl5))).
  Proof. vm_compute. reflexivity. Qed.
  Lemma tidy5 : tidy (objs_of gw W) W s5 1%N /\ one_realm W (s_heap s5) 1%N.
  Proof.
    split; [|apply one_realm_check; vm_compute; reflexivity]. apply (tidy_reach (objs_of gw W) W s5 [KUuid u0] 0%N 1%N (s5_tidy _)). vm_compute. reflexivity.
  Qed.
  Lemma ran5 : fst (fst (exec (unget_versioned_element 9 1%N (ps "v1") (path []) (Some W) s5) gw)) = Ok tt.
  Proof. vm_compute. reflexivity. Qed.
  Lemma ran_after {A} (m : M pst A) s g a : fst (fst (exec (m s) g)) = a -> exec (m s) g = ((a, after m s g), git_after m s g).
  Proof. unfold after, git_after. destruct (exec (m s) g) as [[x s'] g']. cbn. by intros ->. Qed.
  Example C57_case : exists vr, record_of (snd vl5) (ps "v1") (path []) = Some vr /\ let_go W 1%N (elt_loc (vr_elt vr)) s5 gw f5 h5.
  Proof.
    exact (C57_element_partial W eq_refl ltac:(discriminate) 9 1%N (fst (fst vl5)) (snd (fst vl5)) (snd vl5) (ps "v1") (path []) s5 gw f5 h5 fresh5 tidy5 vl5_at eq_refl (ran_after _ _ _ _ ran5)).
  Qed.
  Example C20_elements_case : exists rs, exec (get_versioned_elements 9 1%N (ps "v1") s5) gw = ((Ok rs, s5), gw) /\ length rs = 1%nat.
  Proof.
    assert (Hk : well_keyed (snd vl5)) by exact (td_keyed _ _ _ _ (proj1 tidy5) [] 1%N _ _ _ eq_refl vl5_at).
    assert (Hl : forall p vr, record_of (snd vl5) (ps "v1") p = Some vr -> exists o, s_heap s5 !! elt_loc (vr_elt vr) = Some o /\ h_mapped (o_hdr o) = true).
    { intros p vr Hp. destruct (decide (p = path [])) as [->|Hn].
      - vm_compute in Hp. injection Hp as <-. eexists. split; vm_compute; reflexivity.
      - exfalso. unfold record_of in Hp. vm_compute (dget (snd vl5) (ps "v1")) in Hp. cbn [dget] in Hp. case_decide as E; [|discriminate Hp]. apply Hn. rewrite <- E. vm_compute. reflexivity. }
    destruct (C20_elements 9 1%N (fst (fst vl5)) (snd (fst vl5)) (snd vl5) (ps "v1") s5 gw vl5_at eq_refl Hk Hl) as [(rs & He & _)|[_ Hx]].
    - exists rs. split; [exact He|]. assert (E : option_map (@length vrec) (match fst (fst (exec (get_versioned_elements 9 1%N (ps "v1") s5) gw)) with Ok x => Some x | Err _ => None end) = Some 1%nat) by (vm_compute; reflexivity).
      rewrite He in E. cbn in E. injection E as ->. reflexivity.
    - specialize (Hx (path [])). vm_compute in Hx. discriminate Hx.
  Qed.
  (** the version list of the set, after the set was written *)
  Lemma ran6 : fst (fst (exec (unget_version_list 9 0%N u0 s6) g6)) = Ok tt.
  Proof. vm_compute. reflexivity. Qed.
  Definition us6 : hdr * pydict uuid loc := match s_heap s6 !! 0%N with Some (Obj hx (BUset us)) => (hx, us) | _ => (Hdr None None false ∅, []) end.
  Definition x6 : obj := match s_heap s6 !! 1%N with Some o => o | None => Obj (Hdr None None false ∅) (BMeta []) end.
  Example C57_list_case : let_go W 0%N 1%N s6 g6 (after (unget_version_list 9 0%N u0) s6 g6) (git_after (unget_version_list 9 0%N u0) s6 g6).
  Proof.
    destruct C25_case_hypotheses as (H1 & H2 & _). destruct C24_case_hypotheses as (A1 & A2 & A3 & (o & A4 & A5) & A6 & _).
    assert (Hk : kind_of (o_body o) <> KdVl true) by (rewrite A5; done).
    destruct (C24_write_keeps_content W ltac:(done) eq_refl 9 0%N false wr s5 gw us_ref s6 g6 o (writes_any _ _ _ _) A1 A2 A3 A4 Hk A6) as (_ & _ & Hc & Hu & _).
    assert (E0 : s_heap s6 !! 0%N = Some (Obj (fst us6) (BUset (snd us6)))) by (vm_compute; reflexivity). assert (E1 : s_heap s6 !! 1%N = Some x6) by (vm_compute; reflexivity).
    assert (E2 : h_mapped (fst us6) = true) by (vm_compute; reflexivity). assert (E3 : dget (snd us6) u0 = Some 1%N) by (vm_compute; reflexivity). assert (E4 : h_realm (o_hdr x6) = Some W) by (vm_compute; reflexivity).
    exact (C57_list_partial W eq_refl ltac:(discriminate) 9 0%N (fst us6) (snd us6) u0 1%N x6 s6 g6 _ _ (conj (td_heap _ _ _ _ H1) (conj Hc Hu)) (conj H1 H2) E0 E2 E3 E1 E4 (ran_after _ _ _ _ ran6)).
  Qed.

  (** the metadata at "a" of the tree of C51 *)
  Definition t9 : hdr * leafcls * pydict pystr loc := match s_heap s9 !! 0%N with Some (Obj hx (BNode c d)) => (hx, c, d) | _ => (Hdr None None false ∅, LMeta, []) end.
  Definition a9 : loc := default 0%N (dget (snd t9) (ps "a")).
  Lemma t9_at : s_heap s9 !! 0%N = Some (Obj (fst (fst t9)) (BNode (snd (fst t9)) (snd t9))).
  Proof. vm_compute. reflexivity. Qed.
  Lemma a9_at : dget (snd t9) (ps "a") = Some a9.
  Proof. vm_compute. reflexivity. Qed.
  Lemma fresh9 : fresh W s9.
  Proof. destruct C51_case_hypotheses as (_ & H2 & H3 & H4 & _). split; [apply H4|]. split; [exact H2|exact H3]. Qed.
  Lemma able9 : tidy (objs_of gw W) W s9 0%N /\ one_realm W (s_heap s9) 0%N.
  Proof. destruct C51_case_hypotheses as (_ & _ & _ & H4 & H5 & _). exact (conj H4 H5). Qed.
  Lemma ran9 : fst (fst (exec (unget_metadata 9 a9 (Some W) s9) gw)) = Ok tt.
  Proof. vm_compute. reflexivity. Qed.
  Example C57_metadata_case : let_go W 0%N a9 s9 gw (after (unget_metadata 9 a9 (Some W)) s9 gw) (git_after (unget_metadata 9 a9 (Some W)) s9 gw).
  Proof.
    exact (C57_metadata_partial W eq_refl ltac:(discriminate) 9 0%N (fst (fst t9)) (snd (fst t9)) (snd t9) (ps "a") a9 s9 gw _ _ fresh9 able9 t9_at eq_refl a9_at (ran_after _ _ _ _ ran9)).
  Qed.
  (** these entries can be let go *)
  Example C57_returns_case : removable W 9 a9 s9 gw /\ removable W 9 1%N s5 gw /\ exists vr, record_of (snd vl5) (ps "v1") (path []) = Some vr /\ removable W 9 (elt_loc (vr_elt vr)) s5 gw.
  Proof.
    assert (H9 : removable W 9 a9 s9 gw).
    { split_and!; [eexists; vm_compute; reflexivity|apply settled_check; vm_compute; reflexivity|apply filled_check; vm_compute; reflexivity| |apply records_check; vm_compute; reflexivity|apply shallow_check; vm_compute; reflexivity].
      intros Hx. vm_compute in Hx. discriminate Hx. }
    assert (H5 : forall x, look (objs_of gw W) (s_heap s5) x [] <> Seen LbUs -> shallowb 9 (s_heap s5) x = true -> removable W 9 x s5 gw).
    { intros x Hx Hs. split_and!; [eexists; vm_compute; reflexivity|apply settled_check; vm_compute; reflexivity|apply filled_check; vm_compute; reflexivity|exact (fun Hy => match Hx Hy with end)|apply records_check; vm_compute; reflexivity|exact (shallow_check _ _ _ Hs)]. }
    split; [exact H9|]. split; [apply H5; [|vm_compute; reflexivity]; intros Hx; vm_compute in Hx; discriminate Hx|].
    eexists. split; [vm_compute; reflexivity|]. apply H5; [|vm_compute; reflexivity]. intros Hx. vm_compute in Hx. discriminate Hx.
  Qed.

  (** C57: a version list that was not written before has no realm and cannot be
      let go, *)
  Theorem C57_new_list_refuted : exists g : gstate,
    script g (mlet us <- new_uuid_set; mlet vl <- new_version_list; set_version_list us u0 vl ;;;
              attempt (unget_version_list 9 us u0)) = Ok (Some AssertionError).
  Proof. exists gw. vm_compute. reflexivity. Qed.
  Print Assumptions C57_new_list_refuted.
  (** and a version list that is not in memory cannot be let go again. *)
  Theorem C57_twice_refuted : exists (g : gstate) (s : pst),
    fst (fst (exec (unget_version_list 9 0%N u0 s) g)) = Ok tt /\
    fst (fst (exec ((unget_version_list 9 0%N u0 ;;; attempt (unget_version_list 9 0%N u0)) s) g)) = Ok (Some RuntimeError).
  Proof. exists g6, s6. split; vm_compute; reflexivity. Qed.
  Print Assumptions C57_twice_refuted.
End Case.
