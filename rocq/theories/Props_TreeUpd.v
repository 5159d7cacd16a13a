(** Property theorems about tree updates: C36. *)
From Verif Require Import Base Json Refs GitText Spec_Git Git Spec_Store State Spec_Tree TreeUpd Spec_TreeUpd
  TreeUpdFacts TreeMergeFacts.

(** C36: reading a stored directory and adding paths to it. *)
Theorem C36_tree_update : forall `{Env} {S : Type} (n : pystr) (infos : list pathinfo) (h0 : pystr)
    (es : list tentry) (s : S) (g : gstate),
  is_remote n = false -> good g -> tree_of (objs_of g n) h0 = Some es -> Forall info_ok infos ->
  Forall (fun p => dirs_present (objs_of g n) (entry_at es) (pi_elements p)) infos ->
  update_outcome n infos es s g (exec ((mlet root <- get_dir n h0; add_paths n infos root) s) g).
Proof. exact @C36_lemma. Qed.
Print Assumptions C36_tree_update.

(** The same for a new directory. *)
Theorem C36_new_tree : forall `{Env} {S : Type} (n : pystr) (infos : list pathinfo) (s : S) (g : gstate),
  is_remote n = false -> good g -> Forall info_ok infos ->
  update_outcome n infos [] s g (exec (add_paths n infos [] s) g).
Proof. exact @C36_new_lemma. Qed.
Print Assumptions C36_new_tree.

(** A case: the directory holds a file [a], an executable [x] and a directory
    [d] with a file [y]; we add [d/z], [e/f/g] and replace [a]. *)
Section Case.
  Local Existing Instance real_env.
  Definition r0 : pystr := ps "/r".
  Definition hA : pystr := repeat 97%N 40.
  Definition hB : pystr := repeat 98%N 40.
  Definition tree_d : gobj := Tree [TE 33188 hA (ps "y")].
  Definition tree_0 : gobj := Tree [TE 33188 hA (ps "a"); TE 16384 (oid tree_d) (ps "d"); TE 33261 hA (ps "x")].
  Definition g0 : gstate :=
    GState {[ r0 := Repo (<[oid tree_d := tree_d]> (<[oid tree_0 := tree_0]> ∅)) ∅ ]} ∅.
  Definition infos0 : list pathinfo :=
    [PathI [ps "d"; ps "z"] hB File; PathI [ps "e"; ps "f"; ps "g"] hB Directory; PathI [ps "a"] hB File].
  Definition update0 (infos : list pathinfo) : res pystr * unit * gstate :=
    exec ((mlet root <- get_dir r0 (oid tree_0); add_paths r0 infos root) tt) g0.

  Example C36_case :
    let '(r, _, g') := update0 infos0 in
    match r with
    | Ok h => map (tree_path (objs_of g' r0) h)
                [[ps "d"; ps "z"]; [ps "d"; ps "y"]; [ps "e"; ps "f"; ps "g"]; [ps "a"]; [ps "x"]; [ps "d"; ps "q"]]
              = [Some (File, hB); Some (File, hA); Some (Directory, hB); Some (File, hB); Some (File, hA); None]
    | Err _ => False
    end.
  Proof. vm_compute. reflexivity. Qed.
  (** a path through a file, a change of kind, a path inside of another one *)
  Example C36_case_conflicts :
    map (fun i => fst (fst (update0 i)))
      [[PathI [ps "a"; ps "b"] hB File]; [PathI [ps "d"] hB File];
       [PathI [ps "q"] hB File; PathI [ps "q"; ps "r"] hB File]]
    = [Err ValueError; Err ValueError; Err ValueError].
  Proof. vm_compute. reflexivity. Qed.
  Example C36_case_ok : good g0 /\ Forall info_ok infos0 /\ is_remote r0 = false.
  Proof.
    assert (Hhex : forall c, (97 <= c <= 102)%N -> hex40 (repeat c 40)).
    { intros c Hc. split; [by rewrite repeat_length|]. apply List.Forall_forall. intros x Hx. apply repeat_spec in Hx.
      subst. right. lia. }
    split; [|split; [|done]].
    - intros n h o. unfold objs_of, g0. cbn [g_repos]. destruct (decide (n = r0)) as [->|Hn].
      + rewrite lookup_singleton. cbn [r_objs]. intros Hl.
        apply lookup_insert_Some in Hl as [[<- <-]|[_ Hl]].
        { split; [done|]. apply List.Forall_cons; [|constructor]. split; [apply Hhex; lia|].
          apply List.Forall_cons; [|constructor]. unfold name_byte. cbn. lia. }
        apply lookup_insert_Some in Hl as [[<- <-]|[_ Hl]]; [|by rewrite lookup_empty in Hl].
        split; [done|].
        assert (Hd : hex40 (oid tree_d)) by apply GitFacts.oid_hex.
        assert (HA : hex40 hA) by (apply Hhex; lia). clear Hhex.
        assert (Hw : forall c, (97 <= c <= 122)%N -> wf_name [c]).
        { intros c Hc. apply List.Forall_cons; [|constructor]. unfold name_byte. lia. }
        unfold tree_0. cbn [wf_obj]. apply List.Forall_cons; [|apply List.Forall_cons; [|apply List.Forall_cons; [|constructor]]].
        * split; [exact HA|apply Hw; cbn; lia].
        * split; [exact Hd|apply Hw; cbn; lia].
        * split; [exact HA|apply Hw; cbn; lia].
      + rewrite lookup_singleton_ne by done. by rewrite lookup_empty.
    - unfold infos0. assert (Hp : forall c, (97 <= c <= 122)%N -> plain_name [c]).
      { intros c Hc. split; [done|]. apply List.Forall_cons; [|constructor]. unfold plain_char. lia. }
      repeat (apply List.Forall_cons; [split; [done|]; split; [|apply Hhex; lia];
        repeat (apply List.Forall_cons; [apply Hp; cbn; lia|]); constructor|]). constructor.
  Qed.

  Lemma update_witness (u : res pystr * unit * gstate) (P : list tentry -> bool) :
    match u with
    | (Ok h, _, g') => match tree_of (objs_of g' r0) h with Some es => P es | None => false end
    | _ => false
    end = true ->
    exists h g' es, u = (Ok h, tt, g') /\ tree_of (objs_of g' r0) h = Some es /\ P es = true.
  Proof.
    destruct u as [[[h|e] []] g']; [|done]. intros Hu. exists h, g'.
    destruct (tree_of (objs_of g' r0) h) as [es|]; [|done]. eauto.
  Qed.
  (** Two limits of the code.  The modes of other entries are not kept: *)
  Theorem C36_modes_refuted : exists g infos h0 es h g' es' e,
    exec ((mlet root <- get_dir r0 h0; add_paths r0 infos root) tt) g = (Ok h, tt, g') /\
    tree_of (objs_of g r0) h0 = Some es /\ tree_of (objs_of g' r0) h = Some es' /\
    e ∈ es /\ (forall p, p ∈ infos -> head (pi_elements p) <> Some (te_name e)) /\ e ∉ es'.
  Proof.
    set (e := TE 33261 hA (ps "x")). exists g0, infos0, (oid tree_0).
    exists [TE 33188 hA (ps "a"); TE 16384 (oid tree_d) (ps "d"); e].
    pose proof (update_witness (update0 infos0) (fun es => bool_decide (e ∉ es))) as W.
    match type of W with ?A -> _ => assert (Hv : A) by (vm_compute; reflexivity) end. specialize (W Hv). clear Hv.
    unfold update0 in W. destruct W as (h & g' & es' & Hw & Ht & Hn). exists h, g', es', e.
    apply bool_decide_eq_true in Hn.
    split; [exact Hw|]. split; [vm_compute; reflexivity|]. split; [exact Ht|].
    split; [apply elem_of_list_In; right; right; left; reflexivity|]. split; [|exact Hn].
    intros p Hp. unfold infos0 in Hp. rewrite !elem_of_cons, elem_of_nil in Hp.
    by destruct Hp as [->|[->|[->|[]]]].
  Qed.
  (** A name that git quotes is not recognised; the tree gets two entries of
      that name. *)
  Theorem C36_quoted_names_refuted : exists g infos h0 h g' es',
    exec ((mlet root <- get_dir r0 h0; add_paths r0 infos root) tt) g = (Ok h, tt, g') /\
    tree_of (objs_of g' r0) h = Some es' /\ ~ NoDup (map te_name es').
  Proof.
    set (t := Tree [TE 33188 hA [0xC3; 0xA9]%N]).
    exists (GState {[ r0 := Repo {[ oid t := t ]} ∅ ]} ∅), [PathI [[0xE9]%N] hB File], (oid t).
    pose proof (update_witness (exec ((mlet root <- get_dir r0 (oid t); add_paths r0 [PathI [[0xE9]%N] hB File] root) tt)
        (GState {[ r0 := Repo {[ oid t := t ]} ∅ ]} ∅))
      (fun es => bool_decide (~ NoDup (map te_name es)))) as W.
    match type of W with ?A -> _ => assert (Hv : A) by (vm_compute; reflexivity) end. specialize (W Hv). clear Hv.
    destruct W as (h & g' & es' & Hw & Ht & Hn). exists h, g', es'.
    apply bool_decide_eq_true in Hn. split; [exact Hw|]. split; [exact Ht|exact Hn].
  Qed.
End Case.
Print Assumptions C36_modes_refuted.
Print Assumptions C36_quoted_names_refuted.
