(** Property theorems about histories of calls: C27. *)
From Verif Require Import Base Path Spec_Path Json Spec_Json Refs Meta Spec_Meta GitText Git Spec_Store State BlobCache ObjRef Objects Spec_Objects Spec_Look Spec_Heap
  Spec_Versions Spec_Write Spec_Content Spec_History HistoryFacts ContentCase HistoryCase Props_Write Props_Findings Props_Session.

(** C27: after any sequence of calls, unloading, writes and restarts of the
    process with one repository, every object shows what the calls amount to, and
    so does what a write of it stores, in any later process.  Missing: the [unget]
    calls and objects that are part of two objects, for which the statement is
    false, see [Props_Findings]; several repositories; changes of a UUID set that
    is not loaded; what a failed write leaves in the process that called it (a
    restart after a failed write is covered). *)
Theorem C27_history_partial : forall `{Env} (r : pystr), is_remote r = false -> r <> [] ->
  forall (es : list event) (s : pst) (g : gstate) (R : gset loc), history r es s g R ->
  exists C, accounts es R C /\ forall l, l ∈ R ->
    (forall (fuel : nat) (p : list key), fst (fst (exec (visit fuel l p s) g)) = Ok (C l p)) /\
    (forall (k : kd) (fuel : nat) (force : bool) (m : M pst reference) (ref : reference) (s' : pst) (g' : gstate),
       is_kind (s_heap s) l k -> k <> KdVl true -> writes fuel l (Some r) force m -> exec (m s) g = ((Ok ref, s'), g') ->
       forall (s2 : pst) (g2 : gstate) (fuel2 : nat) (p : list key), heap_ok s2 -> objs_of g' r ⊆ objs_of g2 r ->
       fst (fst (exec ((mlet a <- object_at k r ref; visit fuel2 a p) s2) g2)) = Ok (C l p)) /\
    (forall (fuel : nat) (force : bool) (ref : reference) (s' : pst) (g' : gstate),
       is_kind (s_heap s) l (KdVl true) -> exec (write_out fuel l (Some r) force s) g = ((Ok ref, s'), g') ->
       forall (s2 : pst) (g2 : gstate) (fuel2 : nat) (p : list key), heap_ok s2 -> objs_of g' r ⊆ objs_of g2 r ->
       fst (fst (exec ((mlet a <- object_at (KdVl true) r (Ref (JStr (ps "TreeVersionList")) (r_loc ref)); visit fuel2 a p) s2) g2)) = Ok (C l p)).
Proof. exact @history_lemma. Qed.
Print Assumptions C27_history_partial.

Section Case.
  Local Existing Instance check_env.
  Definition rx : run := run2 (ps "x").
  Definition ry : run := run2 (ps "y").
  Definition p_sub : ppath := path (ps "sub").
  Definition q_rec : list key := map KName (all_parts (record_path p_sub)).
  Definition q_ab : list key := q_rec ++ [KTree; KName (ps "a"); KName (ps "b")].
  (** metadata at a/b in a file tree; other metadata at the same path is refused *)
  Definition h0 : pst * gstate := (init_pst, gw).
  Definition h1 := next new_metadata h0.
  Definition h2 := next (metadata_add_run 9 0%N rx) h1.
  Definition h3 := next new_file_tree h2.
  Definition h4 := next (add_metadata 9 1%N p_ab 0%N) h3.
  Definition h5 := next new_metadata h4.
  Definition h6 := next (add_metadata 9 1%N p_ab 3%N) h5.
  (** the file tree in a root record, the root record in a dataset tree *)
  Definition h7 := next (new_mrr (Some u1) (Some (ps "v1")) None (Some 1%N)) h6.
  Definition h8 := next new_dataset_tree h7.
  Definition h9 := next (add_dataset 9 5%N p_sub 4%N) h8.
  Definition h10 := next (write_out 9 5%N (Some W) false) h9.
  Definition ref10 : reference := match out (write_out 9 5%N (Some W) false) h9 with Ok ref => ref | _ => Ref JNull None end.
  (** another process: the metadata at a/b is changed *)
  Definition h11 : pst * gstate := (init_pst, snd h10).
  Definition h12 := next (object_at (KdNode LMrr) W ref10) h11.
  Definition h13 := next (get_metadata_root_record 9 0%N p_sub) h12.
  Definition h14 := next (get_file_tree 9 2%N) h13.
  Definition h15 := next (get_metadata 9 3%N p_ab) h14.
  Definition h16 := next (metadata_add_run 9 5%N ry) h15.
  Definition h17 := next (write_out 9 0%N (Some W) false) h16.
  Definition ref17 : reference := match out (write_out 9 0%N (Some W) false) h16 with Ok ref => ref | _ => Ref JNull None end.
  Definition h18 := next (purge 9 0%N) h17.
  Definition h19 := next (visit 9 0%N q_ab) h18.
  Definition shown (x : res seen) : option (list json) := match x with Ok (Seen (LbMeta m)) => Some (values m) | _ => None end.
  Definition c10 : content := wrote W h10 (KdNode LMrr) ref10.
  Definition c17 : content := wrote W h17 (KdNode LMrr) ref17.
  Definition sn18 : seen := match out (visit 9 0%N q_ab) h18 with Ok sn => sn | Err _ => Absent end.
  Definition es9 : list event :=
    [ENew 0%N (LbMeta []); EOp 0%N [] (ORun rx) None true; ENew 1%N (LbNode LMeta); EOp 1%N [] (OAdd p_ab) (Some 0%N) true;
     ENew 3%N (LbMeta []); EOp 1%N [] (OAdd p_ab) (Some 3%N) false; ERecord 4%N u1 (ps "v1") None (Some 1%N); ENew 5%N (LbNode LMrr);
     EOp 5%N [] (OAdd (record_path p_sub)) (Some 4%N) true].
  Definition es19 : list event :=
    es9 ++ [EWrite 5%N c10; ERestart; EOpen 0%N c10; EUse; EUse; EUse; EOp 0%N q_ab (ORun ry) None true; EWrite 0%N c17; EUse; ESee 0%N q_ab sn18].
  Ltac inR := apply (bool_decide_unpack _); vm_compute; exact I.
  Ltac kind := apply kindb_ok; vm_compute; reflexivity.
  Lemma add_ok' st path y x c : is_metadata_path path -> negb (bool_decide (all_parts path = [])) && forallb storable_nameb (all_parts path) = true ->
    kindb (KdNode c) st y = true -> c <> LText -> kindb (leaf_kd c) st x = true -> op_ok (s_heap (fst st)) y (OAdd path) (Some x).
  Proof.
    intros Hp [Hn Hb]%andb_true_iff Hy Hc Hx. split; [done|]. split; [intros E; rewrite E in Hn; discriminate Hn|]. split; [|exists c; split; [by apply kindb_ok|right; split; [done|exists x; split; [done|by apply kindb_ok]]]].
    rewrite forallb_forall in Hb. apply List.Forall_forall. intros n Hi. by apply storable_nameb_ok, Hb.
  Qed.
  Lemma run_ok' st y c : scalar_strb c = true -> kindb KdMeta st y = true -> op_ok (s_heap (fst st)) y (ORun (run2 c)) None.
  Proof. intros Hc Hy. split; [by apply run2_ok|by apply kindb_ok]. Qed.
  Lemma rec_path_ok : is_metadata_path (record_path p_sub).
  Proof. exists [AStr (ps "sub"); AStr root_record_name]. vm_compute. reflexivity. Qed.
  Ltac vmr := vm_compute; reflexivity.
  Definition roots_of (es : list event) : gset loc := fold_left (fun R e => roots e R) es ∅.
  Definition at_ (n : nat) (st : pst * gstate) : Prop := hist W (take n es19) st (roots_of (take n es19)).
  Lemma hist9 : at_ 9 h9.
  Proof.
    assert (A0 : at_ 0 h0) by apply hist_start, fresh_init.
    assert (A1 : at_ 1 h1) by (refine (st_new _ _ _ _ _ _ _ A0 makes_metadata _); vmr).
    assert (A2 : at_ 2 h2) by (refine (st_op _ _ _ _ 9 0%N [] 0%N _ _ _ (Ok tt) A1 _ _ _ _ (call_run _ _ _) _); [inR|vmr|inR|by apply run_ok'|vmr]).
    assert (A3 : at_ 3 h3) by (refine (st_new _ _ _ _ _ _ _ A2 makes_file_tree _); vmr).
    assert (A4 : at_ 4 h4) by (refine (st_op _ _ _ _ 9 1%N [] 1%N _ _ _ (Ok tt) A3 _ _ _ _ (call_add_metadata _ _ _ _) _);
      [inR|vmr|inR|apply add_ok' with (c := LMeta); [apply path_ok|vmr|vmr|done|vmr]|vmr]).
    assert (A5 : at_ 5 h5) by (refine (st_new _ _ _ _ _ _ _ A4 makes_metadata _); vmr).
    assert (A6 : at_ 6 h6) by (refine (st_op _ _ _ _ 9 1%N [] 1%N _ _ _ (Err ValueError) A5 _ _ _ _ (call_add_metadata _ _ _ _) _);
      [inR|vmr|inR|apply add_ok' with (c := LMeta); [apply path_ok|vmr|vmr|done|vmr]|vmr]).
    assert (A7 : at_ 7 h7).
    { refine (hist_next _ _ _ _ _ _ A6 (do_record _ _ _ _ _ _ _ _ _ _ _ _ _ _ _ _ _ _ (x_next _ h6 (Ok 4%N) _)));
      [by apply uuid_okb_ok|by apply scalar_strb_ok|inR|inR|inR|done|by intros ? [= <-]; kind|vmr]. }
    assert (A8 : at_ 8 h8) by (refine (st_new _ _ _ _ _ _ _ A7 makes_dataset_tree _); vmr).
    refine (st_op _ _ _ _ 9 5%N [] 5%N _ _ _ (Ok tt) A8 _ _ _ _ (call_add_dataset _ _ _ _) _);
      [inR|vmr|inR|apply add_ok' with (c := LMrr); [apply rec_path_ok|vmr|vmr|done|vmr]|vmr].
  Qed.
  Lemma st_write_at n l k ref st st' c : st' = next (write_out 9 l (Some W) false) st -> c = wrote W st' k ref ->
    take (S n) es19 = take n es19 ++ [EWrite l c] -> roots_of (take (S n) es19) = roots_of (take n es19) -> at_ n st -> l ∈ roots_of (take n es19) ->
    kindb k st l = true -> k <> KdVl true -> out (write_out 9 l (Some W) false) st = Ok ref -> at_ (S n) st' /\ complete (wrote W st' k ref).
  Proof.
    intros -> -> He HR HA Hl Hk Hn Ho. unfold at_. rewrite He. rewrite He in HR. rewrite HR.
    refine (st_write W _ st _ 9 l k ref eq_refl _ HA Hl _ Hn Ho); [discriminate|by apply kindb_ok].
  Qed.
  Lemma h10_is : h10 = next (write_out 9 5%N (Some W) false) h9.
  Proof. reflexivity. Qed.
  Lemma c10_is : c10 = wrote W h10 (KdNode LMrr) ref10.
  Proof. reflexivity. Qed.
  Lemma es10_is : take 10 es19 = take 9 es19 ++ [EWrite 5%N c10].
  Proof. reflexivity. Qed.
  Lemma roots10_is : roots_of (take 10 es19) = roots_of (take 9 es19).
  Proof. inR. Qed.
  Lemma root5_in : 5%N ∈ roots_of (take 9 es19).
  Proof. inR. Qed.
  Lemma kind5_is : kindb (KdNode LMrr) h9 5%N = true.
  Proof. vmr. Qed.
  Lemma out10_is : out (write_out 9 5%N (Some W) false) h9 = Ok ref10.
  Proof. vmr. Qed.
  Lemma not_vl : KdNode LMrr <> KdVl true.
  Proof. discriminate. Qed.
  Lemma hist10 : at_ 10 h10 /\ complete (wrote W h10 (KdNode LMrr) ref10).
  Proof. exact (st_write_at 9 5%N (KdNode LMrr) ref10 h9 h10 c10 h10_is c10_is es10_is roots10_is hist9 root5_in kind5_is not_vl out10_is). Qed.
  Lemma hist11 : at_ 11 h11.
  Proof. exact (st_restart W (take 10 es19) h10 _ init_pst (fresh_init W) (proj1 hist10)). Qed.
  Lemma st_open_at n l k ref st st' c : st' = next (object_at k W ref) st -> c = wrote W st k ref -> complete c ->
    take (S n) es19 = take n es19 ++ [EOpen l c] -> roots_of (take (S n) es19) = {[l]} ∪ roots_of (take n es19) -> at_ n st ->
    (k = KdNode LMrr -> r_class ref <> JStr (ps "FileTree")) -> out (object_at k W ref) st = Ok l -> at_ (S n) st'.
  Proof.
    intros -> -> Hc He HR HA Hk Ho. unfold at_. rewrite He. rewrite He in HR. rewrite HR.
    exact (st_open W _ st _ k ref l HA Hc Hk Ho).
  Qed.
  Lemma same_objs st s k ref : wrote W st k ref = wrote W (s, snd st) k ref.
  Proof. reflexivity. Qed.
  Lemma h11_is : h11 = (init_pst, snd h10).
  Proof. reflexivity. Qed.
  Lemma h12_is : h12 = next (object_at (KdNode LMrr) W ref10) h11.
  Proof. reflexivity. Qed.
  Lemma c10_still : c10 = wrote W h11 (KdNode LMrr) ref10.
  Proof. rewrite h11_is. exact (eq_trans c10_is (same_objs h10 init_pst (KdNode LMrr) ref10)). Qed.
  Lemma c10_complete : complete c10.
  Proof. rewrite c10_is. exact (proj2 hist10). Qed.
  Lemma es12_is : take 12 es19 = take 11 es19 ++ [EOpen 0%N c10].
  Proof. reflexivity. Qed.
  Lemma roots12_is : roots_of (take 12 es19) = {[0%N]} ∪ roots_of (take 11 es19).
  Proof. inR. Qed.
  Lemma class10_is : KdNode LMrr = KdNode LMrr -> r_class ref10 <> JStr (ps "FileTree").
  Proof. intros _. vm_compute. discriminate. Qed.
  Lemma out12_is : out (object_at (KdNode LMrr) W ref10) h11 = Ok 0%N.
  Proof. vmr. Qed.
  Lemma hist12 : at_ 12 h12.
  Proof. exact (st_open_at 11 0%N (KdNode LMrr) ref10 h11 h12 c10 h12_is c10_still c10_complete es12_is roots12_is hist11 class10_is out12_is). Qed.
  Lemma hist16 : at_ 16 h16.
  Proof.
    pose proof hist12 as A12.
    assert (A13 : at_ 13 h13) by (refine (st_use W _ h12 _ 9 0%N [] 0%N _ _ _ A12 _ _ (use_record _ _ _) eq_refl); [inR|vmr]).
    assert (A14 : at_ 14 h14) by (refine (st_use W _ h13 _ 9 0%N q_rec 2%N _ _ _ A13 _ _ (use_tree _ _) eq_refl); [inR|vmr]).
    assert (A15 : at_ 15 h15) by (refine (st_use W _ h14 _ 9 0%N (q_rec ++ [KTree]) 3%N _ _ _ A14 _ _ (use_metadata _ _ _) eq_refl); [inR|vmr]).
    refine (st_op W _ h15 _ 9 0%N q_ab 5%N _ _ _ (Ok tt) A15 _ _ _ _ (call_run _ _ _) _); [inR|vmr|inR|by apply run_ok'|vmr].
  Qed.
  Lemma hist17 : at_ 17 h17.
  Proof. refine (proj1 (st_write_at 16 0%N (KdNode LMrr) ref17 h16 h17 c17 eq_refl eq_refl eq_refl _ hist16 _ _ _ _)); [inR|inR|vmr|discriminate|vmr]. Qed.
  Lemma hist19 : at_ 19 h19.
  Proof.
    assert (A18 : at_ 18 h18) by (refine (st_use W _ h17 _ 9 0%N [] 0%N _ _ _ hist17 _ _ (use_purge _ _) eq_refl); [inR|vmr]).
    refine (st_see W _ h18 _ 9 0%N q_ab sn18 A18 _ _); [inR|vmr].
  Qed.
  Lemma roots19 : roots_of es19 = {[0%N]}.
  Proof. apply (bool_decide_unpack _); vm_compute; exact I. Qed.
  Lemma shown19 : shown (out (visit 9 0%N q_ab) h19) = Some [Y].
  Proof. vmr. Qed.
  Lemma at_end : take 19 es19 = es19.
  Proof. reflexivity. Qed.
  Lemma at_history R : at_ 19 h19 -> roots_of es19 = R -> history W es19 (fst h19) (snd h19) R.
  Proof. unfold at_. rewrite at_end. intros HA <-. exact HA. Qed.
  Example C27_history_case : history W es19 (fst h19) (snd h19) {[0%N]} /\ shown (out (visit 9 0%N q_ab) h19) = Some [Y].
  Proof. exact (conj (at_history _ hist19 roots19) shown19). Qed.
End Case.
