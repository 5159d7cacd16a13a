(** Lemmas for the concrete case of [Props_History]. *)
From Verif Require Import Base Path Json Refs Meta Spec_Meta GitText Git Spec_Store State BlobCache ObjRef Objects Spec_Objects Spec_Look Spec_Heap
  Spec_Versions Spec_Write Spec_Content Spec_History HistoryFacts ContentCase.

Section Case.
  Context `{Env}.
  Definition out {A} (m : M pst A) (st : pst * gstate) : res A := fst (fst (exec (m (fst st)) (snd st))).
  Definition next {A} (m : M pst A) (st : pst * gstate) : pst * gstate := let '((_, s'), g') := exec (m (fst st)) (snd st) in (s', g').
  Lemma x_next {A} (m : M pst A) st a : out m st = a -> exec (m (fst st)) (snd st) = ((a, fst (next m st)), snd (next m st)).
  Proof. unfold out, next. destruct (exec (m (fst st)) (snd st)) as [[x s'] g']. cbn [fst snd]. by intros ->. Qed.
  Definition hist (r : pystr) (es : list event) (st : pst * gstate) (R : gset loc) : Prop := history r es (fst st) (snd st) R.
  Lemma hist_next r es st R e st' : hist r es st R -> does r (fst st) (snd st) R e (fst st') (snd st') -> hist r (es ++ [e]) st' (roots e R).
  Proof. apply hist_step. Qed.
  Definition kindb (k : kd) (st : pst * gstate) (x : loc) : bool :=
    match s_heap (fst st) !! x with Some o => bool_decide (kind_of (o_body o) = k) | None => false end.
  Lemma kindb_ok k st x : kindb k st x = true -> is_kind (s_heap (fst st)) x k.
  Proof. unfold kindb, is_kind. destruct (s_heap (fst st) !! x) as [o|]; [|done]. intros Hk%bool_decide_eq_true. eauto. Qed.
  Lemma written_complete r es st R l c st' : is_remote r = false -> r <> [] -> hist r es st R -> does r (fst st) (snd st) R (EWrite l c) (fst st') (snd st') -> l ∈ R -> complete c.
  Proof.
    intros Hrem Hr Hh Hd Hl. destruct (run_history r Hrem Hr _ _ _ _ Hh) as [HH _].
    destruct (step r Hrem Hr _ _ _ _ _ _ HH Hd) as [_ [_ HE]]. cbn in HE. apply (ContentFacts.complete_ext _ _ HE). apply (hd_able _ _ _ _ HH l Hl).
  Qed.
  Lemma fresh_init r : fresh r init_pst.
  Proof. split_and!; [by intros ? ? [=]|split; [apply NoDup_nil_2|by intros ? ? []]|done]. Qed.
  Lemma st_new r es st R lb m l : hist r es st R -> makes lb m -> out m st = Ok l -> hist r (es ++ [ENew l lb]) (next m st) (roots (ENew l lb) R).
  Proof. intros Hh Hm Ho. eapply hist_next; [done|]. eapply do_new; [done|]. by apply x_next. Qed.
  Lemma st_use r es st R fuel l p y A (m : M pst A) a : hist r es st R -> l ∈ R -> reach (s_heap (fst st)) l p = Some y -> use_call fuel y A m -> out m st = a -> hist r (es ++ [EUse]) (next m st) R.
  Proof. intros Hh Hl Hp Hm Ho. eapply (hist_next r es st R EUse); [done|]. eapply do_use; [done|done|done|]. by apply x_next. Qed.
  Lemma st_op r es st R fuel l p y o x m a : hist r es st R -> l ∈ R -> reach (s_heap (fst st)) l p = Some y -> given x ⊆ R ∖ {[l]} -> op_ok (s_heap (fst st)) y o x -> op_call fuel y o x m ->
    out m st = a -> hist r (es ++ [EOp l p o x (is_ok a)]) (next m st) (roots (EOp l p o x (is_ok a)) R).
  Proof. intros Hh Hl Hp Hx Hok Hm Ho. eapply hist_next; [done|]. eapply do_op; [done|done|done|done|done|]. by apply x_next. Qed.
  Definition wrote (r : pystr) (st : pst * gstate) (k : kd) (ref : reference) : content := look_stored (objs_of (snd st) r) k ref.
  Lemma st_write r es st R fuel l k ref : is_remote r = false -> r <> [] -> hist r es st R -> l ∈ R -> is_kind (s_heap (fst st)) l k -> k <> KdVl true ->
    out (write_out fuel l (Some r) false) st = Ok ref ->
    let st' := next (write_out fuel l (Some r) false) st in hist r (es ++ [EWrite l (wrote r st' k ref)]) st' R /\ complete (wrote r st' k ref).
  Proof.
    intros Hrem Hr Hh Hl Hk Hn Ho. cbv zeta.
    assert (Hd : does r (fst st) (snd st) R (EWrite l (wrote r (next (write_out fuel l (Some r) false) st) k ref)) (fst (next (write_out fuel l (Some r) false) st)) (snd (next (write_out fuel l (Some r) false) st))).
    { eapply do_write; [done|apply writes_any|done|done|]. by apply x_next. }
    split; [|by eapply written_complete]. by apply (hist_next r es st R (EWrite _ _)).
  Qed.
  Lemma st_restart r es st R s : fresh r s -> hist r es st R -> hist r (es ++ [ERestart]) (s, snd st) ∅.
  Proof. intros Hf Hh. apply (hist_next r es st R ERestart); [done|]. by apply do_restart. Qed.
  Lemma st_open r es st R k ref l : hist r es st R -> complete (wrote r st k ref) -> (k = KdNode LMrr -> r_class ref <> JStr (ps "FileTree")) -> out (object_at k r ref) st = Ok l ->
    hist r (es ++ [EOpen l (wrote r st k ref)]) (next (object_at k r ref) st) ({[l]} ∪ R).
  Proof. intros Hh Hc Hk Ho. apply (hist_next r es st R (EOpen _ _)); [done|]. eapply do_open; [done|done|]. by apply x_next. Qed.
  Lemma st_see r es st R fuel l p sn : hist r es st R -> l ∈ R -> out (visit fuel l p) st = Ok sn -> hist r (es ++ [ESee l p sn]) (next (visit fuel l p) st) R.
  Proof. intros Hh Hl Ho. apply (hist_next r es st R (ESee _ _ _)); [done|]. eapply do_see; [done|]. by apply x_next. Qed.
  Definition published_at (r : pystr) (st : pst * gstate) (ref : reference) : content := look_stored (objs_of (snd st) r) (KdVl true) (Ref (JStr (ps "TreeVersionList")) (r_loc ref)).
  Lemma st_publish r es st R fuel l ref : is_remote r = false -> r <> [] -> hist r es st R -> l ∈ R -> is_kind (s_heap (fst st)) l (KdVl true) ->
    out (write_out fuel l (Some r) false) st = Ok ref ->
    let st' := next (write_out fuel l (Some r) false) st in hist r (es ++ [EPublish l (published_at r st' ref)]) st' (R ∖ {[l]}) /\ complete (published_at r st' ref).
  Proof.
    intros Hrem Hr Hh Hl Hk Ho. cbv zeta. set (st' := next (write_out fuel l (Some r) false) st).
    assert (Hd : does r (fst st) (snd st) R (EPublish l (published_at r st' ref)) (fst st') (snd st')).
    { eapply do_publish; [done|done|]. by apply x_next. }
    split; [by apply (hist_next r es st R (EPublish _ _))|].
    destruct (run_history r Hrem Hr _ _ _ _ Hh) as [HH _]. destruct (step r Hrem Hr _ _ _ _ _ _ HH Hd) as [_ [_ HE]]. cbn in HE. apply (ContentFacts.complete_ext _ _ HE). apply (hd_able _ _ _ _ HH l Hl).
  Qed.
End Case.
Definition store_inb (O1 O2 : store) : bool := forallb (fun ko : pystr * gobj => bool_decide (O2 !! fst ko = Some (snd ko))) (map_to_list O1).
Lemma store_inb_ok O1 O2 : store_inb O1 O2 = true -> O1 ⊆ O2.
Proof.
  unfold store_inb. rewrite forallb_forall. intros HB. apply map_subseteq_spec. intros k o Hk. specialize (HB (k, o)). cbn [fst snd] in HB.
  apply (bool_decide_eq_true _). apply HB. apply elem_of_list_In. by apply elem_of_map_to_list.
Qed.
Lemma complete_grows (O1 O2 : store) k ref : O1 ⊆ O2 -> complete (look_stored O1 k ref) -> complete (look_stored O2 k ref).
Proof. intros HO HC. apply (ContentFacts.complete_ext (look_stored O1 k ref)); [|done]. intros p. apply LookFacts.look_stored_mono; [done|]. apply HC. Qed.
