(** Checks of concrete stores, for the cases beside the theorems on objects that
    are loaded on demand. *)
From Verif Require Import Base BaseFacts Path Json Refs Meta Spec_Meta GitText Spec_Git Git State Objects Spec_Look Spec_Heap Spec_Versions Spec_Content HeapCase StoreFacts ContentCase Spec_Store BlobCache ObjRef Spec_Publish Common Spec_Common Spec_Demand.

(** labels of concrete stores: metadata without runs *)
Definition plainb (lb : label) : bool := match lb with LbMeta (_ :: _) => false | _ => label_okb lb end.
Definition tree_okb (lb : label) (x : key) (lb' : label) : bool :=
  match lb, x with
  | LbNode LMrr, KName e => match lb' with LbMrr _ _ => bool_decide (e = root_record_name) | _ => negb (bool_decide (e = root_record_name)) end
  | LbVl true _, KVer _ _ => match lb' with LbNode LMrr => true | _ => false end
  | _, _ => true
  end.
Fixpoint storedb (O : store) (n : nat) (k : kd) (ref : reference) : bool :=
  match n with
  | 0 => false
  | S n' =>
      match stored O k ref with
      | Err _ => false
      | Ok (b, ks) => plainb (label_of b) &&
          forallb (fun xi : key * loc => match part ks (snd xi) with
            | None => false
            | Some (k', ref') => is_ktree (fst xi) && hollow O k' ref' ||
                match stored O k' ref' with
                | Err _ => false
                | Ok (b', _) => part_okb (label_of b) (fst xi) (label_of b') && tree_okb (label_of b) (fst xi) (label_of b') && storedb O n' k' ref'
                end
            end) (kids_of b)
      end
  end.
Lemma plainb_ok lb : plainb lb = true -> label_ok lb.
Proof.
  destruct lb as [m|t|c|i v|k rs|].
  - destruct m; [intros _; constructor|done].
  - intros Hb. apply label_okb_ok; [exact Hb|intros *; discriminate].
  - intros Hb. apply label_okb_ok; [exact Hb|intros *; discriminate].
  - intros Hb. apply label_okb_ok; [exact Hb|intros *; discriminate].
  - intros Hb. apply label_okb_ok; [exact Hb|intros *; discriminate].
  - intros Hb. apply label_okb_ok; [exact Hb|intros *; discriminate].
Qed.
Lemma look_stored_nil O k ref : look_stored O k ref [] = match stored O k ref with Ok (b, _) => Seen (label_of b) | Err _ => Broken end.
Proof. simpl. destruct (stored O k ref) as [[b ks]|e]; done. Qed.
Lemma storedb_ok O : forall p n k ref, storedb O n k ref = true -> let c := look_stored O k ref in
  c p <> Broken /\ (forall lb, c p = Seen lb -> label_ok lb) /\
  (forall x lb', c (p ++ [x]) = Seen lb' -> exists lb, c p = Seen lb /\ part_ok lb x lb') /\
  (forall e lb, c p = Seen (LbNode LMrr) -> c (p ++ [KName e]) = Seen lb -> (e = root_record_name <-> exists i v, lb = LbMrr i v)) /\
  (forall rs v q lb, c p = Seen (LbVl true rs) -> c (p ++ [KVer v q]) = Seen lb -> lb = LbNode LMrr).
Proof.
  induction p as [|x p IH]; intros n k ref Hb c; (destruct n as [|n]; [discriminate|]); cbn [storedb] in Hb; subst c.
  - destruct (stored O k ref) as [[b ks]|e] eqn:Es; [|discriminate]. apply andb_true_iff in Hb as [Hl Hk]. rewrite forallb_forall in Hk.
    assert (H0 : look_stored O k ref [] = Seen (label_of b)) by (by rewrite look_stored_nil, Es).
    assert (H1 : forall x lb', look_stored O k ref [x] = Seen lb' -> part_okb (label_of b) x lb' = true /\ tree_okb (label_of b) x lb' = true).
    { intros x lb'. cbn [look_stored]. rewrite Es. destruct (dget (kids_of b) x) as [i|] eqn:Ed; [|discriminate]. apply dget_Some_In in Ed. specialize (Hk _ Ed). cbn [fst snd] in Hk.
      destruct (part ks i) as [[k' ref']|]; [|discriminate]. destruct (is_ktree x && hollow O k' ref'); [discriminate|]. cbn [orb] in Hk.
      destruct (stored O k' ref') as [[b' ks']|e']; [|discriminate]. intros [= <-]. apply andb_true_iff in Hk as [Hk _]. by apply andb_true_iff in Hk as [? ?]. }
    cbn [app]. split_and!.
    + rewrite H0. discriminate.
    + intros lb. rewrite H0. intros [= <-]. by apply plainb_ok.
    + intros x lb' Hx. exists (label_of b). split; [exact H0|]. apply part_okb_ok. by apply H1.
    + intros e lb. rewrite H0. intros [= Hlb] Hx. destruct (H1 _ _ Hx) as [_ Ht]. rewrite Hlb in Ht. cbn in Ht.
      destruct lb; try (apply negb_true_iff, bool_decide_eq_false in Ht; split; [done|intros (? & ? & ?); discriminate]).
      apply bool_decide_eq_true in Ht. split; eauto.
    + intros rs v q lb. rewrite H0. intros [= Hlb] Hx. destruct (H1 _ _ Hx) as [_ Ht]. rewrite Hlb in Ht. cbn in Ht. by destruct lb as [|?|[]| | |].
  - cbn [look_stored app]. destruct (stored O k ref) as [[b ks]|e] eqn:Es; [|discriminate]. apply andb_true_iff in Hb as [Hl Hk]. rewrite forallb_forall in Hk.
    destruct (dget (kids_of b) x) as [i|] eqn:Ed; [|split_and!; intros *; discriminate]. apply dget_Some_In in Ed. specialize (Hk _ Ed). cbn [fst snd] in Hk.
    destruct (part ks i) as [[k' ref']|]; [|discriminate]. destruct (is_ktree x && hollow O k' ref'); [split_and!; intros *; discriminate|]. cbn [orb] in Hk.
    destruct (stored O k' ref') as [[b' ks']|e']; [|discriminate]. apply andb_true_iff in Hk as [_ Hk]. exact (IH n k' ref' Hk).
Qed.
Lemma storedb_well_formed O n k ref : storedb O n k ref = true -> well_formed (look_stored O k ref).
Proof.
  intros Hb. constructor.
  - intros p. destruct (storedb_ok O p n k ref Hb) as (H1 & H2 & H3 & _). auto.
  - intros p e lb. destruct (storedb_ok O p n k ref Hb) as (_ & _ & _ & H4 & _). apply H4.
  - intros p rs v q lb. destruct (storedb_ok O p n k ref Hb) as (_ & _ & _ & _ & H5). apply H5.
Qed.
Definition publishedb (n : nat) (g : gstate) (r : pystr) : bool :=
  match refs_of g r !! TREE_VERSION_LIST with Some h => storedb (objs_of g r) n (KdVl true) (ref_of (ps "TreeVersionList") h) | None => true end &&
  match refs_of g r !! UUID_SET with Some h => storedb (objs_of g r) n KdUs (ref_of (ps "UUIDSet") h) | None => true end.
Lemma publishedb_ok n g r : publishedb n g r = true -> well_published g r.
Proof.
  unfold publishedb. intros [H1 H2]%andb_true_iff k ref (h & [(-> & Hh & ->)|(-> & Hh & ->)]).
  - rewrite Hh in H1. by eapply storedb_well_formed.
  - rewrite Hh in H2. by eapply storedb_well_formed.
Qed.
