(** Running a Python function alone: equations for [exec]. *)
From Verif Require Import Base BaseFacts Json Refs GitText Git GitFacts State.

Section Exec.
  Context `{Env} {S : Type}.
  Implicit Types (g : gstate) (s : S).

  Lemma x_ret {A} (a : A) s g : exec (mret a s) g = ((Ok a, s), g).
  Proof. done. Qed.
  Lemma x_raise {A} e s g : exec (mraise (A := A) e s) g = ((Err e, s), g).
  Proof. done. Qed.
  Lemma x_get {A} (f : S -> A) s g : exec (mget f s) g = ((Ok (f s), s), g).
  Proof. done. Qed.
  Lemma x_mod (f : S -> S) s g : exec (mmod f s) g = ((Ok tt, f s), g).
  Proof. done. Qed.
  Lemma x_res {A} (x : res A) s g : exec (mres x s) g = ((x, s), g).
  Proof. by destruct x. Qed.
  Lemma x_assert b s g : exec (massert b s) g = ((if b then Ok tt else Err AssertionError, s), g).
  Proof. by destruct b. Qed.
  Lemma x_bind {A B} (m : M S A) (f : A -> M S B) s g :
    exec (mbind m f s) g = match exec (m s) g with
                           | ((Ok a, s'), g') => exec (f a s') g'
                           | ((Err e, s'), g') => ((Err e, s'), g')
                           end.
  Proof. unfold mbind. rewrite exec_bind. by destruct (exec (m s) g) as [[[a|e] s'] g']. Qed.
  Lemma x_try {A} (m : M S A) (h : exn -> M S A) s g :
    exec (mtry m h s) g = match exec (m s) g with
                          | ((Ok a, s'), g') => ((Ok a, s'), g')
                          | ((Err e, s'), g') => exec (h e s') g'
                          end.
  Proof. unfold mtry. rewrite exec_bind. by destruct (exec (m s) g) as [[[a|e] s'] g']. Qed.
  Lemma x_finally {A} (m : M S A) (f : M S unit) s g :
    exec (mfinally m f s) g = let '((r, s'), g') := exec (m s) g in
                              match exec (f s') g' with
                              | ((Ok _, s''), g'') => ((r, s''), g'')
                              | ((Err e, s''), g'') => ((Err e, s''), g'')
                              end.
  Proof.
    unfold mfinally. rewrite exec_bind. destruct (exec (m s) g) as [[r s'] g'].
    rewrite exec_bind. cbn. by destruct (exec (f s') g') as [[[a|e] s''] g''].
  Qed.
  Lemma x_execute c s g : exec (execute c s) g = ((Ok (fst (git c g)), s), snd (git c g)).
  Proof. cbn. by destruct (git c g). Qed.
  Lemma x_checked c s g : exec (checked_execute c s) g =
    ((match fst (git c g) with Some out => stdout_lines out | None => Err RuntimeError end, s), snd (git c g)).
  Proof.
    unfold checked_execute. rewrite x_bind, x_execute. destruct (fst (git c g)) as [out|]; [by rewrite x_res|done].
  Qed.
End Exec.

(** ** Inversion: how a call returned *)
Section Inversion.
  Context `{Env} {S : Type}.
  Implicit Types (g : gstate) (s : S).
  Lemma xi_bind {A B} (m : M S A) (f : A -> M S B) s g b s' g' :
    exec (mbind m f s) g = ((Ok b, s'), g') ->
    exists a s1 g1, exec (m s) g = ((Ok a, s1), g1) /\ exec (f a s1) g1 = ((Ok b, s'), g').
  Proof. rewrite x_bind. destruct (exec (m s) g) as [[[a|e] s1] g1]; [eauto|done]. Qed.
  Lemma xi_ret {A} (a b : A) s g s' g' : exec (mret a s) g = ((Ok b, s'), g') -> a = b /\ s = s' /\ g = g'.
  Proof. by intros [= -> -> ->]. Qed.
  Lemma xi_raise {A} e (b : A) s g s' g' : exec (mraise e s) g = ((Ok b, s'), g') -> False.
  Proof. done. Qed.
  Lemma xi_res {A} (x : res A) b s g s' g' : exec (mres x s) g = ((Ok b, s'), g') -> x = Ok b /\ s = s' /\ g = g'.
  Proof. rewrite x_res. by intros [= -> -> ->]. Qed.
  Lemma xi_assert b (u : unit) s g s' g' : exec (massert b s) g = ((Ok u, s'), g') -> b = true /\ s = s' /\ g = g'.
  Proof. rewrite x_assert. destruct b; [|done]. intros HH. by inversion HH. Qed.
  Lemma xi_get {A} (f : S -> A) b s g s' g' : exec (mget f s) g = ((Ok b, s'), g') -> b = f s /\ s = s' /\ g = g'.
  Proof. by intros [= <- -> ->]. Qed.
  Lemma xi_mod (f : S -> S) (u : unit) s g s' g' : exec (mmod f s) g = ((Ok u, s'), g') -> s' = f s /\ g = g'.
  Proof. intros HH. by inversion HH. Qed.
End Inversion.
Section InversionState.
  Context `{Env}.
  Implicit Types (g : gstate) (s : pst).
  Lemma x_getobj l s g : exec (getobj l s) g = ((match s_heap s !! l with Some o => Ok o | None => Err Unmodelled end, s), g).
  Proof. unfold getobj. by destruct (s_heap s !! l). Qed.
  Lemma xi_getobj l o s g s' g' : exec (getobj l s) g = ((Ok o, s'), g') -> s_heap s !! l = Some o /\ s = s' /\ g = g'.
  Proof. rewrite x_getobj. destruct (s_heap s !! l); [|done]. by intros [= -> -> ->]. Qed.
  Lemma xi_setobj l o (u : unit) s g s' g' : exec (setobj l o s) g = ((Ok u, s'), g') -> s' = with_heap s (<[l := o]> (s_heap s)) /\ g = g'.
  Proof. intros HH. by inversion HH. Qed.
End InversionState.

(** One step, or as many as possible. *)
Ltac xi1 H :=
  lazymatch type of H with
  | exec (mbind _ _ _) _ = _ =>
      let a := fresh "v" in let s1 := fresh "s" in let g1 := fresh "g" in let H1 := fresh "X" in
      apply xi_bind in H as (a & s1 & g1 & H1 & H); cbn beta iota in H; try xi1 H1
  | exec (mret _ _) _ = _ =>
      let E1 := fresh "E" in let E2 := fresh "E" in let E3 := fresh "E" in
      apply xi_ret in H as (E1 & E2 & E3); try subst
  | exec (mraise _ _) _ = _ => exfalso; exact (xi_raise _ _ _ _ _ _ H)
  | exec (mres _ _) _ = _ =>
      let E1 := fresh "E" in let E2 := fresh "E" in let E3 := fresh "E" in
      apply xi_res in H as (E1 & E2 & E3); try subst
  | exec (massert _ _) _ = _ =>
      let E1 := fresh "E" in let E2 := fresh "E" in let E3 := fresh "E" in
      apply xi_assert in H as (E1 & E2 & E3); try subst
  | exec (mget _ _) _ = _ =>
      let E1 := fresh "E" in let E2 := fresh "E" in let E3 := fresh "E" in
      apply xi_get in H as (E1 & E2 & E3); try subst
  | exec (mmod _ _) _ = _ =>
      let E1 := fresh "E" in let E2 := fresh "E" in
      apply xi_mod in H as (E1 & E2); try subst
  | exec (getobj _ _) _ = _ =>
      let E1 := fresh "E" in let E2 := fresh "E" in let E3 := fresh "E" in
      apply xi_getobj in H as (E1 & E2 & E3); try subst
  | exec (setobj _ _ _) _ = _ =>
      let E1 := fresh "E" in let E2 := fresh "E" in
      apply xi_setobj in H as (E1 & E2); try subst
  end.
Ltac xi H := repeat xi1 H.
