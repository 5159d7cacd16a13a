(** Specification vocabulary: programs that record and flush object references. *)
From Verif Require Import Base Refs GitText Spec_Git Git Spec_Store Rely State Lock ObjRef Spec_Tree Spec_ObjRef.

Section Flush.
  Context `{Env}.
  (** Record some references, then flush them into [realm]; any number of times. *)
  Definition flush_round (realm : pystr) (refs : list (etype * pystr)) : M pst unit :=
    miter (fun th => add_object_reference (fst th) (snd th)) refs ;;; flush_object_references realm.
  Definition flush_rounds (realm : pystr) (rounds : list (list (etype * pystr))) : M pst unit :=
    miter (flush_round realm) rounds.
  (** The same with a realm for every round. *)
  Definition flush_realms (rounds : list (pystr * list (etype * pystr))) : M pst unit :=
    miter (fun nr => flush_round (fst nr) (snd nr)) rounds.
End Flush.

(** Object ids. *)
Definition ids_ok (refs : list (etype * pystr)) : Prop := Forall (fun th => hex40 (snd th)) refs.
(** The process holds exactly the locks it has counted. *)
Definition locks_counted (X : gset pystr) (s : pst) : Prop :=
  forall n, n ∈ X <-> (0 < lock_counter s n)%nat.

(** A process that is about to work on repository [n]. *)
Definition begin_ok `{Env} (n : pystr) (s : pst) (g : gstate) : Prop :=
  is_remote n = false /\ good g /\ refs_readable g n /\ ids_ok (s_orefs s) /\ locks_counted (g_locks g) s.
(** A process that starts: it has no locks. *)
Definition starts `{Env} (n : pystr) (s : pst) (rounds : list (list (etype * pystr))) (p : process (res unit * pst)) : Prop :=
  p = Proc ∅ (Some (flush_rounds n rounds s)) /\ ids_ok (s_orefs s) /\ Forall ids_ok rounds /\
  forall m, lock_counter s m = 0%nat.
(** A process that has nothing more to do: it was killed, or it is finished. *)
Definition at_end {A : Type} (p : process A) : Prop :=
  match p_prog p with None => True | Some (Ret _) => True | Some (Do _ _) => False end.
