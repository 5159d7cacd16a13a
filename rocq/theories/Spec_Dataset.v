(** Specification vocabulary for C19: sequences of [add_dataset] calls. *)
From Verif Require Import Base Path Refs Meta GitText Git State Objects.
Section Spec.
  Context `{Env}.
  (** The calls in turn; an exception of a call is caught.  The result says
      which of them returned. *)
  Fixpoint add_datasets (fuel : nat) (l : loc) (calls : list (ppath * loc)) : M pst (list bool) :=
    match calls with
    | [] => mret []
    | (p, r) :: cs =>
        mlet b <- mtry (add_dataset fuel l p r ;;; mret true) (fun _ => mret false);
        mlet bs <- add_datasets fuel l cs;
        mret (b :: bs)
    end.
End Spec.
(** The finite map the calls make: the first record given for a path stays. *)
Definition record_dataset (m : pydict ppath loc) (c : ppath * loc) : pydict ppath loc :=
  match dget m (fst c) with Some _ => m | None => dset m (fst c) (snd c) end.
Definition datasets (calls : list (ppath * loc)) : pydict ppath loc := fold_left record_dataset calls [].
(** A call succeeds if no earlier call was for this path. *)
Fixpoint first_times (before : list ppath) (calls : list (ppath * loc)) : list bool :=
  match calls with
  | [] => []
  | (p, _) :: cs => negb (bool_decide (p ∈ before)) :: first_times (p :: before) cs
  end.
(** a metadata root record in memory *)
Definition record_at (h : heap) (x : loc) : Prop :=
  exists hx i v m t, h !! x = Some (Obj hx (BMrr i v m t)) /\ h_mapped hx = true.
