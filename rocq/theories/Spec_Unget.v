(** Specification vocabulary for C57 and for remote realms (C31). *)
From Verif Require Import Base Path Refs Meta GitText Git Spec_Store State ObjRef Objects Spec_Look Spec_Heap Spec_Content Spec_History Spec_Outcome Spec_Parts.

(** The prefixes of C31. *)
Definition remote_realm (r : pystr) : Prop := exists scheme rest,
  In scheme [ps "git@"; ps "git:"; ps "http:"; ps "https:"; ps "ssh:"] /\ r = scheme ++ rest.

Section Unget.
  Context `{Env}.
  (** The part [x] of [l] was written to [r] and is no longer in memory: what
      can be seen in [l] and in [x] is the same as before, and objects that are
      not below [x] are untouched. *)
  Definition let_go (r : pystr) (l x : loc) (s : pst) (g : gstate) (s' : pst) (g' : gstate) : Prop :=
    fresh r s' /\ objs_of g r ⊆ objs_of g' r /\
    (forall q, look (objs_of g' r) (s_heap s') l q = look (objs_of g r) (s_heap s) l q) /\
    (exists ox, s_heap s' !! x = Some ox /\ h_mapped (o_hdr ox) = false) /\
    (forall fuel1 fuel2 q, exists sn, fst (fst (exec (visit fuel1 x q s) g)) = Ok sn /\ fst (fst (exec (visit fuel2 x q s') g')) = Ok sn) /\
    forall y, (forall p, reach (s_heap s) x p <> Some y) -> s_heap s' !! y = s_heap s !! y.
  (** The conditions of C35 and C51: the repository exists, what is not loaded is
      saved there, directories and UUID sets have entries, records have dataset
      level metadata, and loaded objects are nested less than [fuel]. *)
  Definition removable (r : pystr) (fuel : nat) (x : loc) (s : pst) (g : gstate) : Prop :=
    let c := look (objs_of g r) (s_heap s) x in
    is_Some (local_repo g r) /\ settled r (s_heap s) x /\ dirs_filled c /\ uuids_given c /\ with_metadata c /\ shallow fuel (s_heap s) x.
End Unget.
