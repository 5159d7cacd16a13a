(** Specification vocabulary for C21, C47, C50 and C51. *)
From Verif Require Import Base Path Refs Meta GitText Git State Objects Spec_Objects Spec_Look Spec_Content.
Section Spec.
  Context `{Env}.
  (** calls [set_version_list(dataset_id, version_list)] *)
  Definition set_lists (l : loc) (calls : list (uuid * loc)) : M pst unit :=
    miter (fun c => set_version_list l (fst c) (snd c)) calls.
  (** the runs that a metadata object holds (metadata.py 208-239) *)
  Definition runs_of (l : loc) : M pst metadata :=
    mlet o <- getobj l; match o_body o with BMeta m => mret m | _ => mraise AttributeError end.
  (** the length of a version list, and the runs of a metadata object, after it
      was loaded *)
  Definition loaded_len (fuel : nat) (l : loc) : M pst nat := ensure_mapped fuel l ;;; version_list_len l.
  Definition loaded_runs (fuel : nat) (l : loc) : M pst metadata := ensure_mapped fuel l ;;; runs_of l.
End Spec.
(** The list of the last call for this identifier; [before] without a call. *)
Fixpoint last_list (calls : list (uuid * loc)) (u : uuid) (before : option loc) : option loc :=
  match calls with
  | [] => before
  | c :: cs => last_list cs u (if decide (fst c = u) then Some (snd c) else before)
  end.
(** All root records have dataset level metadata. *)
Definition with_metadata (c : content) : Prop := forall p i v, c p = Seen (LbMrr i v) -> c (p ++ [KMeta]) <> Absent.
