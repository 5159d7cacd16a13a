(** Specification vocabulary for C20: version lists as finite maps. *)
From Verif Require Import Base Path Refs Meta GitText Git State Objects.
(** Every record is filed under its version and its own prefix path. *)
Definition well_keyed (vs : pydict pystr (pydict ppath vrec)) : Prop :=
  NoDup (dkeys vs) /\ forall v d, In (v, d) vs -> NoDup (dkeys d) /\ forall p r, In (p, r) d -> vr_path r = p.
(** A call [set_versioned_element(version, time_stamp, path, element)]. *)
Record vcall := VCall { vc_version : pystr; vc_time : pystr; vc_path : ppath; vc_elt : elt }.
Definition call_record (c : vcall) : vrec := VRec (vc_time c) (vc_path c) (vc_elt c).
Section Spec.
  Context `{Env}.
  Definition set_elements (fuel : nat) (l : loc) (calls : list vcall) : M pst unit :=
    miter (fun c => set_versioned_element fuel l (vc_version c) (vc_time c) (vc_path c) (vc_elt c)) calls.
End Spec.
(** The record of the last call for this version and path; [before] without a call. *)
Fixpoint last_record (calls : list vcall) (v : pystr) (p : ppath) (before : option vrec) : option vrec :=
  match calls with
  | [] => before
  | c :: cs => last_record cs v p (if decide (vc_version c = v /\ vc_path c = p) then Some (call_record c) else before)
  end.
(** the record of a version list for a version and a path *)
Definition record_of (vs : pydict pystr (pydict ppath vrec)) (v : pystr) (p : ppath) : option vrec :=
  match dget vs v with Some d => dget d p | None => None end.
