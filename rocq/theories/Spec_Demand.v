(** Specification vocabulary for C43: objects that are loaded on demand. *)
From Verif Require Import Base Path Refs Meta GitText Git Spec_Store State Objects Spec_Look Spec_Heap Spec_Versions Spec_Content Spec_Publish Common Spec_Common.

(** Contents made by the calls of [common.py]: nothing is missing, the entries of
    dataset trees are records under the name of records and trees otherwise, the
    elements of tree version lists are trees. *)
Record well_formed (c : content) : Prop := {
  wl_complete : complete c;
  wl_tree : forall p e lb, c p = Seen (LbNode LMrr) -> c (p ++ [KName e]) = Seen lb -> (e = root_record_name <-> exists i v, lb = LbMrr i v);
  wl_list : forall p rs v q lb, c p = Seen (LbVl true rs) -> c (p ++ [KVer v q]) = Seen lb -> lb = LbNode LMrr;
}.
(** An object that is not loaded.  The objects [O] of realm [r] hold its content. *)
Definition to_load (O : store) (r : pystr) (o : obj) : Prop :=
  h_realm (o_hdr o) = Some r /\ (forall m, o_body o = BMeta m -> m = []) /\
  exists ref, h_ref (o_hdr o) = Some ref /\ (is_none_reference ref = true \/ r ∈ h_saved (o_hdr o)) /\
    well_formed (look_stored O (kind_of (o_body o)) ref).
(** The objects of [D] are loaded and their parts fit, or they can be loaded. *)
Definition on_demand (O : store) (r : pystr) (D : loc -> Prop) (h : heap) : Prop :=
  forall x, D x -> exists o, h !! x = Some o /\
    if h_mapped (o_hdr o) then parts_fit D h (o_body o) else to_load O r o.
(** What a repository publishes is well formed. *)
Definition well_published (g : gstate) (r : pystr) : Prop := forall k ref,
  published g r k ref -> well_formed (look_stored (objs_of g r) k ref).

(** ** Sequences of calls *)
Record args : Type := Args {
  a_id : uuid; a_version : pystr; a_prefix : ppath; a_path : ppath;
  a_root : option (uuid * pystr);     (* id and version of the root dataset *)
}.
(** The path is a metadata path, has no part that is named like records, and for
    a sub-dataset the root dataset is given. *)
Definition proper (a : args) : Prop :=
  is_metadata_path (a_path a) /\ ~ In root_record_name (all_parts (a_path a)) /\ (a_path a = no_path \/ is_Some (a_root a)).
Section Asked.
  Context `{Env}.
  Definition ask (fuel : nat) (tvl us : loc) (a : args) (auto : bool) (now : nat -> pystr) : M pst (option loc) :=
    get_metadata_root_record_from_top_nodes fuel tvl us (a_id a) (a_version a) (a_prefix a) (a_path a) (option_map fst (a_root a)) (option_map snd (a_root a)) auto now.
  (** Calls with [auto_create] that return records, one after the other. *)
  Inductive asked (fuel : nat) (now : nat -> pystr) (tvl us : loc) (g : gstate) : pst -> list (args * loc) -> pst -> Prop :=
  | asked_nil s : asked fuel now tvl us g s [] s
  | asked_cons s a m s1 rest s' : exec (ask fuel tvl us a true now s) g = ((Ok (Some m), s1), g) -> asked fuel now tvl us g s1 rest s' ->
      asked fuel now tvl us g s ((a, m) :: rest) s'.
End Asked.
