(** Specification vocabulary for C55: from the repository to the repository. *)
From Verif Require Import Base Path Refs Meta GitText Git Spec_Store State ObjRef Objects Spec_Look Spec_Heap Spec_Versions Spec_Content Spec_Publish Common Spec_Common Spec_Demand Spec_History.

(** A version list may have more records than before, everything else is the same. *)
Definition grows (lb lb' : label) : Prop :=
  match lb, lb' with
  | LbVl k rs, LbVl k' rs' => k = k' /\ incl rs rs'
  | _, _ => lb = lb'
  end.
(** What is seen in [c] is still seen in [c']. *)
Definition within (c c' : content) : Prop := forall p lb, c p = Seen lb -> exists lb', c' p = Seen lb' /\ grows lb lb'.
(** What a repository publishes is well formed and has no empty trees. *)
Definition neat (g : gstate) (r : pystr) : Prop := forall k ref,
  published g r k ref -> well_formed (look_stored (objs_of g r) k ref) /\ full (look_stored (objs_of g r) k ref).
(** What a repository publishes of kind [k], as content: nothing if it does not. *)
Definition publishes (g : gstate) (r : pystr) (k : kd) (c : content) : Prop :=
  (exists ref, published g r k ref /\ forall q, c q = look_stored (objs_of g r) k ref q) \/
  ((forall ref, ~ published g r k ref) /\ forall q, c q = Absent).

(** ** What is new, exactly *)
(** A version list gets no other records than those of a new entry [k] of time [t]. *)
Definition adds (k : key) (t : pystr) (lb lb' : label) : Prop :=
  match lb, lb' with
  | LbVl kk rs, LbVl kk' rs' => kk = kk' /\ incl rs rs' /\
      forall v q t' b, In (v, q, t', b) rs' -> In (v, q, t', b) rs \/ (k = KVer v q /\ t' = t)
  | _, _ => lb = lb'
  end.
(** [c'] is [c] with the new part [n] at [Q ++ [k]]. *)
Record plus (Q : list key) (k : key) (t : pystr) (n c c' : content) : Prop := {
  pl_new : forall q, c' (Q ++ k :: q) = n q;
  pl_old : forall p, p <> Q -> ~ extends p (Q ++ [k]) -> c' p = c p;
  pl_here : exists lb lb', c Q = Seen lb /\ c' Q = Seen lb' /\ adds k t lb lb';
  pl_free : forall q, c (Q ++ k :: q) = Absent;
}.
(** The same, if there is no such part. *)
Definition with_part (Q : list key) (k : key) (t : pystr) (n c c' : content) : Prop :=
  ((exists lb, c (Q ++ [k]) = Seen lb) /\ forall q, c' q = c q) \/ plus Q k t n c c'.
(** Contents of new objects. *)
Definition only (lb : label) : content := fun q => match q with [] => Seen lb | _ => Absent end.
Definition new_record (u : uuid) (v : pystr) : content := fun q =>
  match q with [] => Seen (LbMrr (Some u) (Some v)) | [KMeta] => Seen (LbMeta []) | _ => Absent end.
(** From the contents [c1] of the tree version list and [c2] of the UUID set to
    those after a call with [auto_create] for a dataset [u] of version [v] at
    [p]: there is a dataset tree, a root record in it, a version list, and the
    record in the version list; [t] and [t'] are the times of the calls. *)
Definition recorded (u : uuid) (v : pystr) (p : ppath) (t t' : pystr) (c1 c2 c1' c2' : content) : Prop := exists a b,
  with_part [] (KVer v p) t (only (LbNode LMrr)) c1 a /\
  with_part [KVer v p] (KName root_record_name) [] (new_record u v) a c1' /\
  with_part [] (KUuid u) [] (only (LbVl false [])) c2 b /\
  with_part [KUuid u] (KVer v p) t' (fun q => c1' (KVer v p :: KName root_record_name :: q)) b c2'.
(** What a process starts with. *)
Definition starts (g : gstate) (r : pystr) (k : kd) (c : content) : Prop :=
  (exists ref, published g r k ref /\ forall q, c q = look_stored (objs_of g r) k ref q) \/
  ((forall ref, ~ published g r k ref) /\ forall q, c q = only (match k with KdVl b => LbVl b [] | _ => LbUs end) q).

(** ** Processes *)
(** Arguments that can be stored. *)
Definition askable (u : uuid) (v : pystr) (p : ppath) : Prop :=
  uuid_ok u /\ scalar_str v /\ is_metadata_path p /\ scalar_str (mp_as_posix p).
Definition times (now : nat -> pystr) : Prop := forall n, scalar_str (now n).
(** The references of both top nodes exist, or none of them. *)
Definition paired (g : gstate) (r : pystr) : Prop := refs_of g r !! TREE_VERSION_LIST = None <-> refs_of g r !! UUID_SET = None.
Section Rounds.
  Context `{Env}.
  (** A process that has not used the repository asks for the record of a
      dataset, with [auto_create], and writes both top nodes. *)
  Definition round (r : pystr) (g : gstate) (a : uuid * pystr * ppath) (g' : gstate) : Prop :=
    let '(u, v, p) := a in
    exists fuel f1 f2 now s tvl us m s1 g0 ref1 s2 g1 ref2 s3,
      fresh r s /\ askable u v p /\ times now /\
      exec (get_top_nodes_and_metadata_root_record fuel r u v p no_path None None true now s) g = ((Ok (Some (tvl, us, m)), s1), g0) /\
      exec (write_out f1 tvl (Some r) false s1) g0 = ((Ok ref1, s2), g1) /\
      exec (write_out f2 us (Some r) false s2) g1 = ((Ok ref2, s3), g').
  Inductive rounds (r : pystr) : gstate -> list (uuid * pystr * ppath) -> gstate -> Prop :=
  | rounds_nil g : rounds r g [] g
  | rounds_cons g a g1 l g' : round r g a g1 -> rounds r g1 l g' -> rounds r g (a :: l) g'.
End Rounds.
