(** Specification vocabulary: two objects with one id, and object graphs that
    can be written. *)
From Verif Require Import Base Path Json Refs Meta GitText Git Spec_Store State BlobCache ObjRef Objects Spec_Look Spec_Heap Spec_Content.

Section Outcome.
  Context `{Env}.
  (** The objects that a command is to store. *)
  Definition given (c : cmd) : list gobj :=
    match c with
    | HashObject _ b => [Blob b]
    | HashFiles _ bs => map Blob bs
    | MkTree _ input => match mktree_input input with Some es => [Tree es] | None => [] end
    | _ => []
    end.
  (** The objects that a program gives to git, whether git accepts them or not. *)
  Fixpoint handed {A : Type} (p : prog A) (g : gstate) : list gobj :=
    match p with
    | Ret _ => []
    | Do c k => given c ++ handed (k (fst (git c g))) (snd (git c g))
    end.
  (** The blobs that wait in the cache of [r]. *)
  Definition waiting (r : pystr) (s : pst) : list pystr :=
    match dget (s_caches s) r with Some c => map fst (bc_objs c) | None => [] end.
  (** After the call, [o] is in the repository [r] under the id [x], or [x] is
      its id and it was given to git or waits in the cache. *)
  Definition claims {A : Type} (r : pystr) (m : M pst A) (s : pst) (g : gstate) (x : pystr) (o : gobj) : Prop :=
    objs_of (snd (exec (m s) g)) r !! x = Some o \/
    (x = oid o /\ (In o (handed (m s) g) \/ exists b, In b (waiting r (snd (fst (exec (m s) g)))) /\ o = Blob (utf8_bytes b))).
  (** One id for two objects. *)
  Definition collision {A : Type} (r : pystr) (m : M pst A) (s : pst) (g : gstate) : Prop :=
    exists x o1 o2, o1 <> o2 /\ claims r m s g x o1 /\ claims r m s g x o2.
End Outcome.

(** Directories in trees have entries. *)
Definition dirs_filled (c : content) : Prop := forall p n cl,
  c (p ++ [KName n]) = Seen (LbNode cl) -> exists k lb, c (p ++ [KName n; k]) = Seen lb.
(** A UUID set has entries. *)
Definition uuids_given (c : content) : Prop := c [] = Seen LbUs -> exists k lb, c [k] = Seen lb.
(** What is not loaded is marked as saved on [r]. *)
Definition settled (r : pystr) (h : heap) (l : loc) : Prop := forall p x o,
  reach h l p = Some x -> h !! x = Some o -> h_mapped (o_hdr o) = false -> r ∈ h_saved (o_hdr o).
(** The depth of the loaded part is below [n]. *)
Definition shallow (n : nat) (h : heap) (l : loc) : Prop := forall p x, reach h l p = Some x -> (length p < n)%nat.

(** The ways to write an object to [r]; a [FileTree] holds metadata. *)
Inductive fitting `{Env} (fuel : nat) (l : loc) (r : pystr) (force : bool) (c : content) : M pst reference -> Prop :=
| FitWrite : fitting fuel l r force c (write_out fuel l (Some r) force)
| FitFileTree : c [] = Seen (LbNode LMeta) -> fitting fuel l r force c (filetree_write_out fuel l (Some r) force)
| FitDatasetTree : c [] = Seen (LbNode LMrr) -> fitting fuel l r force c (datasettree_write_out fuel l (Some r) force).
