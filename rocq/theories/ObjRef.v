(** Model of gitmapper/objectreference.py.

    Realms are strings (pathlib.Path normalisation of a realm is not modelled).
    A Python set is a list without duplicates; its iteration order is
    [set_order]. *)
From Verif Require Import Base Json Refs GitText Git State Lock TreeUpd.

(** objectreference.py 19-24 *)
Definition TREE_VERSION_LIST : pystr := ps "refs/datalad/dataset-tree-version-list".
Definition UUID_SET : pystr := ps "refs/datalad/dataset-uuid-set".
Definition OBJECT_REFERENCES : pystr := ps "refs/datalad/object-references-2.0".
Definition LEGACY_TREES : pystr := ps "refs/datalad/object-references/trees".
Definition LEGACY_BLOBS : pystr := ps "refs/datalad/object-references/blobs".

(** [set.add] *)
Definition set_add {A} `{EqDecision A} (x : A) (l : list A) : list A :=
  if decide (x ∈ l) then l else l ++ [x].

(** objectreference.py 109-121: the four path elements of an object hash *)
Definition shard (h : pystr) : list pystr :=
  [take 3 h; take 3 (drop 3 h); take 3 (drop 6 h); drop 9 h].

Section ObjRef.
  Context `{Env}.

  Definition add_ref (t : etype) (h : pystr) : M pst unit :=
    mmod (fun s => with_orefs s (set_add (t, h) (s_orefs s))).

  (** objectreference.py 30-37 *)
  Definition add_object_reference (t : etype) (h : pystr) : M pst unit :=
    if decide (h = none_location) then mret tt else add_ref t h.
  (** objectreference.py 136-137, 140-141 *)
  Definition add_tree_reference (h : pystr) : M pst unit := add_object_reference Directory h.
  Definition add_blob_reference (h : pystr) : M pst unit := add_object_reference File h.

  (** objectreference.py 40-58; the lines are read before the loop starts, the
      loop can fail in the middle *)
  Definition add_legacy_store_entries_from (realm reference : pystr) (t : etype) : M pst bool :=
    mtry (mlet ls <- git_ls_tree realm reference;
          miter (fun l => mlet x <- mres (split_git_lstree_line l);
                          let '(_, _, h, _) := x in add_ref t h) ls ;;;
          mret true)
         (fun e => match e with RuntimeError => mret false | _ => mraise e end).

  (** objectreference.py 61-80 *)
  Definition add_legacy_store_entries (realm : pystr) : M pst (bool * bool) :=
    mlet checked <- mget s_legacy;
    if decide (realm ∈ checked) then mret (false, false)
    else
      mmod (fun s => with_legacy s (set_add realm (s_legacy s))) ;;;
      mlet t <- add_legacy_store_entries_from realm LEGACY_TREES Directory;
      mlet b <- add_legacy_store_entries_from realm LEGACY_BLOBS File;
      mret (t, b).

  (** objectreference.py 92-133 *)
  Definition flush_object_references (realm : pystr) : M pst unit :=
    mlet legacy <- add_legacy_store_entries realm;
    mlet refs <- mget s_orefs;
    (match refs with
     | [] => mret tt
     | _ =>
         mlet infos <- mres (rmap (fun th => mk_pathinfo (shard (snd th)) (snd th) (fst th))
                                  (set_order _ refs));
         locked_backend realm (
           mlet root <- mtry (get_dir realm OBJECT_REFERENCES)
                             (fun e => match e with RuntimeError => mret [] | _ => mraise e end);
           mlet tree_hash <- add_paths realm infos root;
           git_update_ref realm OBJECT_REFERENCES tree_hash) ;;;
         mmod (fun s => with_orefs s [])
     end) ;;;
    (if (fst legacy : bool) then git_delete_ref realm LEGACY_TREES else mret tt) ;;;
    (if (snd legacy : bool) then git_delete_ref realm LEGACY_BLOBS else mret tt).
End ObjRef.
