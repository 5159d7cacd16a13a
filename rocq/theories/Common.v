(** Model of common.py.

    [str(time.time())] is called at four places; the argument [now] gives the
    text for each of them.  [auto_create] is a bool (not None). *)
From Verif Require Import Base Path Json Refs Meta GitText Git State BlobCache ObjRef Objects.

Section Common.
  Context `{Env}.

  (** common.py 27-40, mapper/__init__.py 51-57 *)
  Definition tree_version_list_reference : reference := ref_of (ps "TreeVersionList") TREE_VERSION_LIST.
  Definition uuid_set_reference : reference := ref_of (ps "UUIDSet") UUID_SET.

  (** common.py 42-75 *)
  Definition get_top_level_metadata_objects (fuel : nat) (realm : pystr) : M pst (option (loc * loc)) :=
    mlet tvl <- new_obj (BVlist true []) (Some realm) (Some tree_version_list_reference);
    mlet us <- new_obj (BUset []) (Some realm) (Some uuid_set_reference);
    mtry (read_in fuel tvl ;;; read_in fuel us ;;; mret (Some (tvl, us)))
         (fun e => match e with RuntimeError => mret None | _ => mraise e end).

  (** [(version, path) in l.versions_and_prefix_paths()] *)
  Definition has_version (fuel : nat) (l : loc) (v : pystr) (p : ppath) : M pst bool :=
    mlet vps <- versions_and_prefix_paths fuel l;
    mret (bool_decide ((v, p) ∈ vps)).

  (** common.py 211-215, 256-260 *)
  Definition new_root_record (u : option uuid) (v : option pystr) : M pst loc :=
    mlet m <- new_obj (BMeta []) None None;
    mlet t <- new_obj (BNode LMeta []) None None;
    new_obj (BMrr u v (Some m) (Some t)) None None.

  (** [return None] in the middle of the function *)
  Definition obind {A B} (m : M pst (option A)) (k : A -> M pst (option B)) : M pst (option B) :=
    mlet x <- m; match x with Some a => k a | None => mret None end.
  Notation "'olet' x <- e1 ; e2" := (obind e1 (fun x => e2))
    (at level 60, x pattern, e1 at level 60, right associativity).

  (** common.py 186-192, 245-251: the version list of a dataset *)
  Definition dataset_version_list (fuel : nat) (us : loc) (u : uuid) (auto_create : bool) : M pst (option loc) :=
    mlet known <- uuids fuel us;
    if bool_decide (u ∈ known) then mlet x <- get_version_list fuel us u; mret (Some x)
    else if auto_create then
      mlet x <- new_obj (BVlist false []) None None;
      set_version_list us u x ;;; mret (Some x)
    else mret None.
  (** common.py 194-206, 231-243: the dataset tree of a version; an element
      that is no DatasetTree is not modelled *)
  Definition version_tree (fuel : nat) (tvl : loc) (v : pystr) (p : ppath) (t : pystr) (auto_create : bool)
    : M pst (option loc) :=
    mlet known <- has_version fuel tvl v p;
    if known : bool then
      mlet r <- get_versioned_element fuel tvl v p;
      match vr_elt r with ETree x => mret (Some x) | EMrr _ => mraise Unmodelled end
    else if auto_create then
      mlet x <- new_obj (BNode LMrr []) None None;
      set_versioned_element fuel tvl v t p (ETree x) ;;; mret (Some x)
    else mret None.
  (** common.py 208-218, 253-264: the root record of a dataset in the tree *)
  Definition tree_record (fuel : nat) (tree : loc) (p : ppath) (u : uuid) (v : pystr) (auto_create : bool)
    : M pst (option loc) :=
    mlet known <- dataset_in fuel tree p;
    if known : bool then get_metadata_root_record fuel tree p
    else if auto_create then
      mlet x <- new_root_record (Some u) (Some v);
      add_dataset fuel tree p x ;;; mret (Some x)
    else mret None.
  (** common.py 220-225, 266-271: the record in the version list *)
  Definition register_record (fuel : nat) (vl : loc) (v : pystr) (t : pystr) (p : ppath) (mrr : loc) : M pst unit :=
    mlet known <- has_version fuel vl v p;
    if known : bool then mret tt else set_versioned_element fuel vl v t p (EMrr mrr).

  (** common.py 144-273 for top nodes that are not None *)
  Definition get_metadata_root_record_from_top_nodes (fuel : nat) (tvl us : loc) (u : uuid) (v : pystr)
      (prefix tree_path : ppath) (root_u : option uuid) (root_v : option pystr)
      (auto_create : bool) (now : nat -> pystr) : M pst (option loc) :=
    let nopath := MetadataPath [AStr []] in
    olet tp <-
      (if bool_decide (tree_path = nopath) then
         olet tree <- version_tree fuel tvl v prefix (now 2) auto_create; mret (Some (tree, prefix))
       else
         match root_u, root_v with
         | Some ru, Some rv =>
             olet rvl <- dataset_version_list fuel us ru auto_create;
             olet tree <- version_tree fuel tvl rv prefix (now 0) auto_create;
             olet rm <- tree_record fuel tree nopath ru rv auto_create;
             register_record fuel rvl rv (now 1) prefix rm ;;;
             mret (Some (tree, nopath))
         | _, _ => mraise AssertionError
         end);
    let '(tree, prefix') := tp in
    olet vl <- dataset_version_list fuel us u auto_create;
    olet mrr <- tree_record fuel tree tree_path u v auto_create;
    register_record fuel vl v (now 3) prefix' mrr ;;;
    mret (Some mrr).

  (** common.py 78-141; None for (None, None, None).  A sub-dataset version
      must be given together with a sub-dataset id. *)
  Definition get_top_nodes_and_metadata_root_record (fuel : nat) (realm : pystr) (u : uuid) (v : pystr)
      (prefix tree_path : ppath) (sub_u : option uuid) (sub_v : option pystr)
      (auto_create : bool) (now : nat -> pystr) : M pst (option (loc * loc * option loc)) :=
    mlet top <- get_top_level_metadata_objects fuel realm;
    mlet top <- match top with
                | Some x => mret (Some x)
                | None =>
                    if auto_create then
                      mlet tvl <- new_obj (BVlist true []) None None;
                      mlet us <- new_obj (BUset []) None None;
                      mret (Some (tvl, us))
                    else mret None
                end;
    match top with
    | None => mret None
    | Some (tvl, us) =>
        mlet mrr <- match sub_u, sub_v with
                    | Some su, Some sv =>
                        get_metadata_root_record_from_top_nodes fuel tvl us su sv prefix tree_path
                          (Some u) (Some v) auto_create now
                    | None, _ =>
                        get_metadata_root_record_from_top_nodes fuel tvl us u v prefix tree_path
                          None None auto_create now
                    | Some _, None => mraise Unmodelled
                    end;
        mret (Some (tvl, us, mrr))
    end.
End Common.
