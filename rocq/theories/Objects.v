(** Model of the object layer: modifiableobject.py, mappableobject.py,
    mtreenode.py, mtreeproxy.py, filetree.py, datasettree.py, text.py,
    metadata.py (state part), metadatarootrecord.py, versionlist.py, uuidset.py,
    mapper/mapper.py and the mappers in mapper/gitmapper.

    Simplifications.
    - A MTreeProxy (FileTree, DatasetTree) has no state besides its MTreeNode and
      is represented by the address of that node.
    - Functions that follow the object graph take a [fuel] argument, the stack
      depth that is left: Python raises RecursionError if it is used up.  The
      theorems hold for every fuel.
    - Generators are consumed completely; views of dictionaries are copied.
    - The backend type is "git"; logging is omitted.
    - If [Metadata.init_from_json] fails, no part of the document is kept. *)
From Verif Require Import Base Path Json Refs Meta GitText Git State BlobCache ObjRef.

Definition is_some {A} (x : option A) : bool := match x with Some _ => true | None => false end.
(** Python's truth of an optional string, and [a or b] *)
Definition truthy (x : option pystr) : bool := match x with Some (_ :: _) => true | _ => false end.
Definition or_else (a b : option pystr) : option pystr := if truthy a then a else b.

(** ** UUIDs (Python's uuid module) *)

(** [str(uuid)] *)
Definition uuid_str (u : uuid) : pystr :=
  take 8 u ++ ps "-" ++ take 4 (drop 8 u) ++ ps "-" ++ take 4 (drop 12 u) ++ ps "-"
  ++ take 4 (drop 16 u) ++ ps "-" ++ drop 20 u.
(** [UUID(hex)].  Texts of at least 32 characters with others than hexadecimal
    digits and hyphens ("urn:uuid:", braces, what int() allows) are not modelled. *)
Definition parse_uuid (s : pystr) : res uuid :=
  let t := List.filter (fun c => negb (c =? 45)%N) s in
  if (length t <? 32)%nat then Err ValueError
  else if forallb is_hex t then
    if (length t =? 32)%nat then Ok (map lower_hex t) else Err ValueError
  else Err Unmodelled.
(** [UUID(x)] for a decoded JSON value *)
Definition uuid_of_json (j : json) : res uuid :=
  match j with
  | JStr s => parse_uuid s
  | JNull => Err TypeError
  | _ => Err AttributeError
  end.

(** [type(x).__name__] *)
Definition leaf_name (c : leafcls) : pystr :=
  match c with LMeta => ps "Metadata" | LMrr => ps "MetadataRootRecord" | LText => ps "Text" end.
Definition type_name_of (b : body) : pystr :=
  match b with
  | BMeta _ => ps "Metadata"
  | BText _ => ps "Text"
  | BNode _ _ => ps "MTreeNode"
  | BMrr _ _ _ _ => ps "MetadataRootRecord"
  | BVlist false _ => ps "VersionList"
  | BVlist true _ => ps "TreeVersionList"
  | BUset _ => ps "UUIDSet"
  end.
(** [isinstance(x, MTreeNode)] *)
Definition is_node (o : obj) : bool := match o_body o with BNode _ _ => true | _ => false end.

(** The address that holds the state of an element of a version list. *)
Definition elt_loc (e : elt) : loc := match e with ETree m => m | EMrr r => r end.
(** versionlist.py 83-89: all records in order *)
Definition vs_records (vs : pydict pystr (pydict ppath vrec)) : list (pystr * vrec) :=
  concat (map (fun vp => map (fun pr => (fst vp, snd pr)) (snd vp)) vs).

(** [modifiable_sub_objects_impl]: metadata.py 249, text.py 33, mtreenode.py 37,
    metadatarootrecord.py 40-45, versionlist.py 91-94, uuidset.py 27-28 *)
Definition sub_objects (b : body) : list loc :=
  match b with
  | BMeta _ | BText _ => []
  | BNode _ d => dvals d
  | BMrr _ _ m t => match m with Some x => [x] | None => [] end ++ match t with Some x => [x] | None => [] end
  | BVlist _ vs => map (fun r => elt_loc (vr_elt (snd r))) (vs_records vs)
  | BUset us => dvals us
  end.

(** ** ModifiableObject *)

(** modifiableobject.py 38-50, mappableobject.py 71-85; [destination] None is in
    no set *)
Definition in_saved (o : obj) (destination : option pystr) : bool :=
  match destination with Some d => bool_decide (d ∈ h_saved (o_hdr o)) | None => false end.
Fixpoint all_saved (f : loc -> res bool) (ls : list loc) : res bool :=
  match ls with
  | [] => Ok true
  | l :: r => rlet b <- f l; if b : bool then all_saved f r else Ok false
  end.
Fixpoint saved_on (fuel : nat) (h : heap) (l : loc) (destination : option pystr) : res bool :=
  match fuel with
  | O => Err RecursionError
  | S f =>
      match h !! l with
      | None => Err Unmodelled
      | Some o =>
          if negb (in_saved o destination) then Ok false
          else if h_mapped (o_hdr o) then all_saved (fun x => saved_on f h x destination) (sub_objects (o_body o))
          else Ok true
      end
  end.
Definition is_saved_on (fuel : nat) (l : loc) (destination : option pystr) : M pst bool :=
  mlet h <- mget s_heap; mres (saved_on fuel h l destination).

(** Changes of single attributes. *)
Definition set_hdr (l : loc) (f : hdr -> hdr) : M pst unit :=
  mlet o <- getobj l; setobj l (Obj (f (o_hdr o)) (o_body o)).
Definition set_body (l : loc) (b : body) : M pst unit :=
  mlet o <- getobj l; setobj l (Obj (o_hdr o) b).
Definition hd_realm (r : option pystr) (x : hdr) : hdr := Hdr r (h_ref x) (h_mapped x) (h_saved x).
Definition hd_ref (r : option reference) (x : hdr) : hdr := Hdr (h_realm x) r (h_mapped x) (h_saved x).
Definition hd_mapped (b : bool) (x : hdr) : hdr := Hdr (h_realm x) (h_ref x) b (h_saved x).
Definition hd_saved (s : gset pystr) (x : hdr) : hdr := Hdr (h_realm x) (h_ref x) (h_mapped x) s.

(** modifiableobject.py 29-30, 35-36 *)
Definition touch (l : loc) : M pst unit := set_hdr l (hd_saved ∅).
(** modifiableobject.py 32-33 *)
Definition set_saved_on (l : loc) (d : pystr) : M pst unit := set_hdr l (fun x => hd_saved ({[d]} ∪ h_saved x) x).

(** ** Construction: modifiableobject.py 24-27, mappableobject.py 33-68 *)
Definition init_hdr (realm : option pystr) (ref : option reference) : res hdr :=
  rlet _ <- rassert (negb (is_some ref) || is_some realm);
  let saved := match ref with
               | Some r => if is_none_reference r then None else realm
               | None => None
               end in
  Ok (Hdr realm ref (negb (is_some ref))
          (match saved with Some (c :: d) => {[ c :: d ]} | _ => ∅ end)).
Definition new_obj (b : body) (realm : option pystr) (ref : option reference) : M pst loc :=
  mlet x <- mres (init_hdr realm ref); alloc (Obj x b).
(** [get_empty_instance] of the leaf classes *)
Definition empty_leaf (c : leafcls) : body :=
  match c with LMeta => BMeta [] | LMrr => BMrr None None None None | LText => BText None end.

(** ** Purging *)

(** mappableobject.py 204-212 with [rec] for the recursive calls; [purge_impl]:
    metadata.py 246, text.py 36, mtreenode.py 40-43, metadatarootrecord.py 47-53,
    versionlist.py 65-69, uuidset.py 30-33 *)
Definition purge_impl (rec : loc -> M pst unit) (l : loc) : M pst unit :=
  mlet o <- getobj l;
  match o_body o with
  | BMeta _ => set_body l (BMeta [])
  | BText _ => set_body l (BText None)
  | BNode c d => miter rec (dvals d) ;;; set_body l (BNode c [])
  | BMrr i v m t =>
      match m with
      | None => mraise AttributeError
      | Some x =>
          rec x ;;;
          match t with Some y => rec y | None => mret tt end ;;;
          set_body l (BMrr i v None None)
      end
  | BVlist k vs => miter (fun r => rec (elt_loc (vr_elt (snd r)))) (vs_records vs) ;;; set_body l (BVlist k [])
  | BUset us => miter rec (dvals us) ;;; set_body l (BUset [])
  end.
Fixpoint purge (fuel : nat) (l : loc) : M pst unit :=
  match fuel with
  | O => mraise RecursionError
  | S f =>
      mlet o <- getobj l;
      if h_mapped (o_hdr o) then
        if decide (h_saved (o_hdr o) = ∅) then mraise ValueError
        else purge_impl (purge f) l ;;; set_hdr l (hd_mapped false)
      else mret tt
  end.

Section Objects.
  Context `{Env}.

  (** [reference.location] as argument of a git command *)
  Definition loc_of (r : reference) : M pst pystr :=
    match r_loc r with Some x => mret x | None => mraise TypeError end.

  (** ** Reading *)

  (** mtreenodemapper.py 30-48 *)
  Definition map_in_line (l : loc) (c : leafcls) (realm : pystr) (line : pystr) : M pst unit :=
    mlet x <- mres (read_tree_line line);
    let '(node_type, h, name) := x in
    mlet child <-
      (if bool_decide (node_type = ps "tree") then
         new_obj (BNode c []) (Some realm) (Some (ref_of (ps "MTreeNode") h))
       else if bool_decide (node_type = ps "blob") then
         new_obj (empty_leaf c) (Some realm) (Some (ref_of (leaf_name c) h))
       else mraise ValueError);
    mlet o <- getobj l;
    match o_body o with
    | BNode c' d => set_body l (BNode c' (dset d name child))
    | _ => mraise Unmodelled
    end.

  (** versionlistmapper.py 31-51: one association *)
  Definition map_in_assoc (realm : pystr) (j : json) : M pst (pystr * vrec) :=
    mlet rj <- mres (jsub j (ps "dataset_tree"));
    mlet ref <- mres (ref_from_json_obj rj);
    mlet e <-
      (if jis_str (r_class ref) (ps "DatasetTree") || jis_str (r_class ref) (ps "MTreeNode") then
         mlet m <- new_obj (BNode LMrr []) (Some realm) (Some ref); mret (ETree m)
       else if jis_str (r_class ref) (ps "MetadataRootRecord") then
         mlet m <- new_obj (BMrr None None None None) (Some realm) (Some ref); mret (EMrr m)
       else mraise ValueError);
    mlet v <- mres (jsub j (ps "primary_data_version"));
    mlet p <- mres (jsub j (ps "path"));
    match v, p with
    | JStr v, JStr p =>
        mlet t <- mres (jsub j (ps "time_stamp"));
        match t with
        | JStr t => mret (v, VRec t (MetadataPath [AStr p]) e)
        | _ => mraise AssertionError         (* versionlist.py 27 *)
        end
    | _, _ => mraise Unmodelled
    end.
  (** versionlistmapper.py 45-51, versionlist.py 173-178: [d.setdefault(v, {})[p] = r] *)
  Definition vs_set (vs : pydict pystr (pydict ppath vrec)) (v : pystr) (p : ppath) (r : vrec)
    : pydict pystr (pydict ppath vrec) :=
    dset vs v (dset (match dget vs v with Some d => d | None => [] end) p r).

  (** uuidsetmapper.py 29-35 *)
  Definition map_in_uuid_line (l : loc) (realm : pystr) (line : pystr) : M pst unit :=
    mlet x <- mres (split_git_lstree_line line);
    let '(_, _, h, name) := x in
    mlet vl <- new_obj (BVlist false []) (Some realm) (Some (ref_of (ps "VersionList") h));
    mlet u <- mres (parse_uuid name);
    mlet o <- getobj l;
    match o_body o with
    | BUset us => set_body l (BUset (dset us u vl))
    | _ => mraise Unmodelled
    end.

  (** The [map_in_impl] functions of the mappers. *)
  Definition map_in_impl (l : loc) (realm : pystr) (ref : reference) : M pst unit :=
    mlet o <- getobj l;
    match o_body o with
    | BMeta m =>                             (* metadatamapper.py 36-50 *)
        mlet x <- loc_of ref;
        mlet t <- git_load_str realm x;
        mlet ref2 <- mres (ref_from_json_str t);
        mlet y <- loc_of ref2;
        mlet t2 <- git_load_str realm y;
        mlet m' <- mres (meta_init_from_json m t2);
        set_body l (BMeta m')
    | BText _ =>                             (* textmapper.py 12-23 *)
        mlet x <- loc_of ref;
        mlet t <- git_load_str realm x;
        set_body l (BText (Some t))
    | BNode c _ =>                           (* mtreenodemapper.py 14-48 *)
        if is_none_reference ref then set_body l (BNode c [])
        else
          mlet x <- loc_of ref;
          mlet lines <- git_read_tree_node realm x;
          miter (map_in_line l c realm) lines
    | BMrr _ _ _ _ =>                        (* metadatarootrecordmapper.py 24-60 *)
        mlet x <- loc_of ref;
        mlet j <- git_load_json realm x;
        mlet mj <- mres (jsub j (ps "dataset_level_metadata"));
        mlet mref <- mres (ref_from_json_obj mj);
        mlet md <- (if is_none_reference mref then mret None
                    else mlet a <- new_obj (BMeta []) (Some realm) (Some mref); mret (Some a));
        mlet fj <- mres (jsub j (ps "file_tree"));
        mlet fref <- mres (ref_from_json_obj fj);
        mlet ft <- (if is_none_reference fref then mret None
                    else mlet a <- new_obj (BNode LMeta []) (Some realm) (Some fref); mret (Some a));
        mlet uj <- mres (jsub j (ps "dataset_identifier"));
        mlet u <- mres (uuid_of_json uj);
        mlet vj <- mres (jsub j (ps "dataset_version"));
        match vj with
        | JStr v =>
            (* __init__ runs again *)
            mlet x' <- mres (init_hdr (Some realm) (Some ref));
            setobj l (Obj x' (BMrr (Some u) (Some v) md ft))
        | JNull =>
            mlet x' <- mres (init_hdr (Some realm) (Some ref));
            setobj l (Obj x' (BMrr (Some u) None md ft))
        | _ => mraise AssertionError
        end
    | BVlist k _ =>                          (* versionlistmapper.py 18-63, 90-98 *)
        mlet x <- loc_of ref;
        mlet j <- git_load_json realm x;
        mlet js <- mres (jiter j);
        mlet rs <- mmap (map_in_assoc realm) js;
        set_body l (BVlist k (fold_left (fun vs r => vs_set vs (fst r) (vr_path (snd r)) (snd r)) rs []))
    | BUset _ =>                             (* uuidsetmapper.py 16-35 *)
        set_body l (BUset []) ;;;
        mlet x <- loc_of ref;
        mlet lines <- git_ls_tree realm x;
        miter (map_in_uuid_line l realm) lines
    end.

  (** mapper.py 26-55: old class names in a reference are converted *)
  Definition map_in (l : loc) (realm : pystr) (ref : reference) : M pst unit :=
    mlet o <- getobj l;
    let ref' := if jis_str (r_class ref) (ps "FileTree") || jis_str (r_class ref) (ps "DatasetTree")
                then Ref (JStr (ps "MTreeNode")) (r_loc ref) else ref in
    set_hdr l (hd_ref (Some ref')) ;;;
    massert (jis_str (r_class ref') (type_name_of (o_body o))) ;;;
    map_in_impl l realm ref'.

  (** mappableobject.py 87-131.  106: the object is not mapped, so only its own
      mark counts. *)
  Definition read_in (fuel : nat) (l : loc) : M pst unit :=
    mlet o <- getobj l;
    if h_mapped (o_hdr o) then mret tt
    else match h_realm (o_hdr o), h_ref (o_hdr o) with
    | Some realm, Some ref =>
        if is_none_reference ref then
          massert (jis_str (r_class ref) (type_name_of (o_body o))) ;;;
          purge_impl (purge fuel) l
        else if in_saved o (Some realm) then
          map_in l realm ref ;;; set_hdr l (hd_mapped true)
        else mraise RuntimeError
    | _, _ => mraise AssertionError
    end.
  (** mappableobject.py 214-220 *)
  Definition ensure_mapped (fuel : nat) (l : loc) : M pst bool :=
    mlet o <- getobj l;
    if h_mapped (o_hdr o) then mret false
    else read_in fuel l ;;; set_hdr l (hd_mapped true) ;;; mret true.
  (** mappableobject.py 16-25: [with ensure_mapped(l): m] *)
  Definition with_mapped {A} (fuel : nat) (l : loc) (m : M pst A) : M pst A :=
    mlet needs_purge <- ensure_mapped fuel l;
    mfinally m (if needs_purge : bool then purge fuel l else mret tt).

  (** ** Writing *)

  (** metadatamapper.py 52-118 *)
  Definition map_out_meta (m : metadata) (realm : pystr) : M pst reference :=
    mlet cs <- mget s_caches;
    if dmem cs realm then
      mlet x <- with_cache realm (cache_blob realm (meta_to_json m)) (mraise Unmodelled);
      add_blob_reference x ;;;
      mlet y <- with_cache realm (cache_blob realm (ref_to_json_str (ref_of (ps "Metadata") x))) (mraise Unmodelled);
      mret (ref_of (ps "Metadata") y)
    else
      mlet x <- git_save_str realm (meta_to_json m);
      add_blob_reference x ;;;
      mlet y <- git_save_str realm (ref_to_json_str (ref_of (ps "Metadata") x));
      mret (ref_of (ps "Metadata") y).

  (** mtreeproxy.py 60-85; [file_tree]: the proxy is a FileTree *)
  Definition proxy_write_out (rec : loc -> option pystr -> bool -> M pst reference)
      (file_tree : bool) (l : loc) (destination : option pystr) (force : bool) : M pst reference :=
    mlet o <- getobj l;
    let cache_destination := or_else destination (h_realm (o_hdr o)) in
    (if file_tree then cache_realm cache_destination else mret tt) ;;;
    mlet ref <- rec l destination force;
    (if file_tree then match cache_destination with Some d => flush_realm d | None => mraise Unmodelled end
     else mret tt) ;;;
    (if is_none_reference ref then mret tt else mlet x <- loc_of ref; add_tree_reference x) ;;;
    mret ref.

  Definition opt_text (x : option pystr) : pystr := match x with Some s => s | None => ps "None" end.
  (** mtreenodemapper.py 65-73 *)
  Definition dir_entry (nl : pystr * loc) : M pst (pystr * pystr * pystr * pystr) :=
    mlet o <- getobj (snd nl);
    match h_ref (o_hdr o) with
    | Some r => mret (dir_entry_fields (is_node o) (opt_text (r_loc r)) (fst nl))
    | None => mraise AttributeError
    end.

  (** The [map_out_impl] functions of the mappers. *)
  Definition map_out (rec : loc -> option pystr -> bool -> M pst reference)
      (l : loc) (realm : pystr) (force : bool) : M pst reference :=
    mlet o <- getobj l;
    match o_body o with
    | BMeta m => map_out_meta m realm
    | BText t =>                             (* textmapper.py 25-36 *)
        match t with
        | Some t => mlet x <- git_save_str realm t; mret (ref_of (ps "Text") x)
        | None => mraise Unmodelled
        end
    | BNode _ d =>                           (* mtreenodemapper.py 50-75 *)
        match d with
        | [] => mret (get_none_reference (ps "MTreeNode"))
        | _ =>
            miter (fun x => rec x (Some realm) false ;;; mret tt) (dvals d) ;;;
            mlet es <- mmap dir_entry d;
            mlet x <- git_save_tree_node realm es;
            mret (ref_of (ps "MTreeNode") x)
        end
    | BMrr i v m t =>                        (* metadatarootrecordmapper.py 62-98 *)
        mlet fref <- match t with
                     | None => mret (get_none_reference (ps "FileTree"))
                     | Some y =>
                         mlet r <- proxy_write_out rec true y (Some realm) force;
                         (if is_none_reference r then mret tt else mlet x <- loc_of r; add_tree_reference x) ;;;
                         mret r
                     end;
        mlet mref <- match m with
                     | None => mret (get_none_reference (ps "Metadata"))
                     | Some y =>
                         mlet r <- rec y (Some realm) force;
                         mlet x <- loc_of r;
                         add_blob_reference x ;;;
                         mret r
                     end;
        mlet x <- git_save_json realm
          (JObj [(ps "dataset_identifier", JStr (match i with Some u => uuid_str u | None => ps "None" end));
                 (ps "dataset_version", JStr (opt_text v));
                 (ps "dataset_level_metadata", ref_to_json_obj mref);
                 (ps "file_tree", ref_to_json_obj fref)]);
        mret (ref_of (ps "MetadataRootRecord") x)
    | BVlist k vs =>                         (* versionlistmapper.py 65-86, 100-114 *)
        mlet js <- mmap (fun r : pystr * vrec =>
                     mlet ref <- match vr_elt (snd r) with
                                 | ETree m => proxy_write_out rec false m (Some realm) false
                                 | EMrr m => rec m (Some realm) false
                                 end;
                     mret (JObj [(ps "primary_data_version", JStr (fst r));
                                 (ps "time_stamp", JStr (vr_time (snd r)));
                                 (ps "path", JStr (mp_as_posix (vr_path (snd r))));
                                 (ps "dataset_tree", ref_to_json_obj ref)])) (vs_records vs);
        mlet x <- git_save_json realm (JArr js);
        (if k then git_update_ref realm TREE_VERSION_LIST x else mret tt) ;;;
        mret (ref_of (ps "VersionList") x)
    | BUset us =>                            (* uuidsetmapper.py 37-56 *)
        mlet es <- mmap (fun ul : uuid * loc =>
                     mlet ref <- rec (snd ul) (Some realm) false;
                     mlet x <- loc_of ref;
                     mret (ps "100644", ps "blob", x, uuid_str (fst ul))) us;
        mlet x <- git_save_tree_node realm (set_order _ es);
        git_update_ref realm UUID_SET x ;;;
        mret (ref_of (ps "UUIDSet") x)
    end.

  (** [return self.reference]; an object that is saved has a reference *)
  Definition own_reference (l : loc) : M pst reference :=
    mlet o <- getobj l;
    match h_ref (o_hdr o) with Some r => mret r | None => mraise Unmodelled end.

  (** mappableobject.py 133-202, mapper.py 57-67 *)
  Fixpoint write_out (fuel : nat) (l : loc) (destination : option pystr) (force : bool) {struct fuel}
    : M pst reference :=
    match fuel with
    | O => mraise RecursionError
    | S f =>
        mlet o <- getobj l;
        if negb (h_mapped (o_hdr o)) then
          massert (is_some (h_realm (o_hdr o))) ;;;
          massert (is_some (h_ref (o_hdr o))) ;;;
          mlet b <- is_saved_on fuel l destination;
          if b : bool then own_reference l else mraise RuntimeError
        else
          let destination := if truthy (h_realm (o_hdr o))
                             then or_else destination (h_realm (o_hdr o)) else destination in
          match destination with
          | None => mraise AssertionError
          | Some d =>
              if is_remote d then mraise RuntimeError
              else
                set_hdr l (hd_realm (Some d)) ;;;
                mlet b <- is_saved_on fuel l (Some d);
                if (b : bool) && negb force then own_reference l
                else
                  mlet ref <- map_out (write_out f) l d force;
                  set_hdr l (hd_ref (Some ref)) ;;;
                  set_saved_on l d ;;;
                  mret ref
          end
    end.
  (** [FileTree.write_out], [DatasetTree.write_out] *)
  Definition filetree_write_out (fuel : nat) (l : loc) (destination : option pystr) (force : bool) : M pst reference :=
    proxy_write_out (write_out fuel) true l destination force.
  Definition datasettree_write_out (fuel : nat) (l : loc) (destination : option pystr) (force : bool) : M pst reference :=
    proxy_write_out (write_out fuel) false l destination force.

  (** ** MTreeNode *)

  Definition children (l : loc) : M pst (leafcls * pydict pystr loc) :=
    mlet o <- getobj l;
    match o_body o with BNode c d => mret (c, d) | _ => mraise AttributeError end.
  Definition is_mtreenode (l : loc) : M pst bool := mlet o <- getobj l; mret (is_node o).

  (** mtreenode.py 68-73 *)
  Definition get_child (fuel : nat) (l : loc) (name : pystr) : M pst (option loc) :=
    ensure_mapped fuel l ;;;
    mlet cd <- children l;
    mret (dget (snd cd) name).
  (** mtreenode.py 75-105, with one child *)
  Definition add_child (fuel : nat) (l : loc) (name : pystr) (child : loc) : M pst unit :=
    massert (negb (bool_decide (name = dot_str))) ;;;
    massert (negb (existsb (N.eqb slash) name)) ;;;
    ensure_mapped fuel l ;;;
    mlet cd <- children l;
    if dmem (snd cd) name then mraise ValueError
    else
      touch l ;;;
      set_body l (BNode (fst cd) (dset (snd cd) name child)).

  (** mtreenode.py 107-142; [n] bounds the length of the path, see [add_child_at] *)
  Fixpoint add_child_at_n (n : nat) (fuel : nat) (l child : loc) (path : ppath) : M pst unit :=
    match all_parts path with
    | [] => mraise AssertionError
    | e :: rest =>
        mlet existing <- get_child fuel l e;
        match rest with
        | [] =>
            mlet node <- match existing with Some x => is_mtreenode x | None => mret false end;
            if node : bool then mraise ValueError else add_child fuel l e child
        | _ =>
            mlet x <- match existing with
                      | Some x => mret x
                      | None =>
                          mlet cd <- children l;
                          mlet x <- new_obj (BNode (fst cd) []) None None;
                          add_child fuel l e x ;;; mret x
                      end;
            mlet node <- is_mtreenode x;
            if node : bool then
              match n with
              | O => mraise Unmodelled
              | S n' => add_child_at_n n' fuel x child (MetadataPath [AStr (join [slash] rest)])
              end
            else mraise ValueError
        end
    end.
  Definition add_child_at (fuel : nat) (l child : loc) (path : ppath) : M pst unit :=
    add_child_at_n (length (all_parts path)) fuel l child path.

  (** mtreenode.py 144-149 *)
  Definition remove_child (fuel : nat) (l : loc) (name : pystr) : M pst unit :=
    ensure_mapped fuel l ;;;
    touch l ;;;
    mlet cd <- children l;
    if dmem (snd cd) name then set_body l (BNode (fst cd) (ddel (snd cd) name)) else mraise KeyError.

  (** mtreenode.py 158-171 *)
  Fixpoint walk (fuel : nat) (l : loc) (parts : list pystr) : M pst (option loc) :=
    match parts with
    | [] => mret (Some l)
    | e :: rest =>
        mlet node <- is_mtreenode l;
        if node : bool then
          mlet c <- get_child fuel l e;
          match c with Some x => walk fuel x rest | None => mret None end
        else mret None
    end.
  Definition get_object_at_path (fuel : nat) (l : loc) (path : ppath) : M pst (option loc) :=
    walk fuel l (all_parts path).

  (** mtreenode.py 151-156 *)
  Definition remove_child_at (fuel : nat) (l : loc) (path : ppath) : M pst unit :=
    mlet c <- get_object_at_path fuel l (MetadataPath [AStr (join [slash] (removelast (all_parts path)))]);
    match c with
    | None => mraise AttributeError
    | Some x =>
        mlet node <- is_mtreenode x;
        if node : bool then
          match last (all_parts path) with
          | Some e => remove_child fuel x e
          | None => mraise IndexError
          end
        else mraise AttributeError
    end.

  (** mtreenode.py 173-187 *)
  Fixpoint get_paths_recursive (fuel : nat) (intermediate : bool) (l : loc) {struct fuel} : M pst (list (ppath * loc)) :=
    match fuel with
    | O => mraise RecursionError
    | S f =>
        mlet r <- with_mapped fuel l (
          mlet cd <- children l;
          mmap (fun nl : pystr * loc =>
                  mlet node <- is_mtreenode (snd nl);
                  if node : bool then
                    mlet sub <- get_paths_recursive f intermediate (snd nl);
                    mret (map (fun px => (truediv (MetadataPath [AStr (fst nl)]) (APath (fst px)), snd px)) sub)
                  else mret [(MetadataPath [AStr (fst nl)], snd nl)]) (snd cd));
        mret ((if intermediate then [(MetadataPath [AStr []], l)] else []) ++ concat r)
    end.

  (** ** FileTree *)

  (** filetree.py 30-34 *)
  Definition add_metadata (fuel : nat) (l : loc) (path : ppath) (m : loc) : M pst unit :=
    add_child_at fuel l m path.
  (** filetree.py 36-47 *)
  Definition get_metadata (fuel : nat) (l : loc) (path : ppath) : M pst (option loc) :=
    mlet c <- get_object_at_path fuel l path;
    match c with
    | None => mret None
    | Some x =>
        mlet o <- getobj x;
        match o_body o with
        | BMeta _ => ensure_mapped fuel x ;;; mret (Some x)
        | _ => mraise AssertionError
        end
    end.
  (** filetree.py 49-54 *)
  Definition unget_metadata (fuel : nat) (m : loc) (destination : option pystr) : M pst unit :=
    write_out fuel m destination false ;;; purge fuel m.
  (** metadata.py 266-289 *)
  Definition metadata_add_run (fuel : nat) (l : loc) (r : run) : M pst unit :=
    ensure_mapped fuel l ;;;
    touch l ;;;
    mlet o <- getobj l;
    match o_body o with
    | BMeta m => mlet m' <- mres (add_extractor_run m r); set_body l (BMeta m')
    | _ => mraise AttributeError
    end.
  (** filetree.py 56-78 *)
  Definition filetree_add_run (fuel : nat) (l : loc) (path : ppath) (r : run) : M pst unit :=
    mlet m <- mtry (get_metadata fuel l path)
                   (fun e => match e with
                             | AttributeError =>
                                 mlet m <- new_obj (BMeta []) None None;
                                 add_metadata fuel l path m ;;; mret (Some m)
                             | _ => mraise e
                             end);
    match m with
    | Some m => metadata_add_run fuel m r
    | None => mraise AttributeError
    end.

  (** ** DatasetTree *)

  (** datasettree.py 15 *)
  Definition root_record_name : pystr := ps ".datalad_metadata_root_record".
  Definition record_path (path : ppath) : ppath := truediv path (AStr root_record_name).
  (** datasettree.py 30-31 *)
  Definition dataset_in (fuel : nat) (l : loc) (path : ppath) : M pst bool :=
    mlet c <- get_object_at_path fuel l (record_path path); mret (is_some c).
  (** datasettree.py 33-38 *)
  Definition add_dataset (fuel : nat) (l : loc) (path : ppath) (mrr : loc) : M pst unit :=
    add_child_at fuel l mrr (record_path path).
  (** datasettree.py 40-52 *)
  Definition get_metadata_root_record (fuel : nat) (l : loc) (path : ppath) : M pst (option loc) :=
    mlet c <- get_object_at_path fuel l (record_path path);
    match c with
    | None => mret None
    | Some x =>
        mlet o <- getobj x;
        match o_body o with
        | BMrr _ _ _ _ => ensure_mapped fuel x ;;; mret (Some x)
        | _ => mraise AssertionError
        end
    end.
  (** datasettree.py 54-64 *)
  Definition dataset_paths (fuel : nat) (l : loc) : M pst (list (ppath * loc)) :=
    mlet paths <- get_paths_recursive fuel false l;
    mres (rlet r <- rmap (fun px =>
            match last (all_parts (fst px)) with
            | None => Err IndexError
            | Some e => Ok (if bool_decide (e = root_record_name)
                            then [(MetadataPath [AStr (join [slash] (removelast (all_parts (fst px))))], snd px)]
                            else [])
            end) paths; Ok (concat r)).
  (** datasettree.py 66-70, 72-74 *)
  Definition add_subtree (fuel : nat) (l sub : loc) (path : ppath) : M pst unit := add_child_at fuel l sub path.
  Definition delete_subtree (fuel : nat) (l : loc) (path : ppath) : M pst unit := remove_child_at fuel l path.

  (** ** MetadataRootRecord *)

  Definition mrr_parts (l : loc) : M pst (option uuid * option pystr * option loc * option loc) :=
    mlet o <- getobj l;
    match o_body o with BMrr i v m t => mret (i, v, m, t) | _ => mraise AttributeError end.
  (** metadatarootrecord.py 55-58 *)
  Definition set_file_tree (fuel : nat) (l : loc) (t : option loc) : M pst unit :=
    ensure_mapped fuel l ;;; touch l ;;;
    mlet p <- mrr_parts l; let '(i, v, m, _) := p in set_body l (BMrr i v m t).
  (** metadatarootrecord.py 60-64 *)
  Definition get_file_tree (fuel : nat) (l : loc) : M pst (option loc) :=
    ensure_mapped fuel l ;;;
    mlet p <- mrr_parts l; let '(_, _, _, t) := p in
    match t with None => mret None | Some x => read_in fuel x ;;; mret (Some x) end.
  (** metadatarootrecord.py 68-71 *)
  Definition set_dataset_level_metadata (fuel : nat) (l : loc) (m : option loc) : M pst unit :=
    ensure_mapped fuel l ;;; touch l ;;;
    mlet p <- mrr_parts l; let '(i, v, _, t) := p in set_body l (BMrr i v m t).
  (** metadatarootrecord.py 73-75 *)
  Definition get_dataset_level_metadata (fuel : nat) (l : loc) : M pst loc :=
    ensure_mapped fuel l ;;;
    mlet p <- mrr_parts l; let '(_, _, m, _) := p in
    match m with None => mraise AttributeError | Some x => read_in fuel x ;;; mret x end.

  (** ** VersionList and TreeVersionList *)

  Definition versions (l : loc) : M pst (bool * pydict pystr (pydict ppath vrec)) :=
    mlet o <- getobj l;
    match o_body o with BVlist k vs => mret (k, vs) | _ => mraise AttributeError end.
  (** versionlist.py 62-63 *)
  Definition version_list_len (l : loc) : M pst nat :=
    mlet kv <- versions l; mret (length (vs_records (snd kv))).
  (** versionlist.py 102-106 *)
  Definition versions_and_prefix_paths (fuel : nat) (l : loc) : M pst (list (pystr * ppath)) :=
    ensure_mapped fuel l ;;;
    mlet kv <- versions l; mret (map (fun r => (fst r, vr_path (snd r))) (vs_records (snd kv))).
  (** [VersionRecord.element.read_in()], [.purge()] *)
  Definition elt_read_in (fuel : nat) (e : elt) : M pst unit := read_in fuel (elt_loc e).
  (** versionlist.py 71-75 *)
  Definition get_version_record (fuel : nat) (l : loc) (v : pystr) (p : ppath) : M pst vrec :=
    ensure_mapped fuel l ;;;
    mlet kv <- versions l;
    match dget (snd kv) v with
    | None => mraise KeyError
    | Some d => match dget d p with None => mraise KeyError | Some r => mret r end
    end.
  (** versionlist.py 108-125 *)
  Definition get_versioned_element (fuel : nat) (l : loc) (v : pystr) (p : ppath) : M pst vrec :=
    ensure_mapped fuel l ;;;
    mlet r <- get_version_record fuel l v p;
    elt_read_in fuel (vr_elt r) ;;; mret r.
  (** versionlist.py 127-141 *)
  Definition get_versioned_elements (fuel : nat) (l : loc) (v : pystr) : M pst (list vrec) :=
    ensure_mapped fuel l ;;;
    mlet kv <- versions l;
    match dget (snd kv) v with
    | None => mraise KeyError
    | Some d => mmap (fun r => elt_read_in fuel (vr_elt r) ;;; mret r) (dvals d)
    end.
  (** versionlist.py 143-159 *)
  Definition versioned_elements (fuel : nat) (l : loc) : M pst (list (pystr * vrec)) :=
    ensure_mapped fuel l ;;;
    mlet kv <- versions l; mret (vs_records (snd kv)).
  (** versionlist.py 161-178 *)
  Definition set_versioned_element (fuel : nat) (l : loc) (v : pystr) (t : pystr) (p : ppath) (e : elt) : M pst unit :=
    ensure_mapped fuel l ;;; touch l ;;;
    mlet kv <- versions l;
    set_body l (BVlist (fst kv) (vs_set (snd kv) v p (VRec t p e))).
  (** versionlist.py 180-192 *)
  Definition elt_write_out (fuel : nat) (e : elt) (destination : option pystr) : M pst reference :=
    match e with
    | ETree m => datasettree_write_out fuel m destination false
    | EMrr m => write_out fuel m destination false
    end.
  Definition unget_versioned_element (fuel : nat) (l : loc) (v : pystr) (p : ppath) (destination : option pystr) : M pst unit :=
    mlet kv <- versions l;
    match dget (snd kv) v with
    | None => mraise KeyError
    | Some d =>
        match dget d p with
        | None => mraise KeyError
        | Some r => elt_write_out fuel (vr_elt r) destination ;;; purge fuel (elt_loc (vr_elt r))
        end
    end.

  (** ** UUIDSet *)

  Definition uuid_entries (l : loc) : M pst (pydict uuid loc) :=
    mlet o <- getobj l;
    match o_body o with BUset us => mret us | _ => mraise AttributeError end.
  (** uuidset.py 35-37 *)
  Definition uuids (fuel : nat) (l : loc) : M pst (list uuid) :=
    ensure_mapped fuel l ;;; mlet us <- uuid_entries l; mret (dkeys us).
  (** uuidset.py 39-48 *)
  Definition set_version_list (l : loc) (u : uuid) (vl : loc) : M pst unit :=
    touch l ;;; mlet us <- uuid_entries l; set_body l (BUset (dset us u vl)).
  (** uuidset.py 50-56 *)
  Definition get_version_list (fuel : nat) (l : loc) (u : uuid) : M pst loc :=
    ensure_mapped fuel l ;;;
    mlet us <- uuid_entries l;
    match dget us u with None => mraise KeyError | Some x => read_in fuel x ;;; mret x end.
  (** uuidset.py 58-64 *)
  Definition unget_version_list (fuel : nat) (l : loc) (u : uuid) : M pst unit :=
    mlet us <- uuid_entries l;
    match dget us u with None => mraise KeyError | Some x => write_out fuel x None false ;;; purge fuel x end.

  (** ** Copies *)

  (** the new object is written and purged (mtreenode.py 58-60 and the others) *)
  Definition finish_copy (fuel : nat) (x : loc) (destination : option pystr) : M pst loc :=
    write_out fuel x destination false ;;; purge fuel x ;;; mret x.
  (** mappableobject.py 222-231; [deepcopy_impl]: metadata.py 320-330, text.py
      39-46, mtreenode.py 45-60, metadatarootrecord.py 77-106, versionlist.py
      194-215 and 271-293, uuidset.py 66-79, mtreeproxy.py 93-100.  [prefix] is
      the keyword argument path_prefix. *)
  Fixpoint deepcopy (fuel : nat) (l : loc) (destination : option pystr) (prefix : ppath) {struct fuel} : M pst loc :=
    match fuel with
    | O => mraise RecursionError
    | S f =>
        let nopath := MetadataPath [AStr []] in
        with_mapped fuel l (
          mlet o <- getobj l;
          match o_body o with
          | BMeta m =>
              mlet x <- new_obj (BMeta m) None None; finish_copy fuel x destination
          | BText _ =>
              mlet x <- new_obj (BText None) None None; write_out fuel x destination false ;;; mret x
          | BNode c d =>
              mlet x <- new_obj (BNode c []) None None;
              miter (fun nl : pystr * loc =>
                       mlet y <- deepcopy f (snd nl) destination nopath; add_child fuel x (fst nl) y) d ;;;
              finish_copy fuel x destination
          | BMrr i v m t =>
              mlet m' <- match m with
                         | Some y => mlet y' <- deepcopy f y destination nopath; mret (Some y')
                         | None => mret None
                         end;
              mlet t' <- match t with
                         | Some y => mlet y' <- deepcopy f y destination nopath; mret (Some y')
                         | None => mret None
                         end;
              mlet x <- new_obj (BMrr i v m' t') None None;
              finish_copy fuel x destination
          | BVlist k vs =>
              mlet x <- new_obj (BVlist k []) None None;
              miter (fun r : pystr * vrec =>
                       mlet e <- match vr_elt (snd r) with
                                 | ETree y => mlet y' <- deepcopy f y destination nopath; mret (ETree y')
                                 | EMrr y => mlet y' <- deepcopy f y destination nopath; mret (EMrr y')
                                 end;
                       set_versioned_element fuel x (fst r) (vr_time (snd r))
                         (truediv prefix (APath (vr_path (snd r)))) e) (vs_records vs) ;;;
              finish_copy fuel x destination
          | BUset us =>
              mlet x <- new_obj (BUset []) None None;
              miter (fun ul : uuid * loc =>
                       mlet y <- deepcopy f (snd ul) destination nopath;
                       mlet us' <- uuid_entries x;
                       set_body x (BUset (dset us' (fst ul) y))) us ;;;
              finish_copy fuel x destination
          end)
    end.
End Objects.
