(** Specification vocabulary for C43 and C44: entries of containers, and which
    entries a call may add. *)
From Verif Require Import Base Path Refs Meta GitText Git State Objects Spec_Look Spec_Heap Spec_Versions Common.

(** The entry of a container under a key. *)
Definition entry_of (b : body) (k : key) : option (loc + vrec) :=
  match b, k with
  | BNode _ d, KName n => option_map inl (dget d n)
  | BVlist _ vs, KVer v p => option_map inr (record_of vs v p)
  | BUset us, KUuid u => option_map inl (dget us u)
  | BMrr _ _ m _, KMeta => option_map inl m
  | BMrr _ _ _ t, KTree => option_map inl t
  | _, _ => None
  end.
(** [o'] is [o] with new entries under keys of [A]; it counts as modified. *)
Definition entries_added (A : key -> Prop) (o o' : obj) : Prop :=
  o_hdr o' = hd_saved ∅ (o_hdr o) /\
  (forall k, entry_of (o_body o') k = entry_of (o_body o) k \/ (A k /\ entry_of (o_body o) k = None)) /\
  exists k, A k /\ entry_of (o_body o) k = None /\ entry_of (o_body o') k <> None.
(** Between [s] and [s'] objects were loaded and entries were added under the
    keys [A]; everything else in memory is as before. *)
Record extended (A : loc -> key -> Prop) (s s' : pst) : Prop := {
  ex_rest : s_caches s' = s_caches s /\ s_orefs s' = s_orefs s /\ s_legacy s' = s_legacy s /\ s_locks s' = s_locks s;
  ex_next : (s_next s <= s_next s')%N;
  ex_obj : forall (x : loc) o, s_heap s !! x = Some o -> exists o', s_heap s' !! x = Some o' /\
    kind_of (o_body o') = kind_of (o_body o) /\
    (h_mapped (o_hdr o) = true -> o' = o \/ entries_added (A x) o o');
}.
(** Every version list files its records under their own paths. *)
Definition lists_keyed (s : pst) : Prop := forall (x : loc) hx k vs,
  s_heap s !! x = Some (Obj hx (BVlist k vs)) -> well_keyed vs.

(** The entries that [get_metadata_root_record_from_top_nodes] may add: the
    datasets [ids] to the UUID set, the versions [vers] to the tree version list,
    records at the paths [paths] to the dataset tree for [tv] (these only with
    auto_create), and the versions of [regs] to the version lists of their
    datasets. *)
Definition may_add (auto : bool) (h' : heap) (tvl us : loc) (tv : pystr) (prefix : ppath)
    (ids : list uuid) (vers : list pystr) (regs : list (uuid * pystr * ppath)) (paths : list ppath) (x : loc) (k : key) : Prop :=
  (auto = true /\ x = us /\ exists u, In u ids /\ k = KUuid u) \/
  (auto = true /\ x = tvl /\ exists w, In w vers /\ k = KVer w prefix) \/
  (exists u v p, In (u, v, p) regs /\ reach h' us [KUuid u] = Some x /\ k = KVer v p) \/
  (auto = true /\ exists q pre e rest, In q paths /\ all_parts (record_path q) = pre ++ e :: rest /\
     reach h' tvl (KVer tv prefix :: map KName pre) = Some x /\ k = KName e).
(** For a dataset that is the root of its dataset tree, and for another one. *)
Definition no_path : ppath := MetadataPath [AStr []].
Definition may_add_call (auto : bool) (h' : heap) (tvl us : loc) (u : uuid) (v : pystr) (prefix tree_path : ppath)
    (root_u : option uuid) (root_v : option pystr) : loc -> key -> Prop :=
  if bool_decide (tree_path = no_path) then
    may_add auto h' tvl us v prefix [u] [v] [(u, v, prefix)] [no_path]
  else
    match root_u, root_v with
    | Some ru, Some rv => may_add auto h' tvl us rv prefix [ru; u] [rv] [(ru, rv, prefix); (u, v, no_path)] [no_path; tree_path]
    | _, _ => fun _ _ => False
    end.
(** The object at an address is loaded. *)
Definition loaded_at (h : heap) (x : loc) : Prop := exists o, h !! x = Some o /\ h_mapped (o_hdr o) = true.

(** The metadata root record [m] at path [q] in the dataset tree that the tree
    version list has for a version and a prefix path. *)
Definition record_found (h : heap) (tvl : loc) (tv : pystr) (prefix q : ppath) (m : loc) : Prop :=
  reach h tvl (KVer tv prefix :: map KName (all_parts (record_path q))) = Some m /\
  exists o i v md ft, h !! m = Some o /\ h_mapped (o_hdr o) = true /\ o_body o = BMrr i v md ft.
(** The entry for [v] and [p] in the version list of dataset [u]. *)
Definition registered (h : heap) (us : loc) (u : uuid) (v : pystr) (p : ppath) (r : vrec) : Prop :=
  exists vl o, reach h us [KUuid u] = Some vl /\ h !! vl = Some o /\ h_mapped (o_hdr o) = true /\ entry_of (o_body o) (KVer v p) = Some (inr r).
(** The entry for [v] and [p] of the tree version list. *)
Definition tree_entry (h : heap) (tvl : loc) (v : pystr) (p : ppath) (r : vrec) : Prop :=
  exists o, h !! tvl = Some o /\ h_mapped (o_hdr o) = true /\ entry_of (o_body o) (KVer v p) = Some (inr r).
(** A record that the call made: it has the given id and version, no metadata
    and, as long as nothing was added to it, an empty file tree. *)
Definition made_record (h : heap) (m : loc) (u : uuid) (v : pystr) : Prop :=
  exists hx (md ft : loc) hm, h !! m = Some (Obj hx (BMrr (Some u) (Some v) (Some md) (Some ft))) /\ h_mapped hx = true /\ h_saved hx = ∅ /\
    h !! md = Some (Obj hm (BMeta [])) /\ h_mapped hm = true.
Definition empty_record (h : heap) (m : loc) (u : uuid) (v : pystr) : Prop :=
  made_record h m u v /\ exists hx hf i w md (ft : loc), h !! m = Some (Obj hx (BMrr i w md (Some ft))) /\
    h !! ft = Some (Obj hf (BNode LMeta [])) /\ h_mapped hf = true.
(** [F] holds in a state on the way, when only these additions were made. *)
Definition on_the_way (auto : bool) (s : pst) (tvl us : loc) (tv : pystr) (prefix : ppath) (ids : list uuid) (vers : list pystr)
    (regs : list (uuid * pystr * ppath)) (paths : list ppath) (F : heap -> Prop) : Prop :=
  exists s1, extended (may_add auto (s_heap s1) tvl us tv prefix ids vers regs paths) s s1 /\ F (s_heap s1).
(** What a call that returns the record [m] leaves in [s'].  A record is there
    already or it is made for this id and version; an entry in the version list
    of the dataset is there already or it is made for the record; the entry in
    the tree version list is there already or it is made. *)
Definition call_result (auto : bool) (now : nat -> pystr) (s s' : pst) (tvl us : loc) (u : uuid) (v : pystr) (prefix tree_path : ppath)
    (root_u : option uuid) (root_v : option pystr) (m : loc) : Prop :=
  if bool_decide (tree_path = no_path) then
    record_found (s_heap s') tvl v prefix no_path m /\
    (empty_record (s_heap s') m u v \/ on_the_way auto s tvl us v prefix [u] [v] [] [] (fun h => record_found h tvl v prefix no_path m)) /\
    (exists e, registered (s_heap s') us u v prefix e /\
     (e = VRec (now 3%nat) prefix (EMrr m) \/ on_the_way auto s tvl us v prefix [u] [v] [] [no_path] (fun h => registered h us u v prefix e))) /\
    exists te, tree_entry (s_heap s') tvl v prefix te /\
    ((exists t, te = VRec (now 2%nat) prefix (ETree t)) \/ on_the_way auto s tvl us v prefix [] [] [] [] (fun h => tree_entry h tvl v prefix te))
  else
    exists ru rv rm, root_u = Some ru /\ root_v = Some rv /\
    (record_found (s_heap s') tvl rv prefix no_path rm /\
     (made_record (s_heap s') rm ru rv \/ on_the_way auto s tvl us rv prefix [ru] [rv] [] [] (fun h => record_found h tvl rv prefix no_path rm)) /\
     exists e, registered (s_heap s') us ru rv prefix e /\
     (e = VRec (now 1%nat) prefix (EMrr rm) \/ on_the_way auto s tvl us rv prefix [ru] [rv] [] [no_path] (fun h => registered h us ru rv prefix e))) /\
    (record_found (s_heap s') tvl rv prefix tree_path m /\
     (empty_record (s_heap s') m u v \/
      on_the_way auto s tvl us rv prefix [ru; u] [rv] [(ru, rv, prefix)] [no_path] (fun h => record_found h tvl rv prefix tree_path m)) /\
     exists e, registered (s_heap s') us u v no_path e /\
     (e = VRec (now 3%nat) no_path (EMrr m) \/
      on_the_way auto s tvl us rv prefix [ru; u] [rv] [(ru, rv, prefix)] [no_path; tree_path] (fun h => registered h us u v no_path e))) /\
    exists te, tree_entry (s_heap s') tvl rv prefix te /\
    ((exists t, te = VRec (now 0%nat) prefix (ETree t)) \/ on_the_way auto s tvl us rv prefix [ru] [] [] [] (fun h => tree_entry h tvl rv prefix te)).
(** What a call without auto_create may add: versions of these datasets to
    their version lists. *)
Definition only_registers (h' : heap) (us : loc) (u : uuid) (v : pystr) (prefix tree_path : ppath)
    (root_u : option uuid) (root_v : option pystr) (x : loc) (k : key) : Prop :=
  if bool_decide (tree_path = no_path) then reach h' us [KUuid u] = Some x /\ k = KVer v prefix
  else (reach h' us [KUuid u] = Some x /\ k = KVer v no_path) \/
       exists ru rv, root_u = Some ru /\ root_v = Some rv /\ reach h' us [KUuid ru] = Some x /\ k = KVer rv prefix.

(** ** Objects in memory *)
(** An object of a set, of a given kind. *)
Definition is_a (D : loc -> Prop) (h : heap) (x : loc) (k : kd) : Prop := D x /\ exists o, h !! x = Some o /\ kind_of (o_body o) = k.
(** The parts of a dataset tree, a tree version list and a UUID set are of the
    right kinds and in [D]: records of a dataset tree have their own name, all
    other entries are trees. *)
Definition parts_fit (D : loc -> Prop) (h : heap) (b : body) : Prop :=
  match b with
  | BNode LMrr d => forall e x, dget d e = Some x -> is_a D h x (if decide (e = root_record_name) then KdMrr else KdNode LMrr)
  | BVlist true vs => forall v p r, record_of vs v p = Some r -> exists t, vr_elt r = ETree t /\ is_a D h t (KdNode LMrr)
  | BUset d => forall u x, dget d u = Some x -> is_a D h x (KdVl false)
  | _ => True
  end.
(** The objects of [D] are loaded and their parts fit. *)
Definition in_memory (D : loc -> Prop) (h : heap) : Prop :=
  forall x, D x -> exists o, h !! x = Some o /\ h_mapped (o_hdr o) = true /\ parts_fit D h (o_body o).
