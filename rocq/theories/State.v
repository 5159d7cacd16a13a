(** State of one Python process: objects and module level variables. *)
From Verif Require Import Base Path Json Refs Meta GitText Git.

(** Addresses of Python objects. *)
Definition loc := N.

(** Attributes that MappableObject and ModifiableObject give to every object
    (modifiableobject.py 24-27, mappableobject.py 33-68).  [h_ref]: the
    reference is kept by value; /repo only mutates a Reference in
    mapper/mapper.py 36, where the reference of the object itself is changed. *)
Record hdr := Hdr {
  h_realm : option pystr;
  h_ref : option reference;
  h_mapped : bool;
  h_saved : gset pystr;
}.

(** leaf classes of an MTreeNode *)
Inductive leafcls := LMeta | LMrr | LText.
#[export] Instance leafcls_eq_dec : EqDecision leafcls.
Proof. solve_decision. Defined.

(** Element of a version list: a DatasetTree (the address is that of its MTreeNode,
    MTreeProxy has no other state) or a MetadataRootRecord. *)
Inductive elt := ETree (mtree : loc) | EMrr (mrr : loc).

(** versionlist.py 21-33 *)
Record vrec := VRec { vr_time : pystr; vr_path : ppath; vr_elt : elt }.

(** A UUID is represented by its 32 lower case hexadecimal digits. *)
Definition uuid := pystr.

Inductive body :=
| BMeta (m : metadata)                                   (** metadata.py 236 *)
| BText (content : option pystr)                         (** text.py 26 *)
| BNode (leaf : leafcls) (children : pydict pystr loc)   (** mtreenode.py 27-29 *)
| BMrr (id : option uuid) (version : option pystr)
       (meta : option loc) (tree : option loc)           (** metadatarootrecord.py 30-33; the file
                                                             tree is the address of its MTreeNode *)
| BVlist (tree : bool) (vs : pydict pystr (pydict ppath vrec)) (** versionlist.py 59; [tree]: TreeVersionList *)
| BUset (us : pydict uuid loc).                          (** uuidset.py 25 *)

Record obj := Obj { o_hdr : hdr; o_body : body }.
Definition heap := gmap loc obj.

(** treeupdater.py 32-34 *)
Inductive etype := Directory | File.
#[export] Instance etype_eq_dec : EqDecision etype.
Proof. solve_decision. Defined.

(** gitblobcache.py 25-33: the cached blobs with their expected hashes.
    [flushed_objects] is never read (and stays empty, because [check_hash]
    returns None). *)
Record bcache := BCache { bc_realm : pystr; bc_max : N; bc_objs : list (pystr * pystr) }.

Record pst := PSt {
  s_heap : heap;
  s_next : loc;
  s_caches : pydict pystr bcache;          (** metadatamapper.py 16, [metadata_caches] *)
  s_orefs : list (etype * pystr);          (** objectreference.py 16, [cached_object_references] *)
  s_legacy : list pystr;                   (** objectreference.py 27, [checked_legacy_stores] *)
  s_locks : pydict pystr nat;              (** utils.py 23, [read_write_locked]: counters *)
}.
Definition init_pst : pst := PSt ∅ 0%N [] [] [] [].

Definition with_heap (s : pst) (h : heap) : pst :=
  PSt h (s_next s) (s_caches s) (s_orefs s) (s_legacy s) (s_locks s).
Definition with_caches (s : pst) (c : pydict pystr bcache) : pst :=
  PSt (s_heap s) (s_next s) c (s_orefs s) (s_legacy s) (s_locks s).
Definition with_orefs (s : pst) (o : list (etype * pystr)) : pst :=
  PSt (s_heap s) (s_next s) (s_caches s) o (s_legacy s) (s_locks s).
Definition with_legacy (s : pst) (l : list pystr) : pst :=
  PSt (s_heap s) (s_next s) (s_caches s) (s_orefs s) l (s_locks s).
Definition with_locks (s : pst) (k : pydict pystr nat) : pst :=
  PSt (s_heap s) (s_next s) (s_caches s) (s_orefs s) (s_legacy s) k.

(** Allocate a new object. *)
Definition alloc (o : obj) : M pst loc :=
  fun s => Ret (Ok (s_next s),
                PSt (<[s_next s := o]> (s_heap s)) (N.succ (s_next s)) (s_caches s)
                    (s_orefs s) (s_legacy s) (s_locks s)).
(** Read an object.  Addresses never dangle in Python; a missing address is
    reported as Unmodelled and cannot occur in a state reached by the model. *)
Definition getobj (l : loc) : M pst obj :=
  fun s => match s_heap s !! l with
           | Some o => Ret (Ok o, s)
           | None => Ret (Err Unmodelled, s)
           end.
Definition setobj (l : loc) (o : obj) : M pst unit :=
  fun s => Ret (Ok tt, with_heap s (<[l := o]> (s_heap s))).
