(** Specification vocabulary: what git keeps when it collects garbage, and what
    the loader reads. *)
From Verif Require Import Base Path Json Refs Meta GitText Spec_Git Git Spec_Store State BlobCache ObjRef Objects Spec_Look Spec_Heap Spec_Write Spec_Content Spec_Publish Spec_Tree Spec_ObjRef Spec_Flush.

(** ** Git *)

(** Objects that are found from an object.  Git does not follow entries for
    submodules. *)
Inductive leads (O : store) : pystr -> pystr -> Prop :=
| leads_self x : leads O x x
| leads_entry x es e y : O !! x = Some (Tree es) -> In e es -> canon_type (te_mode e) <> TCommit -> leads O (te_id e) y -> leads O x y.
(** [git gc] keeps the objects that are found from some reference. *)
Definition git_keeps (g : gstate) (r x : pystr) : Prop := exists name y, refs_of g r !! name = Some y /\ leads (objs_of g r) y x.
(** Submodule entries have ids of commits: no blob and no tree of the repository
    has such an id. *)
Definition submodules_apart (O : store) : Prop := forall x es e, O !! x = Some (Tree es) -> In e es -> canon_type (te_mode e) = TCommit -> O !! te_id e = None.

(** ** The loader *)

(** What is found in the repository on a path: its kind and reference. *)
Fixpoint found (O : store) (k : kd) (ref : reference) (p : list key) : option (kd * reference) :=
  match p with
  | [] => Some (k, ref)
  | x :: p' =>
      match stored O k ref with
      | Ok (b, ks) =>
          match dget (kids_of b) x with
          | Some i => match part ks i with Some (k', ref') => found O k' ref' p' | None => None end
          | None => None
          end
      | Err _ => None
      end
  end.
(** The git object [x] is read to load the object of kind [k] under [ref]: the
    object of the reference; for metadata also the one with the content. *)
Definition reads (O : store) (k : kd) (ref : reference) (x : pystr) : Prop :=
  is_none_reference ref = false /\ is_Some (O !! x) /\
  (r_loc ref = Some x \/
   (k = KdMeta /\ exists y t ref2, r_loc ref = Some y /\ load_text O y = Ok t /\ ref_from_json_str t = Ok ref2 /\
      is_none_reference ref2 = false /\ r_loc ref2 = Some x)).
(** Everything that the loader reads when it goes through what is published, at
    the end of the path [p]. *)
Definition needed (g : gstate) (r : pystr) (p : list key) (k : kd) (x : pystr) : Prop := exists k0 ref0 ref,
  published g r k0 ref0 /\ found (objs_of g r) k0 ref0 p = Some (k, ref) /\ reads (objs_of g r) k ref x.
(** A root record that is an element of a version list. *)
Definition listed (p : list key) (k : kd) : Prop := k = KdMrr /\ exists q v w, p = q ++ [KVer v w].

(** ** Documents and the references they contain *)
Definition ref_ids (t : etype) (x : res reference) : list (etype * pystr) :=
  match x with
  | Ok ref => if is_none_reference ref then [] else match r_loc ref with Some y => [(t, y)] | None => [] end
  | Err _ => []
  end.
(** The ids that follow from a document, whatever it is read as: reference, root
    record, version list; and whether they are ids of blobs or of trees.  Root
    records in version lists are left out. *)
Definition mentions (text : pystr) : list (etype * pystr) :=
  match jloads text with
  | Err _ => []
  | Ok j =>
      ref_ids File (ref_from_json_obj j) ++
      ref_ids File (rlet x <- jsub j (ps "dataset_level_metadata"); ref_from_json_obj x) ++
      ref_ids Directory (rlet x <- jsub j (ps "file_tree"); ref_from_json_obj x) ++
      match (rlet js <- jiter j; rmap read_assoc js) with
      | Ok rs => concat (map (fun a : pystr * pystr * ppath * bool * reference => if snd (fst a) then ref_ids Directory (Ok (snd a)) else []) rs)
      | Err _ => []
      end
  end.
(** The object is in the reference tree (or in one of older versions) with its
    type, or it is remembered for the next flush. *)
Definition noted (s : pst) (g : gstate) (r : pystr) (x : etype * pystr) : Prop := x ∈ s_orefs s \/ protected g r (fst x) (snd x).
(** All objects that are mentioned in the repository are noted. *)
Definition recorded (s : pst) (g : gstate) (r : pystr) : Prop := forall h b t x,
  objs_of g r !! h = Some (Blob b) -> text_result b = Ok t -> In x (mentions t) -> noted s g r x.

(** ** Objects to be written *)
Definition top_kind (k : kd) : bool := match k with KdVl true | KdUs => true | _ => false end.
(** A reference as loading and writing create it. *)
Definition ref_fits (k : kd) (ref : reference) : Prop :=
  (exists c, r_class ref = JStr c /\ scalar_str c /\ (k = KdMrr -> c = ps "MetadataRootRecord")) /\
  exists x, r_loc ref = Some x /\ (x = none_location \/ hex40 x).
(** The kinds of the parts of an object. *)
Definition kid_fits (b : body) (x : loc) (k : kd) : Prop :=
  match b with
  | BMeta _ | BText _ => False
  | BNode c _ => k = KdNode c \/ k = leaf_kd c
  | BMrr _ _ m t => (m = Some x -> k = KdMeta) /\ (t = Some x -> k = KdNode LMeta)
  | BVlist _ vs => forall rc, In rc (vs_records vs) -> elt_loc (vr_elt (snd rc)) = x -> k = if is_etree (vr_elt (snd rc)) then KdNode LMrr else KdMrr
  | BUset _ => k = KdVl false
  end.
(** What is loaded below [l] has values that the formats can hold, parts of the
    right class and proper references.  (Objects may be shared, marks and
    references may be out of date.) *)
Definition well_typed (h : heap) (l : loc) : Prop := forall y o, loaded_below h l y -> h !! y = Some o ->
  (top_kind (kind_of (o_body o)) = false -> forall ref, h_ref (o_hdr o) = Some ref -> ref_fits (kind_of (o_body o)) ref) /\
  (h_mapped (o_hdr o) = true -> label_ok (label_of (o_body o)) /\
     forall x, In x (sub_objects (o_body o)) -> exists ox, h !! x = Some ox /\ kid_fits (o_body o) x (kind_of (o_body ox))).

(** ** Processes that use the repository [r] *)
Section Steps.
  Context `{Env}.
  Inductive uses (r : pystr) : pst * gstate -> pst * gstate -> Prop :=
  (** An object is written; this may fail. *)
  | uses_write fuel l force s g res s' g' : well_typed (s_heap s) l ->
      exec (write_out fuel l (Some r) force s) g = ((res, s'), g') -> uses r (s, g) (s', g')
  (** A file tree or a dataset tree is written; this may fail. *)
  | uses_write_tree fuel l force m s g o c d res s' g' : writes fuel l (Some r) force m -> well_typed (s_heap s) l ->
      s_heap s !! l = Some o -> o_body o = BNode c d ->
      exec (m s) g = ((res, s'), g') -> uses r (s, g) (s', g')
  (** The references are flushed; this may fail. *)
  | uses_flush s g res s' g' : exec (flush_object_references r s) g = ((res, s'), g') -> uses r (s, g) (s', g')
  (** Anything in memory is changed, and other repositories. *)
  | uses_else s g s' g' : s_caches s' = s_caches s -> s_orefs s' = s_orefs s -> s_locks s' = s_locks s ->
      good g' -> g_locks g' = g_locks g -> g_repos g' !! r = g_repos g !! r -> uses r (s, g) (s', g').
End Steps.
