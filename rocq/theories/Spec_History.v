(** Histories: any number of calls on any number of objects, in one process
    after the other, with one repository.  The calls are compared with changes
    of plain values: for every object that is not part of another one (a root)
    there is a content, see [Spec_Content]. *)
From Verif Require Import Base Path Json Refs Meta Spec_Meta GitText Spec_Git Git Spec_Store State BlobCache ObjRef Objects Spec_Objects Spec_Look Spec_Heap Spec_Versions Spec_Write Spec_Content.

(** ** Contents *)
Definition same (c d : content) : Prop := forall q, c q = d q.
(** An object without parts. *)
Definition leaf (lb : label) : content := fun q => match q with [] => Seen lb | _ => Absent end.
(** Another label, the same parts. *)
Definition relabel (d : content) (lb : label) : content := fun q => match q with [] => Seen lb | _ => d q end.
(** [c] becomes the part under the key [k]. *)
Definition plug (d : content) (k : key) (c : content) : content :=
  fun q => match q with [] => d [] | k' :: q' => if decide (k = k') then c q' else d q end.
(** There is no part under the key [k]. *)
Definition unplug (d : content) (k : key) : content :=
  fun q => match q with [] => d [] | k' :: q' => if decide (k = k') then Absent else d q end.
(** An empty file tree. *)
Definition bare (c : content) : Prop := same c (leaf (LbNode LMeta)).
(** [d] is the content of the part at [p]; a root record does not show an empty file tree. *)
Definition part_is (c : content) (p : list key) (d : content) : Prop :=
  let hidden := (exists p0, p = p0 ++ [KTree]) /\ bare d in
  (hidden -> forall q, c (p ++ q) = Absent) /\ (~ hidden -> forall q, c (p ++ q) = d q).
(** From [c] to [c'] the part at [p] changes from [d] to [d'], and nothing else. *)
Definition replaced (c : content) (p : list key) (d d' c' : content) : Prop :=
  part_is c p d /\ part_is c' p d' /\ forall q, ~ extends q p -> c' q = c q.
(** The file tree [c] becomes part of the root record [d]. *)
Definition tree_set (d c d' : content) : Prop := (bare c -> same d' (unplug d KTree)) /\ (~ bare c -> same d' (plug d KTree c)).
(** There is something at [P], or something that is not a tree on the way. *)
Definition blocked (d : content) (P : list key) : Prop :=
  exists q lb, extends P q /\ q <> [] /\ d q = Seen lb /\ (q = P \/ forall c, lb <> LbNode c).
(** [c] is at [P] now; missing trees on the way are there. *)
Definition mounted (cl : leafcls) (d : content) (P : list key) (c d' : content) : Prop :=
  (forall q, d' (P ++ q) = c q) /\
  (forall q, extends P q -> q <> P -> d' q = Seen (LbNode cl)) /\
  (forall q, ~ extends q P -> ~ extends P q -> d' q = d q).
(** The records of a version list, with another record for [v] and [p]. *)
Definition same_key (v : pystr) (p : ppath) (x : pystr * ppath * pystr * bool) : bool := bool_decide (x.1.1 = (v, p)).
Definition recorded (rs : list (pystr * ppath * pystr * bool)) (v : pystr) (p : ppath) (t : pystr) (b : bool) (rs' : list (pystr * ppath * pystr * bool)) : Prop :=
  List.filter (same_key v p) rs' = [(v, p, t, b)] /\
  List.filter (fun x => negb (same_key v p x)) rs' = List.filter (fun x => negb (same_key v p x)) rs.

(** ** Calls that change an object *)
Inductive op :=
| ORun (ru : run)                                         (** add a run to a metadata object *)
| ORemove (name : pystr)                                  (** remove an entry of a tree *)
| ONoTree | ONoMeta                                       (** set a part of a root record to None *)
| OAdd (path : ppath)                                     (** add an object to a tree *)
| OTree | OMeta                                           (** set a part of a root record *)
| OVersion (v : pystr) (t : pystr) (p : ppath) (tree : bool)  (** set an element of a version list, a tree or a root record *)
| OList (u : uuid).                                       (** set a version list of a UUID set *)
Section Calls.
  Context `{Env}.
  (** The call on [y], with the object that becomes a part of [y]. *)
  Inductive op_call (fuel : nat) (y : loc) : op -> option loc -> M pst unit -> Prop :=
  | call_run ru : op_call fuel y (ORun ru) None (metadata_add_run fuel y ru)
  | call_remove n : op_call fuel y (ORemove n) None (remove_child fuel y n)
  | call_no_tree : op_call fuel y ONoTree None (set_file_tree fuel y None)
  | call_no_meta : op_call fuel y ONoMeta None (set_dataset_level_metadata fuel y None)
  | call_add path x : op_call fuel y (OAdd path) (Some x) (add_child_at fuel y x path)
  | call_add_metadata path x : op_call fuel y (OAdd path) (Some x) (add_metadata fuel y path x)
  | call_add_dataset path x : op_call fuel y (OAdd (record_path path)) (Some x) (add_dataset fuel y path x)
  | call_add_subtree path x : op_call fuel y (OAdd path) (Some x) (add_subtree fuel y x path)
  | call_tree x : op_call fuel y OTree (Some x) (set_file_tree fuel y (Some x))
  | call_meta x : op_call fuel y OMeta (Some x) (set_dataset_level_metadata fuel y (Some x))
  | call_version v t p e : op_call fuel y (OVersion v t p (is_etree e)) (Some (elt_loc e)) (set_versioned_element fuel y v t p e)
  | call_list u x : op_call fuel y (OList u) (Some x) (set_version_list y u x).
  (** Calls that only look, load or unload. *)
  Inductive use_call (fuel : nat) (y : loc) : forall A, M pst A -> Prop :=
  | use_read : use_call fuel y _ (read_in fuel y)
  | use_ensure : use_call fuel y _ (ensure_mapped fuel y)
  | use_purge : use_call fuel y _ (purge fuel y)
  | use_saved d : use_call fuel y _ (is_saved_on fuel y d)
  | use_child n : use_call fuel y _ (get_child fuel y n)
  | use_path path : use_call fuel y _ (get_object_at_path fuel y path)
  | use_list b : use_call fuel y _ (get_paths_recursive fuel b y)
  | use_metadata path : use_call fuel y _ (get_metadata fuel y path)
  | use_in path : use_call fuel y _ (dataset_in fuel y path)
  | use_record path : use_call fuel y _ (get_metadata_root_record fuel y path)
  | use_datasets : use_call fuel y _ (dataset_paths fuel y)
  | use_tree : use_call fuel y _ (get_file_tree fuel y)
  | use_meta : use_call fuel y _ (get_dataset_level_metadata fuel y)
  | use_len : use_call fuel y _ (version_list_len y)
  | use_versions : use_call fuel y _ (versions_and_prefix_paths fuel y)
  | use_element v p : use_call fuel y _ (get_versioned_element fuel y v p)
  | use_elements v : use_call fuel y _ (get_versioned_elements fuel y v)
  | use_all_elements : use_call fuel y _ (versioned_elements fuel y)
  | use_uuids : use_call fuel y _ (uuids fuel y)
  | use_list_of u : use_call fuel y _ (get_version_list fuel y u).
  (** Constructors of empty objects. *)
  Inductive makes : label -> M pst loc -> Prop :=
  | makes_metadata : makes (LbMeta []) new_metadata
  | makes_file_tree : makes (LbNode LMeta) new_file_tree
  | makes_dataset_tree : makes (LbNode LMrr) new_dataset_tree
  | makes_version_list : makes (LbVl false []) new_version_list
  | makes_tree_version_list : makes (LbVl true []) new_tree_version_list
  | makes_uuid_set : makes LbUs new_uuid_set.
End Calls.

Definition is_kind (h : heap) (x : loc) (k : kd) : Prop := exists o, h !! x = Some o /\ kind_of (o_body o) = k.
(** Values that can be stored, objects of the documented classes; a UUID set has
    to be loaded, see [C21]. *)
Definition op_ok (h : heap) (y : loc) (o : op) (x : option loc) : Prop :=
  let part k := exists a, x = Some a /\ is_kind h a k in
  match o with
  | ORun ru => run_ok ru /\ is_kind h y KdMeta
  | ORemove _ => exists c, is_kind h y (KdNode c)
  | ONoTree | ONoMeta => is_kind h y KdMrr
  | OAdd path => is_metadata_path path /\ all_parts path <> [] /\ Forall storable_name (all_parts path) /\
      exists c, is_kind h y (KdNode c) /\ (part (KdNode c) \/ (c <> LText /\ part (leaf_kd c)))
  | OTree => is_kind h y KdMrr /\ part (KdNode LMeta)
  | OMeta => is_kind h y KdMrr /\ part KdMeta
  | OVersion v t p tree => scalar_str v /\ scalar_str t /\ is_metadata_path p /\ scalar_str (mp_as_posix p) /\
      (exists k, is_kind h y (KdVl k)) /\ part (if tree then KdNode LMrr else KdMrr)
  | OList u => uuid_ok u /\ part (KdVl false) /\ exists hx us, h !! y = Some (Obj hx (BUset us)) /\ h_mapped hx = true
  end.
(** What the call does to the content [d] of the object; [c] is the content of
    the new part, the flag says whether the call returns. *)
Definition op_effect (o : op) (d c : content) (ok : bool) (d' : content) : Prop :=
  let done := ok = true in
  let fails := ok = false /\ same d' d in
  match o with
  | ORun ru => exists m, d [] = Seen (LbMeta m) /\
      match add_extractor_run m ru with Ok m' => done /\ same d' (relabel d (LbMeta m')) | Err _ => fails end
  | ORemove n => (d [KName n] = Absent /\ fails) \/ (d [KName n] <> Absent /\ done /\ same d' (unplug d (KName n)))
  | ONoTree => done /\ same d' (unplug d KTree)
  | ONoMeta => done /\ same d' (unplug d KMeta)
  | OAdd path => let P := map KName (all_parts path) in
      (blocked d P /\ fails) \/ (~ blocked d P /\ done /\ exists cl, d [] = Seen (LbNode cl) /\ mounted cl d P c d')
  | OTree => done /\ tree_set d c d'
  | OMeta => done /\ same d' (plug d KMeta c)
  | OVersion v t p tree => done /\ exists k rs rs', d [] = Seen (LbVl k rs) /\ recorded rs v p t tree rs' /\
      same d' (plug (relabel d (LbVl k rs')) (KVer v p) c)
  | OList u => done /\ same d' (plug d (KUuid u) c)
  end.

(** ** Events *)
Inductive event :=
| ENew (l : loc) (lb : label)                             (** a new object without parts *)
| ERecord (l : loc) (u : uuid) (v : pystr) (m t : option loc)  (** a new root record *)
| EOpen (l : loc) (c : content)                           (** a new object for a reference that leads to [c] *)
| EUse                                                    (** nothing changes *)
| ESee (l : loc) (p : list key) (sn : seen)               (** [sn] is seen at [p] *)
| EOp (l : loc) (p : list key) (o : op) (x : option loc) (ok : bool)
                                                          (** a call on the part of [l] at [p] *)
| EWrite (l : loc) (c : content)                          (** [l] is written, the reference leads to [c] *)
| EPublish (l : loc) (c : content)                        (** a tree version list is written; [l] is not used any more *)
| EForget (l : loc)                                       (** [l] is not used any more *)
| ERestart.                                               (** another process *)

Definition given (x : option loc) : gset loc := match x with Some a => {[a]} | None => ∅ end.
(** The roots after an event. *)
Definition roots (e : event) (R : gset loc) : gset loc :=
  match e with
  | ENew l _ | EOpen l _ => {[l]} ∪ R
  | ERecord l _ _ m t => {[l]} ∪ R ∖ (given m ∪ given t)
  | EUse | ESee _ _ _ | EWrite _ _ => R
  | EOp _ _ _ x ok => if ok then R ∖ given x else R
  | EPublish l _ | EForget l => R ∖ {[l]}
  | ERestart => ∅
  end.
Definition content_of (C : loc -> content) (x : option loc) : content := match x with Some a => C a | None => fun _ => Absent end.
(** What an event does to the contents of the roots. *)
Definition effect (e : event) (R : gset loc) (C C' : loc -> content) : Prop :=
  let others := forall a, a ∈ roots e R -> a ∈ R -> match e with EOp l _ _ _ _ => a <> l | _ => True end -> same (C' a) (C a) in
  others /\
  match e with
  | ENew l lb => l ∉ R /\ same (C' l) (leaf lb)
  | ERecord l u v m t => l ∉ R /\
      let d := leaf (LbMrr (Some u) (Some v)) in
      let d1 := match m with Some a => plug d KMeta (C a) | None => d end in
      match t with Some a => tree_set d1 (C a) (C' l) | None => same (C' l) d1 end
  | EOpen l c => l ∉ R /\ same (C' l) c
  | EOp l p o x ok => exists d d', replaced (C l) p d d' (C' l) /\ op_effect o d (content_of C x) ok d'
  | ESee l p sn => C l p = sn
  | EWrite l c | EPublish l c => same c (C l)
  | EUse | EForget _ | ERestart => True
  end.
(** The roots and their contents after a list of events. *)
Inductive accounts : list event -> gset loc -> (loc -> content) -> Prop :=
| acc_nil C : accounts [] ∅ C
| acc_snoc es e R C C' : accounts es R C -> effect e R C C' -> accounts (es ++ [e]) (roots e R) C'.

Section History.
  Context `{Env}.
  (** The state of a process that has not used the repository [r]. *)
  Definition fresh (r : pystr) (s : pst) : Prop := heap_ok s /\ caches_ok s /\ dget (s_caches s) r = None.
  Definition is_ok {A} (a : res A) : bool := match a with Ok _ => true | Err _ => false end.
  (** The events and the calls that cause them. *)
  Inductive does (r : pystr) (s : pst) (g : gstate) (R : gset loc) : event -> pst -> gstate -> Prop :=
  | do_new lb m l s' g' : makes lb m -> exec (m s) g = ((Ok l, s'), g') -> does r s g R (ENew l lb) s' g'
  | do_record u v m t l s' g' : uuid_ok u -> scalar_str v -> given m ⊆ R -> given t ⊆ R -> given m ## given t ->
      (forall a, m = Some a -> is_kind (s_heap s) a KdMeta) -> (forall a, t = Some a -> is_kind (s_heap s) a (KdNode LMeta)) ->
      exec (new_mrr (Some u) (Some v) m t s) g = ((Ok l, s'), g') -> does r s g R (ERecord l u v m t) s' g'
  | do_open k ref l s' g' : complete (look_stored (objs_of g r) k ref) -> (k = KdNode LMrr -> r_class ref <> JStr (ps "FileTree")) ->
      exec (object_at k r ref s) g = ((Ok l, s'), g') -> does r s g R (EOpen l (look_stored (objs_of g r) k ref)) s' g'
  | do_use fuel l p y A (m : M pst A) a s' g' : l ∈ R -> reach (s_heap s) l p = Some y -> use_call fuel y A m -> exec (m s) g = ((a, s'), g') -> does r s g R EUse s' g'
  | do_grow g' : objs_of g r ⊆ objs_of g' r -> does r s g R EUse s g'
  | do_see fuel l p sn s' g' : l ∈ R -> exec (visit fuel l p s) g = ((Ok sn, s'), g') -> does r s g R (ESee l p sn) s' g'
  | do_op fuel l p y o x m a s' g' : l ∈ R -> reach (s_heap s) l p = Some y -> given x ⊆ R ∖ {[l]} -> op_ok (s_heap s) y o x -> op_call fuel y o x m ->
      exec (m s) g = ((a, s'), g') -> does r s g R (EOp l p o x (is_ok a)) s' g'
  | do_write fuel l force m k ref s' g' : l ∈ R -> writes fuel l (Some r) force m -> is_kind (s_heap s) l k -> k <> KdVl true ->
      exec (m s) g = ((Ok ref, s'), g') -> does r s g R (EWrite l (look_stored (objs_of g' r) k ref)) s' g'
  | do_publish fuel l force ref s' g' : l ∈ R -> is_kind (s_heap s) l (KdVl true) ->
      exec (write_out fuel l (Some r) force s) g = ((Ok ref, s'), g') ->
      does r s g R (EPublish l (look_stored (objs_of g' r) (KdVl true) (Ref (JStr (ps "TreeVersionList")) (r_loc ref)))) s' g'
  | do_forget l : l ∈ R -> does r s g R (EForget l) s g
  | do_restart s' : fresh r s' -> does r s g R ERestart s' g.
  Inductive history (r : pystr) : list event -> pst -> gstate -> gset loc -> Prop :=
  | hist_start s g : fresh r s -> history r [] s g ∅
  | hist_step es s g R e s' g' : history r es s g R -> does r s g R e s' g' -> history r (es ++ [e]) s' g' (roots e R).
End History.
