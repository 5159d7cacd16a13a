(** Specification vocabulary for writing and reading back object graphs. *)
From Verif Require Import Base Json Path Refs Meta Spec_Meta GitText Spec_Git Git Spec_Store State Objects Spec_Look Spec_Heap Spec_Versions.

(** The content of an object: what is seen at the end of every path of keys. *)
Definition content := list key -> seen.

(** 32 lower case hexadecimal digits *)
Definition uuid_ok (u : uuid) : Prop := length u = 32%nat /\ Forall lower_hex_digit u.
(** Values that the formats can hold: valid Unicode, no objects of class Text,
    root records with identifier and version. *)
Definition label_ok (lb : label) : Prop :=
  match lb with
  | LbMeta m => built m
  | LbText _ => False
  | LbNode c => c <> LText
  | LbMrr i v => (exists u, i = Some u /\ uuid_ok u) /\ exists w, v = Some w /\ scalar_str w
  | LbVl _ rs => forall v p t b, In (v, p, t, b) rs -> scalar_str v /\ scalar_str t /\ is_metadata_path p /\ scalar_str (mp_as_posix p)
  | LbUs => True
  end.
(** [lb'] may be part of [lb] under the key [k]: names are components that git
    can store, and classes are as the constructors document them. *)
Definition part_ok (lb : label) (k : key) (lb' : label) : Prop :=
  match lb, k with
  | LbNode c, KName n => storable_name n /\
      match lb' with LbNode c' => c' = c | LbMeta _ => c = LMeta | LbMrr _ _ => c = LMrr | _ => False end
  | LbMrr _ _, KMeta => exists m, lb' = LbMeta m
  | LbMrr _ _, KTree => lb' = LbNode LMeta
  | LbVl _ rs, KVer v p => exists t b, In (v, p, t, b) rs /\ match lb' with LbNode c => c = LMrr /\ b = true | LbMrr _ _ => b = false | _ => False end
  | LbUs, KUuid u => uuid_ok u /\ exists rs, lb' = LbVl false rs
  | _, _ => False
  end.
(** Nothing is missing, all values can be stored. *)
Definition complete (c : content) : Prop := forall p,
  c p <> Broken /\
  (forall lb, c p = Seen lb -> label_ok lb) /\
  (forall k lb', c (p ++ [k]) = Seen lb' -> exists lb, c p = Seen lb /\ part_ok lb k lb').

(** Trees have entries, with the exception of the object itself. *)
Definition full (c : content) : Prop := forall p cl, c p = Seen (LbNode cl) -> p <> [] -> exists k lb, c (p ++ [k]) = Seen lb.
(** Contents of trees that [get_paths_recursive] and a later [purge] get through:
    no empty directories, no file named ".", all records with metadata. *)
Record listable (c : content) : Prop := {
  li_full : full c;
  li_name : forall p n lb, c (p ++ [KName n]) = Seen lb -> n <> ps ".";
  li_meta : forall p i v, c p = Seen (LbMrr i v) -> c (p ++ [KMeta]) <> Absent;
}.

(** Parts that are not loaded are in realm [r], by their reference. *)
Definition at_home (r : pystr) (h : heap) (l : loc) : Prop := forall p x o,
  reach h l p = Some x -> h !! x = Some o -> h_mapped (o_hdr o) = false ->
  h_realm (o_hdr o) = Some r /\ (forall m, o_body o = BMeta m -> m = []) /\
  exists ref, h_ref (o_hdr o) = Some ref /\ (is_none_reference ref = true \/ r ∈ h_saved (o_hdr o)).
(** An object is marked as saved on [r], or is not loaded and refers to nothing. *)
Definition marked (r : pystr) (o : obj) : Prop := r ∈ h_saved (o_hdr o) \/
  (h_mapped (o_hdr o) = false /\ exists ref, h_ref (o_hdr o) = Some ref /\ is_none_reference ref = true).
(** [l] and all objects that can be reached from there are marked. *)
Definition all_marked (r : pystr) (h : heap) (l : loc) : Prop := forall p x o,
  reach h l p = Some x -> h !! x = Some o -> marked r o.
(** [l] and all objects that can be reached from there are marked as saved on [r]. *)
Definition all_saved (r : pystr) (h : heap) (l : loc) : Prop := forall p x o, reach h l p = Some x -> h !! x = Some o -> r ∈ h_saved (o_hdr o).
(** The marks tell the truth: if a part and everything below it are marked as
    saved on [r], then its reference leads to its content. *)
Definition marks_true (O : store) (r : pystr) (h : heap) (l : loc) : Prop := forall p x o,
  reach h l p = Some x -> h !! x = Some o -> all_marked r h x ->
  exists ref, h_ref (o_hdr o) = Some ref /\
    forall q, look_stored O (kind_of (o_body o)) ref q = look O h x q.
(** Loaded version lists file each record under its version and path. *)
Definition records_keyed (h : heap) (l : loc) : Prop := forall p x hx k vs,
  reach h l p = Some x -> h !! x = Some (Obj hx (BVlist k vs)) -> well_keyed vs.

(** References to dataset trees do not say that they are file trees. *)
Definition classes_fit (h : heap) (l : loc) : Prop := forall p x o ref,
  reach h l p = Some x -> h !! x = Some o -> kind_of (o_body o) = KdNode LMrr -> h_ref (o_hdr o) = Some ref ->
  r_class ref <> JStr (ps "FileTree").

(** The file tree of a root record is a tree of metadata. *)
Definition file_trees (h : heap) (l : loc) : Prop := forall p x hx i v m t,
  reach h l p = Some x -> h !! x = Some (Obj hx (BMrr i v m (Some t))) -> exists ht d, h !! t = Some (Obj ht (BNode LMeta d)).

(** An object graph in one realm: no part is shared, what is not loaded can be
    loaded, marks are true, values can be stored. *)
Record tidy (O : store) (r : pystr) (s : pst) (l : loc) : Prop := {
  td_heap : heap_ok s;
  td_unshared : unshared (s_heap s) l;
  td_home : at_home r (s_heap s) l;
  td_keyed : records_keyed (s_heap s) l;
  td_class : classes_fit (s_heap s) l;
  td_tree : file_trees (s_heap s) l;
  td_marks : marks_true O r (s_heap s) l;
  td_complete : complete (look O (s_heap s) l);
}.
(** What is saved is saved on [r], which is then the realm of the object. *)
Definition one_realm (r : pystr) (h : heap) (l : loc) : Prop := forall p x o,
  reach h l p = Some x -> h !! x = Some o -> h_saved (o_hdr o) <> ∅ -> r ∈ h_saved (o_hdr o) /\ h_realm (o_hdr o) = Some r.
(** Loaded, and not written since the last modification. *)
Definition unsaved (h : heap) (l : loc) : Prop := exists o, h !! l = Some o /\ h_mapped (o_hdr o) = true /\ h_saved (o_hdr o) = ∅.
(** Something is loaded, changed and not written since. *)
Definition dirty (h : heap) (l : loc) : Prop := exists p x, reach h l p = Some x /\ unsaved h x.

(** Loading and unloading an object. *)
Inductive handles `{Env} (fuel : nat) (x : loc) : M pst unit -> Prop :=
| handles_read : handles fuel x (read_in fuel x)
| handles_ensure : handles fuel x (ensure_mapped fuel x ;;; mret tt)
| handles_purge : handles fuel x (purge fuel x).
