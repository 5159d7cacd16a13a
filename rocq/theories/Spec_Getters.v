(** Specification vocabulary for C58: what the getters return, by the content of
    the object that they are called on. *)
From Verif Require Import Base Path Spec_Path Json Refs Meta GitText Git State BlobCache ObjRef Objects Spec_Look Spec_Heap Spec_Content.

(** The content of the part at [p]. *)
Definition under (c : content) (p : list key) : content := fun q => c (p ++ q).
Definition names (path : ppath) : list key := map KName (all_parts path).
(** What a version list shows of a record. *)
Definition shown (r : pystr * vrec) : pystr * ppath * pystr * bool := (fst r, vr_path (snd r), vr_time (snd r), is_etree (vr_elt (snd r))).

Section Getters.
  Context `{Env}.
  (** The object [x] shows the content [c]. *)
  Definition displays (s : pst) (g : gstate) (x : loc) (c : content) : Prop :=
    forall (fuel : nat) (q : list key), fst (fst (exec (visit fuel x q s) g)) = Ok (c q).
  (** [x] is the part of [y] at [p], and shows what the content [c] of [y] has there. *)
  Definition part_at (y : loc) (c : content) (p : list key) (s : pst) (g : gstate) (x : loc) : Prop :=
    c p <> Absent /\ reach (s_heap s) y p = Some x /\ displays s g x (under c p).
  (** Calls of getters of [y], and what they return if [y] has the content [c]:
      the part, nothing if there is none, an error if it has the wrong class. *)
  Inductive getter (fuel : nat) (y : loc) (c : content) : forall A, M pst A -> (pst -> gstate -> res A -> Prop) -> Prop :=
  | get_at path : getter fuel y c _ (get_object_at_path fuel y path) (fun s g a =>
      match a with
      | Ok (Some x) => part_at y c (names path) s g x
      | Ok None => c (names path) = Absent
      | Err _ => False
      end)
  | get_data path : getter fuel y c _ (get_metadata fuel y path) (fun s g a =>
      match a with
      | Ok (Some x) => (exists m, c (names path) = Seen (LbMeta m)) /\ part_at y c (names path) s g x
      | Ok None => c (names path) = Absent
      | Err e => e = AssertionError /\ exists lb, c (names path) = Seen lb /\ forall m, lb <> LbMeta m
      end)
  | get_in path : getter fuel y c _ (dataset_in fuel y path) (fun _ _ a =>
      exists b, a = Ok b /\ (b = true <-> c (names (record_path path)) <> Absent))
  | get_record path : getter fuel y c _ (get_metadata_root_record fuel y path) (fun s g a =>
      match a with
      | Ok (Some x) => (exists i v, c (names (record_path path)) = Seen (LbMrr i v)) /\ part_at y c (names (record_path path)) s g x
      | Ok None => c (names (record_path path)) = Absent
      | Err e => e = AssertionError /\ exists lb, c (names (record_path path)) = Seen lb /\ forall i v, lb <> LbMrr i v
      end)
  | get_tree i v : c [] = Seen (LbMrr i v) -> getter fuel y c _ (get_file_tree fuel y) (fun s g a =>
      match a with
      | Ok (Some x) => part_at y c [KTree] s g x \/
          (c [KTree] = Absent /\ reach (s_heap s) y [KTree] = Some x /\           (** an empty tree *)
           exists d, displays s g x d /\ d [] = Seen (LbNode LMeta) /\ forall k, d [k] = Absent)
      | Ok None => c [KTree] = Absent
      | Err _ => False
      end)
  | get_meta i v : c [] = Seen (LbMrr i v) -> getter fuel y c _ (get_dataset_level_metadata fuel y) (fun s g a =>
      match a with
      | Ok x => part_at y c [KMeta] s g x
      | Err e => e = AttributeError /\ c [KMeta] = Absent
      end)
  | get_versions t rs : c [] = Seen (LbVl t rs) -> getter fuel y c _ (versions_and_prefix_paths fuel y) (fun _ _ a =>
      a = Ok (map (fun r => (r.1.1.1, r.1.1.2)) rs))
  | get_element t rs v p : c [] = Seen (LbVl t rs) -> getter fuel y c _ (get_versioned_element fuel y v p) (fun s g a =>
      match a with
      | Ok r => vr_path r = p /\ In (shown (v, r)) rs /\ part_at y c [KVer v p] s g (elt_loc (vr_elt r))
      | Err e => e = KeyError /\ c [KVer v p] = Absent
      end)
  | get_elements t rs v : c [] = Seen (LbVl t rs) -> getter fuel y c _ (get_versioned_elements fuel y v) (fun s g a =>
      match a with
      | Ok l => map (fun r => shown (v, r)) l = List.filter (fun x => bool_decide (x.1.1.1 = v)) rs /\
          forall r, In r l -> part_at y c [KVer v (vr_path r)] s g (elt_loc (vr_elt r))
      | Err e => e = KeyError /\ forall p, c [KVer v p] = Absent
      end)
  | get_all t rs : c [] = Seen (LbVl t rs) -> getter fuel y c _ (versioned_elements fuel y) (fun s g a =>
      exists l, a = Ok l /\ map shown l = rs /\ forall v r, In (v, r) l -> part_at y c [KVer v (vr_path r)] s g (elt_loc (vr_elt r)))
  | get_uuids : c [] = Seen LbUs -> getter fuel y c _ (uuids fuel y) (fun _ _ a =>
      exists us, a = Ok us /\ NoDup us /\ forall u, In u us <-> c [KUuid u] <> Absent)
  | get_list u : c [] = Seen LbUs -> getter fuel y c _ (get_version_list fuel y u) (fun s g a =>
      match a with
      | Ok x => part_at y c [KUuid u] s g x
      | Err e => e = KeyError /\ c [KUuid u] = Absent
      end).
End Getters.

Section Listings.
  Context `{Env}.
  (** [a] lists the paths [q] with content at [at_ q], once each and with an object
      that shows it; directories only if [inter].  It fails for trees that are
      deeper than the recursion limit. *)
  Definition lists_paths (fuel : nat) (inter : bool) (at_ : ppath -> list key) (c : content) (s : pst) (g : gstate) (a : res (list (ppath * loc))) : Prop :=
    match a with
    | Ok xs => NoDup (map fst xs) /\
        (forall q x, In (q, x) xs -> is_metadata_path q /\ displays s g x (under c (at_ q))) /\
        forall q, is_metadata_path q -> In q (map fst xs) <-> exists lb, c (at_ q) = Seen lb /\ (inter = true \/ forall cl, lb <> LbNode cl)
    | Err e => e = RecursionError /\ exists q lb, fuel <= S (length q) /\ c q = Seen lb
    end.
End Listings.
