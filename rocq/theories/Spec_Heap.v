(** Specification vocabulary for objects in memory: addresses, which object is
    found along a path of keys, unshared object graphs. *)
From Verif Require Import Base Path Spec_Path Refs Meta GitText Git State Objects Spec_Look.

(** Addresses are used once, parts of objects exist, and an object that is not
    loaded has no parts in memory. *)
Definition heap_ok (s : pst) : Prop := forall (l : loc) o, s_heap s !! l = Some o ->
  (l < s_next s)%N /\
  (forall x, In x (sub_objects (o_body o)) -> is_Some (s_heap s !! x)) /\
  (h_mapped (o_hdr o) = false -> sub_objects (o_body o) = []) /\
  NoDup (dkeys (kids_of (o_body o))).

(** The object at the end of a path of keys, as far as objects are loaded. *)
Fixpoint reach (h : heap) (l : loc) (p : list key) : option loc :=
  match p with
  | [] => Some l
  | k :: p' =>
      match h !! l with
      | Some o => if h_mapped (o_hdr o)
                  then match dget (kids_of (o_body o)) k with Some x => reach h x p' | None => None end
                  else None
      | None => None
      end
  end.
(** No object is part of another one twice. *)
Definition unshared (h : heap) (l : loc) : Prop := forall p q x,
  reach h l p = Some x -> reach h l q = Some x -> p = q.

(** No object is reached from both [a] and [b]. *)
Definition apart (h : heap) (a b : loc) : Prop := forall p q x, reach h a p = Some x -> reach h b q <> Some x.

Definition node_at (h : heap) (l : loc) : Prop := exists x c d, h !! l = Some (Obj x (BNode c d)).
(** [q] is [p] or below it. *)
Definition extends {A} (q p : list A) : Prop := exists r, q = p ++ r.
(** Metadata paths, as [MetadataPath] makes them. *)
Definition is_metadata_path (p : ppath) : Prop := exists args, p = MetadataPath args.
(** No tree node is found under two paths. *)
Definition nodes_unshared (h : heap) (l : loc) : Prop := forall p q x,
  reach h l (map KName p) = Some x -> reach h l (map KName q) = Some x -> node_at h x -> p = q.
(** All trees below [l] are loaded, with names that can be components of paths. *)
Definition loaded_tree (h : heap) (l : loc) : Prop := forall p x hx c d,
  reach h l (map KName p) = Some x -> h !! x = Some (Obj hx (BNode c d)) ->
  h_mapped hx = true /\ List.Forall good_name (dkeys d).
