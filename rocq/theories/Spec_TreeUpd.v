(** Specification vocabulary: merging paths into a tree. *)
From Verif Require Import Base GitText Spec_Git Git Spec_Store State TreeUpd Spec_Tree.

(** What the caller has to provide: a path of plain names and an object id. *)
Definition info_ok (p : pathinfo) : Prop :=
  pi_elements p <> [] /\ Forall plain_name (pi_elements p) /\ hex40 (pi_hash p).

(** One path is the other one or inside of it. *)
Definition related (p q : list bytes) : Prop := p `prefix_of` q \/ q `prefix_of` p.

(** The given objects can all be placed: no given path is inside of another one,
    no object changes its kind, no given path leads through an existing file. *)
Definition compatible (objs : gmap pystr gobj) (look : bytes -> option (etype * pystr))
    (infos : list pathinfo) : Prop :=
  ForallOrdPairs (fun p q => ~ related (pi_elements p) (pi_elements q)) infos /\
  (forall p t h, p ∈ infos -> at_path objs look (pi_elements p) = Some (t, h) -> t = pi_type p) /\
  (forall p d h, p ∈ infos -> d `prefix_of` pi_elements p -> d <> pi_elements p ->
     at_path objs look d <> Some (File, h)).

(** [look'] is [look] with the given objects placed: they are where they should
    be, in directories that can be read, and all other paths are as before. *)
Definition updated (objs : gmap pystr gobj) (look look' : bytes -> option (etype * pystr))
    (infos : list pathinfo) : Prop :=
  (forall p, p ∈ infos -> at_path objs look' (pi_elements p) = Some (pi_type p, pi_hash p)) /\
  (forall p d, p ∈ infos -> d `prefix_of` pi_elements p -> d <> pi_elements p -> d <> [] ->
     exists h, at_path objs look' d = Some (Directory, h) /\ is_Some (tree_of objs h)) /\
  (forall path, Forall wf_name path -> (forall p, p ∈ infos -> ~ related (pi_elements p) path) ->
     at_path objs look' path = at_path objs look path).

(** What an update of the directory [es] may do: it returns the id of the merged
    tree, or raises ValueError because the paths do not fit, or RuntimeError
    because git failed.  No reference changes and no object disappears. *)
Definition update_outcome {S : Type} (n : pystr) (infos : list pathinfo) (es : list tentry) (s : S) (g : gstate)
    (x : res pystr * S * gstate) : Prop :=
  let '(r, s', g') := x in
  s' = s /\ grow g g' /\ (forall m, refs_of g' m = refs_of g m) /\
  match r with
  | Ok h => compatible (objs_of g n) (entry_at es) infos /\
      exists es', tree_of (objs_of g' n) h = Some es' /\
                  updated (objs_of g' n) (entry_at es) (entry_at es') infos
  | Err e => e = RuntimeError \/ e = ValueError /\ ~ compatible (objs_of g n) (entry_at es) infos
  end.
