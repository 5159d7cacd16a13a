(** Specification vocabulary: what git trees contain. *)
From Verif Require Import Base GitText State.

(** A tree entry is a file (regular file or symbolic link) or a directory. *)
Definition entry_kind (e : tentry) : etype :=
  if decide (canon_type (te_mode e) = TBlob) then File else Directory.

(** The entry with a name.  (A tree with two entries of the same name is
    malformed; the last one counts.) *)
Definition entry_at (es : list tentry) (b : bytes) : option (etype * pystr) :=
  match List.find (fun e => bool_decide (te_name e = b)) (rev es) with
  | Some e => Some (entry_kind e, te_id e)
  | None => None
  end.

(** The tree stored under an id; git cannot read trees with empty names. *)
Definition tree_of (objs : gmap pystr gobj) (h : pystr) : option (list tentry) :=
  match objs !! h with
  | Some (Tree es) => if existsb (fun e => bool_decide (te_name e = [])) es then None else Some es
  | _ => None
  end.

(** What a directory, given by its entries, contains at a path. *)
Fixpoint at_path (objs : gmap pystr gobj) (look : bytes -> option (etype * pystr))
    (path : list bytes) : option (etype * pystr) :=
  match path with
  | [] => None
  | b :: r =>
      match r with
      | [] => look b
      | _ => match look b with
             | Some (Directory, h) =>
                 match tree_of objs h with
                 | Some es => at_path objs (entry_at es) r
                 | None => None
                 end
             | _ => None
             end
      end
  end.
(** The same for a stored tree. *)
Definition tree_path (objs : gmap pystr gobj) (h : pystr) (path : list bytes) : option (etype * pystr) :=
  match tree_of objs h with
  | Some es => at_path objs (entry_at es) path
  | None => None
  end.

(** The directories on the way to [path] are stored trees. *)
Fixpoint dirs_present (objs : gmap pystr gobj) (look : bytes -> option (etype * pystr))
    (path : list bytes) : Prop :=
  match path with
  | [] => True
  | b :: r =>
      match r with
      | [] => True
      | _ => match look b with
             | Some (Directory, h) => exists es, tree_of objs h = Some es /\ dirs_present objs (entry_at es) r
             | _ => True
             end
      end
  end.
