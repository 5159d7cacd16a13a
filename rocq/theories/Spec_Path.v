(** Specification vocabulary for metadata paths.  A path is described by the
    list of its component names only. *)
From Verif Require Import Base.

(** A component name: not empty, not ".", no "/". *)
Definition good_name (x : pystr) : Prop :=
  x <> [] /\ x <> ps "." /\ ~ In 47%N x.
Definition good_names (l : list pystr) : Prop := Forall good_name l.

(** The arguments that count: everything from the last argument that starts
    with a slash (all of them if there is none). *)
Definition starts_with_slash (s : pystr) : bool := startswith (ps "/") s.
Fixpoint effective (args : list pystr) : list pystr :=
  match args with
  | [] => []
  | a :: r => if existsb starts_with_slash r then effective r else a :: r
  end.

(** "the '/'-separated pieces of the arguments, empty and '.' pieces dropped" *)
Definition kept (x : pystr) : bool :=
  negb (bool_decide (x = []) || bool_decide (x = ps ".")).
Definition pieces (args : list pystr) : list pystr :=
  List.filter kept (concat (map (split_char 47%N) args)).
