(** Model of [dataladmetadatamodel/metadatapath.py] and of the part of
    [pathlib.PurePosixPath] it relies on (CPython 3.7 - 3.11, the versions the
    project supports; 3.12 replaced the parser and the constructor protocol). *)
From Verif Require Import Base.

Definition slash : N := 47%N.
Definition dot_str : pystr := [46%N].

(** A parsed path: [root] is "", "/" or "//"; [parts] are the components
    without the root.  Python's [_parts]/[parts] contain the root as first
    element if there is one: [all_parts]. *)
Record ppath := PP { p_root : pystr; p_parts : list pystr }.

#[export] Instance ppath_eq_dec : EqDecision ppath.
Proof. solve_decision. Defined.

(** pathlib: [PurePath.parts] *)
Definition all_parts (p : ppath) : list pystr :=
  match p_root p with [] => p_parts p | r => r :: p_parts p end.

(** str.lstrip("/") *)
Fixpoint lstrip_slash (s : pystr) : pystr :=
  match s with
  | c :: r => if (c =? slash)%N then lstrip_slash r else s
  | [] => []
  end.

(** pathlib: [_PosixFlavour.splitroot] *)
Definition splitroot (part : pystr) : pystr * pystr :=
  match part with
  | c :: _ =>
      if (c =? slash)%N then
        let stripped := lstrip_slash part in
        if (List.length part - List.length stripped =? 2)%nat
        then ([slash; slash], stripped)
        else ([slash], stripped)
      else ([], part)
  | [] => ([], part)
  end.

(** The components of a relative part, pathlib's loop over
    [rel.split(sep)] with [if x and x != '.']. *)
Definition keep_component (x : pystr) : bool :=
  match x with [] => false | _ => negb (bool_decide (x = dot_str)) end.
Definition components (rel : pystr) : list pystr :=
  List.filter keep_component (split_char slash rel).

(** pathlib: [_Flavour.parse_parts]; the Python loop runs over the reversed
    argument list and stops at the first argument with a root. *)
Fixpoint parse_rev (rparts : list pystr) (acc : list pystr) : ppath :=
  match rparts with
  | [] => PP [] acc
  | part :: rest =>
      match part with
      | [] => parse_rev rest acc
      | _ =>
          let '(root, rel) := splitroot part in
          match root with
          | [] => parse_rev rest (components rel ++ acc)
          | _ => PP root (components rel ++ acc)
          end
      end
  end.
Definition parse_parts (parts : list pystr) : ppath := parse_rev (rev parts) [].

(** Constructor arguments: strings or paths. pathlib: [PurePath._parse_args]
    contributes the [_parts] of path arguments. *)
Inductive parg := AStr (s : pystr) | APath (p : ppath).
Definition flatten_args (args : list parg) : list pystr :=
  concat (map (fun a => match a with AStr s => [s] | APath p => all_parts p end) args).

(** [PurePosixPath( *args )] *)
Definition PurePosixPath (args : list parg) : ppath := parse_parts (flatten_args args).

(** pathlib: [PurePath.is_absolute] *)
Definition is_absolute (p : ppath) : bool :=
  match p_root p with [] => false | _ => true end.

(** metadatapath.py 7-28, [MetadataPath.__new__].  The result of
    [arg.replace("\\", "/")] in line 12 is discarded by the code, so backslashes
    stay.  Logging omitted. *)
Definition MetadataPath (args : list parg) : ppath :=
  let original_path := PurePosixPath args in
  if negb (is_absolute original_path)
  then PurePosixPath [AStr (join [slash] (all_parts original_path))]
  else PurePosixPath [AStr (join [slash] (tl (all_parts original_path)))].

(** pathlib: [PurePath._format_parsed_parts] / [__str__] (before the
    replacement of the empty text by "."). *)
Definition format_parts (p : ppath) : pystr :=
  match p_root p with
  | [] => join [slash] (p_parts p)
  | r => r ++ join [slash] (p_parts p)
  end.
Definition PurePath_str (p : ppath) : pystr :=
  match format_parts p with [] => dot_str | s => s end.

(** metadatapath.py 30-35, [MetadataPath.__str__] *)
Definition mp_str (p : ppath) : pystr :=
  let s := PurePath_str p in if decide (s = dot_str) then [] else s.
(** pathlib: [as_posix] is [str(self)] on POSIX. *)
Definition mp_as_posix (p : ppath) : pystr := mp_str p.
(** metadatapath.py 37-38, [MetadataPath.__len__] *)
Definition mp_len (p : ppath) : nat := List.length (all_parts p).

(** pathlib: [PurePath.__truediv__], [_make_child], [join_parsed_parts]:
    MetadataPath does not override them and [MetadataPath.__new__] is not
    called for the result. *)
Definition truediv (p : ppath) (a : parg) : ppath :=
  let q := parse_parts (flatten_args [a]) in
  match p_root q with
  | [] => PP (p_root p) (p_parts p ++ p_parts q)
  | _ => q
  end.
