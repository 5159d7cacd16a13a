(** Specification vocabulary: what repositories contain. *)
From Verif Require Import Base GitText Spec_Git Git.

(** Tree entry names that git can store: no NUL, no slash. *)
Definition name_byte (c : N) : Prop := (0 < c /\ c < 256 /\ c <> 47)%N.
Definition wf_name (b : bytes) : Prop := Forall name_byte b.
Definition wf_entry (e : tentry) : Prop := hex40 (te_id e) /\ wf_name (te_name e).
Definition wf_obj (o : gobj) : Prop := match o with Blob _ => True | Tree es => Forall wf_entry es end.

(** Names that git prints without quotes: visible ASCII characters and spaces,
    no double quote, no backslash. *)
Definition plain_char (c : N) : Prop := (32 <= c /\ c < 127 /\ c <> 34 /\ c <> 92 /\ c <> 47)%N.
Definition plain_name (s : pystr) : Prop := s <> [] /\ Forall plain_char s.

(** Objects and references of a repository. *)
Definition objs_of (g : gstate) (n : pystr) : gmap pystr gobj :=
  match g_repos g !! n with Some r => r_objs r | None => ∅ end.
Definition refs_of (g : gstate) (n : pystr) : gmap pystr pystr :=
  match g_repos g !! n with Some r => r_refs r | None => ∅ end.
Definition exists_repo (g : gstate) (n : pystr) : Prop := is_Some (g_repos g !! n).

(** Every object is stored under its own id and is well formed (true of empty
    repositories and preserved by every command, see [git_good]). *)
Definition good `{Env} (g : gstate) : Prop :=
  forall n h o, objs_of g n !! h = Some o -> oid o = h /\ wf_obj o.
(** Objects and repositories are only added. *)
Definition grow (g g' : gstate) : Prop := forall n,
  objs_of g n ⊆ objs_of g' n /\ (exists_repo g n -> exists_repo g' n).
