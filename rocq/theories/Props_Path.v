(** Property theorems about metadata paths: C01, C02, C03. *)
From Verif Require Import Base BaseFacts Path Spec_Path PathFacts.

(** C01: for any strings, the path is relative and its parts are the pieces of
    the effective arguments; all parts are proper names. *)
Theorem C01_paths_normalised : forall args : list pystr,
  is_absolute (MetadataPath (map AStr args)) = false /\
  all_parts (MetadataPath (map AStr args)) = pieces (effective args) /\
  good_names (all_parts (MetadataPath (map AStr args))).
Proof. exact C01_lemma. Qed.
Print Assumptions C01_paths_normalised.

Example C01_case : all_parts (MetadataPath (map AStr [ps "x"; ps "/a//./b"; ps "..\c/"]))
  = [ps "a"; ps "b"; ps "..\c"].
Proof. reflexivity. Qed.

(** C02: paths made by the constructor; text and parts round trips, [/] is
    associative, has the empty path as unit, is left cancellative, and the
    result of joining is again a path the constructor could have made. *)
Theorem C02_text_roundtrip : forall args : list parg,
  let p := MetadataPath args in
  MetadataPath [AStr (mp_str p)] = p /\
  MetadataPath [AStr (mp_as_posix p)] = p /\
  MetadataPath [AStr (join (ps "/") (all_parts p))] = p /\
  MetadataPath [APath p] = p.
Proof. exact C02_roundtrip_lemma. Qed.
Print Assumptions C02_text_roundtrip.

Theorem C02_join_algebra : forall xs ys zs : list parg,
  let a := MetadataPath xs in let b := MetadataPath ys in let c := MetadataPath zs in
  let empty := MetadataPath [AStr []] in
  let div p q := truediv p (APath q) in
  div (div a b) c = div a (div b c) /\
  div a empty = a /\ div empty a = a /\
  (div a b = div a c -> b = c) /\
  all_parts (div a b) = all_parts a ++ all_parts b /\
  MetadataPath [APath (div a b)] = div a b.
Proof. exact C02_algebra_lemma. Qed.
Print Assumptions C02_join_algebra.

(** Distinct paths have distinct texts (used as dictionary keys and tree names). *)
Theorem C02_text_injective : forall xs ys : list parg,
  mp_str (MetadataPath xs) = mp_str (MetadataPath ys) -> MetadataPath xs = MetadataPath ys.
Proof. exact C02_injective_lemma. Qed.
Print Assumptions C02_text_injective.

Example C02_case :
  truediv (MetadataPath [AStr (ps "a/b")]) (APath (MetadataPath [AStr (ps "/c")])) = MetadataPath [AStr (ps "a/b/c")].
Proof. reflexivity. Qed.

(** C03 is false of the code: [/] with an absolute string gives an absolute
    path, and a backslash is kept as part of a name. *)
Theorem C03_relative_refuted : exists (p : list parg) (s : pystr),
  is_absolute (truediv (MetadataPath p) (AStr s)) = true.
Proof. exists [AStr (ps "a")], (ps "/b"). reflexivity. Qed.
Print Assumptions C03_relative_refuted.

Theorem C03_backslash_refuted : exists s : pystr,
  MetadataPath [AStr s] <> MetadataPath [AStr (map (fun c => if (c =? 92)%N then 47%N else c) s)].
Proof. exists (ps "a\b"). discriminate. Qed.
Print Assumptions C03_backslash_refuted.

(** The part of C03 that holds: operands that do not start with a slash, and
    path operands, give relative normalised paths; the constructor always does
    (C01).  Missing: operands starting with a slash, backslash conversion. *)
Theorem C03_relative_partial : forall (xs : list parg) (s : pystr) (ys : list parg),
  (starts_with_slash s = false ->
     is_absolute (truediv (MetadataPath xs) (AStr s)) = false /\
     all_parts (truediv (MetadataPath xs) (AStr s)) = all_parts (MetadataPath xs) ++ pieces [s]) /\
  is_absolute (truediv (MetadataPath xs) (APath (MetadataPath ys))) = false.
Proof. exact C03_partial_lemma. Qed.
Print Assumptions C03_relative_partial.

(** Exactly the operands starting with a slash break relativity. *)
Theorem C03_absolute_iff : forall (xs : list parg) (s : pystr),
  is_absolute (truediv (MetadataPath xs) (AStr s)) = starts_with_slash s.
Proof. exact C03_iff_lemma. Qed.
Print Assumptions C03_absolute_iff.

Example C03_case : starts_with_slash (ps "b/c") = false /\
  truediv (MetadataPath [AStr (ps "a")]) (AStr (ps "b/c")) = MetadataPath [AStr (ps "a/b/c")].
Proof. split; reflexivity. Qed.
