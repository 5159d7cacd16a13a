(** Specification vocabulary for the git text formats. *)
From Verif Require Import Base.

(** A path component that git can store: not empty, valid Unicode, no slash, no
    NUL, no line feed. *)
Definition storable_name (s : pystr) : Prop :=
  s <> [] /\ scalar_str s /\ ~ In 47%N s /\ ~ In 0%N s /\ ~ In 10%N s.

Definition lower_hex_digit (c : N) : Prop :=
  (48 <= c /\ c <= 57)%N \/ (97 <= c /\ c <= 102)%N.
(** What git prints as object id. *)
Definition hex40 (h : pystr) : Prop := length h = 40 /\ Forall lower_hex_digit h.

(** A directory entry as the user sees it: is it a directory, object id, name. *)
Record dentry := DE { de_dir : bool; de_id : pystr; de_name : pystr }.
Definition dentry_ok (d : dentry) : Prop := hex40 (de_id d) /\ storable_name (de_name d).

(** Line separators of [str.splitlines] are LF, CR LF and nine further single
    characters.  [norm_lines] replaces each of them by a line feed. *)
Definition line_separators : list N :=
  [10; 11; 12; 13; 28; 29; 30; 133; 0x2028; 0x2029]%N.
Fixpoint norm_lines (s : pystr) : pystr :=
  match s with
  | [] => []
  | 13%N :: (10%N :: r) => 10%N :: norm_lines r
  | c :: r => (if bool_decide (c ∈ line_separators) then 10%N else c) :: norm_lines r
  end.
(** Drop one line feed at the end. *)
Definition drop_final_lf (s : pystr) : pystr :=
  match last s with
  | Some 10%N => removelast s
  | _ => s
  end.

(** What git hashes for a blob with content [b] (gitformat-object): the word
    "blob", a space, the decimal number of bytes, a NUL, the bytes. *)
Definition git_blob_hash_input (b : list N) : list N :=
  ps "blob" ++ ps " " ++ str_of_N (N.of_nat (length b)) ++ [0%N] ++ b.
