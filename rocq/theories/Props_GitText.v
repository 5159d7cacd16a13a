(** Property theorems about the git text formats: C04, C05, C07, C08, C48. *)
From Verif Require Import Base BaseFacts Json Spec_Json JsonFacts GitText Spec_Git GitTextFacts.
From Coq Require Import Sorting.Sorted.

(** C04: the entries sent to mktree for any non-empty directory are read back
    unchanged from git's listing of the stored tree (in git's order). *)
Theorem C04_names_survive : forall l : list dentry, l <> [] -> Forall dentry_ok l ->
  exists input es out lines l',
    encode (tree_spec (map (fun d => dir_entry_fields (de_dir d) (de_id d) (de_name d)) l)) = Ok input
    /\ mktree_input input = Some es
    /\ tree_listing es = Some out
    /\ stdout_lines out = Ok lines
    /\ rmap read_tree_line lines
       = Ok (map (fun d => (if de_dir d then ps "tree" else ps "blob", de_id d, de_name d)) l')
    /\ l' ≡ₚ l.
Proof. exact C04_lemma. Qed.
Print Assumptions C04_names_survive.

(** Distinct names stay distinct in the stored tree. *)
Theorem C04_names_distinct : forall n1 n2 : pystr,
  storable_name n1 -> storable_name n2 ->
  forall e1 e2 : tentry,
  (exists d h, mktree_line (utf8_bytes (tree_spec_line (dir_entry_fields d h n1))) = Some e1 /\ hex40 h) ->
  (exists d h, mktree_line (utf8_bytes (tree_spec_line (dir_entry_fields d h n2))) = Some e2 /\ hex40 h) ->
  te_name e1 = te_name e2 -> n1 = n2.
Proof. exact C04_distinct_lemma. Qed.
Print Assumptions C04_names_distinct.

(** quotes, a backslash in front of a quote, a tab, a carriage return, a space,
    accents, an emoji, a name that looks quoted *)
Definition sample_entries : list dentry :=
  [DE false (repeat 97%N 40) (ps "plain");
   DE true (repeat 98%N 40) (ps """quoted""");
   DE false (repeat 99%N 40) ([92; 34; 9; 13; 32; 0xE9; 0x1F600; 127; 92]%N);
   DE true (repeat 48%N 40) ([92; 110]%N); DE true (repeat 48%N 40) ([0x85; 0x2028]%N)].
Example C04_case_ok : Forall dentry_ok sample_entries.
Proof.
  unfold sample_entries. fall.
  all: split; [split; [done|]; apply List.Forall_forall; intros x Hx; apply repeat_spec in Hx; subst; unfold lower_hex_digit; lia|].
  all: unfold storable_name; split; [done|]; split; [unfold scalar_str; fall; unfold scalar; lia|].
  all: cbn; repeat split; intros H; decompose [or] H; done.
Qed.
Example C04_case :
  (rlet i <- encode (tree_spec (map (fun d => dir_entry_fields (de_dir d) (de_id d) (de_name d)) sample_entries));
   match mktree_input i with
   | Some es => match tree_listing es with
                | Some out => rlet ls <- stdout_lines out; rmap read_tree_line ls
                | None => Err RuntimeError
                end
   | None => Err RuntimeError
   end)
  = Ok [(ps "tree", repeat 98%N 40, ps """quoted""");
        (ps "blob", repeat 99%N 40, [92; 34; 9; 13; 32; 0xE9; 0x1F600; 127; 92]%N);
        (ps "tree", repeat 48%N 40, [92; 110]%N);
        (ps "blob", repeat 97%N 40, ps "plain");
        (ps "tree", repeat 48%N 40, [0x85; 0x2028]%N)].
Proof. vm_compute. reflexivity. Qed.

(** C05 is false: a single name with a line feed stores a second entry of the
    attacker's choice, and another one cannot be stored at all. *)
Theorem C05_one_entry_refuted :
  exists name name2 h : pystr,
    scalar_str name /\ ~ In 47%N name /\ ~ In 0%N name /\ hex40 h
    /\ scalar_str name2 /\ ~ In 47%N name2 /\ ~ In 0%N name2
    /\ (exists e1 e2, mktree_input (utf8_bytes (tree_spec [dir_entry_fields false h name])) = Some [e1; e2]
        /\ te_name e2 = ps "evil" /\ te_id e2 <> h)
    /\ mktree_input (utf8_bytes (tree_spec [dir_entry_fields false h name2])) = None.
Proof. exact C05_refuted_lemma. Qed.
Print Assumptions C05_one_entry_refuted.

(** For names without line feed and NUL the stored tree has exactly one entry
    per child, with the child's kind, id and name, in git's order. *)
Theorem C05_one_entry_partial : forall l : list dentry, l <> [] -> Forall dentry_ok l ->
  exists input es,
    encode (tree_spec (map (fun d => dir_entry_fields (de_dir d) (de_id d) (de_name d)) l)) = Ok input
    /\ mktree_input input = Some es
    /\ es ≡ₚ map (fun d => TE (if de_dir d then 16384%N else 33188%N) (de_id d) (utf8_bytes (de_name d))) l
    /\ StronglySorted (fun a b => bytes_leb (base_key a) (base_key b) = true) es.
Proof. exact C05_partial_lemma. Qed.
Print Assumptions C05_one_entry_partial.

(** C07: storing a JSON document as a blob and loading it through decode,
    splitlines and join gives the document back. *)
Theorem C07_json_through_git : forall j : json, json_ok j ->
  exists b t, encode (dumps j) = Ok b /\ text_result b = Ok t /\ loads t = Some j.
Proof. exact json_git_roundtrip. Qed.
Print Assumptions C07_json_through_git.
Example C07_case :
  let j := JObj [([0x2028; 10; 13; 133]%N, JStr [0x1F600; 12; 28; 10]%N)] in
  (rlet b <- encode (dumps j); rlet t <- text_result b; Ok (loads t)) = Ok (Some j).
Proof. vm_compute. reflexivity. Qed.

(** C08 is false: a text that ends in a line feed is changed. *)
Theorem C08_text_refuted : exists s : pystr, scalar_str s /\ text_result (utf8_bytes s) <> Ok s.
Proof. exact C08_refuted_lemma. Qed.
Print Assumptions C08_text_refuted.
(** What loading returns, for every text; and exactly which texts survive. *)
Theorem C08_text_partial : forall s : pystr, scalar_str s ->
  encode s = Ok (utf8_bytes s)
  /\ text_result (utf8_bytes s) = Ok (drop_final_lf (norm_lines s))
  /\ (text_result (utf8_bytes s) = Ok s <->
      (forall c, In c s -> c ∈ line_separators -> c = 10%N) /\ last s <> Some 10%N).
Proof. exact C08_partial_lemma. Qed.
Print Assumptions C08_text_partial.
Example C08_case : text_result (utf8_bytes [97; 13; 10; 98; 0x2028; 10; 10]%N) = Ok [97; 10; 98; 10; 10]%N.
Proof. vm_compute. reflexivity. Qed.

(** C48: [hash_blob] hashes exactly the bytes git hashes for the stored blob. *)
Theorem C48_hash_blob_input : forall s : pystr, scalar_str s ->
  exists b, encode s = Ok b
    /\ hash_blob_bytes s = Ok (git_blob_hash_input b)
    /\ obj_bytes (Blob b) = git_blob_hash_input b.
Proof. exact C48_lemma. Qed.
Print Assumptions C48_hash_blob_input.
(** "é€": 2 characters, 5 bytes *)
Example C48_case : hash_blob_bytes [0xE9; 0x20AC]%N = Ok (ps "blob 5" ++ [0; 0xC3; 0xA9; 0xE2; 0x82; 0xAC]%N).
Proof. vm_compute. reflexivity. Qed.
