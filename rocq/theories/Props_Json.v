(** Property theorems about JSON text: C06. *)
From Verif Require Import Base BaseFacts Json Spec_Json JsonFacts.

(** C06: every JSON document is read back from its text. *)
Theorem C06_json_roundtrip : forall j : json, json_ok j -> loads (dumps j) = Some j.
Proof. exact loads_dumps. Qed.
Print Assumptions C06_json_roundtrip.

(** The text is one non-empty line of printable ASCII characters. *)
Theorem C06_json_text_single_line : forall j : json, json_ok j ->
  Forall (fun c => 32 <= c /\ c <= 126)%N (dumps j) /\ splitlines (dumps j) = [dumps j].
Proof. exact C06_line_lemma. Qed.
Print Assumptions C06_json_text_single_line.

(** A document with nesting, escapes, astral characters, numbers; it meets
    [json_ok]. *)
Definition sample_doc : json :=
  JObj [(ps "k""\", JArr [JNull; JBool true; JInt (-12); JFloat (ps "1.5e-07"); JNan; JInf false]);
        ([0x1F600%N; 10%N; 0x2028%N], JStr [0x7F%N; 0xE9%N; 0xFFFF%N; 9%N]); ([], JObj [])].
Example C06_case_ok : json_ok sample_doc.
Proof.
  split; [|repeat split; try (unfold scalar_str; repeat constructor; unfold scalar; lia)].
  - repeat constructor; set_solver.
  - exists [], (ps "1"), (ps ".5"), (ps "e-07"). repeat split; auto.
    + right. split; [|done]. split; [done|repeat constructor].
    + right. exists (ps "5"). split; [done|]. split; [done|repeat constructor].
    + right. exists (ps "e"), (ps "-"), (ps "07"). split; [done|]. split; [auto|]. split; [auto|]. split; [done|repeat constructor].
    + by intros [? ?].
Qed.
Example C06_case : loads (dumps sample_doc) = Some sample_doc.
Proof. vm_compute. reflexivity. Qed.
