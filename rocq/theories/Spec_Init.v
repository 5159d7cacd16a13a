(** Specification vocabulary for initial sets of runs (C12) and lengths of paths (C02). *)
From Verif Require Import Base Path Json Spec_Json Refs Meta Spec_Meta.

(** An instance made of JSON values; its configuration contains no NaN. *)
Definition inst_ok (i : minst) : Prop :=
  json_ok (mi_time i) /\ json_ok (mi_author i) /\ json_ok (mi_email i) /\ conf_ok (mi_conf i) /\ conf_no_nan (mi_conf i) /\ json_ok (mi_content i).
(** [i] is the last instance in [l] with the configuration [c]. *)
Definition last_instance (l : list minst) (c : econf) (i : minst) : Prop :=
  exists pre post, l = pre ++ i :: post /\ conf_same (mi_conf i) c /\ Forall (fun x => ~ conf_same (mi_conf x) c) post.
(** The number of slashes in a text. *)
Fixpoint count_slash (s : pystr) : nat :=
  match s with [] => 0%nat | c :: r => if bool_decide (c = 47%N) then S (count_slash r) else count_slash r end.
