(** Property theorems about references, metadata and metadata sources:
    C09 - C14. *)
From Verif Require Import Base BaseFacts Path Spec_Path Json Spec_Json JsonFacts
  Refs Meta Spec_Meta RefsFacts MetaFacts.

(** ** C09 *)
Theorem C09_reference_roundtrip : forall r : reference,
  json_ok (r_class r) ->
  match r_loc r with Some l => scalar_str l | None => True end ->
  ref_from_json_str (ref_to_json_str r) = Ok r.
Proof. exact ref_roundtrip. Qed.
Print Assumptions C09_reference_roundtrip.

(** Additional members (old-style "mapper_family", "realm", ...) are ignored:
    only the three members that [to_json_obj] writes are looked at. *)
Theorem C09_extra_keys_ignored : forall (kvs : list (pystr * json)) (r : reference),
  (forall k, In k [ps "@"; ps "class_name"; ps "location"] ->
     dget kvs k = match ref_to_json_obj r with JObj d => dget d k | _ => None end) ->
  ref_from_json_obj (JObj kvs) = Ok r.
Proof. exact ref_extra_keys. Qed.
Print Assumptions C09_extra_keys_ignored.

Theorem C09_none_reference_exact : forall r : reference,
  (is_none_reference r = true <-> exists cls : json, r = Ref cls (r_loc (get_none_reference []))) /\
  (forall cls loc, hex_text loc -> is_none_reference (ref_of cls loc) = false).
Proof. exact C09_none_lemma. Qed.
Print Assumptions C09_none_reference_exact.

Example C09_case :
  ref_from_json_obj (JObj [(ps "realm", JStr (ps "/tmp/t")); at_entry (ps "Reference");
     (ps "location", JStr (ps "0a1b")); (ps "class_name", JStr (ps "Metadata")); (ps "mapper_family", JStr (ps "git"))])
  = Ok (ref_of (ps "Metadata") (ps "0a1b")) /\ hex_text (ps "0a1b").
Proof. split; [reflexivity|]. repeat constructor; lia. Qed.

(** ** C10: whatever a deserialiser accepts is tagged with its type and with
    version 2.0, at every level; and each of them rejects every other document
    with an exception (sources: with an exception or None). *)
Theorem C10_only_tagged_accepted : forall d : json,
  (forall r, ref_from_json_obj d = Ok r -> tagged (ps "Reference") d) /\
  (forall c, ec_from_json d = Ok c -> config_doc d) /\
  (forall i, mi_from_json d = Ok i -> instance_doc d) /\
  (forall s, mis_from_json d = Ok s -> instance_set_doc d) /\
  (forall m0 m, meta_init_from_json_obj m0 d = Ok m -> metadata_doc d) /\
  (forall s, ms_from_json_obj d = Ok (Some s) ->
     match s with
     | LocalGit _ _ => tagged (ps "LocalGitMetadataSource") d
     | Immediate _ => tagged (ps "ImmediateMetadataSource") d
     end).
Proof. exact C10_lemma. Qed.
Print Assumptions C10_only_tagged_accepted.

(** The version check itself: ValueError exactly for a readable other version. *)
Theorem C10_version_check_exact : forall (kvs tag : list (pystr * json)) (t v : json),
  dget kvs (ps "@") = Some (JObj tag) -> dget tag (ps "type") = Some t ->
  dget tag (ps "version") = Some v ->
  check_serialized_version (JObj kvs) = (if decide (v = JStr (ps "2.0")) then Ok tt else Err ValueError).
Proof. exact C10_version_lemma. Qed.
Print Assumptions C10_version_check_exact.

Definition old_doc : json :=
  JObj [(ps "@", JObj [(ps "type", JStr (ps "Reference")); (ps "version", JStr (ps "1.0"))]);
        (ps "class_name", JStr (ps "Text")); (ps "location", JStr (ps "x"))].
Example C10_case : ref_from_json_obj old_doc = Err ValueError.
Proof. reflexivity. Qed.

(** ** C11 *)
Theorem C11_metadata_roundtrip : forall m : metadata,
  built m -> meta_from_json (meta_to_json m) = Ok m.
Proof. exact C11_lemma. Qed.
Print Assumptions C11_metadata_roundtrip.

Definition conf1 : econf := EC (JStr (ps "1.0")) [(ps "a", JInt 1)].
Definition conf1' : econf := EC (JStr (ps "1.0")) [(ps "a", JBool true)].
Definition conf2 : econf := EC (JStr (ps "1.0")) [(ps "a", JStr [0xE9%N])].
Definition run1 := Run (JFloat (ps "1.5")) (ps "ex") (JStr (ps "A")) (JStr (ps "a@b")) conf1 (JObj [(ps "x", JNull)]).
Definition run2 := Run (JFloat (ps "2.5")) (ps "ex") (JStr (ps "B")) (JStr (ps "b@b")) conf2 (JArr [JInt 3]).
Definition run3 := Run (JInt 7) (ps "ex") (JStr (ps "C")) (JStr (ps "c@b")) conf1' (JStr []).
Definition run4 := Run (JInt 8) (ps "ey") (JStr (ps "D")) (JStr (ps "d@b")) conf1 (JBool false).
Lemma runs_ok : Forall run_ok [run1; run2; run3; run4].
Proof.
  assert (Hf : forall a b, (a = ps "1" \/ a = ps "2") -> b = ps ".5" -> float_text (a ++ b)).
  { intros a b Ha ->. exists [], a, (ps ".5"), []. rewrite app_nil_r. repeat split; auto; [| |naive_solver].
    - right. destruct Ha as [->| ->]; (split; [split; [done|repeat constructor]|done]).
    - right. exists (ps "5"). repeat split; [done|repeat constructor]. }
  assert (Hp : forall v, json_ok v -> json_ok (JObj [(ps "a", v)])).
  { intros v Hv. apply json_ok_obj. split; [apply NoDup_singleton|]. fcons; [scal|done|apply List.Forall_nil]. }
  repeat apply List.Forall_cons; try apply List.Forall_nil; repeat split; try scal;
    try (by apply (Hf (ps "1") (ps ".5")); auto); try (by apply (Hf (ps "2") (ps ".5")); auto).
  all: try (apply NoDup_singleton).
Qed.
Definition sample_meta : metadata := match add_runs [] [run1; run2; run3; run4] with Ok m => m | Err _ => [] end.
Lemma sample_built : built sample_meta.
Proof. apply (add_runs_built [] [run1; run2; run3; run4]); [constructor|exact runs_ok|vm_compute; reflexivity]. Qed.
Example C11_case : built sample_meta /\ sample_meta <> [] /\
  meta_from_json (meta_to_json sample_meta) = Ok sample_meta.
Proof. split; [exact sample_built|]. split; [discriminate|vm_compute; reflexivity]. Qed.

(** ** C12 *)
Theorem C12_latest_run_wins : forall calls : list run, Forall run_ok calls ->
  exists m, add_runs [] calls = Ok m /\
    first_uses eq (map ru_extractor calls) (extractors m) /\
    forall e : pystr,
      (e ∉ map ru_extractor calls -> extractor_runs_for_extractor m e = Err KeyError) /\
      (e ∈ map ru_extractor calls ->
       exists s, extractor_runs_for_extractor m e = Ok s /\
         first_uses conf_same
           (map ru_conf (List.filter (fun r => bool_decide (ru_extractor r = e)) calls)) (configurations s) /\
         Forall2 (fun c i => get_instance_for_configuration s c = Ok i) (configurations s) (mis_iter s) /\
         forall c i, conf_ok c ->
           (get_instance_for_configuration s c = Ok i <->
            exists r, last_call calls e c r /\ i = run_inst r)).
Proof. exact C12_lemma. Qed.
Print Assumptions C12_latest_run_wins.

(** run3 replaces run1 ([1 == True] in Python), run2 and run4 stay. *)
Example C12_case : Forall run_ok [run1; run2; run3; run4] /\
  sample_meta = [(ps "ex", MIS [conf1; conf2] [(0%Z, run_inst run3); (1%Z, run_inst run2)]);
                 (ps "ey", MIS [conf1] [(0%Z, run_inst run4)])].
Proof. split; [exact runs_ok|vm_compute; reflexivity]. Qed.

(** ** C13 is false of the code: a metadata object with two configurations for
    one extractor cannot be compared, not even with its own copy. *)
Theorem C13_comparison_refuted : exists m m', built m /\ meta_from_json (meta_to_json m) = Ok m' /\
  meta_eq m m' = Err TypeError.
Proof. exists sample_meta, sample_meta. split; [exact sample_built|]. split; vm_compute; reflexivity. Qed.
Print Assumptions C13_comparison_refuted.

(** What holds: with at most one configuration per extractor the comparison
    returns a boolean.  Missing: two or more configurations. *)
Theorem C13_comparison_partial : forall a b : metadata,
  single_config a -> single_config b -> exists x, meta_eq a b = Ok x.
Proof. exact C13_partial_lemma. Qed.
Print Assumptions C13_comparison_partial.

(** Exact outcome of comparing a metadata object with its reloaded copy. *)
Theorem C13_reload_comparison_exact : forall m, built m -> meta_no_nan m ->
  exists m', meta_from_json (meta_to_json m) = Ok m' /\
  meta_eq m m' = if existsb (fun kv => (1 <? List.length (configurations (snd kv)))%nat) m
                 then Err TypeError else Ok true.
Proof. exact C13_reload_lemma. Qed.
Print Assumptions C13_reload_comparison_exact.

Example C13_case : let m := match add_runs [] [run1; run3; run4] with Ok m => m | Err _ => [] end in
  single_config m /\ m <> [] /\ meta_no_nan m /\ meta_eq m m = Ok true.
Proof. vm_compute. repeat split; try discriminate; repeat constructor. Qed.

(** ** C14 *)
Theorem C14_local_git_roundtrip : forall (args : list parg) (o : pystr),
  scalar_str (PurePath_str (PurePosixPath args)) -> scalar_str o ->
  let s := mk_local_git (PurePosixPath args) o in
  ms_from_json_str (ms_to_json_str s) = Ok (Some s) /\ ms_eq s s = true.
Proof. exact C14_local_lemma. Qed.
Print Assumptions C14_local_git_roundtrip.
Theorem C14_immediate_roundtrip : forall c : json, json_ok c ->
  ms_from_json_str (ms_to_json_str (Immediate c)) = Ok (Some (Immediate c)) /\
  (no_nan c -> ms_eq (Immediate c) (Immediate c) = true).
Proof. exact C14_immediate_lemma. Qed.
Print Assumptions C14_immediate_roundtrip.
(** Missing keys and unknown types give None. *)
Theorem C14_incomplete_gives_none : forall kvs : list (pystr * json),
  (dget kvs (ps "metadata_source_type") <> Some (JStr (ps "LocalGitMetadataSource")) ->
   dget kvs (ps "metadata_source_type") <> Some (JStr (ps "ImmediateMetadataSource")) ->
   ms_from_json_obj (JObj kvs) = Ok None) /\
  (tagged (ps "LocalGitMetadataSource") (JObj kvs) ->
   dget kvs (ps "metadata_source_type") = Some (JStr (ps "LocalGitMetadataSource")) ->
   (dget kvs (ps "git_repository_path") = None \/
    (exists p, dget kvs (ps "git_repository_path") = Some (JStr p)) /\ dget kvs (ps "object_reference") = None) ->
   ms_from_json_obj (JObj kvs) = Ok None) /\
  (tagged (ps "ImmediateMetadataSource") (JObj kvs) ->
   dget kvs (ps "metadata_source_type") = Some (JStr (ps "ImmediateMetadataSource")) ->
   dget kvs (ps "content") = None ->
   ms_from_json_obj (JObj kvs) = Ok None).
Proof. exact C14_none_lemma. Qed.
Print Assumptions C14_incomplete_gives_none.

Example C14_case :
  mk_local_git (PurePosixPath [AStr (ps "//a/./b")]) (ps " 12ab ") = LocalGit (PP (ps "//") [ps "a"; ps "b"]) (ps "12ab")
  /\ ms_from_json_obj (JObj [at_entry (ps "LocalGitMetadataSource"); (ps "metadata_source_type", JStr (ps "LocalGitMetadataSource"))]) = Ok None.
Proof. split; reflexivity. Qed.
