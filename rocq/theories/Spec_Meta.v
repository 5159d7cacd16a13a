(** Specification vocabulary for references and metadata. *)
From Verif Require Import Base Json Spec_Json Refs Meta.

(** A document that says "I am a [ty] of format version 2.0". *)
Definition tagged (ty : pystr) (doc : json) : Prop :=
  exists kvs tag, doc = JObj kvs /\ dget kvs (ps "@") = Some (JObj tag)
    /\ dget tag (ps "type") = Some (JStr ty)
    /\ dget tag (ps "version") = Some (JStr (ps "2.0")).

(** [member doc k v]: [doc] is an object with value [v] under [k] *)
Definition member (doc : json) (k : pystr) (v : json) : Prop :=
  exists kvs, doc = JObj kvs /\ dget kvs k = Some v.

(** A complete metadata document: every nested record carries its tag. *)
Definition config_doc (d : json) : Prop := tagged (ps "ExtractorConfiguration") d.
Definition instance_doc (d : json) : Prop :=
  tagged (ps "MetadataInstance") d /\
  exists c, member d (ps "configuration") c /\ config_doc c.
Definition instance_set_doc (d : json) : Prop :=
  tagged (ps "MetadataInstanceSet") d /\
  (forall l, member d (ps "parameter_set") (JArr l) -> Forall config_doc l) /\
  (exists kvs, member d (ps "instance_set") (JObj kvs) /\ Forall (fun kv => instance_doc (snd kv)) kvs).
Definition metadata_doc (d : json) : Prop :=
  tagged (ps "Metadata") d /\
  exists kvs, member d (ps "instance_sets") (JObj kvs) /\ Forall (fun kv => instance_set_doc (snd kv)) kvs.

(** what git prints as object id: lower case hex digits *)
Definition hex_text (s : pystr) : Prop :=
  Forall (fun c => (48 <= c <= 57) \/ (97 <= c <= 102))%N s.

(** Python equality of JSON values: numbers by value, lists element-wise,
    dictionaries as maps. *)
Inductive pysame : json -> json -> Prop :=
| same_null : pysame JNull JNull
| same_str s : pysame (JStr s) (JStr s)
| same_num a b n : numval a = Some n -> numval b = Some n -> pysame a b
| same_arr l m : Forall2 pysame l m -> pysame (JArr l) (JArr m)
| same_obj d e :
    (forall k v, In (k, v) d -> exists v', In (k, v') e /\ pysame v v') ->
    (forall k v', In (k, v') e -> exists v, In (k, v) d /\ pysame v v') ->
    pysame (JObj d) (JObj e).

(** No NaN anywhere (NaN is not equal to itself in Python). *)
Fixpoint no_nan (j : json) : Prop :=
  match j with
  | JNan => False
  | JArr l => (fix all l := match l with [] => True | x :: r => no_nan x /\ all r end) l
  | JObj kvs => (fix all l := match l with [] => True | kv :: r => no_nan (snd kv) /\ all r end) kvs
  | _ => True
  end.

Definition conf_ok (c : econf) : Prop := json_ok (ec_version c) /\ json_ok (JObj (ec_param c)).
Definition conf_no_nan (c : econf) : Prop := no_nan (ec_version c) /\ no_nan (JObj (ec_param c)).
(** two configurations are the same configuration *)
Definition conf_same (a b : econf) : Prop :=
  pysame (ec_version a) (ec_version b) /\ pysame (JObj (ec_param a)) (JObj (ec_param b)).

(** The arguments of one [add_extractor_run] call are JSON values; the
    configuration contains no NaN. *)
Definition run_ok (r : run) : Prop :=
  json_ok (ru_time r) /\ scalar_str (ru_extractor r) /\ json_ok (ru_author r) /\
  json_ok (ru_email r) /\ conf_ok (ru_conf r) /\ conf_no_nan (ru_conf r) /\ json_ok (ru_content r).

(** a sequence of calls *)
Fixpoint add_runs (m : metadata) (l : list run) : res metadata :=
  match l with [] => Ok m | r :: l' => rlet m' <- add_extractor_run m r; add_runs m' l' end.

(** [first_uses same l r]: [r] lists the elements of [l] in the order of their
    first use, without elements that are the same as an earlier one. *)
Inductive first_uses {A} (same : A -> A -> Prop) : list A -> list A -> Prop :=
| fu_nil : first_uses same [] []
| fu_new l r c : first_uses same l r -> Forall (fun x => ~ same x c) l ->
    first_uses same (l ++ [c]) (r ++ [c])
| fu_old l r c : first_uses same l r -> Exists (fun x => same x c) l ->
    first_uses same (l ++ [c]) r.

(** [r] is the last call for extractor [e] and configuration [c] *)
Definition last_call (calls : list run) (e : pystr) (c : econf) (r : run) : Prop :=
  exists pre post, calls = pre ++ r :: post /\ ru_extractor r = e /\ conf_same (ru_conf r) c /\
    Forall (fun x => ~ (ru_extractor x = e /\ conf_same (ru_conf x) c)) post.

(** Everything the API can build: start empty or from a stored document, then
    record runs. *)
Inductive built : metadata -> Prop :=
| built_empty : built []
| built_load j m : json_ok j -> meta_init_from_json_obj [] j = Ok m -> built m
| built_run m r m' : built m -> run_ok r -> add_extractor_run m r = Ok m' -> built m'.

(** Metadata without NaN. *)
Definition inst_no_nan (i : minst) : Prop :=
  no_nan (mi_time i) /\ no_nan (mi_author i) /\ no_nan (mi_email i) /\
  conf_no_nan (mi_conf i) /\ no_nan (mi_content i).
Definition meta_no_nan (m : metadata) : Prop :=
  Forall (fun kv => Forall conf_no_nan (mis_params (snd kv)) /\
                    Forall (fun ki => inst_no_nan (snd ki)) (mis_inst (snd kv))) m.
(** at most one configuration per extractor *)
Definition single_config (m : metadata) : Prop :=
  Forall (fun kv => (List.length (configurations (snd kv)) <= 1)%nat) m.
