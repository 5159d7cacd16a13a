(** Model of [mapper/reference.py] and of the version check in [__init__.py];
    access to decoded JSON documents. *)
From Verif Require Import Base Json.

(** ** Python operations on decoded JSON values *)

(** [obj[key]] with a string key: KeyError on a dict without the key, TypeError
    on everything that is not a dict. *)
Definition jsub (j : json) (k : pystr) : res json :=
  match j with
  | JObj kvs => match dget kvs k with Some v => Ok v | None => Err KeyError end
  | _ => Err TypeError
  end.

(** [j == "literal"] for a string literal *)
Definition jis_str (j : json) (s : pystr) : bool :=
  match j with JStr t => bool_decide (t = s) | _ => false end.

(** [obj.items()] *)
Definition jitems (j : json) : res (list (pystr * json)) :=
  match j with JObj kvs => Ok kvs | _ => Err AttributeError end.

(** iteration [for x in obj]: lists yield items, dicts keys, strings their
    characters, everything else is a TypeError *)
Definition jiter (j : json) : res (list json) :=
  match j with
  | JArr l => Ok l
  | JObj kvs => Ok (map (fun kv => JStr (fst kv)) kvs)
  | JStr s => Ok (map (fun c => JStr [c]) s)
  | _ => Err TypeError
  end.

(** json.loads as a call that may raise *)
Definition jloads (s : pystr) : res json :=
  match loads s with Some j => Ok j | None => Err JSONDecodeError end.

(** __init__.py 15-17 *)
Definition version_string : pystr := ps "2.0".

(** __init__.py 20-27, [check_serialized_version] *)
Definition check_serialized_version (obj : json) : res unit :=
  rlet at1 <- jsub obj (ps "@");
  rlet _ <- jsub at1 (ps "type");
  rlet at2 <- jsub obj (ps "@");
  rlet v <- jsub at2 (ps "version");
  if jis_str v version_string then Ok tt else Err ValueError.

(** [assert obj["@"]["type"] == ty] *)
Definition assert_type (obj : json) (ty : pystr) : res unit :=
  rlet a <- jsub obj (ps "@");
  rlet t <- jsub a (ps "type");
  rassert (jis_str t ty).

(** The "@" entry every serialiser writes: dict(type=..., version=...) *)
Definition at_entry (ty : pystr) : pystr * json :=
  (ps "@", JObj [(ps "type", JStr ty); (ps "version", JStr version_string)]).

(** ** References *)

(** reference.py 17-26.  [class_name] is a string in every call of /repo; from a
    document it can be any JSON value (the constructor does not check), so it is
    kept as JSON here.  [location] is a string or None. *)
Record reference := Ref { r_class : json; r_loc : option pystr }.

Definition ref_of (cls loc : pystr) : reference := Ref (JStr cls) (Some loc).

(** reference.py 13-14 *)
Definition none_location : pystr := ps "*None*".

(** reference.py 46-47 *)
Definition is_none_reference (r : reference) : bool :=
  bool_decide (r_loc r = Some none_location).

(** reference.py 77-79 *)
Definition get_none_reference (cls : pystr) : reference := ref_of cls none_location.

(** reference.py 52-60 *)
Definition ref_to_json_obj (r : reference) : json :=
  JObj [at_entry (ps "Reference");
        (ps "class_name", r_class r);
        (ps "location", match r_loc r with Some l => JStr l | None => JNull end)].
(** reference.py 49-50 *)
Definition ref_to_json_str (r : reference) : pystr := dumps (ref_to_json_obj r).

(** reference.py 66-75 (logging of old references omitted; [in obj] cannot fail
    because [obj] was subscripted before) *)
Definition ref_from_json_obj (obj : json) : res reference :=
  rlet _ <- assert_type obj (ps "Reference");
  rlet _ <- check_serialized_version obj;
  rlet c <- jsub obj (ps "class_name");
  rlet l <- jsub obj (ps "location");
  match l with
  | JStr s => Ok (Ref c (Some s))
  | JNull => Ok (Ref c None)
  | _ => Err AssertionError      (* reference.py 22 *)
  end.
(** reference.py 62-64 *)
Definition ref_from_json_str (s : pystr) : res reference :=
  rlet j <- jloads s; ref_from_json_obj j.

(** reference.py 81-95 *)
Definition remote_patterns : list pystr :=
  [ps "git@"; ps "git:"; ps "http:"; ps "https:"; ps "ssh:"].
Definition is_remote (realm : pystr) : bool :=
  existsb (fun p => startswith p realm) remote_patterns.
Definition is_local (realm : pystr) : bool := negb (is_remote realm).
