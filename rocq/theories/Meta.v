(** Model of [metadata.py] (values, without the storage state that
    MappableObject adds; see Objects.v for that) and of [metadatasource.py].

    Simplification: Python objects are values here, i.e. a caller that mutates
    a configuration or a content dictionary after handing it over is not
    modelled. *)
From Verif Require Import Base Path Json Refs.

(** ** Python's [==] on JSON values *)

(** Numbers are compared by value across bool, int and float.  A finite value
    is [m * 2 ^ e] with [m] odd (or [m = e = 0]). *)
Inductive numv := NFin (m e : Z) | NInf (neg : bool).
#[export] Instance numv_eq_dec : EqDecision numv.
Proof. solve_decision. Defined.

Fixpoint odd_part (p : positive) : positive * Z :=
  match p with
  | xO q => let '(m, e) := odd_part q in (m, e + 1)%Z
  | _ => (p, 0%Z)
  end.
(** m * 2^e in canonical form *)
Definition canon (m e : Z) : numv :=
  match m with
  | Z0 => NFin 0 0
  | Zpos p => let '(q, k) := odd_part p in NFin (Zpos q) (e + k)
  | Zneg p => let '(q, k) := odd_part p in NFin (Zneg q) (e + k)
  end.

(** sign, digits and decimal exponent of a float literal *)
Definition float_parts (t : pystr) : bool * Z * Z :=
  let '(neg, r) := match t with
                   | c :: r => if (c =? 45)%N then (true, r) else (false, t)
                   | [] => (false, t)
                   end in
  let '(ip, r1) := span_digits r in
  let '(fr, r2) := match r1 with
                   | c :: x => if (c =? 46)%N then span_digits x else ([], r1)
                   | [] => ([], r1)
                   end in
  let ex := match r2 with
            | _ :: x => match x with
                        | c :: y => if (c =? 43)%N then Z_of_text y else Z_of_text x
                        | [] => 0%Z
                        end
            | [] => 0%Z
            end in
  (neg, Z.of_N (N_of_digits (ip ++ fr)), (ex - Z.of_nat (List.length fr))%Z).

(** round half to even of a quotient *)
Definition round_div (a b : Z) : Z :=
  let q := (a / b)%Z in let r := (a mod b)%Z in
  if (2 * r <? b)%Z then q
  else if (b <? 2 * r)%Z then (q + 1)%Z
  else if Z.even q then q else (q + 1)%Z.

(** a / b * 2^-k *)
Definition scaled (a b k : Z) : Z * Z :=
  if (0 <=? k)%Z then (a, b * 2 ^ k)%Z else (a * 2 ^ (- k), b)%Z.

(** The IEEE double a decimal literal denotes (round to nearest even). *)
Definition double_of (t : pystr) : numv :=
  let '(neg, m, e) := float_parts t in
  if (m =? 0)%Z then NFin 0 0 else
  let '(a, b) := if (0 <=? e)%Z then (m * 10 ^ e, 1)%Z else (m, 10 ^ (- e))%Z in
  let k0 := (Z.log2 a - Z.log2 b - 52)%Z in
  let '(a0, b0) := scaled a b k0 in
  let k1 := if (a0 / b0 <? 2 ^ 52)%Z then (k0 - 1)%Z else k0 in
  let k := Z.max k1 (-1074) in
  let '(a1, b1) := scaled a b k in
  let q := round_div a1 b1 in
  if (1024 <=? Z.log2 q + k)%Z then NInf neg
  else canon (if neg then - q else q) k.

(** value of a number; None for everything else and for NaN *)
Definition numval (j : json) : option numv :=
  match j with
  | JBool b => Some (canon (if b then 1 else 0) 0)
  | JInt z => Some (canon z 0)
  | JFloat t => Some (double_of t)
  | JInf neg => Some (NInf neg)
  | _ => None
  end.

(** Python [a == b].  NaN is different from everything (Python's shortcut for
    identical objects inside containers is not modelled; the theorems exclude
    NaN). *)
Fixpoint jeq (a b : json) {struct a} : bool :=
  match a with
  | JNull => match b with JNull => true | _ => false end
  | JStr s => match b with JStr t => bool_decide (s = t) | _ => false end
  | JArr l =>
      match b with
      | JArr m =>
          (fix go (l m : list json) : bool :=
             match l, m with
             | [], [] => true
             | x :: l', y :: m' => jeq x y && go l' m'
             | _, _ => false
             end) l m
      | _ => false
      end
  | JObj kvs =>
      match b with
      | JObj kvs' =>
          (List.length kvs =? List.length kvs')%nat &&
          (fix go (l : list (pystr * json)) : bool :=
             match l with
             | [] => true
             | (k, v) :: r =>
                 match dget kvs' k with Some v' => jeq v v' | None => false end && go r
             end) kvs
      | _ => false
      end
  | _ => match numval a, numval b with
         | Some x, Some y => bool_decide (x = y)
         | _, _ => false
         end
  end.

(** ** ExtractorConfiguration, metadata.py 27-71 *)
Record econf := EC { ec_version : json; ec_param : list (pystr * json) }.

(** metadata.py 38-46 *)
Definition ec_to_json (c : econf) : json :=
  JObj [at_entry (ps "ExtractorConfiguration");
        (ps "version", ec_version c); (ps "parameter", JObj (ec_param c))].
(** metadata.py 51-55 *)
Definition ec_eq (a b : econf) : bool :=
  jeq (ec_version a) (ec_version b) && jeq (JObj (ec_param a)) (JObj (ec_param b)).
(** [dict(x)] in [ParameterDict(parameter)], metadata.py 36: a dict is copied,
    other iterables must consist of pairs. A non-empty list (which works in
    Python if its elements are pairs) is outside of the model. *)
Definition to_dict (j : json) : res (list (pystr * json)) :=
  match j with
  | JObj kvs => Ok kvs
  | JArr [] | JStr [] => Ok []
  | JArr _ => Err Unmodelled
  | JStr _ => Err ValueError
  | _ => Err TypeError
  end.
(** metadata.py 60-67 *)
Definition ec_from_json (obj : json) : res econf :=
  rlet _ <- assert_type obj (ps "ExtractorConfiguration");
  rlet _ <- check_serialized_version obj;
  rlet v <- jsub obj (ps "version");
  rlet p <- jsub obj (ps "parameter");
  rlet d <- to_dict p;
  Ok (EC v d).

(** ** MetadataInstance, metadata.py 74-134 *)
Record minst := MI { mi_time : json; mi_author : json; mi_email : json;
                     mi_conf : econf; mi_content : json }.
(** metadata.py 95-106 *)
Definition mi_to_json (i : minst) : json :=
  JObj [at_entry (ps "MetadataInstance");
        (ps "time_stamp", mi_time i); (ps "author", mi_author i);
        (ps "author_email", mi_email i);
        (ps "configuration", ec_to_json (mi_conf i));
        (ps "metadata_content", mi_content i)].
(** metadata.py 111-118 *)
Definition mi_eq (a b : minst) : bool :=
  jeq (mi_time a) (mi_time b) && jeq (mi_author a) (mi_author b)
  && jeq (mi_email a) (mi_email b) && ec_eq (mi_conf a) (mi_conf b)
  && jeq (mi_content a) (mi_content b).
(** metadata.py 120-130 *)
Definition mi_from_json (obj : json) : res minst :=
  rlet _ <- assert_type obj (ps "MetadataInstance");
  rlet _ <- check_serialized_version obj;
  rlet t <- jsub obj (ps "time_stamp");
  rlet a <- jsub obj (ps "author");
  rlet e <- jsub obj (ps "author_email");
  rlet cj <- jsub obj (ps "configuration");
  rlet c <- ec_from_json cj;
  rlet m <- jsub obj (ps "metadata_content");
  Ok (MI t a e c m).

(** ** MetadataInstanceSet, metadata.py 137-216 *)
Record miset := MIS { mis_params : list econf; mis_inst : pydict Z minst }.
Definition mis_empty : miset := MIS [] [].

(** [l.index(c)] with [==]; None stands for ValueError / [not in] *)
Fixpoint ec_index (c : econf) (l : list econf) : option nat :=
  match l with
  | [] => None
  | x :: r => if ec_eq x c then Some O else option_map S (ec_index c r)
  end.

(** metadata.py 155-159.  [x in list] and [list.index] use [==]; an element
    that is not even equal to itself (NaN) makes [index] raise ValueError
    (identity shortcut not modelled, see [jeq]). *)
Definition add_metadata_instance (s : miset) (i : minst) : res miset :=
  let params := match ec_index (mi_conf i) (mis_params s) with
                | Some _ => mis_params s
                | None => mis_params s ++ [mi_conf i]
                end in
  match ec_index (mi_conf i) params with
  | Some k => Ok (MIS params (dset (mis_inst s) (Z.of_nat k) i))
  | None => Err ValueError
  end.

(** metadata.py 144-150: [MetadataInstanceSet(initial)] *)
Fixpoint mis_add_all (s : miset) (l : list minst) : res miset :=
  match l with
  | [] => Ok s
  | i :: r => rlet s' <- add_metadata_instance s i; mis_add_all s' r
  end.
Definition mis_init (l : list minst) : res miset := mis_add_all mis_empty l.

(** metadata.py 165-167 *)
Definition configurations (s : miset) : list econf := mis_params s.
(** metadata.py 152-153 *)
Definition mis_iter (s : miset) : list minst := dvals (mis_inst s).
(** metadata.py 169-170 *)
Definition get_instance_for_configuration_index (s : miset) (k : Z) : res minst :=
  match dget (mis_inst s) k with Some i => Ok i | None => Err KeyError end.
(** metadata.py 172-173 *)
Definition get_instance_for_configuration (s : miset) (c : econf) : res minst :=
  match ec_index c (mis_params s) with
  | Some k => get_instance_for_configuration_index s (Z.of_nat k)
  | None => Err ValueError
  end.

(** metadata.py 175-189; [json.dumps] writes the integer keys as decimal text *)
Definition mis_to_json (s : miset) : json :=
  JObj [at_entry (ps "MetadataInstanceSet");
        (ps "parameter_set", JArr (map ec_to_json (mis_params s)));
        (ps "instance_set",
           JObj (map (fun ki => (str_of_Z (fst ki), mi_to_json (snd ki))) (mis_inst s)))].
(** metadata.py 194-208 *)
Definition mis_from_json (obj : json) : res miset :=
  rlet _ <- assert_type obj (ps "MetadataInstanceSet");
  rlet _ <- check_serialized_version obj;
  rlet pj <- jsub obj (ps "parameter_set");
  rlet pl <- jiter pj;
  rlet params <- rmap ec_from_json pl;
  rlet ij <- jsub obj (ps "instance_set");
  rlet il <- jitems ij;
  rlet insts <- rmap (fun kv => match py_int (fst kv) with
                                | Some z => rlet i <- mi_from_json (snd kv); Ok (z, i)
                                | None => Err ValueError
                                end) il;
  Ok (MIS params (dof insts)).

(** [sorted(l)]: ExtractorConfiguration defines no order, so two or more
    elements raise TypeError; with at most one element nothing is compared. *)
Definition py_sorted (l : list econf) : res (list econf) :=
  match l with [] | [_] => Ok l | _ => Err TypeError end.

(** [==] on lists of configurations *)
Fixpoint ec_list_eq (l m : list econf) : bool :=
  match l, m with
  | [], [] => true
  | x :: l', y :: m' => ec_eq x y && ec_list_eq l' m'
  | _, _ => false
  end.
(** [==] on the instance dictionaries *)
Definition inst_dict_eq (a b : pydict Z minst) : bool :=
  (List.length a =? List.length b)%nat &&
  forallb (fun ki => match dget b (fst ki) with Some j => mi_eq (snd ki) j | None => false end) a.
(** metadata.py 214-216 *)
Definition mis_eq (a b : miset) : res bool :=
  rlet x <- py_sorted (mis_params a);
  rlet y <- py_sorted (mis_params b);
  Ok (ec_list_eq x y && inst_dict_eq (mis_inst a) (mis_inst b)).

(** ** Metadata (content), metadata.py 219-330 *)
Definition metadata := pydict pystr miset.

(** metadata.py 238-239 and [dict.__eq__]: sizes first, then the items of the
    left dictionary in order, stopping at the first difference *)
Fixpoint meta_items_eq (l : list (pystr * miset)) (b : metadata) : res bool :=
  match l with
  | [] => Ok true
  | (k, v) :: r =>
      match dget b k with
      | None => Ok false
      | Some v' => rlet e <- mis_eq v v'; if e then meta_items_eq r b else Ok false
      end
  end.
Definition meta_eq (a b : metadata) : res bool :=
  if (List.length a =? List.length b)%nat then meta_items_eq a b else Ok false.

(** Arguments of [add_extractor_run]; [ru_time] is the given time stamp or the
    result of [time.time()]. *)
Record run := Run { ru_time : json; ru_extractor : pystr; ru_author : json;
                    ru_email : json; ru_conf : econf; ru_content : json }.
Definition run_inst (r : run) : minst :=
  MI (ru_time r) (ru_author r) (ru_email r) (ru_conf r) (ru_content r).

(** metadata.py 266-289 (content part).  The [get] default is a new empty set;
    the set object found in the dictionary is modified in place. *)
Definition add_extractor_run (m : metadata) (r : run) : res metadata :=
  let s := match dget m (ru_extractor r) with Some s => s | None => mis_empty end in
  rlet s' <- add_metadata_instance s (run_inst r);
  Ok (dset m (ru_extractor r) s').

(** metadata.py 252-255 *)
Definition extractors (m : metadata) : list pystr := dkeys m.
(** metadata.py 262-264 *)
Definition extractor_runs_for_extractor (m : metadata) (e : pystr) : res miset :=
  match dget m e with Some s => Ok s | None => Err KeyError end.

(** metadata.py 291-301 *)
Definition meta_to_json_obj (m : metadata) : json :=
  JObj [at_entry (ps "Metadata");
        (ps "instance_sets", JObj (map (fun kv => (fst kv, mis_to_json (snd kv))) m))].
Definition meta_to_json (m : metadata) : pystr := dumps (meta_to_json_obj m).

(** metadata.py 303-310 *)
Definition meta_init_from_json_obj (m : metadata) (obj : json) : res metadata :=
  rlet _ <- check_serialized_version obj;
  rlet _ <- assert_type obj (ps "Metadata");
  rlet sj <- jsub obj (ps "instance_sets");
  rlet sl <- jitems sj;
  rlet sets <- rmap (fun kv => rlet s <- mis_from_json (snd kv); Ok (fst kv, s)) sl;
  Ok (fold_left (fun d kv => dset d (fst kv) (snd kv)) sets m).
Definition meta_init_from_json (m : metadata) (s : pystr) : res metadata :=
  rlet obj <- jloads s; meta_init_from_json_obj m obj.
(** metadata.py 312-318 (content part) *)
Definition meta_from_json (s : pystr) : res metadata := meta_init_from_json [] s.

(** ** metadatasource.py *)

(** white space removed by [str.strip()] *)
Definition is_space (c : N) : bool :=
  (((9 <=? c) && (c <=? 13)) || ((28 <=? c) && (c <=? 32)) || (c =? 0x85) || (c =? 0xA0)
   || (c =? 0x1680) || ((0x2000 <=? c) && (c <=? 0x200A)) || (c =? 0x2028) || (c =? 0x2029)
   || (c =? 0x202F) || (c =? 0x205F) || (c =? 0x3000))%N.
Fixpoint lstrip (s : pystr) : pystr :=
  match s with c :: r => if is_space c then lstrip r else s | [] => [] end.
Definition strip (s : pystr) : pystr := rev (lstrip (rev (lstrip s))).

(** metadatasource.py 76-88 and 147-153; [Path] is a POSIX path *)
Inductive msource :=
| LocalGit (path : ppath) (object_reference : pystr)
| Immediate (content : json).
(** metadatasource.py 80-88 *)
Definition mk_local_git (p : ppath) (o : pystr) : msource := LocalGit p (strip o).

(** metadatasource.py 90-94, 155-158 *)
Definition ms_eq (a b : msource) : bool :=
  match a, b with
  | LocalGit p o, LocalGit q u => bool_decide (all_parts p = all_parts q) && bool_decide (o = u)
  | Immediate x, Immediate y => jeq x y
  | _, _ => false
  end.

Definition TYPE_KEY : pystr := ps "metadata_source_type".

(** metadatasource.py 121-129, 169-176 *)
Definition ms_to_json_obj (s : msource) : json :=
  match s with
  | LocalGit p o =>
      JObj [at_entry (ps "LocalGitMetadataSource");
            (TYPE_KEY, JStr (ps "LocalGitMetadataSource"));
            (ps "git_repository_path", JStr (PurePath_str p));
            (ps "object_reference", JStr o)]
  | Immediate c =>
      JObj [at_entry (ps "ImmediateMetadataSource");
            (TYPE_KEY, JStr (ps "ImmediateMetadataSource"));
            (ps "content", c)]
  end.
(** metadatasource.py 52-53 *)
Definition ms_to_json_str (s : msource) : pystr := dumps (ms_to_json_obj s).

(** [except KeyError: return None] *)
Definition key_error_none {A} (x : res A) : res (option A) :=
  match x with
  | Ok a => Ok (Some a)
  | Err KeyError => Ok None
  | Err e => Err e
  end.

(** metadatasource.py 131-144 *)
Definition local_git_from_json (obj : json) : res (option msource) :=
  key_error_none (
    rlet _ <- assert_type obj (ps "LocalGitMetadataSource");
    rlet _ <- check_serialized_version obj;
    rlet t <- jsub obj TYPE_KEY;
    rlet _ <- rassert (jis_str t (ps "LocalGitMetadataSource"));
    rlet p <- jsub obj (ps "git_repository_path");
    match p with
    | JStr ps' =>
        rlet o <- jsub obj (ps "object_reference");
        match o with
        | JStr o' => Ok (mk_local_git (PurePosixPath [AStr ps']) o')
        | _ => Err AssertionError
        end
    | _ => Err TypeError
    end).
(** metadatasource.py 178-189 *)
Definition immediate_from_json (obj : json) : res (option msource) :=
  key_error_none (
    rlet _ <- assert_type obj (ps "ImmediateMetadataSource");
    rlet _ <- check_serialized_version obj;
    rlet t <- jsub obj TYPE_KEY;
    rlet _ <- rassert (jis_str t (ps "ImmediateMetadataSource"));
    rlet c <- jsub obj (ps "content");
    Ok (Immediate c)).
(** metadatasource.py 55-69 *)
Definition ms_from_json_obj (obj : json) : res (option msource) :=
  match obj with
  | JObj kvs =>
      match dget kvs TYPE_KEY with
      | None | Some JNull => Ok None
      | Some t =>
          if jis_str t (ps "LocalGitMetadataSource") then local_git_from_json obj
          else if jis_str t (ps "ImmediateMetadataSource") then immediate_from_json obj
          else Ok None
      end
  | _ => Err AttributeError
  end.
(** metadatasource.py 71-73 *)
Definition ms_from_json_str (s : pystr) : res (option msource) :=
  rlet j <- jloads s; ms_from_json_obj j.
