(** What an object shows to a user of the API, and what a repository stores
    under a reference.  Both are described by what is found at the end of a path
    of keys, so that the order of tree entries does not matter. *)
From Verif Require Import Base Path Json Refs Meta GitText Git Spec_Store State BlobCache ObjRef Objects.

(** Kinds of objects. *)
Inductive kd := KdMeta | KdText | KdNode (c : leafcls) | KdMrr | KdVl (tree : bool) | KdUs.
#[export] Instance kd_eq_dec : EqDecision kd.
Proof. solve_decision. Defined.
Definition kind_of (b : body) : kd :=
  match b with
  | BMeta _ => KdMeta | BText _ => KdText | BNode c _ => KdNode c | BMrr _ _ _ _ => KdMrr
  | BVlist k _ => KdVl k | BUset _ => KdUs
  end.
(** An object that is not loaded. *)
Definition empty_body (k : kd) : body :=
  match k with
  | KdMeta => BMeta [] | KdText => BText None | KdNode c => BNode c [] | KdMrr => BMrr None None None None
  | KdVl k => BVlist k [] | KdUs => BUset []
  end.
Definition leaf_kd (c : leafcls) : kd := match c with LMeta => KdMeta | LMrr => KdMrr | LText => KdText end.

(** How to get from an object to a part of it. *)
Inductive key :=
| KName (n : pystr)                     (** entry of a tree *)
| KMeta | KTree                         (** dataset level metadata and file tree of a root record *)
| KVer (v : pystr) (p : ppath)          (** element of a version list *)
| KUuid (u : uuid).                     (** version list in a UUID set *)
#[export] Instance key_eq_dec : EqDecision key.
Proof. solve_decision. Defined.
(** What is seen of an object apart from its parts.  A version list shows
    version, prefix path, time stamp and whether the element is a tree, in order. *)
Inductive label :=
| LbMeta (m : metadata)
| LbText (t : option pystr)
| LbNode (c : leafcls)
| LbMrr (id : option uuid) (version : option pystr)
| LbVl (tree : bool) (rs : list (pystr * ppath * pystr * bool))
| LbUs.
Definition is_etree (e : elt) : bool := match e with ETree _ => true | EMrr _ => false end.
Definition label_of (b : body) : label :=
  match b with
  | BMeta m => LbMeta m
  | BText t => LbText t
  | BNode c _ => LbNode c
  | BMrr i v _ _ => LbMrr i v
  | BVlist k vs => LbVl k (map (fun r => (fst r, vr_path (snd r), vr_time (snd r), is_etree (vr_elt (snd r)))) (vs_records vs))
  | BUset _ => LbUs
  end.
Definition kids_of (b : body) : pydict key loc :=
  match b with
  | BMeta _ | BText _ => []
  | BNode _ d => map (fun nl => (KName (fst nl), snd nl)) d
  | BMrr _ _ m t => match m with Some x => [(KMeta, x)] | None => [] end ++ match t with Some x => [(KTree, x)] | None => [] end
  | BVlist _ vs => concat (map (fun vp => map (fun pr => (KVer (fst vp) (fst pr), elt_loc (vr_elt (snd pr)))) (snd vp)) vs)
  | BUset us => map (fun ul => (KUuid (fst ul), snd ul)) us
  end.

Inductive seen := Absent | Broken | Seen (lb : label).

(** ** What is stored under a reference in the objects [O] *)
Definition store := gmap pystr gobj.
Definition load_text (O : store) (x : pystr) : res pystr :=
  if object_id x then match O !! x with Some (Blob b) => text_result b | _ => Err RuntimeError end
  else Err RuntimeError.
Definition load_lines (O : store) (x : pystr) : res (list pystr) :=
  if object_id x then
    match O !! x with
    | Some (Tree es) => match tree_listing es with Some out => stdout_lines out | None => Err RuntimeError end
    | _ => Err RuntimeError
    end
  else Err RuntimeError.
Definition ref_loc (r : reference) : res pystr := match r_loc r with Some x => Ok x | None => Err TypeError end.

(** A body whose parts are numbered, with kind and reference of every part. *)
Definition template : Type := body * list (kd * reference).
Definition add_line (c : leafcls) (t : pydict pystr loc * list (kd * reference)) (e : pystr * pystr * pystr)
  : res (pydict pystr loc * list (kd * reference)) :=
  let '(ty, h, name) := e in
  rlet k <- (if bool_decide (ty = ps "tree") then Ok (KdNode c, ref_of (ps "MTreeNode") h)
             else if bool_decide (ty = ps "blob") then Ok (leaf_kd c, ref_of (leaf_name c) h)
             else Err ValueError);
  Ok (dset (fst t) name (N.of_nat (length (snd t))), snd t ++ [k]).
Definition read_assoc (j : json) : res (pystr * pystr * ppath * bool * reference) :=
  rlet rj <- jsub j (ps "dataset_tree");
  rlet ref <- ref_from_json_obj rj;
  rlet tree <- (if jis_str (r_class ref) (ps "DatasetTree") || jis_str (r_class ref) (ps "MTreeNode") then Ok true
                else if jis_str (r_class ref) (ps "MetadataRootRecord") then Ok false
                else Err ValueError);
  rlet v <- jsub j (ps "primary_data_version");
  rlet p <- jsub j (ps "path");
  rlet t <- jsub j (ps "time_stamp");
  match v, p, t with
  | JStr v, JStr p, JStr t => Ok (v, t, MetadataPath [AStr p], tree, ref)
  | _, _, _ => Err AssertionError
  end.
Definition add_assoc (t : pydict pystr (pydict ppath vrec) * list (kd * reference))
    (a : pystr * pystr * ppath * bool * reference) : pydict pystr (pydict ppath vrec) * list (kd * reference) :=
  let '(v, ts, p, tree, ref) := a in
  let i := N.of_nat (length (snd t)) in
  (vs_set (fst t) v p (VRec ts p (if tree : bool then ETree i else EMrr i)),
   snd t ++ [(if tree then KdNode LMrr else KdMrr, ref)]).
Definition add_uuid (t : pydict uuid loc * list (kd * reference)) (e : pystr * pystr * pystr * pystr)
  : res (pydict uuid loc * list (kd * reference)) :=
  let '(_, _, h, name) := e in
  rlet u <- parse_uuid name;
  Ok (dset (fst t) u (N.of_nat (length (snd t))), snd t ++ [(KdVl false, ref_of (ps "VersionList") h)]).
Fixpoint rfold {A B} (f : A -> B -> res A) (l : list B) (a : A) : res A :=
  match l with [] => Ok a | x :: r => rlet a' <- f a x; rfold f r a' end.

Definition stored_body (O : store) (k : kd) (ref : reference) : res template :=
  rlet x <- ref_loc ref;
  match k with
  | KdMeta =>
      rlet t <- load_text O x; rlet ref2 <- ref_from_json_str t; rlet y <- ref_loc ref2;
      rlet t2 <- load_text O y; rlet m <- meta_init_from_json [] t2; Ok (BMeta m, [])
  | KdText => rlet t <- load_text O x; Ok (BText (Some t), [])
  | KdNode c =>
      rlet ls <- load_lines O x; rlet es <- rmap read_tree_line ls;
      rlet t <- rfold (add_line c) es ([], []); Ok (BNode c (fst t), snd t)
  | KdMrr =>
      rlet t <- load_text O x; rlet j <- jloads t;
      rlet mj <- jsub j (ps "dataset_level_metadata"); rlet mref <- ref_from_json_obj mj;
      rlet fj <- jsub j (ps "file_tree"); rlet fref <- ref_from_json_obj fj;
      rlet uj <- jsub j (ps "dataset_identifier"); rlet u <- uuid_of_json uj;
      rlet vj <- jsub j (ps "dataset_version");
      let ms := if is_none_reference mref then [] else [(KdMeta, mref)] in
      let ts := if is_none_reference fref then [] else [(KdNode LMeta, fref)] in
      rlet v <- match vj with JStr v => Ok (Some v) | JNull => Ok None | _ => Err AssertionError end;
      Ok (BMrr (Some u) v (if is_none_reference mref then None else Some 0%N)
               (if is_none_reference fref then None else Some (N.of_nat (length ms))), ms ++ ts)
  | KdVl b =>
      rlet t <- load_text O x; rlet j <- jloads t; rlet js <- jiter j; rlet rs <- rmap read_assoc js;
      let t := fold_left add_assoc rs ([], []) in Ok (BVlist b (fst t), snd t)
  | KdUs =>
      rlet ls <- load_lines O x; rlet es <- rmap split_git_lstree_line ls;
      rlet t <- rfold add_uuid es ([], []); Ok (BUset (fst t), snd t)
  end.
(** The class of a reference must fit; an empty tree has a reference to nothing. *)
Definition conv_ref (ref : reference) : reference :=
  if jis_str (r_class ref) (ps "FileTree") || jis_str (r_class ref) (ps "DatasetTree")
  then Ref (JStr (ps "MTreeNode")) (r_loc ref) else ref.
Definition stored (O : store) (k : kd) (ref : reference) : res template :=
  if is_none_reference ref then
    match k with
    | KdNode c => if jis_str (r_class ref) (ps "MTreeNode") then Ok (BNode c [], []) else Err AssertionError
    | _ => Err Unmodelled
    end
  else if jis_str (r_class (conv_ref ref)) (type_name_of (empty_body k)) then stored_body O k ref
  else Err AssertionError.
Definition part (ks : list (kd * reference)) (i : loc) : option (kd * reference) := ks !! N.to_nat i.
(** A file tree without entries does not count as part of a root record. *)
Definition is_hollow (b : body) : bool := match b with BNode _ [] => true | _ => false end.
Definition hollow (O : store) (k : kd) (ref : reference) : bool :=
  match stored O k ref with Ok (b, _) => is_hollow b | Err _ => false end.
Definition is_ktree (k : key) : bool := match k with KTree => true | _ => false end.
Fixpoint look_stored (O : store) (k : kd) (ref : reference) (p : list key) : seen :=
  match stored O k ref with
  | Err _ => Broken
  | Ok (b, ks) =>
      match p with
      | [] => Seen (label_of b)
      | x :: p' =>
          match dget (kids_of b) x with
          | None => Absent
          | Some i =>
              match part ks i with
              | None => Broken
              | Some (k', ref') => if is_ktree x && hollow O k' ref' then Absent else look_stored O k' ref' p'
              end
          end
      end
  end.

(** ** What an object in memory shows; what is not loaded is looked up in [O] *)
Definition hollow_at (O : store) (h : heap) (l : loc) : bool :=
  match h !! l with
  | None => false
  | Some o =>
      if h_mapped (o_hdr o) then is_hollow (o_body o)
      else match h_ref (o_hdr o) with Some ref => hollow O (kind_of (o_body o)) ref | None => false end
  end.
Fixpoint look (O : store) (h : heap) (l : loc) (p : list key) : seen :=
  match h !! l with
  | None => Broken
  | Some o =>
      if h_mapped (o_hdr o) then
        match p with
        | [] => Seen (label_of (o_body o))
        | x :: p' =>
            match dget (kids_of (o_body o)) x with
            | None => Absent
            | Some l' => if is_ktree x && hollow_at O h l' then Absent else look O h l' p'
            end
        end
      else match h_ref (o_hdr o) with
           | Some ref => look_stored O (kind_of (o_body o)) ref p
           | None => Broken
           end
  end.

(** ** The same with calls of the API, loading on demand *)
Section Visit.
  Context `{Env}.
  (** One step: [None] if there is no such part. *)
  Definition step_to (fuel : nat) (l : loc) (x : key) : M pst (option loc) :=
    mlet o <- getobj l;
    match x, o_body o with
    | KName n, BNode _ _ => get_child fuel l n
    | KMeta, BMrr _ _ _ _ =>
        mtry (mlet m <- get_dataset_level_metadata fuel l; mret (Some m))
             (fun e => match e with AttributeError => mret None | _ => mraise e end)
    | KTree, BMrr _ _ _ _ =>
        mlet t <- get_file_tree fuel l;
        match t with
        | None => mret None
        | Some t => ensure_mapped fuel t ;;; mlet cd <- children t; mret (match snd cd with [] => None | _ => Some t end)
        end
    | KVer v p, BVlist _ _ =>
        mtry (mlet r <- get_versioned_element fuel l v p; mret (Some (elt_loc (vr_elt r))))
             (fun e => match e with KeyError => mret None | _ => mraise e end)
    | KUuid u, BUset _ =>
        mtry (mlet vl <- get_version_list fuel l u; mret (Some vl))
             (fun e => match e with KeyError => mret None | _ => mraise e end)
    | _, _ => ensure_mapped fuel l ;;; mret None
    end.
  Fixpoint visit (fuel : nat) (l : loc) (p : list key) : M pst seen :=
    match p with
    | [] => ensure_mapped fuel l ;;; mlet o <- getobj l; mret (Seen (label_of (o_body o)))
    | x :: p' => mlet r <- step_to fuel l x; match r with None => mret Absent | Some l' => visit fuel l' p' end
    end.
  (** A new object for a stored one. *)
  Definition object_at (k : kd) (realm : pystr) (ref : reference) : M pst loc :=
    new_obj (empty_body k) (Some realm) (Some ref).
End Visit.
