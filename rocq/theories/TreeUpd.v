(** Model of gitmapper/treeupdater.py. *)
From Verif Require Import Base Json Refs GitText Git State.

(** treeupdater.py 37-53 *)
Record direntry := DirE { d_type : etype; d_hash : pystr; d_name : pystr }.
(** treeupdater.py 56-82 *)
Record pathinfo := PathI { pi_elements : list pystr; pi_hash : pystr; pi_type : etype }.
#[export] Instance pathinfo_eq_dec : EqDecision pathinfo.
Proof. solve_decision. Defined.

(** treeupdater.py 85-91; the second check cannot fail here *)
Definition check_hash_len (h : pystr) : res unit :=
  if (length h =? 40)%nat then Ok tt else Err ValueError.
Definition mk_direntry (t : etype) (h n : pystr) : res direntry :=
  rlet _ <- check_hash_len h; Ok (DirE t h n).
Definition mk_pathinfo (els : list pystr) (h : pystr) (t : etype) : res pathinfo :=
  rlet _ <- check_hash_len h; Ok (PathI els h t).

(** treeupdater.py 46-53 *)
Definition get_git_tree_entry_elements (d : direntry) : pystr * pystr * pystr * pystr :=
  match d_type d with
  | Directory => (ps "040000", ps "tree", d_hash d, d_name d)
  | File => (ps "100644", ps "blob", d_hash d, d_name d)
  end.

(** treeupdater.py 69-70 *)
Definition pi_first (p : pathinfo) : res pystr :=
  match pi_elements p with [] => Err IndexError | x :: _ => Ok x end.
(** treeupdater.py 75-76 *)
Definition is_leaf (p : pathinfo) : bool := (length (pi_elements p) =? 1)%nat.
(** treeupdater.py 78-82 *)
Definition stripped_by (n : nat) (p : pathinfo) : res pathinfo :=
  mk_pathinfo (drop n (pi_elements p)) (pi_hash p) (pi_type p).

Definition rfilter {A} (f : A -> res bool) : list A -> res (list A) :=
  fix go l := match l with
              | [] => Ok []
              | x :: r => rlet b <- f x; rlet r' <- go r; Ok (if b then x :: r' else r')
              end.

(** treeupdater.py 177-186.  [path_info not in leaf_infos] compares by value;
    [leaf_infos] are the elements with one path element. *)
Definition directory_infos (infos leafs : list pathinfo) : res (pydict pystr (list pathinfo)) :=
  let dirs := List.filter (fun p => negb (bool_decide (p ∈ leafs))) infos in
  rlet l <- rmap (fun p =>
    rlet k <- pi_first p;
    rlet ms <- rfilter (fun q => rlet k' <- pi_first q; Ok (bool_decide (k' = k))) dirs;
    rlet subs <- rmap (stripped_by 1) ms;
    Ok (k, subs)) dirs;
  Ok (dof l).

(** treeupdater.py 94-111 *)
Definition check_leaf_or_directory (leafs : list pathinfo) (dirs : pydict pystr (list pathinfo)) : res unit :=
  rlet names <- rmap pi_first leafs;
  if existsb (fun n => dmem dirs n) names then Err ValueError else Ok tt.
(** treeupdater.py 114-126 *)
Definition check_leaf_uniqueness (leafs : list pathinfo) : res unit :=
  rlet names <- rmap pi_first leafs;
  if existsb (fun n => (1 <? length (List.filter (fun m => bool_decide (m = n)) names))%nat) names
  then Err ValueError else Ok tt.

Section TreeUpd.
  Context `{Env} {S : Type}.

  (** treeupdater.py 136-147 *)
  Definition get_dir (repo object_hash : pystr) : M S (list direntry) :=
    mlet ls <- git_read_tree_node repo object_hash;
    mres (rmap (fun entry =>
      rlet x <- split_git_lstree_line entry;
      let '(_, object_type, h, name) := x in
      mk_direntry (if decide (object_type = ps "blob") then File else Directory) h name) ls).

  (** treeupdater.py 150-153 *)
  Definition write_dir (repo : pystr) (entries : list direntry) : M S pystr :=
    git_save_tree_node repo (map get_git_tree_entry_elements entries).

  (** treeupdater.py 193-208 *)
  Fixpoint add_leafs (table : pydict pystr direntry) (leafs : list pathinfo)
      (acc : pydict pystr direntry) : res (pydict pystr direntry) :=
    match leafs with
    | [] => Ok acc
    | p :: r =>
        rlet name <- pi_first p;
        rlet _ <- match dget table name with
                  | Some e => if decide (d_type e = pi_type p) then Ok tt else Err ValueError
                  | None => Ok tt
                  end;
        rlet d <- mk_direntry (pi_type p) (pi_hash p) name;
        add_leafs table r (dset acc name d)
    end.

  (** treeupdater.py 156-231, with the recursion bounded by [fuel] *)
  Fixpoint add_paths_f (fuel : nat) (repo : pystr) (infos : list pathinfo)
      (root_entries : list direntry) : M S pystr :=
    match fuel with
    | O => mraise RecursionError
    | Datatypes.S f =>
        let table := dof (map (fun e => (d_name e, e)) root_entries) in
        let leafs := List.filter is_leaf infos in
        mlet dirs <- mres (directory_infos infos leafs);
        mlet _ <- mres (check_leaf_or_directory leafs dirs);
        mlet _ <- mres (check_leaf_uniqueness leafs);
        mlet acc <- mres (add_leafs table leafs table);
        mlet result <-
          (fix go (l : list (pystr * list pathinfo)) (acc : pydict pystr direntry) : M S (pydict pystr direntry) :=
             match l with
             | [] => mret acc
             | (name, subs) :: r =>
                 mlet sub_entries <-
                   match dget table name with
                   | Some e => if decide (d_type e = Directory) then get_dir repo (d_hash e)
                               else mraise ValueError
                   | None => mret []
                   end;
                 mlet h <- add_paths_f f repo subs sub_entries;
                 mlet d <- mres (mk_direntry Directory h name);
                 go r (dset acc name d)
             end) dirs acc;
        write_dir repo (dvals result)
    end.

  (** The recursion is as deep as the longest path (Python's recursion limit is
      not modelled for this function). *)
  Definition add_paths (repo : pystr) (infos : list pathinfo) (root_entries : list direntry) : M S pystr :=
    add_paths_f (Datatypes.S (foldr (fun p n => Nat.max (length (pi_elements p)) n) 0%nat infos))
      repo infos root_entries.
End TreeUpd.
