(** git as an external program, and Python code that runs it.

    A Python function is modelled as a program [prog] that issues git commands
    and receives their results (exit status and standard output), exactly at the
    [subprocess.run] border of gitbackend/subprocess.py 18-29.  The meaning of
    the commands is given separately ([git]), so that the same program can be
    run alone ([exec]), stopped after any command ([trace]) or interleaved with
    other processes ([ObjRef.v]). *)
From Verif Require Import Base Json Refs GitText Sha1.

(** ** Environment

    [sha1] stands for SHA-1; only its output format is assumed.  [sha256] is
    used for the name of a cache directory, [cache_base] is the directory of
    localcache.py 18-21 (without the leading slash).  [set_order] is the
    iteration order of Python sets (hash randomised): some permutation. *)
Class Env := {
  sha1 : bytes -> pystr;
  sha1_id : forall b, object_id (sha1 b) = true;
  sha256 : bytes -> pystr;
  cache_base : pystr;
  set_order : forall A : Type, list A -> list A;
  set_order_perm : forall (A : Type) (l : list A), set_order A l ≡ₚ l;
}.

(** Object id of a git object. *)
Definition oid `{Env} (o : gobj) : pystr := sha1 (obj_bytes o).

(** ** Repositories *)
Record repo := Repo { r_objs : gmap pystr gobj; r_refs : gmap pystr pystr }.
Definition empty_repo : repo := Repo ∅ ∅.

(** All repositories, by directory or URL (two spellings of a directory count as
    two repositories), and the lock files that are currently held. *)
Record gstate := GState { g_repos : gmap pystr repo; g_locks : gset pystr }.

(** ** Commands *)
Inductive cmd :=
| HashObject (r : pystr) (content : bytes)        (** git hash-object -w --stdin *)
| HashFiles (r : pystr) (contents : list bytes)   (** git hash-object -w --no-filters --stdin-paths *)
| MkTree (r : pystr) (input : bytes)              (** git mktree --missing *)
| CatFileP (r : pystr) (x : pystr)                (** git cat-file -p x *)
| CatFileE (r : pystr) (x : pystr)                (** git cat-file -e x *)
| LsTree (r : pystr) (x : pystr)                  (** git ls-tree x *)
| Show (r : pystr) (x : pystr)                    (** git show x *)
| UpdateRef (r : pystr) (name x : pystr)          (** git update-ref name x *)
| DeleteRef (r : pystr) (name : pystr)            (** git update-ref -d name *)
| PathExists (r : pystr)                          (** Path.exists() on the repository *)
| Init (r : pystr)                                (** git init r *)
| Fetch (r remote x : pystr) (loc : option pystr) (** git fetch remote -f x[:loc] *)
| LockAcquire (r : pystr)                         (** InterProcessLock.acquire *)
| LockRelease (r : pystr).                        (** InterProcessLock.release *)

(** Result of a command: None for a non-zero exit status, Some stdout else. *)
Definition answer := option bytes.

(** Names: a 40 digit id stands for itself, everything else is looked up as a
    reference.  (Other revision expressions are treated as unknown.) *)
Definition resolve (r : repo) (x : pystr) : option pystr :=
  if object_id x then Some x else r_refs r !! x.
Definition read_obj (r : repo) (x : pystr) : option gobj :=
  match resolve r x with Some h => r_objs r !! h | None => None end.

(** Store an object.  Storing a different object under an id that is already
    taken (a SHA-1 collision) is modelled as failure of the command (git uses a
    collision detecting SHA-1 that aborts). *)
Definition put_obj `{Env} (o : gobj) (r : repo) : option repo :=
  match r_objs r !! oid o with
  | Some o' => if decide (o' = o) then Some r else None
  | None => Some (Repo (<[oid o := o]> (r_objs r)) (r_refs r))
  end.
Fixpoint put_objs `{Env} (os : list gobj) (r : repo) : option repo :=
  match os with
  | [] => Some r
  | o :: os' => match put_obj o r with Some r' => put_objs os' r' | None => None end
  end.

(** mktree: an existing object must have the type of the entry's mode; missing
    objects are allowed (--missing). *)
Definition types_ok (r : repo) (es : list tentry) : bool :=
  forallb (fun e => match r_objs r !! te_id e with
                    | Some o => bool_decide (obj_type o = mode_type (te_mode e))
                    | None => true
                    end) es.

(** Objects reachable from [todo] (commits in trees are not followed); None if
    one is missing.  The fuel is the number of edges, see [closure]. *)
Definition sub_ids (o : gobj) : list pystr :=
  match o with
  | Blob _ => []
  | Tree es => map te_id (List.filter (fun e => negb (bool_decide (canon_type (te_mode e) = TCommit))) es)
  end.
Fixpoint collect (fuel : nat) (objs : gmap pystr gobj) (todo : list pystr)
    (acc : gmap pystr gobj) : option (gmap pystr gobj) :=
  match todo with
  | [] => Some acc
  | x :: r =>
      match fuel with
      | O => None
      | S f =>
          match acc !! x with
          | Some _ => collect f objs r acc
          | None =>
              match objs !! x with
              | None => None
              | Some o => collect f objs (sub_ids o ++ r) (<[x := o]> acc)
              end
          end
      end
  end.
Definition closure (objs : gmap pystr gobj) (x : pystr) : option (gmap pystr gobj) :=
  collect (S (foldr (fun kv n => length (sub_ids (snd kv)) + n)%nat 0%nat (map_to_list objs))) objs [x] ∅.

Definition line (s : pystr) : bytes := s ++ [10%N].

(** git show on a tree: header and raw names, directories with a slash *)
Definition show_tree (x : pystr) (es : list tentry) : bytes :=
  ps "tree " ++ x ++ [10%N; 10%N]
  ++ concat (map (fun e => te_name e ++ (if decide (canon_type (te_mode e) = TTree) then [47%N] else []) ++ [10%N]) es).

Definition set_repo (g : gstate) (n : pystr) (r : repo) : gstate :=
  GState (<[n := r]> (g_repos g)) (g_locks g).

(** [git --git-dir <n>/.git] needs a directory, so it fails on a URL. *)
Definition local_repo (g : gstate) (n : pystr) : option repo :=
  if is_remote n then None else g_repos g !! n.

(** Effect of a command.  A command on a missing repository fails. *)
Definition git `{Env} (c : cmd) (g : gstate) : answer * gstate :=
  match c with
  | HashObject n b =>
      match local_repo g n with
      | Some r => match put_obj (Blob b) r with
                  | Some r' => (Some (line (oid (Blob b))), set_repo g n r')
                  | None => (None, g)
                  end
      | None => (None, g)
      end
  | HashFiles n bs =>
      match local_repo g n with
      | Some r => match put_objs (map Blob bs) r with
                  | Some r' => (Some (concat (map (fun b => line (oid (Blob b))) bs)), set_repo g n r')
                  | None => (None, g)
                  end
      | None => (None, g)
      end
  | MkTree n inp =>
      match local_repo g n, mktree_input inp with
      | Some r, Some es =>
          (* the input is a byte string; other lists do not occur *)
          if forallb (fun c => c <? 256)%N inp && types_ok r es then
            match put_obj (Tree es) r with
            | Some r' => (Some (line (oid (Tree es))), set_repo g n r')
            | None => (None, g)
            end
          else (None, g)
      | _, _ => (None, g)
      end
  | CatFileP n x =>
      match local_repo g n with
      | Some r => match read_obj r x with
                  | Some (Blob b) => (Some b, g)
                  | Some (Tree es) => (tree_listing es, g)
                  | None => (None, g)
                  end
      | None => (None, g)
      end
  | CatFileE n x =>
      match local_repo g n with
      | Some r => match read_obj r x with Some _ => (Some [], g) | None => (None, g) end
      | None => (None, g)
      end
  | LsTree n x =>
      match local_repo g n with
      | Some r => match read_obj r x with
                  | Some (Tree es) => (tree_listing es, g)
                  | _ => (None, g)
                  end
      | None => (None, g)
      end
  | Show n x =>
      match local_repo g n with
      | Some r => match read_obj r x with
                  | Some (Blob b) => (Some b, g)
                  | Some (Tree es) => (Some (show_tree x es), g)
                  | None => (None, g)
                  end
      | None => (None, g)
      end
  | UpdateRef n name x =>
      (* fails if the object does not exist *)
      match local_repo g n with
      | Some r => match resolve r x with
                  | Some h => match r_objs r !! h with
                              | Some _ => (Some [], set_repo g n (Repo (r_objs r) (<[name := h]> (r_refs r))))
                              | None => (None, g)
                              end
                  | None => (None, g)
                  end
      | None => (None, g)
      end
  | DeleteRef n name =>
      (* deleting a missing reference succeeds *)
      match local_repo g n with
      | Some r => (Some [], set_repo g n (Repo (r_objs r) (delete name (r_refs r))))
      | None => (None, g)
      end
  | PathExists n => (match g_repos g !! n with Some _ => Some [] | None => None end, g)
  | Init n =>
      match g_repos g !! n with
      | Some _ => (Some [], g)
      | None => (Some [], set_repo g n empty_repo)
      end
  | Fetch n remote x loc =>
      match local_repo g n, g_repos g !! remote with
      | Some r, Some rr =>
          match resolve rr x with
          | Some h =>
              match closure (r_objs rr) h with
              | Some objs =>
                  (Some [], set_repo g n
                     (Repo (r_objs r ∪ objs)
                           (match loc with Some l => <[l := h]> (r_refs r) | None => r_refs r end)))
              | None => (None, g)
              end
          | None => (None, g)
          end
      | _, _ => (None, g)
      end
  | LockAcquire n =>
      (* blocks while the lock is held; a process that runs alone would wait
         for ever, which is shown as None *)
      if decide (n ∈ g_locks g) then (None, g)
      else (Some [], GState (g_repos g) ({[n]} ∪ g_locks g))
  | LockRelease n => (Some [], GState (g_repos g) (g_locks g ∖ {[n]}))
  end.

(** ** Programs *)
Inductive prog (A : Type) : Type :=
| Ret (a : A)
| Do (c : cmd) (k : answer -> prog A).
Arguments Ret {A} a.
Arguments Do {A} c k.

Fixpoint pbind {A B} (p : prog A) (f : A -> prog B) : prog B :=
  match p with
  | Ret a => f a
  | Do c k => Do c (fun x => pbind (k x) f)
  end.

(** Run a program alone. *)
Fixpoint exec `{Env} {A} (p : prog A) (g : gstate) : A * gstate :=
  match p with
  | Ret a => (a, g)
  | Do c k => let '(x, g') := git c g in exec (k x) g'
  end.
(** The states of git after each command: what a crash can leave behind. *)
Fixpoint trace `{Env} {A} (p : prog A) (g : gstate) : list gstate :=
  match p with
  | Ret _ => []
  | Do c k => let '(x, g') := git c g in g' :: trace (k x) g'
  end.

(** ** Python functions: state [S] of the process, exceptions as results; an
    exception keeps the state reached so far *)
Definition M (S A : Type) := S -> prog (res A * S).

Definition mret {S A} (a : A) : M S A := fun s => Ret (Ok a, s).
Definition mraise {S A} (e : exn) : M S A := fun s => Ret (Err e, s).
Definition mbind {S A B} (m : M S A) (f : A -> M S B) : M S B :=
  fun s => pbind (m s) (fun rs => match fst rs with
                                  | Ok a => f a (snd rs)
                                  | Err e => Ret (Err e, snd rs)
                                  end).
Notation "'mlet' x <- e1 ; e2" := (mbind e1 (fun x => e2))
  (at level 60, x pattern, e1 at level 60, right associativity).
Notation "e1 ;;; e2" := (mbind e1 (fun _ => e2)) (at level 60, right associativity).
Definition mres {S A} (x : res A) : M S A :=
  match x with Ok a => mret a | Err e => mraise e end.
Definition massert {S} (b : bool) : M S unit := if b then mret tt else mraise AssertionError.
Definition mget {S A} (f : S -> A) : M S A := fun s => Ret (Ok (f s), s).
Definition mmod {S} (f : S -> S) : M S unit := fun s => Ret (Ok tt, f s).
(** try: m  except e: h e *)
Definition mtry {S A} (m : M S A) (h : exn -> M S A) : M S A :=
  fun s => pbind (m s) (fun rs => match fst rs with
                                  | Ok a => Ret (Ok a, snd rs)
                                  | Err e => h e (snd rs)
                                  end).
(** try: m  finally: f  (an exception of f replaces the result of m) *)
Definition mfinally {S A} (m : M S A) (f : M S unit) : M S A :=
  fun s => pbind (m s) (fun rs => pbind (f (snd rs)) (fun rs' =>
             match fst rs' with
             | Ok _ => Ret (fst rs, snd rs')
             | Err e => Ret (Err e, snd rs')
             end)).
Fixpoint mmap {S A B} (f : A -> M S B) (l : list A) : M S (list B) :=
  match l with
  | [] => mret []
  | x :: r => mlet y <- f x; mlet ys <- mmap f r; mret (y :: ys)
  end.
Fixpoint miter {S A} (f : A -> M S unit) (l : list A) : M S unit :=
  match l with
  | [] => mret tt
  | x :: r => f x ;;; miter f r
  end.

(** Run a Python function alone. *)
Definition mrun `{Env} {S A} (m : M S A) (sg : S * gstate) : res A * (S * gstate) :=
  let '((r, s), g) := exec (m (fst sg)) (snd sg) in (r, (s, g)).

(** ** gitbackend/subprocess.py *)
Section Backend.
  Context `{Env} {S : Type}.

  (** subprocess.py 18-29 *)
  Definition execute (c : cmd) : M S answer := fun s => Do c (fun x => Ret (Ok x, s)).
  (** subprocess.py 32-50 (the standard error output is never used) *)
  Definition checked_execute (c : cmd) : M S (list pystr) :=
    mlet x <- execute c;
    match x with
    | None => mraise RuntimeError
    | Some out => mres (stdout_lines out)
    end.
  (** [checked_execute(...)[0][0]] *)
  Definition first_line (ls : list pystr) : M S pystr :=
    match ls with [] => mraise IndexError | l :: _ => mret l end.

  (** localcache.py 24-29 *)
  Definition get_repo_cache_path (remote_repo : pystr) : res pystr :=
    rlet b <- encode remote_repo;
    Ok (ps "/" ++ cache_base ++ ps "/" ++ sha256 b).

  (** subprocess.py 95-97 *)
  Definition git_init (repo_dir : pystr) : M S unit :=
    checked_execute (Init repo_dir) ;;; mret tt.
  (** subprocess.py 100-103 *)
  Definition git_object_exists_locally (repo_dir x : pystr) : M S bool :=
    mlet a <- execute (CatFileE repo_dir x);
    mret (match a with Some _ => true | None => false end).
  (** subprocess.py 194-213 *)
  Definition git_fetch_reference (repo_dir remote x : pystr) (loc : option pystr) : M S unit :=
    checked_execute (Fetch repo_dir remote x loc) ;;; mret tt.
  (** subprocess.py 188-191 *)
  Definition git_fetch_object (repo_dir remote x : pystr) : M S unit :=
    git_fetch_reference repo_dir remote x None.

  (** localcache.py 32-35 *)
  Definition ensure_cache_exists (remote_repo : pystr) : M S unit :=
    mlet p <- mres (get_repo_cache_path remote_repo);
    mlet e <- execute (PathExists p);
    match e with Some _ => mret tt | None => git_init p end.
  (** localcache.py 38-53 *)
  Definition cache_object (remote_repo x : pystr) : M S unit :=
    ensure_cache_exists remote_repo ;;;
    mlet p <- mres (get_repo_cache_path remote_repo);
    if startswith (ps "refs") x then git_fetch_reference p remote_repo x (Some x)
    else mlet b <- git_object_exists_locally p x;
         if b then mret tt else git_fetch_object p remote_repo x.

  (** subprocess.py 72-81 (Path -> str is the identity here) *)
  Definition adapt_for_remote (repo_dir x : pystr) : M S pystr :=
    if is_remote repo_dir then
      cache_object repo_dir x ;;; mres (get_repo_cache_path repo_dir)
    else mret repo_dir.

  (** subprocess.py 84-87, 67-69 *)
  Definition git_load_str (repo_dir x : pystr) : M S pystr :=
    mlet d <- adapt_for_remote repo_dir x;
    mlet ls <- checked_execute (Show d x);
    mret (join [10%N] ls).
  (** subprocess.py 90-92 *)
  Definition git_load_json (repo_dir x : pystr) : M S json :=
    mlet d <- adapt_for_remote repo_dir x;
    mlet t <- git_load_str d x;
    mres (jloads t).
  (** subprocess.py 106-110 *)
  Definition git_read_tree_node (repo_dir x : pystr) : M S (list pystr) :=
    mlet d <- adapt_for_remote repo_dir x;
    checked_execute (CatFileP d x).
  (** subprocess.py 113-116 *)
  Definition git_ls_tree (repo_dir x : pystr) : M S (list pystr) :=
    mlet d <- adapt_for_remote repo_dir x;
    checked_execute (LsTree d x).
  (** subprocess.py 130-132; the content is encoded in [execute] (24-26) *)
  Definition git_save_str (repo_dir content : pystr) : M S pystr :=
    mlet b <- mres (encode content);
    mlet ls <- checked_execute (HashObject repo_dir b);
    first_line ls.
  (** subprocess.py 135-142; the argument is the content of the files *)
  Definition git_save_file_list (repo_dir : pystr) (files : list bytes) : M S (list pystr) :=
    checked_execute (HashFiles repo_dir files).
  (** subprocess.py 145-146 *)
  Definition git_save_json (repo_dir : pystr) (j : json) : M S pystr :=
    git_save_str repo_dir (dumps j).
  (** subprocess.py 149-158 and 161-169 (identical) *)
  Definition git_save_tree_node (repo_dir : pystr) (entries : list (pystr * pystr * pystr * pystr)) : M S pystr :=
    mlet b <- mres (encode (tree_spec entries));
    mlet ls <- checked_execute (MkTree repo_dir b);
    first_line ls.
  (** subprocess.py 172-177 *)
  Definition git_update_ref (repo_dir name x : pystr) : M S unit :=
    checked_execute (UpdateRef repo_dir name x) ;;; mret tt.
  (** subprocess.py 180-185 *)
  Definition git_delete_ref (repo_dir name : pystr) : M S unit :=
    checked_execute (DeleteRef repo_dir name) ;;; mret tt.
End Backend.

(** ** Concrete instance for examples: the real SHA-1; SHA-1 also stands in for
    SHA-256, which only names cache directories. *)
Lemma hexdig_lhex n : is_lhex (hexdig n) = true.
Proof.
  unfold is_lhex, hexdig. assert (n mod 16 < 16)%N by (apply N.mod_upper_bound; lia).
  set (m := (n mod 16)%N) in *. clearbody m.
  destruct (N.ltb_spec m 10); apply orb_true_iff; rewrite !andb_true_iff, !N.leb_le; lia.
Qed.
Lemma sha1_hex_id b : object_id (sha1_hex b) = true.
Proof.
  unfold sha1_hex. destruct (sha_blocks _ _ _) as [[[[x y] z] u] v].
  unfold object_id. apply andb_true_iff. split; [done|].
  rewrite !forallb_app. unfold hex_word. cbn [map forallb]. by rewrite !hexdig_lhex.
Qed.
Lemma rev_perm (A : Type) (l : list A) : rev l ≡ₚ l.
Proof. symmetry. apply Permutation_rev. Qed.
Definition real_env : Env :=
  {| sha1 := sha1_hex; sha1_id := sha1_hex_id; sha256 := sha1_hex;
     cache_base := ps "home/user/.cache/datalad-metalad/local-git-cache";
     set_order := @rev; set_order_perm := rev_perm |}.

(** A second instance, for examples with many git objects: a checksum that is
    quick to compute takes the place of SHA-1. *)
Fixpoint checksum (b : bytes) (x y : N) : N * N :=
  match b with
  | [] => (x, y)
  | c :: r => let x' := (x + c + 1)%N in checksum r x' (y + x')%N
  end.
Fixpoint hex_digits (n : nat) (x : N) : pystr :=
  match n with
  | O => []
  | S k => hexdig (x mod 16)%N :: hex_digits k (x / 16)%N
  end.
Definition check_hex (b : bytes) : pystr :=
  let '(x, y) := checksum b 0 0 in hex_digits 20 x ++ hex_digits 20 y.
Lemma hex_digits_id n x : forallb is_lhex (hex_digits n x) = true /\ length (hex_digits n x) = n.
Proof.
  revert x. induction n as [|n IH]; intros x; cbn [hex_digits forallb length]; [done|].
  destruct (IH (x / 16)%N) as [-> ->]. by rewrite hexdig_lhex.
Qed.
Lemma check_hex_id b : object_id (check_hex b) = true.
Proof.
  unfold check_hex. destruct (checksum b 0 0) as [x y]. unfold object_id. apply andb_true_iff.
  split; [|rewrite forallb_app; by rewrite !(proj1 (hex_digits_id 20 _))].
  by rewrite app_length, !(proj2 (hex_digits_id 20 _)).
Qed.
Definition check_env : Env :=
  {| sha1 := check_hex; sha1_id := check_hex_id; sha256 := check_hex;
     cache_base := ps "home/user/.cache/datalad-metalad/local-git-cache";
     set_order := @rev; set_order_perm := rev_perm |}.
