(** Sessions: sequences of calls on one file tree, and the map that they are
    about.  The map has full paths as keys, there are no directories in it. *)
From Verif Require Import Base Path Json Refs Meta Spec_Meta GitText Spec_Git Git Spec_Store State BlobCache ObjRef Objects Spec_Objects Spec_Look Spec_Heap Spec_Content.

Inductive call :=
| CAdd (p : ppath) (runs : list run)  (** add new metadata with these runs *)
| CGet (p : ppath)                    (** get the metadata, read it *)
| CRun (p : ppath) (r : run)          (** add a run to the metadata there *)
| CList                               (** list the tree, then read all metadata found *)
| CWrite (force : bool)
| CPurge.
Inductive answer :=
| ADone
| AMeta (m : option metadata)
| AList (xs : list (ppath * metadata))
| ARef (ref : reference).

Section Calls.
  Context `{Env}.
  Definition read_metadata (fuel : nat) (x : loc) : M pst metadata :=
    ensure_mapped fuel x ;;; mlet o <- getobj x; match o_body o with BMeta m => mret m | _ => mraise AssertionError end.
  Definition call_on (fuel : nat) (r : pystr) (l : loc) (c : call) : M pst answer :=
    match c with
    | CAdd p runs => mlet x <- new_metadata; miter (metadata_add_run fuel x) runs ;;; add_metadata fuel l p x ;;; mret ADone
    | CGet p =>
        mlet x <- get_metadata fuel l p;
        match x with
        | None => mret (AMeta None)
        | Some x => mlet m <- read_metadata fuel x; mret (AMeta (Some m))
        end
    | CRun p ru => filetree_add_run fuel l p ru ;;; mret ADone
    | CList =>
        mlet xs <- get_paths_recursive fuel false l;
        mlet ys <- mmap (fun px : ppath * loc => mlet m <- read_metadata fuel (snd px); mret (fst px, m)) xs;
        mret (AList ys)
    | CWrite force => mlet ref <- filetree_write_out fuel l (Some r) force; mret (ARef ref)
    | CPurge => purge fuel l ;;; mret ADone
    end.
  (** All answers; the session ends with an exception if a write fails. *)
  Definition answer_of (fuel : nat) (r : pystr) (l : loc) (c : call) : M pst (res answer) :=
    match c with
    | CWrite _ => mlet a <- call_on fuel r l c; mret (Ok a)
    | _ => mtry (mlet a <- call_on fuel r l c; mret (Ok a)) (fun e => mret (Err e))
    end.
  Fixpoint session (fuel : nat) (r : pystr) (l : loc) (cs : list call) : M pst (list (res answer)) :=
    match cs with
    | [] => mret []
    | c :: cs => mlet a <- answer_of fuel r l c; mlet aa <- session fuel r l cs; mret (a :: aa)
    end.
End Calls.

Notation files := (gmap (list pystr) metadata).
(** Some file is in the directory [p]; the root directory is always there. *)
Definition is_dir (f : files) (p : list pystr) : Prop := p = [] \/ exists q m, f !! q = Some m /\ extends q p /\ q <> p.
(** There is a file at or above [p], or a directory at [p]. *)
Definition taken (f : files) (p : list pystr) : Prop := (exists q m, f !! q = Some m /\ extends p q) \/ is_dir f p.
(** The map [f] as content of a tree. *)
Definition shows (f : files) (c : content) : Prop := forall p,
  match f !! p with
  | Some m => c (map KName p) = Seen (LbMeta m)
  | None => (is_dir f p /\ c (map KName p) = Seen (LbNode LMeta)) \/ (~ is_dir f p /\ c (map KName p) = Absent)
  end.
(** The reference leads to a tree with the content [f]. *)
Definition stored_as (O : store) (ref : reference) (f : files) : Prop :=
  complete (look_stored O (KdNode LMeta) ref) /\ shows f (look_stored O (KdNode LMeta) ref).

(** What a call answers and what it does to the map.  The flag says whether
    everything is written. *)
Definition answers (O : store) (c : call) (f : files) (k : bool) (a : res answer) (f' : files) (k' : bool) : Prop :=
  let same := f' = f /\ k' = k in
  match c with
  | CAdd p runs =>
      exists m, add_runs [] runs = Ok m /\
        ((all_parts p = [] /\ a = Err AssertionError /\ same) \/
         (all_parts p <> [] /\ taken f (all_parts p) /\ a = Err ValueError /\ same) \/
         (~ taken f (all_parts p) /\ a = Ok ADone /\ f' = <[all_parts p := m]> f /\ k' = false))
  | CGet p => same /\
      match f !! all_parts p with
      | Some m => a = Ok (AMeta (Some m))
      | None => (is_dir f (all_parts p) /\ a = Err AssertionError) \/ (~ is_dir f (all_parts p) /\ a = Ok (AMeta None))
      end
  | CRun p ru =>
      match f !! all_parts p with
      | Some m =>
          k' = false /\
          match add_extractor_run m ru with
          | Ok m' => a = Ok ADone /\ f' = <[all_parts p := m']> f
          | Err e => a = Err e /\ f' = f
          end
      | None => same /\ ((is_dir f (all_parts p) /\ a = Err AssertionError) \/ (~ is_dir f (all_parts p) /\ a = Err AttributeError))
      end
  | CList => same /\ exists xs, a = Ok (AList xs) /\ NoDup (map fst xs) /\
      forall p m, In (p, m) xs <-> is_metadata_path p /\ f !! all_parts p = Some m
  | CWrite _ => f' = f /\ k' = true /\ exists ref, a = Ok (ARef ref) /\ stored_as O ref f
  | CPurge => same /\ a = if k then Ok ADone else Err ValueError
  end.
Inductive answers_all (O : store) : list call -> files -> bool -> list (res answer) -> files -> bool -> Prop :=
| all_nil f k : answers_all O [] f k [] f k
| all_cons c cs f k a f1 k1 aa f2 k2 : answers O c f k a f1 k1 -> answers_all O cs f1 k1 aa f2 k2 -> answers_all O (c :: cs) f k (a :: aa) f2 k2.

(** Calls with paths that can be stored and that are shorter than the recursion
    limit, and with JSON values. *)
Definition call_ok (fuel : nat) (c : call) : Prop :=
  match c with
  | CAdd p runs => is_metadata_path p /\ Forall storable_name (all_parts p) /\ (S (length (all_parts p)) < fuel)%nat /\ Forall run_ok runs
  | CGet p => is_metadata_path p
  | CRun p ru => is_metadata_path p /\ run_ok ru
  | _ => True
  end.
