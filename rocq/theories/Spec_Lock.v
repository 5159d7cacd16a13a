(** Specification vocabulary: nested [with locked_backend(...)] blocks. *)
From Verif Require Import Base GitText Git State Lock.

(** A piece of Python code that uses the lock. *)
Inductive block :=
| Skip
| Raise (e : exn)
| Seq (a b : block)
| Catch (a b : block)                 (** try: a  except: b *)
| Locked (realm : pystr) (a : block)  (** with locked_backend(realm): a *)
| Work.                               (** some git command *)

(** Run it.  The command that [Work] runs tells, through [f], which blocks are
    open around it; [f] is arbitrary. *)
Fixpoint run_block `{Env} (f : gset pystr -> cmd) (open : gset pystr) (b : block) : M pst unit :=
  match b with
  | Skip => mret tt
  | Raise e => mraise e
  | Seq a b => run_block f open a ;;; run_block f open b
  | Catch a b => mtry (run_block f open a) (fun _ => run_block f open b)
  | Locked n a => locked_backend n (run_block f ({[n]} ∪ open) a)
  | Work => execute (f open) ;;; mret tt
  end.

(** What it should do if there were no locks: the result of the block. *)
Fixpoint block_result (b : block) : res unit :=
  match b with
  | Skip | Work => Ok tt
  | Raise e => Err e
  | Seq a b => match block_result a with Ok _ => block_result b | Err e => Err e end
  | Catch a b => match block_result a with Ok _ => Ok tt | Err _ => block_result b end
  | Locked _ a => block_result a
  end.

(** The commands a program runs, each with the state it runs in. *)
Fixpoint events `{Env} {A : Type} (p : prog A) (g : gstate) : list (gstate * cmd) :=
  match p with
  | Ret _ => []
  | Do c k => (g, c) :: (let '(x, g') := git c g in events (k x) g')
  end.

(** A lock is taken only if it is free, released only if it is held, and any
    other command runs while exactly the locks of the open blocks are held. *)
Definition lock_event (f : gset pystr -> cmd) (ev : gstate * cmd) : Prop :=
  match snd ev with
  | LockAcquire n => n ∉ g_locks (fst ev)
  | LockRelease n => n ∈ g_locks (fst ev)
  | c => exists open, c = f open /\ g_locks (fst ev) = open
  end.
