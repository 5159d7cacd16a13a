(** Model of the lock counting in gitmapper/utils.py 23-84.

    The directory realm/.git is assumed to exist ([get_lock_dir] creates it,
    nobody removes it).  [LockAcquire] blocks while another process holds the
    lock, see [Git.v]. *)
From Verif Require Import Base GitText Git State.

Section Lock.
  Context `{Env}.

  (** utils.py 32-37 *)
  Definition lock_counter (s : pst) (realm : pystr) : nat :=
    match dget (s_locks s) realm with Some n => n | None => 0%nat end.
  Definition set_counter (realm : pystr) (n : nat) : M pst unit :=
    mmod (fun s => with_locks s (dset (s_locks s) realm n)).

  (** utils.py 50-62 *)
  Definition lock_backend (realm : pystr) : M pst unit :=
    mlet n <- mget (fun s => lock_counter s realm);
    (if (n =? 0)%nat then
       mlet x <- execute (LockAcquire realm);
       match x with Some _ => mret tt | None => mraise Unmodelled end
     else mret tt) ;;;
    set_counter realm (S n).

  (** utils.py 65-74 *)
  Definition unlock_backend (realm : pystr) : M pst unit :=
    mlet n <- mget (fun s => lock_counter s realm);
    massert (0 <? n)%nat ;;;
    set_counter realm (n - 1) ;;;
    if (n - 1 =? 0)%nat then execute (LockRelease realm) ;;; mret tt else mret tt.

  (** utils.py 40-47 *)
  Definition locked_backend {A} (realm : pystr) (block : M pst A) : M pst A :=
    lock_backend realm ;;; mfinally block (unlock_backend realm).
End Lock.
