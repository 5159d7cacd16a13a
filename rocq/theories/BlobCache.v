(** Model of gitmapper/gitblobcache.py.

    Files in the temporary directory are represented by their content; opening
    with mode "tw" is assumed to encode as UTF-8 without newline translation
    (POSIX, UTF-8 locale).  Simplification: [__del__] is not modelled. *)
From Verif Require Import Base Json Refs GitText Git State.

Section Cache.
  Context `{Env}.

  (** gitblobcache.py 14-21 *)
  Definition hash_blob (blob : pystr) : res pystr :=
    rlet b <- hash_blob_bytes blob; Ok (sha1 b).

  (** gitblobcache.py 25-38 *)
  Definition new_cache (realm : pystr) (maxsize : N) : bcache := BCache realm maxsize [].

  (** gitblobcache.py 58-91.  74-78: the files are written one after the other;
      85-89: [check_hash] is called for every blob. *)
  Definition cache_flush : M bcache unit :=
    mlet c <- mget (fun c => c);
    mlet files <- mres (rmap (fun bh => encode (fst bh)) (bc_objs c));
    mlet hash_values <- git_save_file_list (bc_realm c) files;
    massert (length hash_values =? length files)%nat ;;;
    massert (forallb (fun hh => bool_decide (fst hh = snd (snd hh))) (combine hash_values (bc_objs c))) ;;;
    mmod (fun c => BCache (bc_realm c) (bc_max c) []).

  (** gitblobcache.py 45-56 *)
  Definition cache_blob (realm blob : pystr) : M bcache pystr :=
    mlet c <- mget (fun c => c);
    massert (bool_decide (realm = bc_realm c)) ;;;
    (if (N.of_nat (length (bc_objs c)) =? bc_max c)%N then cache_flush else mret tt) ;;;
    mlet expected_hash <- mres (hash_blob blob);
    mmod (fun c => BCache (bc_realm c) (bc_max c) (bc_objs c ++ [(blob, expected_hash)])) ;;;
    mret expected_hash.

  (** ** metadatamapper.py 16-34: the caches by realm *)
  Definition with_cache {A} (realm : pystr) (m : M bcache A) (none : M pst A) : M pst A :=
    fun s => match dget (s_caches s) realm with
             | Some c => pbind (m c) (fun rc =>
                 Ret (fst rc, with_caches s (dset (s_caches s) realm (snd rc))))
             | None => none s
             end.
  (** metadatamapper.py 22-26; the default size is that of gitblobcache.py 27 *)
  Definition cache_realm (realm : option pystr) : M pst unit :=
    match realm with
    | None => mraise AssertionError          (* gitblobcache.py 38 *)
    | Some r =>
        mlet cs <- mget s_caches;
        if dmem cs r then mraise RuntimeError
        else mmod (fun s => with_caches s (dset (s_caches s) r (new_cache r 2000)))
    end.
  (** metadatamapper.py 28-34 *)
  Definition flush_realm (realm : pystr) : M pst unit :=
    with_cache realm cache_flush (mraise RuntimeError) ;;;
    mmod (fun s => with_caches s (ddel (s_caches s) realm)).
End Cache.
