(** Specification vocabulary: writing blobs at once or through a cache. *)
From Verif Require Import Base GitText Git State BlobCache.

Section Cache.
  Context `{Env}.
  (** Hand all blobs to a cache, then flush it; the result are the ids that
      [cache_blob] returned. *)
  Definition write_batched (realm : pystr) (blobs : list pystr) : M bcache (list pystr) :=
    mlet hs <- mmap (cache_blob realm) blobs; cache_flush ;;; mret hs.
  (** Write every blob with its own git command. *)
  Definition write_each {S : Type} (realm : pystr) (blobs : list pystr) : M S (list pystr) :=
    mmap (git_save_str realm) blobs.
  (** The id of a blob with the given text. *)
  Definition blob_id (blob : pystr) : pystr := oid (Blob (utf8_bytes blob)).
End Cache.
