(** SHA-1 (FIPS 180-4) on byte lists, used to instantiate the hash function in
    concrete runs.  No theorem depends on its internals. *)
From Verif Require Import Base.

Local Open Scope N_scope.
Definition m32 : N := 0x100000000.
Definition add32 (a b : N) : N := (a + b) mod m32.
Definition rotl (k x : N) : N := N.lor (N.shiftl x k mod m32) (N.shiftr x (32 - k)).

Definition sha_f (t : nat) (b c d : N) : N :=
  if (t <? 20)%nat then N.lxor d (N.land b (N.lxor c d))
  else if (t <? 40)%nat then N.lxor b (N.lxor c d)
  else if (t <? 60)%nat then N.lor (N.land b c) (N.land d (N.lor b c))
  else N.lxor b (N.lxor c d).
Definition sha_k (t : nat) : N :=
  if (t <? 20)%nat then 0x5A827999 else if (t <? 40)%nat then 0x6ED9EBA1
  else if (t <? 60)%nat then 0x8F1BBCDC else 0xCA62C1D6.

(** big-endian words of a block *)
Fixpoint words (b : bytes) : list N :=
  match b with
  | a :: b :: c :: d :: r => (((a * 256 + b) * 256 + c) * 256 + d) :: words r
  | _ => []
  end.
(** [n] further schedule words; the list is reversed (latest first) *)
Fixpoint extend_schedule (n : nat) (w : list N) : list N :=
  match n with
  | O => w
  | S n' =>
      extend_schedule n'
        (rotl 1 (N.lxor (N.lxor (nth 2 w 0) (nth 7 w 0)) (N.lxor (nth 13 w 0) (nth 15 w 0))) :: w)
  end.
Fixpoint sha_rounds (t : nat) (ws : list N) (a b c d e : N) : N * N * N * N * N :=
  match ws with
  | [] => (a, b, c, d, e)
  | w :: ws' =>
      let tmp := add32 (add32 (rotl 5 a) (sha_f t b c d)) (add32 e (add32 w (sha_k t))) in
      sha_rounds (S t) ws' tmp a (rotl 30 b) c d
  end.
Definition sha_block (st : N * N * N * N * N) (block : bytes) : N * N * N * N * N :=
  let '(a, b, c, d, e) := st in
  let ws := rev (extend_schedule 64 (rev (words block))) in
  let '(a', b', c', d', e') := sha_rounds 0 ws a b c d e in
  (add32 a a', add32 b b', add32 c c', add32 d d', add32 e e').
Fixpoint sha_blocks (fuel : nat) (st : N * N * N * N * N) (m : bytes) : N * N * N * N * N :=
  match fuel, m with
  | S f, _ :: _ => sha_blocks f (sha_block st (take 64 m)) (drop 64 m)
  | _, _ => st
  end.
Definition sha_pad (m : bytes) : bytes :=
  let n := length m in
  let bits := 8 * N.of_nat n in
  let z := ((119 - n mod 64) mod 64)%nat in
  m ++ [0x80] ++ repeat 0 z
    ++ map (fun i => N.shiftr bits (8 * i) mod 256) [7; 6; 5; 4; 3; 2; 1; 0].

Definition hexdig (n : N) : N := if n mod 16 <? 10 then 48 + n mod 16 else 87 + n mod 16.
Definition hex_word (w : N) : pystr := map (fun i => hexdig (N.shiftr w (4 * i))) [7; 6; 5; 4; 3; 2; 1; 0].

Definition sha1_hex (m : bytes) : pystr :=
  let p := sha_pad m in
  let '(a, b, c, d, e) :=
    sha_blocks (length p) (0x67452301, 0xEFCDAB89, 0x98BADCFE, 0x10325476, 0xC3D2E1F0) p in
  hex_word a ++ hex_word b ++ hex_word c ++ hex_word d ++ hex_word e.

(** test vectors: the empty string, "abc", the empty git blob, a two block text *)
Example sha1_empty : sha1_hex [] = ps "da39a3ee5e6b4b0d3255bfef95601890afd80709".
Proof. vm_compute. reflexivity. Qed.
Example sha1_abc : sha1_hex (ps "abc") = ps "a9993e364706816aba3e25717850c26c9cd0d89d".
Proof. vm_compute. reflexivity. Qed.
Example sha1_blob : sha1_hex (ps "blob 0" ++ [0]) = ps "e69de29bb2d1d6434b8b29ae775ad8c2e48c5391".
Proof. vm_compute. reflexivity. Qed.
Example sha1_two_blocks :
  sha1_hex (ps "abcdbcdecdefdefgefghfghighijhijkijkljklmklmnlmnomnopnopq")
  = ps "84983e441c3bd26ebaae4aa1f95129e5e54670f1".
Proof. vm_compute. reflexivity. Qed.
