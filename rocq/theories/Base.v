(** Base layer: Python strings, bytes, dictionaries, exceptions.

    Nothing in this file is specific to /repo; it models the small part of
    Python's builtin types that the modelled code uses. *)

From Coq Require Export NArith ZArith Ascii String List Bool Lia.
From Coq Require Import Decimal DecimalN DecimalFacts.
From stdpp Require Export base list gmap.
Export ListNotations.
Set Default Proof Using "Type".
#[global] Open Scope list_scope.
#[global] Arguments N.eqb : simpl never.
#[global] Arguments N.ltb : simpl never.
#[global] Arguments N.leb : simpl never.
#[global] Arguments N.div : simpl never.
#[global] Arguments N.modulo : simpl never.

(** ** Strings

    A Python [str] is a sequence of Unicode code points; a Python [bytes] is a
    sequence of numbers below 256.  Both are lists of [N]. *)
Definition pystr := list N.
Definition bytes := list N.

(** Literal strings (ASCII only). *)
Fixpoint s2p (s : string) : pystr :=
  match s with
  | EmptyString => []
  | String a r => N_of_ascii a :: s2p r
  end.

(** [ps "abc"] is the evaluated literal. *)
Notation "'ps' s" := ltac:(let t := eval vm_compute in (s2p s%string) in exact t)
  (at level 0, s at level 0, only parsing).

(** A code point that is not a surrogate: what [str.encode()] accepts. *)
Definition scalar (c : N) : Prop :=
  (c < 0xD800)%N \/ (0xDFFF < c /\ c < 0x110000)%N.
Definition scalarb (c : N) : bool :=
  ((c <? 0xD800) || ((0xDFFF <? c) && (c <? 0x110000)))%N.
Definition scalar_str (s : pystr) : Prop := Forall scalar s.

Lemma scalarb_spec c : scalarb c = true <-> scalar c.
Proof. unfold scalarb, scalar. rewrite orb_true_iff, andb_true_iff, !N.ltb_lt. lia. Qed.

(** [str.split(c)] for a one character separator: never empty. *)
Fixpoint split_char (c : N) (s : pystr) : list pystr :=
  match s with
  | [] => [[]]
  | x :: r =>
      if (x =? c)%N then [] :: split_char c r
      else match split_char c r with
           | [] => [[x]]
           | y :: ys => (x :: y) :: ys
           end
  end.

(** [sep.join(l)] *)
Fixpoint join (sep : pystr) (l : list pystr) : pystr :=
  match l with
  | [] => []
  | [x] => x
  | x :: r => x ++ sep ++ join sep r
  end.

(** [s.startswith(p)] *)
Fixpoint startswith (p s : pystr) : bool :=
  match p, s with
  | [], _ => true
  | a :: p', b :: s' => (a =? b)%N && startswith p' s'
  | _ :: _, [] => false
  end.

(** Line boundaries recognised by [str.splitlines] (besides the pair CR LF). *)
Definition is_linesep (c : N) : bool :=
  ((c =? 10) || (c =? 13) || (c =? 11) || (c =? 12) || (c =? 28) || (c =? 29)
   || (c =? 30) || (c =? 133) || (c =? 0x2028) || (c =? 0x2029))%N.

(** [str.splitlines()]: lines without terminators; CR LF is one terminator; a
    trailing terminator does not start a new (empty) line. *)
Fixpoint splitlines (s : pystr) : list pystr :=
  match s with
  | [] => []
  | x :: r =>
      if is_linesep x then
        (if (x =? 13)%N then
           match r with
           | y :: r' => if (y =? 10)%N then [] :: splitlines r' else [] :: splitlines r
           | [] => [] :: splitlines r
           end
         else [] :: splitlines r)
      else match splitlines r with
           | [] => [[x]]
           | l :: ls =>
               (* r starts a line of its own only if it is non-empty *)
               (x :: l) :: ls
           end
  end.

(** ** Decimal numbers *)
Fixpoint uint_p (d : Decimal.uint) : pystr :=
  match d with
  | Nil => []
  | D0 d => 48%N :: uint_p d | D1 d => 49%N :: uint_p d | D2 d => 50%N :: uint_p d
  | D3 d => 51%N :: uint_p d | D4 d => 52%N :: uint_p d | D5 d => 53%N :: uint_p d
  | D6 d => 54%N :: uint_p d | D7 d => 55%N :: uint_p d | D8 d => 56%N :: uint_p d
  | D9 d => 57%N :: uint_p d
  end.

Definition is_digit (c : N) : bool := ((48 <=? c) && (c <=? 57))%N.

Definition digit_cons (c : N) (d : Decimal.uint) : Decimal.uint :=
  (if c =? 48 then D0 d else if c =? 49 then D1 d else if c =? 50 then D2 d
   else if c =? 51 then D3 d else if c =? 52 then D4 d else if c =? 53 then D5 d
   else if c =? 54 then D6 d else if c =? 55 then D7 d else if c =? 56 then D8 d
   else D9 d)%N.

(** Digit strings to numbers; only called on digit strings. *)
Fixpoint p_uint (s : pystr) : Decimal.uint :=
  match s with
  | [] => Nil
  | c :: r => digit_cons c (p_uint r)
  end.

(** [str(n)] for a natural number. *)
Definition str_of_N (n : N) : pystr := uint_p (N.to_uint n).
#[global] Arguments str_of_N : simpl never.
(** [str(z)] for an integer. *)
Definition str_of_Z (z : Z) : pystr :=
  match z with
  | Z0 => [48%N]
  | Zpos p => str_of_N (Npos p)
  | Zneg p => 45%N :: str_of_N (Npos p)
  end.

Definition N_of_digits (s : pystr) : N := N.of_uint (p_uint s).
(** Value of an optionally negative digit string. *)
Definition Z_of_text (s : pystr) : Z :=
  match s with
  | c :: r => if (c =? 45)%N then (- Z.of_N (N_of_digits r))%Z else Z.of_N (N_of_digits s)
  | [] => 0%Z
  end.

(** [int(s)] restricted to what the modelled code produces: an optional minus
    sign and at least one digit.  (Python also accepts blanks, underscores and
    a plus sign; such keys are treated as errors here.) *)
Definition all_digits (s : pystr) : bool :=
  match s with [] => false | _ => forallb is_digit s end.
Definition py_int (s : pystr) : option Z :=
  match s with
  | c :: r => if (c =? 45)%N then (if all_digits r then Some (Z_of_text s) else None)
              else if all_digits s then Some (Z_of_text s) else None
  | [] => None
  end.

(** ** Insertion ordered dictionaries *)
Definition pydict (K V : Type) := list (K * V).

Section Dict.
  Context {K V : Type} `{EqDecision K}.

  (** [d.get(k)] *)
  Fixpoint dget (d : pydict K V) (k : K) : option V :=
    match d with
    | [] => None
    | (k', v) :: r => if decide (k' = k) then Some v else dget r k
    end.

  (** [d[k] = v]: an existing key keeps its position. *)
  Fixpoint dset (d : pydict K V) (k : K) (v : V) : pydict K V :=
    match d with
    | [] => [(k, v)]
    | (k', v') :: r => if decide (k' = k) then (k', v) :: r else (k', v') :: dset r k v
    end.

  (** [del d[k]] (the caller checks presence) *)
  Fixpoint ddel (d : pydict K V) (k : K) : pydict K V :=
    match d with
    | [] => []
    | (k', v') :: r => if decide (k' = k) then r else (k', v') :: ddel r k
    end.

  Definition dkeys (d : pydict K V) : list K := map fst d.
  Definition dvals (d : pydict K V) : list V := map snd d.
  Definition dmem (d : pydict K V) (k : K) : bool :=
    match dget d k with Some _ => true | None => false end.

  (** dict built from a list of pairs: [dict(l)] *)
  Definition dof (l : list (K * V)) : pydict K V :=
    fold_left (fun d kv => dset d (fst kv) (snd kv)) l [].
End Dict.

(** ** Exceptions *)
Inductive exn :=
| RuntimeError | ValueError | AssertionError | KeyError | AttributeError
| TypeError | IndexError | UnicodeError | RecursionError | JSONDecodeError
| Unmodelled.     (** behaviour outside of the model *)

#[export] Instance exn_eq_dec : EqDecision exn.
Proof. solve_decision. Defined.

Inductive res (A : Type) :=
| Ok (a : A)
| Err (e : exn).
Arguments Ok {A} a.
Arguments Err {A} e.

Definition rbind {A B} (x : res A) (f : A -> res B) : res B :=
  match x with Ok a => f a | Err e => Err e end.

Notation "'rlet' x <- e1 ; e2" := (rbind e1 (fun x => e2))
  (at level 60, x pattern, e1 at level 60, right associativity).

(** [assert b] *)
Definition rassert (b : bool) : res unit := if b then Ok tt else Err AssertionError.

(** Evaluate a comprehension left to right. *)
Fixpoint rmap {A B} (f : A -> res B) (l : list A) : res (list B) :=
  match l with
  | [] => Ok []
  | x :: r => rlet y <- f x; rlet ys <- rmap f r; Ok (y :: ys)
  end.
