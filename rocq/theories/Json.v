(** Model of Python's [json.dumps] and [json.loads] with default arguments, as
    used all over /repo (metadata.py 49, 109, 192, 292, 304; reference.py 50,
    65; metadatasource.py; gitbackend/subprocess.py 92, 146).

    Simplifications: a float is represented by the text of its [repr]
    (CPython guarantees [float(repr(x)) == x]); dictionary keys are strings
    ([json.dumps] turns the integer keys that /repo uses in one place into
    their decimal text, which the model does when it builds the document);
    Python's recursion limit is not modelled. *)
From Verif Require Import Base.

Inductive json :=
| JNull
| JBool (b : bool)
| JInt (z : Z)
| JFloat (repr : pystr)          (** finite float *)
| JNan | JInf (neg : bool)
| JStr (s : pystr)
| JArr (l : list json)
| JObj (kvs : list (pystr * json)).

(** ** json.dumps *)

Definition hexdigit (n : N) : N := if (n <? 10)%N then (48 + n)%N else (87 + n)%N.
(** '\\u{0:04x}'.format(n) *)
Definition u_escape (n : N) : pystr :=
  [92; 117; hexdigit (n / 4096 mod 16); hexdigit (n / 256 mod 16);
   hexdigit (n / 16 mod 16); hexdigit (n mod 16)]%N.

(** json.encoder.py_encode_basestring_ascii *)
Definition dump_char (c : N) : pystr :=
  (if c =? 34 then [92; 34]
   else if c =? 92 then [92; 92]
   else if c =? 10 then [92; 110]
   else if c =? 13 then [92; 114]
   else if c =? 9 then [92; 116]
   else if c =? 12 then [92; 102]
   else if c =? 8 then [92; 98]
   else if (32 <=? c) && (c <=? 126) then [c]
   else if c <? 0x10000 then u_escape c
   else u_escape (0xD800 + (c - 0x10000) / 1024)
        ++ u_escape (0xDC00 + (c - 0x10000) mod 1024))%N.
Definition dump_str (s : pystr) : pystr := 34%N :: concat (map dump_char s) ++ [34%N].

#[global] Arguments dump_str : simpl never.
#[global] Arguments dump_char : simpl never.
#[global] Arguments u_escape : simpl never.

Fixpoint dumps (j : json) : pystr :=
  match j with
  | JNull => ps "null"
  | JBool true => ps "true"
  | JBool false => ps "false"
  | JInt z => str_of_Z z
  | JFloat r => r
  | JNan => ps "NaN"
  | JInf false => ps "Infinity"
  | JInf true => ps "-Infinity"
  | JStr s => dump_str s
  | JArr l => 91%N :: join (ps ", ") (map dumps l) ++ [93%N]
  | JObj kvs =>
      123%N :: join (ps ", ")
        (map (fun kv => dump_str (fst kv) ++ ps ": " ++ dumps (snd kv)) kvs) ++ [125%N]
  end.

(** ** json.loads *)

Definition hexval (c : N) : option N :=
  (if (48 <=? c) && (c <=? 57) then Some (c - 48)
   else if (97 <=? c) && (c <=? 102) then Some (c - 87)
   else if (65 <=? c) && (c <=? 70) then Some (c - 55)
   else None)%N.
Definition hex4 (a b c d : N) : option N :=
  match hexval a, hexval b, hexval c, hexval d with
  | Some a, Some b, Some c, Some d => Some (a * 4096 + b * 256 + c * 16 + d)%N
  | _, _, _, _ => None
  end.

Definition simple_escape (e : N) : option N :=
  (if e =? 34 then Some 34 else if e =? 92 then Some 92 else if e =? 47 then Some 47
   else if e =? 98 then Some 8 else if e =? 102 then Some 12 else if e =? 110 then Some 10
   else if e =? 114 then Some 13 else if e =? 116 then Some 9 else None)%N.

Definition is_high (u : N) : bool := ((0xD800 <=? u) && (u <=? 0xDBFF))%N.
Definition is_low (u : N) : bool := ((0xDC00 <=? u) && (u <=? 0xDFFF))%N.

(** If [s] starts with a low surrogate escape: its value and the rest. *)
Definition low_escape (s : pystr) : option (N * pystr) :=
  match s with
  | x :: y :: a :: b :: c :: d :: r =>
      if ((x =? 92) && (y =? 117))%N then
        match hex4 a b c d with
        | Some u => if is_low u then Some (u, r) else None
        | None => None
        end
      else None
  | _ => None
  end.

Definition cons_fst (c : N) (x : option (pystr * pystr)) : option (pystr * pystr) :=
  match x with Some (s, r) => Some (c :: s, r) | None => None end.

(** json.decoder.scanstring (strict), after the opening quote: the string and
    the rest after the closing quote.  [n] bounds the recursion, it is the
    length of the text. *)
Fixpoint scan_str (n : nat) (s : pystr) : option (pystr * pystr) :=
  match n with
  | O => None
  | S n' =>
      match s with
      | [] => None
      | c :: r =>
          if (c =? 34)%N then Some ([], r)
          else if (c =? 92)%N then
            match r with
            | [] => None
            | e :: r1 =>
                if (e =? 117)%N then
                  match r1 with
                  | a :: b :: c2 :: d :: r2 =>
                      match hex4 a b c2 d with
                      | None => None
                      | Some u =>
                          if is_high u then
                            match low_escape r2 with
                            | Some (u2, r3) =>
                                cons_fst (0x10000 + (u - 0xD800) * 1024 + (u2 - 0xDC00))%N
                                         (scan_str n' r3)
                            | None => cons_fst u (scan_str n' r2)
                            end
                          else cons_fst u (scan_str n' r2)
                      end
                  | _ => None
                  end
                else match simple_escape e with
                     | Some x => cons_fst x (scan_str n' r1)
                     | None => None
                     end
            end
          else if (c <? 32)%N then None
          else cons_fst c (scan_str n' r)
      end
  end.

(** Longest prefix of digits. *)
Fixpoint span_digits (s : pystr) : pystr * pystr :=
  match s with
  | c :: r => if is_digit c then let '(a, b) := span_digits r in (c :: a, b) else ([], s)
  | [] => ([], [])
  end.

(** json.scanner NUMBER_RE: (-?(?:0|[1-9]\d* ))(\.\d+)?([eE][-+]?\d+)? *)
Definition scan_int_part (s : pystr) : option (pystr * pystr) :=
  let '(sign, r) := match s with
                    | c :: r => if (c =? 45)%N then ([45%N], r) else ([], s)
                    | [] => ([], s)
                    end in
  match r with
  | c :: r1 =>
      if (c =? 48)%N then Some (sign ++ [c], r1)
      else if is_digit c then let '(a, b) := span_digits r in Some (sign ++ a, b)
      else None
  | [] => None
  end.
Definition scan_frac (s : pystr) : pystr * pystr :=
  match s with
  | c :: r => if (c =? 46)%N then
                match span_digits r with
                | ([], _) => ([], s)
                | (a, b) => (c :: a, b)
                end
              else ([], s)
  | [] => ([], [])
  end.
Definition scan_exp (s : pystr) : pystr * pystr :=
  match s with
  | c :: r =>
      if ((c =? 101) || (c =? 69))%N then
        let '(sg, r1) := match r with
                         | x :: r1 => if ((x =? 43) || (x =? 45))%N then ([x], r1) else ([], r)
                         | [] => ([], r)
                         end in
        match span_digits r1 with
        | ([], _) => ([], s)
        | (a, b) => (c :: sg ++ a, b)
        end
      else ([], s)
  | [] => ([], [])
  end.
Definition scan_number (s : pystr) : option (json * pystr) :=
  match scan_int_part s with
  | None => None
  | Some (i, r) =>
      let '(f, r1) := scan_frac r in
      let '(e, r2) := scan_exp r1 in
      match f, e with
      | [], [] => Some (JInt (Z_of_text i), r2)
      | _, _ => Some (JFloat (i ++ f ++ e), r2)
      end
  end.

Definition is_ws (c : N) : bool := ((c =? 32) || (c =? 9) || (c =? 10) || (c =? 13))%N.
Fixpoint skip_ws (s : pystr) : pystr :=
  match s with c :: r => if is_ws c then skip_ws r else s | [] => [] end.

(** [strip_prefix p s]: the rest of [s] if it starts with [p]. *)
Fixpoint strip_prefix (p s : pystr) : option pystr :=
  match p, s with
  | [], _ => Some s
  | a :: p', b :: s' => if (a =? b)%N then strip_prefix p' s' else None
  | _ :: _, [] => None
  end.

(** json.scanner.py_make_scanner._scan_once, json.decoder.JSONObject/JSONArray.
    [n] bounds the nesting of calls; [loads] starts with the text length. *)
Fixpoint scan_once (n : nat) (s : pystr) : option (json * pystr) :=
  match n with
  | O => None
  | S n' =>
      match s with
      | [] => None
      | c :: r =>
          if (c =? 34)%N then
            match scan_str (S (List.length r)) r with
            | Some (x, r1) => Some (JStr x, r1)
            | None => None
            end
          else if (c =? 123)%N then
            match skip_ws r with
            | [] => None
            | d :: r1 =>
                if (d =? 125)%N then Some (JObj [], r1)
                else match scan_members n' (d :: r1) with
                     | Some (kvs, r2) => Some (JObj (dof kvs), r2)
                     | None => None
                     end
            end
          else if (c =? 91)%N then
            match skip_ws r with
            | [] => None
            | d :: r1 =>
                if (d =? 93)%N then Some (JArr [], r1)
                else match scan_items n' (d :: r1) with
                     | Some (l, r2) => Some (JArr l, r2)
                     | None => None
                     end
            end
          else
          match strip_prefix (ps "null") s with Some r1 => Some (JNull, r1) | None =>
          match strip_prefix (ps "true") s with Some r1 => Some (JBool true, r1) | None =>
          match strip_prefix (ps "false") s with Some r1 => Some (JBool false, r1) | None =>
          match scan_number s with Some x => Some x | None =>
          match strip_prefix (ps "NaN") s with Some r1 => Some (JNan, r1) | None =>
          match strip_prefix (ps "Infinity") s with Some r1 => Some (JInf false, r1) | None =>
          match strip_prefix (ps "-Infinity") s with Some r1 => Some (JInf true, r1) | None =>
            None
          end end end end end end end
      end
  end
(** the members of a non-empty object, up to and including "}"; [s] starts with
    the opening quote of a key *)
with scan_members (n : nat) (s : pystr) : option (list (pystr * json) * pystr) :=
  match n with
  | O => None
  | S n' =>
      match s with
      | [] => None
      | q :: r =>
          if negb (q =? 34)%N then None else
          match scan_str (S (List.length r)) r with
          | None => None
          | Some (k, r1) =>
              match skip_ws r1 with
              | [] => None
              | col :: r2 =>
                  if negb (col =? 58)%N then None else
                  match scan_once n' (skip_ws r2) with
                  | None => None
                  | Some (v, r3) =>
                      match skip_ws r3 with
                      | [] => None
                      | d :: r4 =>
                          if (d =? 125)%N then Some ([(k, v)], r4)
                          else if (d =? 44)%N then
                            match scan_members n' (skip_ws r4) with
                            | Some (kvs, r5) => Some ((k, v) :: kvs, r5)
                            | None => None
                            end
                          else None
                      end
                  end
              end
          end
      end
  end
(** the items of a non-empty array, up to and including "]" *)
with scan_items (n : nat) (s : pystr) : option (list json * pystr) :=
  match n with
  | O => None
  | S n' =>
      match scan_once n' s with
      | None => None
      | Some (v, r3) =>
          match skip_ws r3 with
          | [] => None
          | d :: r4 =>
              if (d =? 93)%N then Some ([v], r4)
              else if (d =? 44)%N then
                match scan_items n' (skip_ws r4) with
                | Some (l, r5) => Some (v :: l, r5)
                | None => None
                end
              else None
          end
      end
  end.

(** json.loads (on a str): None stands for JSONDecodeError *)
Definition loads (s : pystr) : option json :=
  match scan_once (S (2 * List.length s)) (skip_ws s) with
  | Some (j, r) => match skip_ws r with [] => Some j | _ => None end
  | None => None
  end.
