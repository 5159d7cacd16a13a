(** Which values count as JSON documents in the property statements. *)
From Verif Require Import Base Json.

Definition digits (s : pystr) : Prop := s <> [] /\ Forall (fun c => is_digit c = true) s.

(** Text of a finite float in [repr] format (a superset of it): optional sign,
    integer part without leading zeros, fraction and/or exponent. *)
Definition float_text (r : pystr) : Prop :=
  exists sg ip fr ex, r = sg ++ ip ++ fr ++ ex
  /\ (sg = [] \/ sg = ps "-")
  /\ (ip = ps "0" \/ (digits ip /\ hd_error ip <> Some 48%N))
  /\ (fr = [] \/ exists d, fr = ps "." ++ d /\ digits d)
  /\ (ex = [] \/ exists e s d, ex = e ++ s ++ d /\ (e = ps "e" \/ e = ps "E")
                 /\ (s = [] \/ s = ps "+" \/ s = ps "-") /\ digits d)
  /\ ~ (fr = [] /\ ex = []).

(** A JSON document: strings are Unicode texts without surrogates, keys of an
    object are distinct. *)
Fixpoint json_ok (j : json) : Prop :=
  match j with
  | JStr s => scalar_str s
  | JFloat r => float_text r
  | JArr l => (fix all l := match l with [] => True | x :: r => json_ok x /\ all r end) l
  | JObj kvs =>
      NoDup (map fst kvs) /\
      (fix all l := match l with
                    | [] => True
                    | kv :: r => (scalar_str (fst kv) /\ json_ok (snd kv)) /\ all r
                    end) kvs
  | _ => True
  end.
