(** Text formats on the border to git: UTF-8, git's C-style quoting, the input
    of [git mktree], the output of [git ls-tree] / [git cat-file -p], the bytes
    git hashes, and the Python code that produces or consumes these texts. *)
From Verif Require Import Base Json.

(** ** UTF-8 (str.encode(), bytes.decode() with the default strict handler) *)

Definition utf8_char (c : N) : bytes :=
  (if c <? 0x80 then [c]
   else if c <? 0x800 then [0xC0 + c / 64; 0x80 + c mod 64]
   else if c <? 0x10000 then [0xE0 + c / 4096; 0x80 + (c / 64) mod 64; 0x80 + c mod 64]
   else [0xF0 + c / 262144; 0x80 + (c / 4096) mod 64; 0x80 + (c / 64) mod 64; 0x80 + c mod 64])%N.
#[global] Arguments utf8_char : simpl never.

Definition utf8_bytes (s : pystr) : bytes := concat (map utf8_char s).

(** [s.encode()]: surrogates raise UnicodeEncodeError *)
Definition encode (s : pystr) : res bytes :=
  if forallb scalarb s then Ok (utf8_bytes s) else Err UnicodeError.

Definition cont (b : N) : bool := ((0x80 <=? b) && (b <? 0xC0))%N.

Definition ocons {A} (x : A) (l : option (list A)) : option (list A) :=
  match l with Some l => Some (x :: l) | None => None end.

(** Strict decoder: rejects stray or missing continuation bytes, overlong
    forms, surrogates and values above 0x10FFFF. *)
Fixpoint utf8_decode (b : bytes) : option pystr :=
  match b with
  | [] => Some []
  | b0 :: r0 =>
      if (b0 <? 0x80)%N then ocons b0 (utf8_decode r0)
      else if ((0xC0 <=? b0) && (b0 <? 0xE0))%N then
        match r0 with
        | b1 :: r1 =>
            let c := ((b0 - 0xC0) * 64 + (b1 - 0x80))%N in
            if cont b1 && (0x80 <=? c)%N then ocons c (utf8_decode r1) else None
        | [] => None
        end
      else if ((0xE0 <=? b0) && (b0 <? 0xF0))%N then
        match r0 with
        | b1 :: b2 :: r2 =>
            let c := ((b0 - 0xE0) * 4096 + (b1 - 0x80) * 64 + (b2 - 0x80))%N in
            if cont b1 && cont b2 && (0x800 <=? c)%N && scalarb c
            then ocons c (utf8_decode r2) else None
        | _ => None
        end
      else if ((0xF0 <=? b0) && (b0 <? 0xF8))%N then
        match r0 with
        | b1 :: b2 :: b3 :: r3 =>
            let c := ((b0 - 0xF0) * 262144 + (b1 - 0x80) * 4096 + (b2 - 0x80) * 64 + (b3 - 0x80))%N in
            if cont b1 && cont b2 && cont b3 && (0x10000 <=? c)%N && scalarb c
            then ocons c (utf8_decode r3) else None
        | _ => None
        end
      else None
  end.

(** [b.decode()] *)
Definition decode (b : bytes) : res pystr :=
  match utf8_decode b with Some s => Ok s | None => Err UnicodeError end.

(** ** Small list tools *)
Fixpoint span (p : N -> bool) (l : list N) : list N * list N :=
  match l with
  | [] => ([], [])
  | x :: r => if p x then let '(a, b) := span p r in (x :: a, b) else ([], l)
  end.

(** C strings end at the first NUL. *)
Definition cut_nul (b : bytes) : bytes := fst (span (fun c => negb (c =? 0)%N) b).

Definition is_octal (c : N) : bool := ((48 <=? c) && (c <=? 55))%N.
Definition is_hex (c : N) : bool :=
  (((48 <=? c) && (c <=? 57)) || ((97 <=? c) && (c <=? 102)) || ((65 <=? c) && (c <=? 70)))%N.
Definition is_lhex (c : N) : bool :=
  (((48 <=? c) && (c <=? 57)) || ((97 <=? c) && (c <=? 102)))%N.
Definition lower_hex (c : N) : N := if ((65 <=? c) && (c <=? 70))%N then (c + 32)%N else c.

(** An object id as git prints it: 40 lower case hexadecimal digits. *)
Definition object_id (h : pystr) : bool := (length h =? 40)%nat && forallb is_lhex h.

Definition octal_value (ds : list N) : N := fold_left (fun a d => (a * 8 + (d - 48))%N) ds 0%N.

(** ** git objects *)

(** One entry of a git tree: mode, object id, file name bytes. *)
Record tentry := TE { te_mode : N; te_id : pystr; te_name : bytes }.
#[export] Instance tentry_eq_dec : EqDecision tentry.
Proof. solve_decision. Defined.

Inductive gobj :=
| Blob (content : bytes)
| Tree (entries : list tentry).
#[export] Instance gobj_eq_dec : EqDecision gobj.
Proof. solve_decision. Defined.

Inductive gtype := TBlob | TTree | TCommit.
#[export] Instance gtype_eq_dec : EqDecision gtype.
Proof. solve_decision. Defined.

Definition type_name (t : gtype) : pystr :=
  match t with TBlob => ps "blob" | TTree => ps "tree" | TCommit => ps "commit" end.
Definition obj_type (o : gobj) : gtype := match o with Blob _ => TBlob | Tree _ => TTree end.

(** git cache.h [object_type(mode)], used by mktree *)
Definition mode_type (m : N) : gtype :=
  (if ((m / 4096) mod 16 =? 4)%N then TTree
   else if ((m / 4096) mod 16 =? 14)%N then TCommit else TBlob).
(** git [canon_mode], applied when a tree is read: regular files and symbolic
    links are blobs, directories trees, everything else a commit *)
Definition canon_type (m : N) : gtype :=
  (if ((m / 4096) mod 16 =? 4)%N then TTree
   else if ((m / 4096) mod 16 =? 8)%N || ((m / 4096) mod 16 =? 10)%N then TBlob else TCommit).

(** Octal text of a number, at least [w] digits. *)
Fixpoint octal_aux (fuel : nat) (n : N) (acc : pystr) : pystr :=
  match fuel with
  | O => acc
  | S f => let acc' := (48 + n mod 8)%N :: acc in
           if (n / 8 =? 0)%N then acc' else octal_aux f (n / 8) acc'
  end.
Definition octal_text (n : N) : pystr := octal_aux 24 n [].
Definition pad0 (w : nat) (s : pystr) : pystr := repeat 48%N (w - length s) ++ s.

Definition hexval2 (c : N) : N := if (c <=? 57)%N then (c - 48)%N else (c - 87)%N.
Fixpoint unhex (s : pystr) : bytes :=
  match s with
  | a :: b :: r => (hexval2 a * 16 + hexval2 b)%N :: unhex r
  | _ => []
  end.

(** The bytes that git hashes and stores for an object (gitformat-object):
    type, decimal length, NUL, content. *)
Definition with_header (ty : pystr) (content : bytes) : bytes :=
  ty ++ [32%N] ++ str_of_N (N.of_nat (length content)) ++ [0%N] ++ content.
Definition tree_content (es : list tentry) : bytes :=
  concat (map (fun e => octal_text (te_mode e) ++ [32%N] ++ te_name e ++ [0%N] ++ unhex (te_id e)) es).
Definition obj_bytes (o : gobj) : bytes :=
  match o with
  | Blob c => with_header (ps "blob") c
  | Tree es => with_header (ps "tree") (tree_content es)
  end.

(** ** git mktree *)

(** quote.c [unquote_c_style] behind the opening quote; text behind the closing
    quote is ignored. *)
Definition c_escape (e : N) : option N :=
  (if e =? 97 then Some 7 else if e =? 98 then Some 8 else if e =? 102 then Some 12
   else if e =? 110 then Some 10 else if e =? 114 then Some 13 else if e =? 116 then Some 9
   else if e =? 118 then Some 11 else if (e =? 92) || (e =? 34) then Some e else None)%N.
Fixpoint unquote_c (s : bytes) : option bytes :=
  match s with
  | [] => None
  | c :: r =>
      if (c =? 34)%N then Some []
      else if (c =? 92)%N then
        match r with
        | [] => None
        | e :: r1 =>
            match c_escape e with
            | Some x => ocons x (unquote_c r1)
            | None =>
                if ((48 <=? e) && (e <=? 51))%N then
                  match r1 with
                  | d2 :: d3 :: r3 =>
                      if is_octal d2 && is_octal d3
                      then ocons (octal_value [e; d2; d3]) (unquote_c r3) else None
                  | _ => None
                  end
                else None
            end
        end
      else ocons c (unquote_c r)
  end.

(** the name field: unquoted if it starts with a quote *)
Definition name_field (path : bytes) : option bytes :=
  match path with
  | 34%N :: q => option_map cut_nul (unquote_c q)
  | _ => Some path
  end.

(** builtin/mktree.c [mktree_line] without the check against existing objects
    (that is in [Git.v]).  Simplification: leading blanks and a sign, which
    strtoul accepts, are format errors here. *)
Definition mktree_line (line : bytes) : option tentry :=
  let l := cut_nul line in
  let '(ds, r1) := span is_octal l in
  match ds, r1 with
  | _ :: _, 32%N :: r2 =>
      let '(ty, r3) := span (fun c => negb (c =? 32)%N) r2 in
      match r3 with
      | 32%N :: r4 =>
          let id := take 40 r4 in
          match drop 40 r4 with
          | 9%N :: path =>
              match name_field path with
              | Some nm =>
                  let m := octal_value ds in
                  if (length id =? 40)%nat && forallb is_hex id
                     && bool_decide (type_name (mode_type m) = ty)
                     && forallb (fun c => negb (c =? 47)%N) nm
                  then Some (TE m (map lower_hex id) nm) else None
              | None => None
              end
          | _ => None
          end
      | _ => None
      end
  | _, _ => None
  end.

(** strbuf_getline_lf: lines end at LF; nothing is read behind the last LF. *)
Definition input_lines (b : bytes) : list bytes :=
  let ls := split_char 10%N b in
  match last ls with
  | Some [] => removelast ls
  | _ => ls
  end.

Fixpoint omap_all {A B} (f : A -> option B) (l : list A) : option (list B) :=
  match l with
  | [] => Some []
  | x :: r => match f x with Some y => ocons y (omap_all f r) | None => None end
  end.

(** git's order on tree entries (read-cache.c [base_name_compare]): byte-wise,
    directories as if their name ended in a slash. *)
Definition base_key (e : tentry) : bytes :=
  te_name e ++ [if decide (mode_type (te_mode e) = TTree) then 47%N else 0%N].
Fixpoint bytes_leb (a b : bytes) : bool :=
  match a, b with
  | [], _ => true
  | _ :: _, [] => false
  | x :: a', y :: b' => (x <? y)%N || ((x =? y)%N && bytes_leb a' b')
  end.
Definition entry_leb (a b : tentry) : bool := bytes_leb (base_key a) (base_key b).
Fixpoint insert_entry (e : tentry) (l : list tentry) : list tentry :=
  match l with
  | [] => [e]
  | x :: r => if entry_leb e x then e :: l else x :: insert_entry e r
  end.
(** qsort of the entries (the order of entries with equal keys, which git leaves
    open, is the input order) *)
Definition sort_entries (l : list tentry) : list tentry := foldr insert_entry [] l.

(** builtin/mktree.c: the tree described by the input, None if git dies.  A
    blank line is an error (only allowed with --batch). *)
Definition mktree_input (b : bytes) : option (list tentry) :=
  match omap_all (fun l => match cut_nul l with [] => None | _ => mktree_line l end)
                 (input_lines b) with
  | Some es => Some (sort_entries es)
  | None => None
  end.

(** ** Output of git ls-tree and git cat-file -p on a tree *)

(** quote.c [quote_c_style] with core.quotePath at its default: control
    characters, DEL, quote, backslash and all bytes from 0x80 are quoted. *)
Definition must_quote (c : N) : bool :=
  ((c <? 32) || (c =? 34) || (c =? 92) || (127 <=? c))%N.
Definition quote_char (c : N) : bytes :=
  (if c =? 7 then [92; 97] else if c =? 8 then [92; 98] else if c =? 9 then [92; 116]
   else if c =? 10 then [92; 110] else if c =? 11 then [92; 118] else if c =? 12 then [92; 102]
   else if c =? 13 then [92; 114] else if c =? 34 then [92; 34] else if c =? 92 then [92; 92]
   else if must_quote c then [92; 48 + (c / 64) mod 8; 48 + (c / 8) mod 8; 48 + c mod 8]
   else [c])%N.
#[global] Arguments quote_char : simpl never.
Definition quote_c (s : bytes) : bytes :=
  if existsb must_quote s then [34%N] ++ concat (map quote_char s) ++ [34%N] else s.

(** One output line: "%06o type id TAB name LF".  (Git prints the canonical
    mode; the modelled readers ignore the mode field.) *)
Definition tree_line (e : tentry) : bytes :=
  pad0 6 (octal_text (te_mode e)) ++ [32%N] ++ type_name (canon_type (te_mode e)) ++ [32%N]
  ++ te_id e ++ [9%N] ++ quote_c (te_name e) ++ [10%N].
(** git dies on a tree with an empty file name ("empty filename in tree entry") *)
Definition tree_listing (es : list tentry) : option bytes :=
  if existsb (fun e => bool_decide (te_name e = [])) es then None
  else Some (concat (map tree_line es)).

(** ** Python side *)

(** gitblobcache.py 14-21, the bytes handed to sha1 (for a str argument):
    f"blob {len(blob)}".encode() + b"\x00" + blob, where blob is encoded *)
Definition hash_blob_bytes (blob : pystr) : res bytes :=
  rlet b <- encode blob;
  Ok (ps "blob " ++ str_of_N (N.of_nat (length b)) ++ [0%N] ++ b).

(** gitbackend/subprocess.py 149-158 and 161-169: the text sent to mktree *)
Definition tree_spec_line (e : pystr * pystr * pystr * pystr) : pystr :=
  let '(flag, node_type, object_hash, name) := e in
  flag ++ [32%N] ++ node_type ++ [32%N] ++ object_hash ++ [9%N] ++ name.
Definition tree_spec (entry_set : list (pystr * pystr * pystr * pystr)) : pystr :=
  join [10%N] (map tree_spec_line entry_set) ++ [10%N].

(** gitbackend/subprocess.py 48-50: decode and split the output of a command *)
Definition stdout_lines (out : bytes) : res (list pystr) :=
  rlet s <- decode out; Ok (splitlines s).
(** gitbackend/subprocess.py 67-69 *)
Definition text_result (out : bytes) : res pystr :=
  rlet ls <- stdout_lines out; Ok (join [10%N] ls).

(** gitmapper/utils.py 118-121: tuple unpacking fails with ValueError unless
    there are exactly two and exactly three pieces *)
Definition split_git_lstree_line (line : pystr) : res (pystr * pystr * pystr * pystr) :=
  match split_char 9%N line with
  | [fixed_fields; name] =>
      match split_char 32%N fixed_fields with
      | [flag; node_type; hash_value] => Ok (flag, node_type, hash_value, name)
      | _ => Err ValueError
      end
  | _ => Err ValueError
  end.

(** mtreenodemapper.py 77-88, [escape_double_quotes] *)
Definition replace_char (c : N) (t s : pystr) : pystr :=
  concat (map (fun x => if (x =? c)%N then t else [x]) s).
Definition escape_double_quotes (s : pystr) : pystr :=
  if existsb (fun c => (c =? 34)%N) s
  then [34%N] ++ replace_char 34%N [92%N; 34%N] (replace_char 92%N [92%N; 92%N] s) ++ [34%N]
  else s.

(** [codecs.escape_decode(s)[0]] (CPython _PyBytes_DecodeEscape, errors=strict):
    unknown escapes keep their backslash, octal escapes have one to three digits
    and are truncated to a byte. *)
Definition py_escape (e : N) : option N :=
  (if (e =? 92) || (e =? 39) || (e =? 34) then Some e
   else if e =? 98 then Some 8 else if e =? 102 then Some 12 else if e =? 116 then Some 9
   else if e =? 110 then Some 10 else if e =? 114 then Some 13 else if e =? 118 then Some 11
   else if e =? 97 then Some 7 else None)%N.
Definition rcons {A} (x : A) (l : res (list A)) : res (list A) :=
  match l with Ok l => Ok (x :: l) | Err e => Err e end.
Definition hexv (c : N) : N := hexval2 (lower_hex c).
Fixpoint escape_decode_bytes (s : bytes) : res bytes :=
  match s with
  | [] => Ok []
  | c :: r =>
      if negb (c =? 92)%N then rcons c (escape_decode_bytes r)
      else match r with
           | [] => Err ValueError
           | e :: r1 =>
               if (e =? 10)%N then escape_decode_bytes r1
               else match py_escape e with
               | Some x => rcons x (escape_decode_bytes r1)
               | None =>
                   if is_octal e then
                     match r1 with
                     | d2 :: r2 =>
                         if is_octal d2 then
                           match r2 with
                           | d3 :: r3 =>
                               if is_octal d3
                               then rcons (octal_value [e; d2; d3] mod 256)%N (escape_decode_bytes r3)
                               else rcons (octal_value [e; d2])%N (escape_decode_bytes r2)
                           | [] => Ok [octal_value [e; d2]]
                           end
                         else rcons (e - 48)%N (escape_decode_bytes r1)
                     | [] => Ok [(e - 48)%N]
                     end
                   else if (e =? 120)%N then
                     match r1 with
                     | h1 :: h2 :: r3 =>
                         if is_hex h1 && is_hex h2
                         then rcons (hexv h1 * 16 + hexv h2)%N (escape_decode_bytes r3)
                         else Err ValueError
                     | _ => Err ValueError
                     end
                   else rcons 92%N (rcons e (escape_decode_bytes r1))
               end
           end
  end.

(** mtreenodemapper.py 32-33: undo git's quoting; [codecs.escape_decode] takes
    the UTF-8 form of a str argument *)
Definition unquote_name (name : pystr) : res pystr :=
  if startswith [34%N] name then
    rlet b <- encode (removelast (tail name));
    rlet d <- escape_decode_bytes b;
    decode d
  else Ok name.

(** mtreenodemapper.py 65-73: the fields written for one child *)
Definition dir_entry_fields (is_node : bool) (location name : pystr)
  : pystr * pystr * pystr * pystr :=
  (if is_node then ps "040000" else ps "100644",
   if is_node then ps "tree" else ps "blob",
   location,
   escape_double_quotes name).

(** mtreenodemapper.py 30-33: node type, object id and name read from one line *)
Definition read_tree_line (line : pystr) : res (pystr * pystr * pystr) :=
  rlet x <- split_git_lstree_line line;
  let '(_, node_type, hash_value, name) := x in
  rlet n <- unquote_name name; Ok (node_type, hash_value, n).
