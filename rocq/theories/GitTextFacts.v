(** Lemmas about the git text formats. *)
From Verif Require Import Base BaseFacts Json Spec_Json JsonFacts GitText Spec_Git.
From Coq Require Import Sorting.Sorted.
Ltac Zify.zify_post_hook ::= Z.to_euclidean_division_equations.

Lemma scalar_bound c : scalar c -> (c < 0x110000)%N.
Proof. unfold scalar. lia. Qed.

Lemma nochar_In c s : nochar c s <-> ~ In c s.
Proof.
  unfold nochar. rewrite List.Forall_forall. split; [|intros H x Hx ->; done].
  intros H Hin. by apply (H c).
Qed.

Ltac fall := repeat first [apply List.Forall_cons | apply List.Forall_nil].

(** ** UTF-8 *)
Ltac btrue := repeat match goal with
  | |- context [(?a <? ?b)%N] => replace (a <? b)%N with true by (symmetry; apply N.ltb_lt; lia)
  | |- context [(?a <=? ?b)%N] => replace (a <=? b)%N with true by (symmetry; apply N.leb_le; lia)
  end.

Lemma N_ltb_true a b : (a < b)%N -> (a <? b)%N = true. Proof. apply N.ltb_lt. Qed.
Lemma N_ltb_false a b : (b <= a)%N -> (a <? b)%N = false. Proof. apply N.ltb_ge. Qed.
Lemma N_leb_true a b : (a <= b)%N -> (a <=? b)%N = true. Proof. apply N.leb_le. Qed.
Lemma N_leb_false a b : (b < a)%N -> (a <=? b)%N = false. Proof. apply N.leb_gt. Qed.

Lemma cont_mod n : cont (0x80 + n mod 64) = true.
Proof. unfold cont. rewrite N_leb_true, N_ltb_true; [done|lia|lia]. Qed.

Lemma utf8_decode_char c r : scalar c ->
  utf8_decode (utf8_char c ++ r) = ocons c (utf8_decode r).
Proof.
  intros Hc. pose proof (scalar_bound c Hc) as Hb. unfold utf8_char.
  destruct (N.ltb_spec c 0x80).
  { cbn [app utf8_decode]. by rewrite N_ltb_true. }
  destruct (N.ltb_spec c 0x800).
  { cbn [app utf8_decode]. rewrite N_ltb_false, N_leb_true, N_ltb_true by lia. cbn [andb].
    rewrite cont_mod. replace ((0xC0 + c / 64 - 0xC0) * 64 + (0x80 + c mod 64 - 0x80))%N with c by lia.
    by rewrite N_leb_true. }
  destruct (N.ltb_spec c 0x10000).
  { cbn [app utf8_decode]. rewrite N_ltb_false by lia.
    rewrite (N_leb_true 0xC0) by lia. rewrite (N_ltb_false (0xE0 + c / 4096) 0xE0) by lia. cbn [andb].
    rewrite (N_leb_true 0xE0) by lia. rewrite (N_ltb_true (0xE0 + c / 4096) 0xF0) by lia. cbn [andb].
    rewrite !cont_mod.
    replace ((0xE0 + c / 4096 - 0xE0) * 4096 + (0x80 + (c / 64) mod 64 - 0x80) * 64 + (0x80 + c mod 64 - 0x80))%N with c by lia.
    rewrite N_leb_true by lia. by rewrite (proj2 (scalarb_spec c) Hc). }
  cbn [app utf8_decode]. rewrite N_ltb_false by lia.
  rewrite (N_leb_true 0xC0) by lia. rewrite (N_ltb_false (0xF0 + c / 262144) 0xE0) by lia. cbn [andb].
  rewrite (N_leb_true 0xE0) by lia. rewrite (N_ltb_false (0xF0 + c / 262144) 0xF0) by lia. cbn [andb].
  rewrite (N_leb_true 0xF0) by lia. rewrite (N_ltb_true (0xF0 + c / 262144) 0xF8) by lia. cbn [andb].
  rewrite !cont_mod.
  replace ((0xF0 + c / 262144 - 0xF0) * 262144 + (0x80 + (c / 4096) mod 64 - 0x80) * 4096 + (0x80 + (c / 64) mod 64 - 0x80) * 64 + (0x80 + c mod 64 - 0x80))%N with c by lia.
  rewrite N_leb_true by lia. by rewrite (proj2 (scalarb_spec c) Hc).
Qed.

Lemma utf8_roundtrip s : scalar_str s -> utf8_decode (utf8_bytes s) = Some s.
Proof.
  induction 1 as [|c s Hc Hs IH]; [done|].
  unfold utf8_bytes in *. cbn [map concat]. by rewrite utf8_decode_char, IH.
Qed.

Lemma scalar_forallb s : forallb scalarb s = true <-> scalar_str s.
Proof.
  rewrite forallb_forall. unfold scalar_str. rewrite Forall_forall.
  split; intros H c Hc.
  - apply scalarb_spec, H. by apply elem_of_list_In.
  - apply scalarb_spec, H. by apply elem_of_list_In.
Qed.

Lemma encode_ok s : scalar_str s -> encode s = Ok (utf8_bytes s).
Proof. intros H. unfold encode. by rewrite (proj2 (scalar_forallb s) H). Qed.
Lemma encode_inv s b : encode s = Ok b -> scalar_str s /\ b = utf8_bytes s.
Proof.
  unfold encode. destruct (forallb scalarb s) eqn:E; [|done]. intros [= <-].
  split; [by apply scalar_forallb|done].
Qed.
Lemma decode_utf8 s : scalar_str s -> decode (utf8_bytes s) = Ok s.
Proof. intros H. unfold decode. by rewrite utf8_roundtrip. Qed.

Lemma utf8_bytes_app a b : utf8_bytes (a ++ b) = utf8_bytes a ++ utf8_bytes b.
Proof. unfold utf8_bytes. by rewrite map_app, concat_app. Qed.

Definition ascii (c : N) : Prop := (c < 128)%N.
Lemma utf8_char_ascii c : ascii c -> utf8_char c = [c].
Proof. unfold ascii, utf8_char. intros. by rewrite N_ltb_true. Qed.
Lemma utf8_ascii s : Forall ascii s -> utf8_bytes s = s.
Proof.
  induction 1 as [|c s Hc Hs IH]; [done|].
  unfold utf8_bytes in *. cbn [map concat]. by rewrite utf8_char_ascii, IH.
Qed.
Lemma ascii_scalar s : Forall ascii s -> scalar_str s.
Proof. intros H. eapply Forall_impl; [exact H|]. unfold ascii, scalar. intros x. lia. Qed.
Lemma encode_ascii s : Forall ascii s -> encode s = Ok s.
Proof. intros H. rewrite encode_ok by by apply ascii_scalar. by rewrite utf8_ascii. Qed.
Lemma decode_ascii s : Forall ascii s -> decode s = Ok s.
Proof. intros H. rewrite <- (utf8_ascii s H) at 1. apply decode_utf8. by apply ascii_scalar. Qed.

(** bytes of a character: ASCII characters stand for themselves, all others give
    bytes from 128 to 255 only *)
Lemma utf8_char_cases c : scalar c ->
  (ascii c /\ utf8_char c = [c]) \/ Forall (fun b => 128 <= b /\ b < 256)%N (utf8_char c).
Proof.
  intros Hc. pose proof (scalar_bound c Hc). unfold utf8_char, ascii.
  destruct (N.ltb_spec c 0x80); [by left|right].
  destruct (N.ltb_spec c 0x800). { repeat constructor; lia. }
  destruct (N.ltb_spec c 0x10000); repeat constructor; lia.
Qed.
Lemma utf8_bytes_In b s : scalar_str s -> (b < 128)%N -> In b (utf8_bytes s) <-> In b s.
Proof.
  intros Hs Hb. induction Hs as [|c s Hc Hs IH]; [done|].
  unfold utf8_bytes in *. cbn [map concat]. rewrite in_app_iff, IH. cbn [In].
  destruct (utf8_char_cases c Hc) as [[Ha E]|Hh].
  - rewrite E. cbn. intuition.
  - split; [|intros [->|?]; [|by right]].
    + intros [Hin|?]; [|by right]. rewrite List.Forall_forall in Hh. apply Hh in Hin. lia.
    + exfalso. rewrite utf8_char_ascii in Hh by done. inversion Hh; lia.
Qed.
Lemma utf8_bytes_In1 b s : scalar_str s -> (b < 128)%N -> In b (utf8_bytes s) -> In b s.
Proof. intros Hs Hb. by apply utf8_bytes_In. Qed.
Lemma utf8_bytes_lt s : scalar_str s -> Forall (fun b => (b < 256)%N) (utf8_bytes s).
Proof.
  induction 1 as [|c s Hc Hs IH]; [constructor|].
  unfold utf8_bytes in *. cbn [map concat]. apply Forall_app. split; [|done].
  destruct (utf8_char_cases c Hc) as [[Ha E]|Hh].
  - rewrite E. constructor; [unfold ascii in *; lia|constructor].
  - eapply Forall_impl; [exact Hh|]. simpl. lia.
Qed.
Lemma utf8_bytes_ascii_inv s : scalar_str s -> Forall ascii (utf8_bytes s) -> utf8_bytes s = s.
Proof.
  intros Hs Ha. apply utf8_ascii. induction Hs as [|c s Hc Hs IH]; [constructor|].
  unfold utf8_bytes in *. cbn [map concat] in Ha. apply Forall_app in Ha as [H1 H2].
  constructor; [|by apply IH].
  destruct (utf8_char_cases c Hc) as [[Ha E]|Hh]; [done|].
  exfalso. destruct (utf8_char c) as [|b bs] eqn:E.
  - unfold utf8_char in E. repeat case_match; done.
  - inversion H1; inversion Hh; subst. unfold ascii in *. lia.
Qed.
Lemma utf8_bytes_nil s : utf8_bytes s = [] -> s = [].
Proof.
  destruct s as [|c s]; [done|]. unfold utf8_bytes, utf8_char. cbn [map concat].
  repeat case_match; done.
Qed.
Lemma utf8_bytes_inj a b : scalar_str a -> scalar_str b -> utf8_bytes a = utf8_bytes b -> a = b.
Proof. intros Ha Hb E. apply utf8_roundtrip in Ha, Hb. rewrite E in Ha. congruence. Qed.

(** ** span, cut_nul, input_lines *)
Lemma span_app p a r : Forall (fun c => p c = true) a ->
  match r with [] => True | x :: _ => p x = false end -> span p (a ++ r) = (a, r).
Proof.
  induction 1 as [|x a Hx Ha IH]; intros Hr; cbn.
  - destruct r as [|y r]; [done|]. cbn. by rewrite Hr.
  - by rewrite Hx, IH.
Qed.
Lemma cut_nul_id b : ~ In 0%N b -> cut_nul b = b.
Proof.
  intros H. unfold cut_nul. rewrite <- (app_nil_r b) at 1. rewrite span_app; [done| |done].
  apply List.Forall_forall. intros x Hx. apply negb_true_iff, N.eqb_neq. intros ->. done.
Qed.

Lemma input_lines_join ls : ls <> [] -> Forall (fun l => ~ In 10%N l) ls ->
  input_lines (join [10%N] ls ++ [10%N]) = ls.
Proof.
  intros Hne Hl. unfold input_lines.
  assert (E : join [10%N] ls ++ [10%N] = join [10%N] (ls ++ [[]])).
  { clear Hl. induction ls as [|x [|y ls] IH]; [done| |]. { cbn. done. }
    change ((x :: y :: ls) ++ [[]]) with (x :: ((y :: ls) ++ [[]])).
    assert (H : join [10%N] (x :: ((y :: ls) ++ [[]])) = x ++ [10%N] ++ join [10%N] ((y :: ls) ++ [[]])) by done.
    rewrite H, <- IH by done. cbn [join]. by rewrite <- !app_assoc. }
  rewrite E. rewrite split_join.
  - rewrite last_snoc. apply removelast_last.
  - by destruct ls.
  - apply Forall_app. split; [|repeat constructor; intros []].
    eapply Forall_impl; [exact Hl|]. intros l H. by apply nochar_In.
Qed.

(** ** mktree input *)
Lemma unquote_plain a r : Forall (fun c => c <> 34 /\ c <> 92)%N a ->
  unquote_c (a ++ r) = option_map (app a) (unquote_c r).
Proof.
  induction 1 as [|x a [H1 H2] Ha IH]; cbn [app unquote_c].
  - by destruct (unquote_c r).
  - rewrite (proj2 (N.eqb_neq _ _) H1), (proj2 (N.eqb_neq _ _) H2), IH. by destruct (unquote_c r).
Qed.

Definition esc_body (s : pystr) : pystr :=
  replace_char 34%N [92%N; 34%N] (replace_char 92%N [92%N; 92%N] s).
Lemma replace_app c t a b : replace_char c t (a ++ b) = replace_char c t a ++ replace_char c t b.
Proof. unfold replace_char. by rewrite map_app, concat_app. Qed.
Lemma esc_body_cons c s :
  esc_body (c :: s) = (if (c =? 34)%N then [92%N; 34%N] else if (c =? 92)%N then [92%N; 92%N] else [c]) ++ esc_body s.
Proof.
  unfold esc_body. change (c :: s) with ([c] ++ s). rewrite !replace_app. f_equal.
  unfold replace_char. cbn [map concat]. destruct (N.eqb_spec c 92) as [->|H1]; cbn [app map concat].
  - done.
  - destruct (N.eqb_spec c 34); [done|]. done.
Qed.
Lemma esc_body_scalar s : scalar_str s -> scalar_str (esc_body s).
Proof.
  induction 1 as [|c s Hc Hs IH]; [constructor|]. rewrite esc_body_cons.
  apply Forall_app. split; [|done].
  repeat case_match; fall; try done; unfold scalar; lia.
Qed.
Lemma esc_body_In b s : b <> 92%N -> In b (esc_body s) -> In b s.
Proof.
  intros Hb. induction s as [|c s IH]; [done|]. rewrite esc_body_cons, in_app_iff.
  intros [H|H]; [|right; auto]. revert H. destruct (N.eqb_spec c 34) as [->|]; cbn.
  - intros [H|[H|[]]]; [by subst|left; congruence].
  - destruct (N.eqb_spec c 92) as [->|]; cbn; intros H.
    + destruct H as [H|[H|[]]]; congruence.
    + destruct H as [H|[]]. by left.
Qed.

Lemma unquote_esc s : scalar_str s ->
  unquote_c (utf8_bytes (esc_body s) ++ [34%N]) = Some (utf8_bytes s).
Proof.
  induction 1 as [|c s Hc Hs IH]; [done|].
  rewrite esc_body_cons, utf8_bytes_app. change (utf8_bytes (c :: s)) with (utf8_char c ++ utf8_bytes s).
  destruct (N.eqb_spec c 34) as [->|H1].
  { change (utf8_bytes [92; 34]%N) with [92; 34]%N. change (utf8_char 34) with [34%N].
    cbn [app]. change (unquote_c (92 :: 34 :: ?x)%N) with (ocons 34%N (unquote_c x)). by rewrite IH. }
  destruct (N.eqb_spec c 92) as [->|H2].
  { change (utf8_bytes [92; 92]%N) with [92; 92]%N. change (utf8_char 92) with [92%N].
    cbn [app]. change (unquote_c (92 :: 92 :: ?x)%N) with (ocons 92%N (unquote_c x)). by rewrite IH. }
  replace (utf8_bytes [c]) with (utf8_char c) by (unfold utf8_bytes; cbn; by rewrite app_nil_r).
  rewrite <- app_assoc, unquote_plain.
  - by rewrite IH.
  - destruct (utf8_char_cases c Hc) as [[Ha ->]|Hh]; [by repeat constructor|].
    eapply Forall_impl; [exact Hh|]. simpl. lia.
Qed.

Definition dmode (d : bool) : N := if d then 16384%N else 33188%N.
Definition dflag (d : bool) : pystr := if d then ps "040000" else ps "100644".
Definition dtype (d : bool) : pystr := if d then ps "tree" else ps "blob".
Definition denc (d : dentry) : tentry := TE (dmode (de_dir d)) (de_id d) (utf8_bytes (de_name d)).

(** the four fields the mapper sends for an entry *)
Definition spec_fields (d : dentry) : pystr * pystr * pystr * pystr :=
  dir_entry_fields (de_dir d) (de_id d) (de_name d).

Lemma lhex_ascii h : Forall lower_hex_digit h -> Forall ascii h.
Proof. intros H. eapply Forall_impl; [exact H|]. unfold lower_hex_digit, ascii. intros x. lia. Qed.
Lemma escape_scalar s : scalar_str s -> scalar_str (escape_double_quotes s).
Proof.
  intros H. unfold escape_double_quotes. destruct existsb; [|done].
  apply Forall_app. split; [fall; unfold scalar; lia|].
  apply Forall_app. split; [by apply esc_body_scalar|fall; unfold scalar; lia].
Qed.
Lemma escape_In b s : b <> 92%N -> b <> 34%N -> In b (escape_double_quotes s) -> In b s.
Proof.
  intros H1 H2. unfold escape_double_quotes. destruct existsb; [|done].
  rewrite !in_app_iff. intros [[?|[]]|[?|[?|[]]]]; [congruence| |congruence].
  eapply esc_body_In; [exact H1|]. done.
Qed.
Lemma spec_line_scalar d : dentry_ok d -> scalar_str (tree_spec_line (spec_fields d)).
Proof.
  intros [[Hl Hh] (_ & Hs & _)]. unfold tree_spec_line, spec_fields, dir_entry_fields.
  repeat (apply Forall_app; split).
  all: try (by apply escape_scalar).
  all: try (apply ascii_scalar).
  all: try (by apply lhex_ascii).
  all: unfold dflag, dtype; try destruct (de_dir d); repeat constructor.
Qed.

Definition enc_name (d : dentry) : bytes := utf8_bytes (escape_double_quotes (de_name d)).
Lemma spec_line_bytes d : dentry_ok d ->
  utf8_bytes (tree_spec_line (spec_fields d)) =
  dflag (de_dir d) ++ [32%N] ++ dtype (de_dir d) ++ [32%N] ++ de_id d ++ [9%N] ++ enc_name d.
Proof.
  intros [[Hl Hh] (_ & Hs & _)]. unfold tree_spec_line, spec_fields, dir_entry_fields, enc_name.
  rewrite !utf8_bytes_app. rewrite (utf8_ascii (de_id d)) by by apply lhex_ascii.
  by destruct (de_dir d).
Qed.

Lemma enc_name_In b d : dentry_ok d -> (b < 128)%N -> b <> 92%N -> b <> 34%N -> In b (enc_name d) -> In b (de_name d).
Proof.
  intros [_ (_ & Hs & _)] H1 H2 H3 H. unfold enc_name in H. apply utf8_bytes_In1 in H; [|by apply escape_scalar|done].
  by apply escape_In in H.
Qed.
Lemma lhex_no b h : Forall lower_hex_digit h -> ~ lower_hex_digit b -> ~ In b h.
Proof. intros H Hb Hin. rewrite List.Forall_forall in H. by apply H in Hin. Qed.
Ltac inlit := match goal with H : In _ _ |- _ => repeat (destruct H as [H|H]; [discriminate H|]); destruct H end.

Lemma spec_line_no d b : dentry_ok d -> b = 0%N \/ b = 10%N -> ~ In b (utf8_bytes (tree_spec_line (spec_fields d))).
Proof.
  intros Hd Hb. rewrite spec_line_bytes by done.
  assert (Hlt : (b < 10 \/ b = 10)%N) by (destruct Hb; subst; [left; done|by right]).
  apply nochar_In. unfold nochar. repeat (apply Forall_app; split).
  - destruct (de_dir d); fall; destruct Hb; subst; done.
  - fall; destruct Hb; subst; done.
  - destruct (de_dir d); fall; destruct Hb; subst; done.
  - fall; destruct Hb; subst; done.
  - apply nochar_In. eapply lhex_no; [apply Hd|]. unfold lower_hex_digit. lia.
  - fall; destruct Hb; subst; done.
  - apply nochar_In. intros H. apply enc_name_In in H; [|done|lia|lia|lia].
    destruct Hd as [_ (_ & _ & _ & H0 & H10)]. destruct Hb; by subst.
Qed.

Lemma is_hex_lower h : Forall lower_hex_digit h -> forallb is_hex h = true /\ map lower_hex h = h.
Proof.
  induction 1 as [|c h Hc Hh [IH1 IH2]]; [done|]. cbn [map forallb].
  assert (is_hex c = true /\ lower_hex c = c) as [-> ->].
  { unfold is_hex, lower_hex, lower_hex_digit in *.
    destruct (N.leb_spec 48 c), (N.leb_spec c 57), (N.leb_spec 97 c), (N.leb_spec c 102), (N.leb_spec 65 c), (N.leb_spec c 70); cbn; split; try done; lia. }
  split; [done|congruence].
Qed.

Lemma no_slash_forallb b : ~ In 47%N b -> forallb (fun c => negb (c =? 47)%N) b = true.
Proof.
  intros H. apply forallb_forall. intros x Hx. apply negb_true_iff, N.eqb_neq. by intros ->.
Qed.

Lemma mktree_line_spec d : dentry_ok d ->
  mktree_line (utf8_bytes (tree_spec_line (spec_fields d))) = Some (denc d).
Proof.
  intros Hd. pose proof (spec_line_no d 0%N Hd (or_introl eq_refl)) as Hnul.
  unfold mktree_line. rewrite (cut_nul_id _ Hnul). rewrite spec_line_bytes by done. clear Hnul.
  destruct Hd as [[Hlen Hhex] (Hne & Hs & Hsl & Hnul & Hlf)].
  rewrite (span_app is_octal (dflag (de_dir d))); [| |done].
  2: by destruct (de_dir d); repeat constructor.
  destruct (dflag (de_dir d)) as [|x0 xs] eqn:Ef; [by destruct (de_dir d)|].
  cbn [app].
  rewrite (span_app (fun c => negb (c =? 32)%N) (dtype (de_dir d))); [| |done].
  2: by destruct (de_dir d); repeat constructor.
  rewrite <- Ef. clear Ef x0 xs. cbv zeta.
  rewrite (take_app_alt (de_id d)), (drop_app_alt (de_id d)) by (symmetry; exact Hlen).
  destruct (is_hex_lower _ Hhex) as [Hx Hm].
  rewrite Hlen, Hx, Hm. cbn [Nat.eqb andb].
  assert (Hty : bool_decide (type_name (mode_type (octal_value (dflag (de_dir d)))) = dtype (de_dir d)) = true)
    by (by destruct (de_dir d)).
  assert (Hmode : octal_value (dflag (de_dir d)) = dmode (de_dir d)) by (by destruct (de_dir d)).
  assert (Hnm : name_field (enc_name d) = Some (utf8_bytes (de_name d))).
  { unfold enc_name, escape_double_quotes, name_field. destruct (existsb _ (de_name d)) eqn:Eq.
    - rewrite !utf8_bytes_app. change (utf8_bytes [34%N]) with [34%N]. cbn [app].
      change (replace_char 34%N [92%N; 34%N] (replace_char 92%N [92%N; 92%N] (de_name d))) with (esc_body (de_name d)).
      rewrite unquote_esc by done. cbn [option_map]. f_equal. apply cut_nul_id.
      intros H. apply utf8_bytes_In1 in H; [|done|done]. done.
    - destruct (utf8_bytes (de_name d)) as [|y ys] eqn:Eb; [done|].
      assert (y <> 34%N).
      { intros ->. assert (Hin : In 34%N (utf8_bytes (de_name d))) by (rewrite Eb; by left).
        apply utf8_bytes_In1 in Hin; [|done|done].
        rewrite <- not_true_iff_false in Eq. apply Eq. apply existsb_exists. exists 34%N. done. }
      clear -H. destruct y as [|p]; [done|]. do 6 (destruct p as [p|p|]; try done). }
  rewrite Hnm. rewrite Hty, Hmode, no_slash_forallb; [done|].
  intros H. apply utf8_bytes_In1 in H; [|done|done]. done.
Qed.

Lemma omap_all_map {A B C} (f : B -> option C) (g : A -> B) (h : A -> C) l :
  Forall (fun x => f (g x) = Some (h x)) l -> omap_all f (map g l) = Some (map h l).
Proof. induction 1 as [|x l Hx Hl IH]; [done|]. cbn. by rewrite Hx, IH. Qed.

Lemma join_utf8 (l : list pystr) : utf8_bytes (join [10%N] l) = join [10%N] (map utf8_bytes l).
Proof.
  induction l as [|x [|y l] IH]; [done|done|].
  change (map utf8_bytes (x :: y :: l)) with (utf8_bytes x :: map utf8_bytes (y :: l)).
  change (join [10%N] (x :: y :: l)) with (x ++ [10%N] ++ join [10%N] (y :: l)).
  rewrite !utf8_bytes_app, IH. done.
Qed.
Lemma join_scalar (l : list pystr) : Forall scalar_str l -> scalar_str (join [10%N] l).
Proof.
  induction 1 as [|x [|y l] Hx Hl IH]; [constructor|done|].
  change (join [10%N] (x :: y :: l)) with (x ++ [10%N] ++ join [10%N] (y :: l)).
  apply Forall_app. split; [done|]. apply Forall_app. split; [fall; unfold scalar; lia|done].
Qed.

Lemma mktree_of_spec l : l <> [] -> Forall dentry_ok l ->
  exists input, encode (tree_spec (map spec_fields l)) = Ok input
    /\ mktree_input input = Some (sort_entries (map denc l)).
Proof.
  intros Hne Hl.
  set (ls := map (fun d => tree_spec_line (spec_fields d)) l).
  assert (Hsc : Forall scalar_str ls).
  { unfold ls. apply Forall_map. eapply Forall_impl; [exact Hl|]. apply spec_line_scalar. }
  exists (join [10%N] (map utf8_bytes ls) ++ [10%N]).
  unfold tree_spec. rewrite map_map. change (map (fun x => tree_spec_line (spec_fields x)) l) with ls.
  split.
  - rewrite encode_ok.
    + rewrite utf8_bytes_app, join_utf8. done.
    + apply Forall_app. split; [by apply join_scalar|fall; unfold scalar; lia].
  - unfold mktree_input. rewrite input_lines_join.
    + unfold ls. rewrite !map_map.
      rewrite (omap_all_map _ _ denc).
      * done.
      * eapply Forall_impl; [exact Hl|]. intros d Hd. cbv beta.
        rewrite cut_nul_id by (apply spec_line_no; auto).
        rewrite mktree_line_spec by done.
        destruct (utf8_bytes (tree_spec_line (spec_fields d))) eqn:E; [|done].
        rewrite spec_line_bytes in E by done. by destruct (de_dir d).
    + unfold ls. destruct l; done.
    + unfold ls. apply Forall_map, Forall_map. eapply Forall_impl; [exact Hl|].
      intros d Hd. cbv beta. apply spec_line_no; auto.
Qed.

(** ** sorting *)
Lemma insert_perm e l : insert_entry e l ≡ₚ e :: l.
Proof.
  induction l as [|x r IH]; cbn; [done|]. destruct entry_leb; [done|].
  rewrite IH. apply Permutation_swap.
Qed.
Lemma sort_perm l : sort_entries l ≡ₚ l.
Proof. induction l as [|x r IH]; cbn; [done|]. by rewrite insert_perm, IH. Qed.

Lemma bytes_leb_refl a : bytes_leb a a = true.
Proof. induction a as [|x a IH]; cbn; [done|]. rewrite N.eqb_refl, IH. apply orb_true_r. Qed.
Lemma bytes_leb_total a b : bytes_leb a b = true \/ bytes_leb b a = true.
Proof.
  revert b; induction a as [|x a IH]; intros [|y b]; cbn; auto.
  destruct (N.ltb_spec x y), (N.ltb_spec y x), (N.eqb_spec x y), (N.eqb_spec y x); cbn; auto; try lia.
Qed.
Lemma bytes_leb_trans a b c : bytes_leb a b = true -> bytes_leb b c = true -> bytes_leb a c = true.
Proof.
  revert b c; induction a as [|x a IH]; intros [|y b] [|z c]; cbn; try done.
  rewrite !orb_true_iff, !andb_true_iff, !N.ltb_lt, !N.eqb_eq. intros [H1|[H1 H1']] [H2|[H2 H2']].
  - left; lia. - left; lia. - left; lia. - right. split; [lia|]. eauto.
Qed.
Lemma bytes_leb_antisym a b : bytes_leb a b = true -> bytes_leb b a = true -> a = b.
Proof.
  revert b; induction a as [|x a IH]; intros [|y b]; cbn; try done.
  rewrite !orb_true_iff, !andb_true_iff, !N.ltb_lt, !N.eqb_eq. intros [H1|[H1 H1']] [H2|[H2 H2']]; try lia.
  subst. f_equal. auto.
Qed.

Definition entry_le (a b : tentry) : Prop := entry_leb a b = true.
Lemma insert_sorted e l : StronglySorted entry_le l -> StronglySorted entry_le (insert_entry e l).
Proof.
  induction 1 as [|x r Hr IH Hx]; cbn; [by repeat constructor|].
  destruct (entry_leb e x) eqn:E.
  - constructor; [by constructor|]. constructor; [done|].
    eapply List.Forall_impl; [|exact Hx]. intros y Hy. eapply bytes_leb_trans; [exact E|exact Hy].
  - constructor; [done|]. rewrite insert_perm. constructor; [|done].
    destruct (bytes_leb_total (base_key e) (base_key x)) as [H|H]; [|done].
    unfold entry_leb in E. congruence.
Qed.
Lemma sort_sorted l : StronglySorted entry_le (sort_entries l).
Proof. induction l as [|x r IH]; cbn; [constructor|]. by apply insert_sorted. Qed.

(** ** listing *)
Lemma quote_char_ascii c : (c < 256)%N -> Forall (fun x => 32 <= x /\ x < 127)%N (quote_char c).
Proof.
  intros H. unfold quote_char.
  repeat case_match; try (by repeat constructor).
  - repeat constructor; lia.
  - unfold must_quote in *. repeat constructor; destruct (N.ltb_spec c 32), (N.leb_spec 127 c); cbn in *; try lia; try done.
    all: rewrite ?orb_true_r in *; done.
Qed.
Lemma quote_c_printable b : Forall (fun c => (c < 256)%N) b -> Forall (fun x => 32 <= x /\ x < 127)%N (quote_c b).
Proof.
  intros Hb. unfold quote_c. destruct (existsb must_quote b) eqn:E.
  - apply Forall_app. split; [by repeat constructor|]. apply Forall_app. split; [|by repeat constructor].
    clear E. induction Hb as [|c b Hc Hb IH]; cbn [map concat]; [constructor|].
    apply Forall_app. split; [by apply quote_char_ascii|done].
  - apply List.Forall_forall. intros x Hx.
    assert (must_quote x = false).
    { destruct (must_quote x) eqn:F; [|done]. rewrite <- not_true_iff_false in E.
      exfalso. apply E. apply existsb_exists. eauto. }
    unfold must_quote in *. destruct (N.ltb_spec x 32), (N.leb_spec 127 x); cbn in *; try lia; try done.
    all: rewrite ?orb_true_r in *; done.
Qed.

Lemma octal3 c : (c < 256)%N ->
  is_octal (48 + (c / 64) mod 8) = true /\ is_octal (48 + (c / 8) mod 8) = true /\ is_octal (48 + c mod 8) = true
  /\ (octal_value [48 + (c / 64) mod 8; 48 + (c / 8) mod 8; 48 + c mod 8] mod 256 = c)%N.
Proof.
  intros H. unfold is_octal, octal_value. cbn [fold_left].
  rewrite !N_leb_true by lia. repeat split. lia.
Qed.

Lemma escape_decode_quote c r : (c < 256)%N ->
  escape_decode_bytes (quote_char c ++ r) = rcons c (escape_decode_bytes r).
Proof.
  intros H. unfold quote_char.
  destruct (N.eqb_spec c 7) as [->|]; [reflexivity|].
  destruct (N.eqb_spec c 8) as [->|]; [reflexivity|].
  destruct (N.eqb_spec c 9) as [->|]; [reflexivity|].
  destruct (N.eqb_spec c 10) as [->|]; [reflexivity|].
  destruct (N.eqb_spec c 11) as [->|]; [reflexivity|].
  destruct (N.eqb_spec c 12) as [->|]; [reflexivity|].
  destruct (N.eqb_spec c 13) as [->|]; [reflexivity|].
  destruct (N.eqb_spec c 34) as [->|]; [reflexivity|].
  destruct (N.eqb_spec c 92) as [->|]; [reflexivity|].
  destruct (must_quote c).
  - destruct (octal3 c H) as (H1 & H2 & H3 & H4).
    set (a := (48 + (c / 64) mod 8)%N) in *. set (b := (48 + (c / 8) mod 8)%N) in *.
    set (d := (48 + c mod 8)%N) in *.
    assert (Ha : (48 <= a < 56)%N) by (unfold a; lia). clearbody a b d.
    cbn [app escape_decode_bytes]. change (negb (92 =? 92)%N) with false. cbn iota.
    rewrite (proj2 (N.eqb_neq a 10)) by lia.
    assert (py_escape a = None) as ->.
    { unfold py_escape. rewrite !(proj2 (N.eqb_neq a _)) by lia. done. }
    rewrite H1, H2, H3, H4. done.
  - cbn [app escape_decode_bytes]. rewrite (proj2 (N.eqb_neq c 92)) by done. done.
Qed.
Lemma escape_decode_quotes b : Forall (fun c => (c < 256)%N) b ->
  escape_decode_bytes (concat (map quote_char b)) = Ok b.
Proof.
  induction 1 as [|c b Hc Hb IH]; [done|]. cbn [map concat]. by rewrite escape_decode_quote, IH.
Qed.

Lemma printable_ascii s : Forall (fun x => 32 <= x /\ x < 127)%N s -> Forall ascii s.
Proof. intros H. eapply Forall_impl; [exact H|]. unfold ascii. intros x. lia. Qed.

Lemma unquote_name_quote s : scalar_str s -> unquote_name (quote_c (utf8_bytes s)) = Ok s.
Proof.
  intros Hs. pose proof (utf8_bytes_lt s Hs) as Hlt. unfold quote_c.
  destruct (existsb must_quote (utf8_bytes s)) eqn:E.
  - unfold unquote_name. cbn [app startswith]. rewrite N.eqb_refl. cbn [andb tail].
    rewrite removelast_last.
    assert (Hp : Forall (fun x => 32 <= x /\ x < 127)%N (concat (map quote_char (utf8_bytes s)))).
    { clear E. induction Hlt; cbn [map concat]; [constructor|]. apply Forall_app. split; [by apply quote_char_ascii|done]. }
    rewrite encode_ascii by by apply printable_ascii. cbn [rbind].
    rewrite escape_decode_quotes by done. cbn [rbind]. by apply decode_utf8.
  - assert (Ha : Forall ascii (utf8_bytes s)).
    { apply List.Forall_forall. intros x Hx. destruct (must_quote x) eqn:F.
      - rewrite <- not_true_iff_false in E. exfalso. apply E, existsb_exists. eauto.
      - unfold must_quote, ascii in *. destruct (N.leb_spec 127 x); [|lia]. rewrite orb_true_r in F. done. }
    rewrite (utf8_bytes_ascii_inv s Hs Ha) in *. unfold unquote_name.
    destruct (startswith [34%N] s) eqn:F; [|done].
    apply startswith_spec in F as [r ->]. cbn in E. done.
Qed.

Lemma must_quote_34 : must_quote 34 = true. Proof. done. Qed.

(** text fields of one listing line *)
Lemma tree_line_denc d : dentry_ok d ->
  tree_line (denc d) = (dflag (de_dir d) ++ [32%N] ++ dtype (de_dir d) ++ [32%N] ++ de_id d ++ [9%N] ++ quote_c (utf8_bytes (de_name d))) ++ [10%N].
Proof.
  intros Hd. unfold tree_line, denc. cbn [te_mode te_id te_name].
  replace (pad0 6 (octal_text (dmode (de_dir d)))) with (dflag (de_dir d)) by (by destruct (de_dir d)).
  replace (type_name (canon_type (dmode (de_dir d)))) with (dtype (de_dir d)) by (by destruct (de_dir d)).
  by rewrite <- !app_assoc.
Qed.

Definition line_text (d : dentry) : pystr :=
  dflag (de_dir d) ++ [32%N] ++ dtype (de_dir d) ++ [32%N] ++ de_id d ++ [9%N] ++ quote_c (utf8_bytes (de_name d)).
Lemma line_text_chars d : dentry_ok d -> Forall (fun x => x = 9 \/ (32 <= x /\ x < 127))%N (line_text d).
Proof.
  intros [[Hl Hh] (_ & Hs & _)]. unfold line_text.
  apply Forall_app; split; [by destruct (de_dir d); fall; right|].
  apply Forall_app; split; [by fall; right|].
  apply Forall_app; split; [by destruct (de_dir d); fall; right|].
  apply Forall_app; split; [by fall; right|].
  apply Forall_app; split; [|apply Forall_app; split; [by fall; left|]].
  - eapply Forall_impl; [exact Hh|]. unfold lower_hex_digit. lia.
  - eapply Forall_impl; [apply quote_c_printable, utf8_bytes_lt, Hs|]. simpl. lia.
Qed.

Lemma splitlines_line s r : Forall (fun c => is_linesep c = false) s ->
  splitlines (s ++ 10%N :: r) = s :: splitlines r.
Proof.
  induction 1 as [|c s Hc Hs IH]; [done|]. cbn [app splitlines]. by rewrite Hc, IH.
Qed.
Lemma splitlines_concat (ls : list pystr) : Forall (Forall (fun c => is_linesep c = false)) ls ->
  splitlines (concat (map (fun s => s ++ [10%N]) ls)) = ls.
Proof.
  induction 1 as [|s ls Hs Hls IH]; [done|]. cbn [map concat].
  rewrite <- app_assoc. cbn [app]. by rewrite splitlines_line, IH.
Qed.
Lemma not_linesep x : (x = 9 \/ (32 <= x /\ x < 127))%N -> is_linesep x = false.
Proof.
  intros H. unfold is_linesep. rewrite !(proj2 (N.eqb_neq x _)) by lia. done.
Qed.

Lemma stdout_lines_listing l : Forall dentry_ok l ->
  tree_listing (map denc l) = Some (concat (map tree_line (map denc l)))
  /\ stdout_lines (concat (map tree_line (map denc l))) = Ok (map line_text l).
Proof.
  intros Hl. split.
  - unfold tree_listing. destruct existsb eqn:E; [|done].
    apply existsb_exists in E as (e & He & Hn). apply bool_decide_eq_true in Hn.
    apply in_map_iff in He as (d & <- & Hd). cbn in Hn. apply utf8_bytes_nil in Hn.
    rewrite List.Forall_forall in Hl. destruct (Hl d Hd) as [_ [? _]]. done.
  - assert (E : concat (map tree_line (map denc l)) = concat (map (fun s => s ++ [10%N]) (map line_text l))).
    { rewrite !map_map. f_equal. apply map_ext_in. intros d Hd. apply tree_line_denc.
      rewrite List.Forall_forall in Hl. auto. }
    rewrite E. unfold stdout_lines. rewrite decode_ascii.
    + cbn [rbind]. f_equal. apply splitlines_concat. apply Forall_map.
      eapply Forall_impl; [exact Hl|]. intros d Hd. eapply Forall_impl; [by apply line_text_chars|].
      intros x. apply not_linesep.
    + clear E. induction Hl as [|d l Hd Hl IH]; cbn [map concat]; [constructor|].
      apply Forall_app. split; [|done]. apply Forall_app. split; [|repeat constructor].
      eapply Forall_impl; [by apply line_text_chars|]. unfold ascii. simpl. lia.
Qed.

Lemma split_lstree_line_text d : dentry_ok d ->
  split_git_lstree_line (line_text d) = Ok (dflag (de_dir d), dtype (de_dir d), de_id d, quote_c (utf8_bytes (de_name d))).
Proof.
  intros [[Hl Hh] (_ & Hs & _)]. unfold split_git_lstree_line.
  set (q := quote_c (utf8_bytes (de_name d))).
  assert (Hq : nochar 9%N q).
  { apply nochar_In. intros H. pose proof (quote_c_printable _ (utf8_bytes_lt _ Hs)) as Hp.
    rewrite List.Forall_forall in Hp. apply Hp in H. lia. }
  assert (Hid : forall b, (b < 48)%N -> nochar b (de_id d)).
  { intros b Hb. apply nochar_In. intros H. rewrite List.Forall_forall in Hh. apply Hh in H. unfold lower_hex_digit in H. lia. }
  assert (E : line_text d = join [9%N] [dflag (de_dir d) ++ [32%N] ++ dtype (de_dir d) ++ [32%N] ++ de_id d; q]).
  { unfold line_text. cbn [join]. by rewrite <- !app_assoc. }
  rewrite E, split_join; [|done|].
  2: { apply List.Forall_cons; [|apply List.Forall_cons; [done|apply List.Forall_nil]]. apply nochar_In. rewrite !in_app_iff. intros H.
       assert (N9 : nochar 9%N (de_id d)) by (apply Hid; lia). rewrite nochar_In in N9.
       destruct (de_dir d); cbn in H; decompose [or] H; try discriminate; try done. }
  assert (E2 : dflag (de_dir d) ++ [32%N] ++ dtype (de_dir d) ++ [32%N] ++ de_id d
               = join [32%N] [dflag (de_dir d); dtype (de_dir d); de_id d]) by done.
  rewrite E2, split_join; [done|done|].
  apply List.Forall_cons; [|apply List.Forall_cons; [|apply List.Forall_cons; [apply Hid; lia|apply List.Forall_nil]]];
  apply nochar_In; destruct (de_dir d); cbn; intros H; decompose [or] H; done.
Qed.

Definition fields_of (d : dentry) : pystr * pystr * pystr := (dtype (de_dir d), de_id d, de_name d).
Lemma read_tree_line_text d : dentry_ok d -> read_tree_line (line_text d) = Ok (fields_of d).
Proof.
  intros Hd. unfold read_tree_line. rewrite split_lstree_line_text by done. cbn [rbind].
  destruct Hd as [_ (_ & Hs & _)]. by rewrite unquote_name_quote.
Qed.

(** names determine the encoded key order, and the sort can be pulled back to
    directory entries *)
Lemma perm_map_inv {A B} (f : A -> B) (l : list A) (m : list B) :
  m ≡ₚ map f l -> exists l', m = map f l' /\ l' ≡ₚ l.
Proof.
  intros H. apply Permutation_map_inv in H as (l' & -> & Hp). exists l'. by rewrite Hp.
Qed.
Lemma sort_map_denc l : exists l', sort_entries (map denc l) = map denc l' /\ l' ≡ₚ l.
Proof. apply perm_map_inv, sort_perm. Qed.

(** ** Loading text: decode, splitlines, join *)
Lemma is_linesep_spec c : is_linesep c = bool_decide (c ∈ line_separators).
Proof.
  unfold is_linesep, line_separators. symmetry.
  destruct (decide (c ∈ [10; 11; 12; 13; 28; 29; 30; 133; 0x2028; 0x2029]%N)) as [H|H].
  - rewrite (bool_decide_eq_true_2 _ H). repeat (apply elem_of_cons in H as [->|H]; [done|]). by apply elem_of_nil in H.
  - rewrite (bool_decide_eq_false_2 _ H).
    repeat (apply not_elem_of_cons in H as [? H]).
    rewrite !(proj2 (N.eqb_neq c _)) by done. done.
Qed.
Lemma splitlines_ne s : s <> [] -> splitlines s <> [].
Proof.
  destruct s as [|x r]; [done|]. intros _. cbn. destruct is_linesep; [|by destruct (splitlines r)].
  destruct (x =? 13)%N; [|done]. destruct r as [|y r]; [done|]. by destruct (y =? 10)%N.
Qed.
Lemma norm_ne s : s <> [] -> norm_lines s <> [].
Proof.
  destruct s as [|x r]; [done|]. intros _. destruct (decide (x = 13%N)) as [->|Hx].
  - destruct r as [|y r]; [done|]. destruct (decide (y = 10%N)) as [->|Hy]; [done|].
    cbn. destruct y as [|p]; [done|]. do 4 (destruct p as [p|p|]; try done).
  - cbn. destruct x as [|p]; [done|]. do 4 (destruct p as [p|p|]; try done).
Qed.
Lemma drop_lf_cons c x : x <> [] -> drop_final_lf (c :: x) = c :: drop_final_lf x.
Proof.
  intros H. unfold drop_final_lf. destruct x as [|y x]; [done|].
  change (last (c :: y :: x)) with (last (y :: x)).
  assert (E : removelast (c :: y :: x) = c :: removelast (y :: x)) by done. rewrite E.
  destruct (last (y :: x)) as [[|p]|]; try done. do 4 (destruct p as [p|p|]; try done).
Qed.
Lemma join_cons c l ls : join [10%N] ((c :: l) :: ls) = c :: join [10%N] (l :: ls).
Proof. by destruct ls. Qed.
Lemma join_nil_cons (ls : list pystr) : ls <> [] -> join [10%N] ([] :: ls) = 10%N :: join [10%N] ls.
Proof. by destruct ls. Qed.
Lemma norm_cons_other x r : (x = 13%N -> match r with [] => True | y :: _ => y <> 10%N end) ->
  norm_lines (x :: r) = (if bool_decide (x ∈ line_separators) then 10%N else x) :: norm_lines r.
Proof.
  intros H. destruct (decide (x = 13%N)) as [->|Hx].
  - specialize (H eq_refl). destruct r as [|y r]; [done|].
    cbn [norm_lines]. destruct y as [|p]; [done|]. do 4 (destruct p as [p|p|]; try done).
  - cbn [norm_lines]. destruct x as [|p]; [done|]. do 4 (destruct p as [p|p|]; try done).
Qed.
Lemma crlf_or (x : N) (r : pystr) :
  (x = 13%N /\ exists r', r = 10%N :: r') \/ ~ (x = 13%N /\ exists r', r = 10%N :: r').
Proof.
  destruct (decide (x = 13%N)); [|right; tauto]. destruct r as [|y r].
  - right. by intros [_ [? ?]].
  - destruct (decide (y = 10%N)) as [->|]; [left; eauto|right; intros [_ [? [= ? ?]]]; done].
Qed.
Lemma load_text_norm_aux n : forall s : pystr, length s <= n -> join [10%N] (splitlines s) = drop_final_lf (norm_lines s).
Proof.
  induction n as [|n IH]; intros s Hn.
  { destruct s; [done|cbn in Hn; lia]. }
  destruct s as [|x r]; [done|].
  destruct (crlf_or x r) as [[-> [r' ->]]|Hcr].
  - cbn [splitlines norm_lines]. change (is_linesep 13) with true. cbn iota. rewrite !N.eqb_refl.
    destruct (decide (r' = [])) as [->|Hne]; [done|].
    rewrite join_nil_cons by by apply splitlines_ne. rewrite drop_lf_cons by by apply norm_ne.
    f_equal. apply IH. cbn in Hn. lia.
  - assert (Hc : x = 13%N -> match r with [] => True | y :: _ => y <> 10%N end).
    { intros ->. destruct r as [|y r]; [done|]. intros ->. apply Hcr. eauto. }
    rewrite (norm_cons_other _ _ Hc). rewrite <- is_linesep_spec.
    assert (Es : splitlines (x :: r) = if is_linesep x then [] :: splitlines r else
                 match splitlines r with [] => [[x]] | l :: ls => (x :: l) :: ls end).
    { cbn [splitlines]. destruct (is_linesep x); [|done]. destruct (N.eqb_spec x 13) as [->|]; [|done].
      destruct r as [|y r]; [done|]. specialize (Hc eq_refl). by rewrite (proj2 (N.eqb_neq _ _) Hc). }
    rewrite Es. destruct (is_linesep x) eqn:El.
    + destruct (decide (r = [])) as [->|Hne]; [done|].
      rewrite join_nil_cons by by apply splitlines_ne. rewrite drop_lf_cons by by apply norm_ne.
      f_equal. apply IH. cbn in Hn. lia.
    + destruct (decide (r = [])) as [->|Hne].
      * cbn. unfold drop_final_lf. cbn [last]. destruct x as [|p]; [done|]. do 4 (destruct p as [p|p|]; try done).
      * rewrite drop_lf_cons by by apply norm_ne. rewrite <- IH by (cbn in Hn; lia).
        destruct (splitlines r) eqn:E; [by apply splitlines_ne in E|]. apply join_cons.
Qed.
Lemma load_text_norm (s : pystr) : join [10%N] (splitlines s) = drop_final_lf (norm_lines s).
Proof. by eapply load_text_norm_aux. Qed.

Lemma text_result_spec s : scalar_str s -> text_result (utf8_bytes s) = Ok (drop_final_lf (norm_lines s)).
Proof.
  intros H. unfold text_result, stdout_lines. rewrite decode_utf8 by done. cbn [rbind].
  by rewrite load_text_norm.
Qed.

Lemma norm_length_aux n : forall s, length s <= n -> length (norm_lines s) <= length s.
Proof.
  induction n as [|n IH]; intros s Hn; [destruct s; [done|cbn in Hn; lia]|].
  destruct s as [|x r]; [done|].
  destruct (crlf_or x r) as [[-> [r' ->]]|Hcr].
  - cbn [norm_lines length]. cbn in Hn. specialize (IH r' ltac:(lia)). lia.
  - rewrite norm_cons_other. 2:{ intros ->. destruct r as [|y r]; [done|]. intros ->. apply Hcr. eauto. }
    cbn [length]. cbn in Hn. specialize (IH r ltac:(lia)). lia.
Qed.
Lemma norm_length s : length (norm_lines s) <= length s.
Proof. by eapply norm_length_aux. Qed.
Lemma norm_fix s : norm_lines s = s -> forall c, In c s -> c ∈ line_separators -> c = 10%N.
Proof.
  induction s as [|x r IH]; [done|]. intros E.
  destruct (crlf_or x r) as [[-> [r' ->]]|Hcr].
  - exfalso. apply (f_equal length) in E. cbn [norm_lines length] in E. pose proof (norm_length r'). lia.
  - rewrite norm_cons_other in E. 2:{ intros ->. destruct r as [|y r]; [done|]. intros ->. apply Hcr. eauto. }
    injection E as E1 E2. intros c [<-|Hin]; [|by apply IH].
    intros Hs. rewrite (bool_decide_eq_true_2 _ Hs) in E1. done.
Qed.
Lemma norm_id s : (forall c, In c s -> c ∈ line_separators -> c = 10%N) -> norm_lines s = s.
Proof.
  induction s as [|x r IH]; [done|]. intros H. rewrite norm_cons_other.
  - rewrite IH by (intros c Hc; apply H; by right).
    case_bool_decide as Hx; [|done]. by rewrite (H x (or_introl eq_refl) Hx).
  - intros ->. discriminate (H 13%N (or_introl eq_refl) ltac:(unfold line_separators; set_solver)).
Qed.
Lemma drop_final_length s : length (drop_final_lf s) <= length s /\ (drop_final_lf s = s \/ length (drop_final_lf s) < length s).
Proof.
  unfold drop_final_lf. destruct (decide (last s = Some 10%N)) as [E|E].
  - rewrite E. assert (length (removelast s) < length s).
    { destruct s as [|x s] using rev_ind; [done|]. rewrite removelast_last, app_length. cbn. lia. }
    split; [lia|by right].
  - destruct (last s) as [[|p]|]; auto.
    do 4 (try destruct p as [p|p|]); auto; done.
Qed.
Lemma text_roundtrip_iff s : scalar_str s ->
  (text_result (utf8_bytes s) = Ok s <->
   (forall c, In c s -> c ∈ line_separators -> c = 10%N) /\ last s <> Some 10%N).
Proof.
  intros Hs. rewrite text_result_spec by done. split.
  - intros [= E]. pose proof (norm_length s) as H1. destruct (drop_final_length (norm_lines s)) as [H2 [H3|H3]].
    + rewrite H3 in E. split; [by apply norm_fix|]. intros Hl. rewrite E in H3.
      unfold drop_final_lf in H3. rewrite Hl in H3.
      destruct s as [|x s' _] using rev_ind; [done|]. rewrite removelast_last in H3.
      apply (f_equal length) in H3. rewrite app_length in H3. cbn in H3. lia.
    + rewrite E in H3. lia.
  - intros [H1 H2]. rewrite norm_id by done. f_equal. unfold drop_final_lf.
    destruct (last s) as [[|p]|]; auto. do 4 (try destruct p as [p|p|]); auto; done.
Qed.

(** ** JSON documents through git *)
Lemma dumps_ascii j : json_ok j -> Forall ascii (dumps j).
Proof.
  intros H. apply dumps_printable in H. eapply Forall_impl; [exact H|].
  unfold printable, ascii. intros x. lia.
Qed.
Lemma json_text_pipeline j : json_ok j ->
  encode (dumps j) = Ok (dumps j) /\ text_result (dumps j) = Ok (dumps j).
Proof.
  intros H. split; [by apply encode_ascii, dumps_ascii|].
  unfold text_result, stdout_lines. rewrite decode_ascii by by apply dumps_ascii. cbn [rbind].
  by rewrite splitlines_dumps.
Qed.

Lemma json_git_roundtrip j : json_ok j ->
  exists b t, encode (dumps j) = Ok b /\ text_result b = Ok t /\ loads t = Some j.
Proof.
  intros H. destruct (json_text_pipeline j H) as [H1 H2]. exists (dumps j), (dumps j).
  by rewrite loads_dumps.
Qed.

(** ** whole trees *)
Lemma tree_roundtrip l : l <> [] -> Forall dentry_ok l ->
  exists input es out lines l',
    encode (tree_spec (map spec_fields l)) = Ok input
    /\ mktree_input input = Some es
    /\ tree_listing es = Some out
    /\ stdout_lines out = Ok lines
    /\ rmap read_tree_line lines = Ok (map fields_of l')
    /\ l' ≡ₚ l /\ es = map denc l' /\ StronglySorted entry_le es.
Proof.
  intros Hne Hl. destruct (mktree_of_spec l Hne Hl) as (input & E1 & E2).
  destruct (sort_map_denc l) as (l' & E3 & Hp).
  assert (Hl' : Forall dentry_ok l') by by rewrite Hp.
  destruct (stdout_lines_listing l' Hl') as [E4 E5].
  exists input, (map denc l'), (concat (map tree_line (map denc l'))), (map line_text l'), l'.
  rewrite E2, E3. repeat split; try done.
  - clear -Hl'. induction Hl' as [|d l Hd Hl IH]; [done|]. cbn [map rmap].
    rewrite read_tree_line_text by done. cbn [rbind]. by rewrite IH.
  - rewrite <- E3. apply sort_sorted.
Qed.

Lemma hash_blob_bytes_ok s : scalar_str s ->
  hash_blob_bytes s = Ok (git_blob_hash_input (utf8_bytes s))
  /\ obj_bytes (Blob (utf8_bytes s)) = git_blob_hash_input (utf8_bytes s).
Proof. intros H. unfold hash_blob_bytes. rewrite encode_ok by done. done. Qed.

(** ** property lemmas *)
Lemma C04_lemma l : l <> [] -> Forall dentry_ok l ->
  exists input es out lines l',
    encode (tree_spec (map (fun d => dir_entry_fields (de_dir d) (de_id d) (de_name d)) l)) = Ok input
    /\ mktree_input input = Some es
    /\ tree_listing es = Some out
    /\ stdout_lines out = Ok lines
    /\ rmap read_tree_line lines
       = Ok (map (fun d => (if de_dir d then ps "tree" else ps "blob", de_id d, de_name d)) l')
    /\ l' ≡ₚ l.
Proof.
  intros H1 H2. destruct (tree_roundtrip l H1 H2) as (i & es & out & ls & l' & ? & ? & ? & ? & ? & ? & _).
  by exists i, es, out, ls, l'.
Qed.
Lemma C04_distinct_lemma n1 n2 : storable_name n1 -> storable_name n2 -> forall e1 e2 : tentry,
  (exists d h, mktree_line (utf8_bytes (tree_spec_line (dir_entry_fields d h n1))) = Some e1 /\ hex40 h) ->
  (exists d h, mktree_line (utf8_bytes (tree_spec_line (dir_entry_fields d h n2))) = Some e2 /\ hex40 h) ->
  te_name e1 = te_name e2 -> n1 = n2.
Proof.
  intros H1 H2 e1 e2 (d1 & h1 & E1 & Hh1) (d2 & h2 & E2 & Hh2).
  pose proof (mktree_line_spec (DE d1 h1 n1) (conj Hh1 H1)) as F1.
  pose proof (mktree_line_spec (DE d2 h2 n2) (conj Hh2 H2)) as F2.
  unfold spec_fields in *. cbn [de_dir de_id de_name] in F1, F2. rewrite E1 in F1. rewrite E2 in F2.
  injection F1 as ->. injection F2 as ->. cbn. apply utf8_bytes_inj; [apply H1|apply H2].
Qed.
Lemma C05_refuted_lemma :
  exists name name2 h : pystr,
    scalar_str name /\ ~ In 47%N name /\ ~ In 0%N name /\ hex40 h
    /\ scalar_str name2 /\ ~ In 47%N name2 /\ ~ In 0%N name2
    /\ (exists e1 e2, mktree_input (utf8_bytes (tree_spec [dir_entry_fields false h name])) = Some [e1; e2]
        /\ te_name e2 = ps "evil" /\ te_id e2 <> h)
    /\ mktree_input (utf8_bytes (tree_spec [dir_entry_fields false h name2])) = None.
Proof.
  exists (ps "a" ++ [10%N] ++ ps "100644 blob " ++ repeat 98%N 40 ++ [9%N] ++ ps "evil"),
         (ps "a" ++ [10%N] ++ ps "b"), (repeat 97%N 40).
  assert (H1 : forall c, In c (ps "a" ++ [10%N] ++ ps "100644 blob " ++ repeat 98%N 40 ++ [9%N] ++ ps "evil") -> (0 < c /\ c <> 47 /\ c < 128)%N).
  { apply List.Forall_forall. vm_compute. fall; done. }
  assert (H2 : forall c, In c (ps "a" ++ [10%N] ++ ps "b") -> (0 < c /\ c <> 47 /\ c < 128)%N).
  { apply List.Forall_forall. vm_compute. fall; done. }
  split; [apply List.Forall_forall; intros c Hc; apply H1 in Hc; unfold scalar; lia|].
  split; [intros Hc; apply H1 in Hc; lia|]. split; [intros Hc; apply H1 in Hc; lia|].
  split; [split; [done|]; apply List.Forall_forall; intros x Hx; apply repeat_spec in Hx; subst; unfold lower_hex_digit; lia|].
  split; [apply List.Forall_forall; intros c Hc; apply H2 in Hc; unfold scalar; lia|].
  split; [intros Hc; apply H2 in Hc; lia|]. split; [intros Hc; apply H2 in Hc; lia|].
  split.
  - exists (TE 33188 (repeat 97%N 40) (ps "a")), (TE 33188 (repeat 98%N 40) (ps "evil")).
    split; [vm_compute; reflexivity|]. done.
  - vm_compute. reflexivity.
Qed.
Lemma C05_partial_lemma l : l <> [] -> Forall dentry_ok l ->
  exists input es,
    encode (tree_spec (map (fun d => dir_entry_fields (de_dir d) (de_id d) (de_name d)) l)) = Ok input
    /\ mktree_input input = Some es
    /\ es ≡ₚ map (fun d => TE (if de_dir d then 16384%N else 33188%N) (de_id d) (utf8_bytes (de_name d))) l
    /\ StronglySorted (fun a b => bytes_leb (base_key a) (base_key b) = true) es.
Proof.
  intros H1 H2. destruct (tree_roundtrip l H1 H2) as (i & es & out & ls & l' & ? & ? & ? & ? & ? & Hp & -> & ?).
  exists i, (map denc l'). split; [done|]. split; [done|]. split; [|done].
  rewrite Hp. done.
Qed.
Lemma C08_refuted_lemma : exists s : pystr, scalar_str s /\ text_result (utf8_bytes s) <> Ok s.
Proof. exists [97; 10]%N. split; [unfold scalar_str; fall; unfold scalar; lia|]. vm_compute. done. Qed.
Lemma C08_partial_lemma s : scalar_str s ->
  encode s = Ok (utf8_bytes s)
  /\ text_result (utf8_bytes s) = Ok (drop_final_lf (norm_lines s))
  /\ (text_result (utf8_bytes s) = Ok s <->
      (forall c, In c s -> c ∈ line_separators -> c = 10%N) /\ last s <> Some 10%N).
Proof. intros H. split; [by apply encode_ok|]. split; [by apply text_result_spec|by apply text_roundtrip_iff]. Qed.
Lemma C48_lemma s : scalar_str s ->
  exists b, encode s = Ok b
    /\ hash_blob_bytes s = Ok (git_blob_hash_input b)
    /\ obj_bytes (Blob b) = git_blob_hash_input b.
Proof.
  intros H. exists (utf8_bytes s). split; [by apply encode_ok|]. by apply hash_blob_bytes_ok.
Qed.
