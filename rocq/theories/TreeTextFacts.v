(** Tree listings and mktree input for arbitrary file names (byte strings). *)
From Verif Require Import Base BaseFacts Json GitText Spec_Git GitTextFacts Git Spec_Store.
Ltac Zify.zify_post_hook ::= Z.to_euclidean_division_equations.


Lemma wf_name_lt b : wf_name b -> Forall (fun c => (c < 256)%N) b.
Proof. intros Hb. eapply Forall_impl; [exact Hb|]. unfold name_byte. intros x. lia. Qed.

(** ** mktree inverts git's quoting *)
Lemma octal3_value c : (c < 256)%N ->
  octal_value [48 + (c / 64) mod 8; 48 + (c / 8) mod 8; 48 + c mod 8]%N = c /\ (48 + (c / 64) mod 8 <= 51)%N.
Proof. intros H. unfold octal_value. cbn [fold_left]. lia. Qed.

Lemma unquote_quote_char c r : (c < 256)%N -> unquote_c (quote_char c ++ r) = ocons c (unquote_c r).
Proof.
  intros H. unfold quote_char.
  destruct (N.eqb_spec c 7) as [->|]; [reflexivity|].
  destruct (N.eqb_spec c 8) as [->|]; [reflexivity|].
  destruct (N.eqb_spec c 9) as [->|]; [reflexivity|].
  destruct (N.eqb_spec c 10) as [->|]; [reflexivity|].
  destruct (N.eqb_spec c 11) as [->|]; [reflexivity|].
  destruct (N.eqb_spec c 12) as [->|]; [reflexivity|].
  destruct (N.eqb_spec c 13) as [->|]; [reflexivity|].
  destruct (N.eqb_spec c 34) as [->|]; [reflexivity|].
  destruct (N.eqb_spec c 92) as [->|]; [reflexivity|].
  destruct (must_quote c).
  - destruct (octal3 c H) as (H1 & H2 & H3 & _). destruct (octal3_value c H) as [H4 H5].
    set (a := (48 + (c / 64) mod 8)%N) in *. set (b := (48 + (c / 8) mod 8)%N) in *.
    set (d := (48 + c mod 8)%N) in *.
    assert (Ha : (48 <= a < 56)%N) by (unfold a; lia). clearbody a b d.
    cbn [app unquote_c]. change (92 =? 34)%N with false. change (92 =? 92)%N with true. cbn iota.
    assert (c_escape a = None) as ->.
    { unfold c_escape. rewrite !(proj2 (N.eqb_neq a _)) by lia. done. }
    rewrite !N_leb_true by lia. cbn [andb]. by rewrite H2, H3, H4.
  - cbn [app unquote_c]. rewrite !(proj2 (N.eqb_neq c _)) by done. done.
Qed.
Lemma unquote_quotes b r : Forall (fun c => (c < 256)%N) b ->
  unquote_c (concat (map quote_char b) ++ 34%N :: r) = Some b.
Proof.
  induction 1 as [|c b Hc Hb IH]; [done|]. cbn [map concat].
  by rewrite <- app_assoc, unquote_quote_char, IH.
Qed.
Lemma name_field_noquote y ys : y <> 34%N -> name_field (y :: ys) = Some (y :: ys).
Proof. intros H. unfold name_field. destruct y as [|p]; [done|]. do 6 (destruct p as [p|p|]; try done). Qed.
Lemma wf_name_nonul b : wf_name b -> ~ In 0%N b.
Proof. intros H Hin. eapply List.Forall_forall in H; [|exact Hin]. unfold name_byte in H. lia. Qed.
Lemma name_field_quote b : wf_name b -> name_field (quote_c b) = Some b.
Proof.
  intros Hb. unfold quote_c. destruct (existsb must_quote b) eqn:E.
  - cbn [app]. unfold name_field. rewrite unquote_quotes by by apply wf_name_lt. cbn [option_map].
    by rewrite cut_nul_id by by apply wf_name_nonul.
  - destruct b as [|y ys]; [done|]. apply name_field_noquote. intros ->. done.
Qed.
Lemma quote_c_inj a b : wf_name a -> wf_name b -> quote_c a = quote_c b -> a = b.
Proof. intros Ha Hb E. apply name_field_quote in Ha, Hb. congruence. Qed.

(** plain names are not changed by quoting *)
Lemma plain_wf s : plain_name s -> wf_name s.
Proof. intros [_ H]. eapply Forall_impl; [exact H|]. unfold plain_char, name_byte. lia. Qed.
Lemma plain_quote s : plain_name s -> quote_c s = s.
Proof.
  intros [_ H]. unfold quote_c. destruct existsb eqn:E; [|done].
  apply existsb_exists in E as (c & Hin & Hq). eapply List.Forall_forall in H; [|exact Hin].
  unfold plain_char, must_quote in *. rewrite !orb_true_iff, N.ltb_lt, !N.eqb_eq, N.leb_le in Hq. lia.
Qed.

(** ** One line of mktree input *)
Record fent := FE { fe_dir : bool; fe_id : pystr; fe_name : bytes }.
Definition fent_ok (f : fent) : Prop := hex40 (fe_id f) /\ wf_name (fe_name f).
Definition fenc (f : fent) : tentry := TE (dmode (fe_dir f)) (fe_id f) (fe_name f).
Definition ffields (f : fent) : pystr * pystr * pystr * pystr :=
  (dflag (fe_dir f), dtype (fe_dir f), fe_id f, quote_c (fe_name f)).

Lemma fline_chars f : fent_ok f -> Forall (fun x => x = 9 \/ (32 <= x /\ x < 127))%N (tree_spec_line (ffields f)).
Proof.
  intros [[Hl Hh] Hs]. unfold tree_spec_line, ffields.
  apply Forall_app; split; [by destruct (fe_dir f); fall; right|].
  apply Forall_app; split; [by fall; right|].
  apply Forall_app; split; [by destruct (fe_dir f); fall; right|].
  apply Forall_app; split; [by fall; right|].
  apply Forall_app; split; [|apply Forall_app; split; [by fall; left|]].
  - eapply Forall_impl; [exact Hh|]. unfold lower_hex_digit. lia.
  - eapply Forall_impl; [by apply quote_c_printable, wf_name_lt|]. simpl. lia.
Qed.
Lemma fline_ascii f : fent_ok f -> Forall ascii (tree_spec_line (ffields f)).
Proof. intros H. eapply Forall_impl; [by apply fline_chars|]. unfold ascii. simpl. lia. Qed.
Lemma fline_no f b : fent_ok f -> b = 0%N \/ b = 10%N -> ~ In b (tree_spec_line (ffields f)).
Proof.
  intros H Hb Hin. apply fline_chars in H. eapply List.Forall_forall in H; [|exact Hin]. simpl in H. lia.
Qed.

Lemma mktree_line_fent f : fent_ok f -> mktree_line (tree_spec_line (ffields f)) = Some (fenc f).
Proof.
  intros Hd. unfold mktree_line. rewrite (cut_nul_id _ (fline_no f 0%N Hd (or_introl eq_refl))).
  destruct Hd as [[Hlen Hhex] Hs]. unfold tree_spec_line, ffields.
  rewrite (span_app is_octal (dflag (fe_dir f))); [| |done].
  2: by destruct (fe_dir f); repeat constructor.
  destruct (dflag (fe_dir f)) as [|x0 xs] eqn:Ef; [by destruct (fe_dir f)|].
  cbn [app].
  rewrite (span_app (fun c => negb (c =? 32)%N) (dtype (fe_dir f))); [| |done].
  2: by destruct (fe_dir f); repeat constructor.
  rewrite <- Ef. clear Ef x0 xs. cbv zeta.
  rewrite (take_app_alt (fe_id f)), (drop_app_alt (fe_id f)) by (symmetry; exact Hlen).
  destruct (is_hex_lower _ Hhex) as [Hx Hm].
  rewrite Hlen, Hx, Hm. cbn [Nat.eqb andb].
  assert (Hty : bool_decide (type_name (mode_type (octal_value (dflag (fe_dir f)))) = dtype (fe_dir f)) = true)
    by (by destruct (fe_dir f)).
  assert (Hmode : octal_value (dflag (fe_dir f)) = dmode (fe_dir f)) by (by destruct (fe_dir f)).
  rewrite name_field_quote by done. rewrite Hty, Hmode, no_slash_forallb; [done|].
  intros Hin. eapply List.Forall_forall in Hs; [|exact Hin]. unfold name_byte in Hs. lia.
Qed.

Lemma join_ascii (l : list pystr) : Forall (Forall ascii) l -> Forall ascii (join [10%N] l).
Proof.
  induction 1 as [|x [|y l] Hx Hl IH]; [constructor|done|].
  change (join [10%N] (x :: y :: l)) with (x ++ [10%N] ++ join [10%N] (y :: l)).
  apply Forall_app. split; [done|]. apply Forall_app. split; [fall; unfold ascii; lia|done].
Qed.

Lemma mktree_of_fents l : l <> [] -> Forall fent_ok l ->
  encode (tree_spec (map ffields l)) = Ok (tree_spec (map ffields l))
  /\ Forall ascii (tree_spec (map ffields l))
  /\ mktree_input (tree_spec (map ffields l)) = Some (sort_entries (map fenc l)).
Proof.
  intros Hne Hl.
  assert (Ha : Forall ascii (tree_spec (map ffields l))).
  { unfold tree_spec. apply Forall_app. split; [|fall; unfold ascii; lia]. apply join_ascii.
    rewrite map_map. apply Forall_map. eapply Forall_impl; [exact Hl|]. apply fline_ascii. }
  split; [by apply encode_ascii|]. split; [done|].
  unfold mktree_input, tree_spec. rewrite input_lines_join.
  - rewrite map_map. rewrite (omap_all_map _ _ fenc); [done|].
    eapply Forall_impl; [exact Hl|]. intros f Hf. cbv beta.
    rewrite cut_nul_id by (apply fline_no; auto). rewrite mktree_line_fent by done.
    destruct (tree_spec_line (ffields f)) eqn:E; [|done]. unfold tree_spec_line, ffields in E. by destruct (fe_dir f).
  - destruct l; done.
  - rewrite map_map. apply Forall_map. eapply Forall_impl; [exact Hl|]. intros f Hf. cbv beta. apply fline_no; auto.
Qed.

(** ** A listing, line by line *)
Definition eflag (e : tentry) : pystr := pad0 6 (octal_text (te_mode e)).
Definition etypen (e : tentry) : pystr := type_name (canon_type (te_mode e)).
Definition eline (e : tentry) : pystr :=
  eflag e ++ [32%N] ++ etypen e ++ [32%N] ++ te_id e ++ [9%N] ++ quote_c (te_name e).

Lemma octal_aux_digits fuel : forall n acc, Forall (fun x => 48 <= x /\ x < 56)%N acc ->
  Forall (fun x => 48 <= x /\ x < 56)%N (octal_aux fuel n acc).
Proof.
  induction fuel as [|f IH]; intros n acc Ha; cbn [octal_aux]; [done|].
  assert (Forall (fun x => 48 <= x /\ x < 56)%N ((48 + n mod 8)%N :: acc)).
  { apply List.Forall_cons; [lia|done]. }
  destruct (n / 8 =? 0)%N; auto.
Qed.
Lemma eflag_digits e : Forall (fun x => 48 <= x /\ x < 56)%N (eflag e).
Proof.
  unfold eflag, pad0. apply Forall_app. split; [|by apply octal_aux_digits].
  apply List.Forall_forall. intros x Hx%repeat_spec. subst. lia.
Qed.
Lemma etypen_letters e : Forall (fun x => 97 <= x /\ x < 123)%N (etypen e).
Proof. unfold etypen. destruct canon_type; by repeat constructor. Qed.

Lemma eline_chars e : wf_entry e -> Forall (fun x => x = 9 \/ (32 <= x /\ x < 127))%N (eline e).
Proof.
  intros [[Hl Hh] Hs]. unfold eline.
  apply Forall_app; split; [eapply Forall_impl; [apply eflag_digits|]; simpl; lia|].
  apply Forall_app; split; [by fall; right|].
  apply Forall_app; split; [eapply Forall_impl; [apply etypen_letters|]; simpl; lia|].
  apply Forall_app; split; [by fall; right|].
  apply Forall_app; split; [|apply Forall_app; split; [by fall; left|]].
  - eapply Forall_impl; [exact Hh|]. unfold lower_hex_digit. lia.
  - eapply Forall_impl; [by apply quote_c_printable, wf_name_lt|]. simpl. lia.
Qed.
Lemma tree_line_eline e : tree_line e = eline e ++ [10%N].
Proof. unfold tree_line, eline, eflag, etypen. by rewrite <- !app_assoc. Qed.

Lemma listing_lines es : Forall wf_entry es ->
  stdout_lines (concat (map tree_line es)) = Ok (map eline es).
Proof.
  intros Hl.
  assert (E : concat (map tree_line es) = concat (map (fun s => s ++ [10%N]) (map eline es))).
  { rewrite map_map. f_equal. apply map_ext. apply tree_line_eline. }
  rewrite E. unfold stdout_lines. rewrite decode_ascii.
  - cbn [rbind]. f_equal. apply splitlines_concat. apply Forall_map.
    eapply Forall_impl; [exact Hl|]. intros d Hd. eapply Forall_impl; [by apply eline_chars|].
    intros x. apply not_linesep.
  - clear E. induction Hl as [|d l Hd Hl IH]; cbn [map concat]; [constructor|].
    apply Forall_app. split; [|done]. apply Forall_app. split; [|repeat constructor].
    eapply Forall_impl; [by apply eline_chars|]. unfold ascii. simpl. lia.
Qed.

Lemma split_eline e : wf_entry e ->
  split_git_lstree_line (eline e) = Ok (eflag e, etypen e, te_id e, quote_c (te_name e)).
Proof.
  intros [[Hl Hh] Hs]. unfold split_git_lstree_line.
  set (q := quote_c (te_name e)).
  assert (Hno : forall (P : N -> Prop) c s, Forall P s -> ~ P c -> nochar c s).
  { intros P c s HP Hn. apply nochar_In. intros Hin. eapply List.Forall_forall in HP; [|exact Hin]. done. }
  assert (Hq : nochar 9%N q).
  { eapply Hno; [by apply quote_c_printable, wf_name_lt|]. simpl. lia. }
  assert (E : eline e = join [9%N] [eflag e ++ [32%N] ++ etypen e ++ [32%N] ++ te_id e; q]).
  { unfold eline. cbn [join]. by rewrite <- !app_assoc. }
  rewrite E, split_join; [|done|].
  2: { apply List.Forall_cons; [|apply List.Forall_cons; [done|apply List.Forall_nil]].
       unfold nochar. apply Forall_app; split; [|apply Forall_app; split; [|apply Forall_app; split; [|apply Forall_app; split]]].
       - eapply Hno; [apply eflag_digits|]. simpl. lia.
       - fall. lia.
       - eapply Hno; [apply etypen_letters|]. simpl. lia.
       - fall. lia.
       - eapply Hno; [apply Hh|]. unfold lower_hex_digit. lia. }
  assert (E2 : eflag e ++ [32%N] ++ etypen e ++ [32%N] ++ te_id e
               = join [32%N] [eflag e; etypen e; te_id e]) by done.
  rewrite E2, split_join; [done|done|].
  apply List.Forall_cons; [|apply List.Forall_cons; [|apply List.Forall_cons; [|apply List.Forall_nil]]].
  - eapply Hno; [apply eflag_digits|]. simpl. lia.
  - eapply Hno; [apply etypen_letters|]. simpl. lia.
  - eapply Hno; [apply Hh|]. unfold lower_hex_digit. lia.
Qed.

(** ** mktree only makes well formed trees *)
Lemma unquote_c_lt n : forall s b, length s <= n -> Forall (fun c => (c < 256)%N) s -> unquote_c s = Some b ->
  Forall (fun c => (c < 256)%N) b.
Proof.
  induction n as [|n IH]; intros s b Hlen Hs; (destruct s as [|c r]; [done|]); [cbn in Hlen; lia|].
  cbn [length] in Hlen. apply List.Forall_cons_iff in Hs as [Hc Hr]. cbn [unquote_c].
  destruct (c =? 34)%N; [intros [= <-]; constructor|].
  assert (Hrec : forall x s' b', (x < 256)%N -> length s' <= n -> Forall (fun c => (c < 256)%N) s' ->
            ocons x (unquote_c s') = Some b' -> Forall (fun c => (c < 256)%N) b').
  { intros x s' b' Hx Hl Hs'. destruct (unquote_c s') eqn:E; [|done]. intros [= <-].
    apply List.Forall_cons; [done|]. by eapply IH. }
  destruct (c =? 92)%N.
  - destruct r as [|e r1]; [done|]. apply List.Forall_cons_iff in Hr as [He Hr]. cbn [length] in Hlen.
    destruct (c_escape e) as [x|] eqn:Ee.
    + apply Hrec; [|lia|done]. unfold c_escape in Ee. repeat case_match; simplify_eq; lia.
    + destruct ((48 <=? e) && (e <=? 51))%N eqn:E1; [|done].
      destruct r1 as [|d2 [|d3 r3]]; [done|done|].
      apply List.Forall_cons_iff in Hr as [? Hr]. apply List.Forall_cons_iff in Hr as [? Hr]. cbn [length] in Hlen.
      destruct (is_octal d2 && is_octal d3) eqn:E2; [|done]. apply Hrec; [|lia|done].
      unfold is_octal in E2. unfold octal_value. cbn [fold_left].
      rewrite !andb_true_iff, !N.leb_le in *. lia.
  - apply Hrec; [done|lia|done].
Qed.
Lemma span_fst_Forall p (l : list N) : Forall (fun c => p c = true) (fst (span p l)).
Proof.
  induction l as [|x r IH]; cbn; [constructor|]. destruct (p x) eqn:E; [|constructor].
  destruct (span p r). cbn in *. by apply List.Forall_cons.
Qed.
Lemma span_split p (l : list N) : fst (span p l) ++ snd (span p l) = l.
Proof.
  induction l as [|x r IH]; cbn; [done|]. destruct (p x); [|done]. destruct (span p r). cbn in *. by rewrite IH.
Qed.
Lemma cut_nul_sub (P : N -> Prop) b : Forall P b -> Forall P (cut_nul b).
Proof.
  intros H. unfold cut_nul. set (p := fun c => negb (c =? 0)%N). rewrite <- (span_split p b) in H.
  by apply Forall_app in H as [? _].
Qed.
Lemma cut_nul_nonul b : ~ In 0%N (cut_nul b).
Proof.
  intros Hin. unfold cut_nul in Hin. pose proof (span_fst_Forall (fun c => negb (c =? 0)%N) b) as H.
  eapply List.Forall_forall in H; [|exact Hin]. done.
Qed.
Lemma hex_lower40 id : length id = 40%nat -> forallb is_hex id = true -> hex40 (map lower_hex id).
Proof.
  intros Hl Hx. split; [by rewrite map_length|]. apply Forall_map. rewrite forallb_forall in Hx.
  apply List.Forall_forall. intros c Hc. apply Hx in Hc. unfold is_hex, lower_hex, lower_hex_digit in *.
  destruct (N.leb_spec 48 c), (N.leb_spec c 57), (N.leb_spec 97 c), (N.leb_spec c 102), (N.leb_spec 65 c), (N.leb_spec c 70); cbn in *; try done; lia.
Qed.

Lemma mktree_line_wf l e : Forall (fun c => (c < 256)%N) l -> mktree_line l = Some e -> wf_entry e.
Proof.
  intros Hl. unfold mktree_line.
  pose proof (cut_nul_sub _ _ Hl) as Hc. pose proof (cut_nul_nonul l) as H0. set (s := cut_nul l) in *. clearbody s.
  pose proof (span_split is_octal s) as Es. destruct (span is_octal s) as [ds r1]. cbn in Es. subst s.
  apply Forall_app in Hc as [_ Hc]. assert (H0' : ~ In 0%N r1) by (rewrite in_app_iff in H0; tauto). clear H0.
  destruct ds as [|d0 ds]; [done|]. destruct r1 as [|b r2]; [done|].
  destruct (decide (b = 32%N)) as [->|Hb].
  2: { destruct b as [|p]; [done|]. do 6 (destruct p as [p|p|]; try done). }
  apply List.Forall_cons_iff in Hc as [_ Hc]. assert (H0 : ~ In 0%N r2) by (intros ?; apply H0'; by right). clear H0'.
  pose proof (span_split (fun c => negb (c =? 32)%N) r2) as Es. destruct (span (fun c => negb (c =? 32)%N) r2) as [ty r3].
  cbn in Es. subst r2. apply Forall_app in Hc as [_ Hc]. assert (H0' : ~ In 0%N r3) by (rewrite in_app_iff in H0; tauto). clear H0.
  destruct r3 as [|b r4]; [done|].
  destruct (decide (b = 32%N)) as [->|Hb].
  2: { destruct b as [|p]; [done|]. do 6 (destruct p as [p|p|]; try done). }
  apply List.Forall_cons_iff in Hc as [_ Hc]. assert (H0 : ~ In 0%N r4) by (intros ?; apply H0'; by right). clear H0'.
  cbv zeta. rewrite <- (take_drop 40 r4) in Hc, H0. apply Forall_app in Hc as [_ Hc].
  assert (H0' : ~ In 0%N (drop 40 r4)) by (rewrite in_app_iff in H0; tauto). clear H0.
  destruct (drop 40 r4) as [|b path] eqn:Ed; [done|].
  destruct (decide (b = 9%N)) as [->|Hb].
  2: { destruct b as [|p]; [done|]. do 4 (destruct p as [p|p|]; try done). }
  destruct (name_field path) as [nm|] eqn:En; [|done].
  destruct (_ && _) eqn:Eb; [|done]. intros [= <-].
  rewrite !andb_true_iff in Eb. destruct Eb as [[[E1 E2] E3] E4].
  split; cbn [te_id te_name].
  - apply hex_lower40; [|done]. by apply Nat.eqb_eq.
  - assert (Hn : Forall (fun c => (c < 256)%N) nm /\ ~ In 0%N nm).
    { apply List.Forall_cons_iff in Hc as [_ Hc]. assert (H0 : ~ In 0%N path) by (intros ?; apply H0'; by right).
      destruct path as [|y ys]; [cbn in En; simplify_eq; split; [constructor|intros []]|].
      destruct (decide (y = 34%N)) as [->|Hy].
      - cbn in En. destruct (unquote_c ys) as [u|] eqn:Eu; [|done]. cbn in En. simplify_eq.
        apply List.Forall_cons_iff in Hc as [_ Hc].
        split; [|apply cut_nul_nonul]. apply cut_nul_sub. by eapply unquote_c_lt.
      - rewrite name_field_noquote in En by done. by simplify_eq. }
    destruct Hn as [Hn Hn0]. apply List.Forall_forall. intros c Hin. unfold name_byte.
    rewrite forallb_forall in E4. specialize (E4 c Hin). apply negb_true_iff, N.eqb_neq in E4.
    eapply List.Forall_forall in Hn; [|exact Hin].
    assert (c <> 0%N) by (by intros ->). simpl in Hn. lia.
Qed.

Lemma split_char_sub (P : N -> Prop) c b : Forall P b -> Forall (Forall P) (split_char c b).
Proof.
  induction 1 as [|x b Hx Hb IH]; cbn [split_char]; [repeat constructor|].
  destruct (x =? c)%N; [apply List.Forall_cons; [constructor|done]|].
  destruct (split_char c b) as [|y ys]; [repeat constructor; done|].
  apply List.Forall_cons_iff in IH as [? ?]. apply List.Forall_cons; [by apply List.Forall_cons|done].
Qed.
Lemma removelast_sub {A} (P : A -> Prop) l : Forall P l -> Forall P (removelast l).
Proof.
  induction 1 as [|x [|y l] Hx Hl IH]; cbn; [constructor|constructor|]. by apply List.Forall_cons.
Qed.
Lemma omap_all_Forall {A B} (f : A -> option B) (P : A -> Prop) (Q : B -> Prop) l l' :
  (forall x y, P x -> f x = Some y -> Q y) -> Forall P l -> omap_all f l = Some l' -> Forall Q l'.
Proof.
  intros Hf Hl. revert l'. induction Hl as [|x l Hx Hl IH]; cbn; intros l'; [intros [= <-]; constructor|].
  destruct (f x) eqn:E; [|done]. destruct (omap_all f l) eqn:E2; [|done]. intros [= <-].
  apply List.Forall_cons; [by eapply Hf|by apply IH].
Qed.
Lemma mktree_input_wf b es : Forall (fun c => (c < 256)%N) b -> mktree_input b = Some es -> Forall wf_entry es.
Proof.
  intros Hb. unfold mktree_input. destruct (omap_all _ _) as [l|] eqn:E; [|done]. intros [= <-].
  rewrite sort_perm. eapply omap_all_Forall in E; [exact E| |].
  - intros x y Hx. destruct (cut_nul x); [done|]. by apply mktree_line_wf.
  - unfold input_lines. pose proof (split_char_sub _ 10%N b Hb).
    destruct (last _) as [[|]|]; [by apply removelast_sub|done|done].
Qed.
