(** Proofs about [Json.v]: dumped text is printable ASCII and [loads] inverts
    [dumps]. *)
From Verif Require Import Base BaseFacts Json Spec_Json.

Section JsonInd.
  Variable P : json -> Prop.
  Hypothesis Hnull : P JNull.
  Hypothesis Hbool : forall b, P (JBool b).
  Hypothesis Hint : forall z, P (JInt z).
  Hypothesis Hfloat : forall r, P (JFloat r).
  Hypothesis Hnan : P JNan.
  Hypothesis Hinf : forall b, P (JInf b).
  Hypothesis Hstr : forall s, P (JStr s).
  Hypothesis Harr : forall l, Forall P l -> P (JArr l).
  Hypothesis Hobj : forall kvs, Forall (fun kv => P (snd kv)) kvs -> P (JObj kvs).
  Fixpoint json_ind' (j : json) : P j :=
    match j with
    | JNull => Hnull | JBool b => Hbool b | JInt z => Hint z | JFloat r => Hfloat r
    | JNan => Hnan | JInf b => Hinf b | JStr s => Hstr s
    | JArr l => Harr l ((fix go l := match l return Forall P l with
                                     | [] => List.Forall_nil P
                                     | x :: r => List.Forall_cons _ _ _ (json_ind' x) (go r)
                                     end) l)
    | JObj kvs => Hobj kvs ((fix go l := match l return Forall (fun kv => P (snd kv)) l with
                                     | [] => List.Forall_nil _
                                     | x :: r => List.Forall_cons _ _ _ (json_ind' (snd x)) (go r)
                                     end) kvs)
    end.
End JsonInd.

Lemma json_ok_arr l : json_ok (JArr l) <-> Forall json_ok l.
Proof. simpl. induction l as [|x l IH]; [split; [constructor|done]|].
  split.
  - intros [H1 H2]. constructor; [done|]. by apply IH.
  - inversion 1; subst. split; [done|]. by apply IH. Qed.
Lemma json_ok_obj l :
  json_ok (JObj l) <-> NoDup (map fst l) /\ Forall (fun kv => scalar_str (fst kv) /\ json_ok (snd kv)) l.
Proof. simpl. apply and_iff_compat_l. induction l as [|x l IH]; [split; [constructor|done]|].
  split.
  - intros [H1 H2]. constructor; [done|]. by apply IH.
  - inversion 1; subst. split; [done|]. by apply IH. Qed.

(** ** printable ASCII *)
Definition printable (c : N) : Prop := (32 <= c <= 126)%N.
Definition printable_str (s : pystr) : Prop := Forall printable s.

Lemma hexdigit_printable n : (n < 16)%N -> printable (hexdigit n).
Proof. unfold hexdigit, printable. intros. destruct (N.ltb_spec n 10); lia. Qed.

Lemma u_escape_printable n : printable_str (u_escape n).
Proof. unfold u_escape. repeat constructor; unfold printable; try lia; apply hexdigit_printable;
  apply N.mod_lt; lia. Qed.

Lemma dump_char_printable c : printable_str (dump_char c).
Proof. unfold dump_char.
  repeat (match goal with |- printable_str (if ?b then _ else _) => destruct b eqn:?
          end; [solve [repeat constructor; unfold printable; lia]|]).
  destruct ((32 <=? c) && (c <=? 126))%N eqn:E.
  - apply andb_true_iff in E as [E1 E2]. apply N.leb_le in E1, E2. repeat constructor; done.
  - destruct (c <? 0x10000)%N; [apply u_escape_printable|].
    apply Forall_app; split; apply u_escape_printable. Qed.

Lemma dump_str_printable s : printable_str (dump_str s).
Proof. unfold dump_str. constructor; [unfold printable; lia|].
  apply Forall_app. split; [|repeat constructor; unfold printable; lia].
  induction s as [|c s IH]; simpl; [constructor|]. apply Forall_app. split; [apply dump_char_printable|done]. Qed.

Lemma join_Forall (P : N -> Prop) sep l :
  Forall P sep -> Forall (Forall P) l -> Forall P (join sep l).
Proof. intros Hs. induction 1 as [|x l Hx Hl IH]; simpl; [constructor|].
  destruct l; [done|]. apply Forall_app. split; [done|]. apply Forall_app. by split. Qed.

Lemma is_digit_printable c : is_digit c = true -> printable c.
Proof. unfold is_digit, printable. rewrite andb_true_iff, !N.leb_le. lia. Qed.

Lemma forallb_digits s : forallb is_digit s = true <-> Forall (fun c => is_digit c = true) s.
Proof. rewrite forallb_forall, Forall_forall. setoid_rewrite elem_of_list_In. done. Qed.

Lemma str_of_Z_printable z : printable_str (str_of_Z z).
Proof.
  assert (forall n, printable_str (str_of_N n)).
  { intros n. pose proof (str_of_N_digits n) as H. apply forallb_digits in H.
    eapply Forall_impl; [exact H|]. apply is_digit_printable. }
  destruct z; simpl; [repeat constructor; unfold printable; lia|done|].
  constructor; [unfold printable; lia|apply H]. Qed.

Lemma digits_printable d : digits d -> printable_str d.
Proof. intros [_ H]. eapply Forall_impl; [exact H|]. apply is_digit_printable. Qed.

Ltac lit_printable := repeat constructor; unfold printable; lia.

Lemma float_text_printable r : float_text r -> printable_str r.
Proof. intros (sg & ip & fr & ex & -> & Hsg & Hip & Hfr & Hex & _).
  repeat (apply Forall_app; split).
  - destruct Hsg as [->| ->]; lit_printable.
  - destruct Hip as [->|[H _]]; [lit_printable|by apply digits_printable].
  - destruct Hfr as [->|(d & -> & H)]; [constructor|]. apply Forall_app; split; [lit_printable|by apply digits_printable].
  - destruct Hex as [->|(e & s & d & -> & He & Hs & Hd)]; [constructor|].
    apply Forall_app; split; [destruct He as [->| ->]; lit_printable|].
    apply Forall_app; split; [destruct Hs as [->|[->| ->]]; lit_printable|by apply digits_printable]. Qed.

Lemma dumps_printable j : json_ok j -> printable_str (dumps j).
Proof. induction j as [|b|z|r| |b|s|l IH|kvs IH] using json_ind'; intros Hok; cbn [dumps].
  - lit_printable.
  - destruct b; lit_printable.
  - apply str_of_Z_printable.
  - by apply float_text_printable.
  - lit_printable.
  - destruct b; lit_printable.
  - apply dump_str_printable.
  - constructor; [unfold printable; lia|]. apply Forall_app; split; [|lit_printable].
    apply join_Forall; [lit_printable|]. apply json_ok_arr in Hok.
    apply Forall_map. eapply Forall_impl; [exact (proj2 (Forall_and _ _) (conj IH Hok))|]. naive_solver.
  - constructor; [unfold printable; lia|]. apply Forall_app; split; [|lit_printable].
    apply join_Forall; [lit_printable|]. apply json_ok_obj in Hok as [_ Hok].
    apply Forall_map. eapply Forall_impl; [exact (proj2 (Forall_and _ _) (conj IH Hok))|].
    intros [k v] (H1 & H2 & H3). unfold compose. cbn [fst snd] in *.
    apply Forall_app; split; [apply dump_str_printable|]. simpl.
    constructor; [unfold printable; lia|]. constructor; [unfold printable; lia|]. by apply H1. Qed.

(** ** strings *)
Lemma hexval_hexdigit n : (n < 16)%N -> hexval (hexdigit n) = Some n.
Proof. unfold hexdigit, hexval. intros H. destruct (N.ltb_spec n 10).
  - rewrite (proj2 (andb_true_iff _ _)); [f_equal; lia|]. rewrite !N.leb_le. lia.
  - destruct ((48 <=? 87 + n) && (87 + n <=? 57))%N eqn:E.
    { apply andb_true_iff in E as [_ E]. apply N.leb_le in E. lia. }
    rewrite (proj2 (andb_true_iff _ _)); [f_equal; lia|]. rewrite !N.leb_le. lia. Qed.

Lemma hex4_u n : (n < 0x10000)%N ->
  hex4 (hexdigit (n / 4096 mod 16)) (hexdigit (n / 256 mod 16))
       (hexdigit (n / 16 mod 16)) (hexdigit (n mod 16)) = Some n.
Proof. intros H. unfold hex4.
  rewrite !hexval_hexdigit by (apply N.mod_lt; lia). f_equal.
  rewrite (N.mod_small (n / 4096)) by (apply N.div_lt_upper_bound; lia).
  assert (n / 256 = n / 16 / 16)%N as Ea by (rewrite N.div_div by lia; done).
  assert (n / 4096 = n / 256 / 16)%N as Eb by (rewrite N.div_div by lia; done).
  pose proof (N.div_mod n 16 ltac:(done)) as E1. pose proof (N.div_mod (n / 16) 16 ltac:(done)) as E2.
  pose proof (N.div_mod (n / 256) 16 ltac:(done)) as E3. rewrite <- Ea in E2. rewrite <- Eb in E3. lia. Qed.

Lemma high_range c : (0x10000 <= c)%N -> (c < 0x110000)%N ->
  is_high (0xD800 + (c - 0x10000) / 1024) = true /\ (0xD800 + (c - 0x10000) / 1024 < 0x10000)%N.
Proof. intros H1 H2. assert ((c - 0x10000) / 1024 < 1024)%N as Hd by (apply N.div_lt_upper_bound; lia).
  unfold is_high. rewrite andb_true_iff, !N.leb_le. revert Hd. generalize ((c - 0x10000) / 1024)%N. lia. Qed.
Lemma low_range c :
  is_low (0xDC00 + (c - 0x10000) mod 1024) = true /\ (0xDC00 + (c - 0x10000) mod 1024 < 0x10000)%N.
Proof. assert ((c - 0x10000) mod 1024 < 1024)%N as Hd by (apply N.mod_lt; lia).
  unfold is_low. rewrite andb_true_iff, !N.leb_le. revert Hd. generalize ((c - 0x10000) mod 1024)%N. lia. Qed.

Lemma scan_dump_char n c r :
  scalar c -> scan_str (S n) (dump_char c ++ r) = cons_fst c (scan_str n r).
Proof.
  intros Hc. unfold dump_char.
  Local Ltac kill c := match goal with |- context [if (c =? ?k)%N then _ else _] =>
      destruct (N.eqb_spec c k) as [->|?]; [reflexivity|] end.
  do 7 kill c.
  destruct ((32 <=? c) && (c <=? 126))%N eqn:E.
  - apply andb_true_iff in E as [E1 E2]. apply N.leb_le in E1, E2.
    simpl. rewrite (proj2 (N.eqb_neq c 34)), (proj2 (N.eqb_neq c 92)) by done.
    destruct (N.ltb_spec c 32); [lia|]. done.
  - destruct (N.ltb_spec c 0x10000).
    + unfold u_escape. cbn [app scan_str]. change (92 =? 34)%N with false. change (92 =? 92)%N with true.
      change (117 =? 117)%N with true. cbn iota. rewrite hex4_u by done.
      assert (is_high c = false) as ->; [|done].
      unfold is_high. apply andb_false_iff. rewrite !N.leb_gt. destruct Hc; lia.
    + assert (Hlt : (c < 0x110000)%N) by (destruct Hc; lia).
      destruct (high_range c) as [Hh1 Hh2]; [lia..|].
      destruct (low_range c) as [Hl1 Hl2].
      set (h := (0xD800 + (c - 0x10000) / 1024)%N) in *.
      set (l := (0xDC00 + (c - 0x10000) mod 1024)%N) in *.
      unfold u_escape. cbn [app scan_str]. change (92 =? 34)%N with false. change (92 =? 92)%N with true.
      change (117 =? 117)%N with true. cbn iota. rewrite (hex4_u h) by done. rewrite Hh1.
      cbn [low_escape]. change ((92 =? 92) && (117 =? 117))%N with true. cbn iota.
      rewrite (hex4_u l) by done. rewrite Hl1.
      f_equal. subst h l. pose proof (N.div_mod (c - 0x10000) 1024 ltac:(done)) as Hdm.
      revert Hdm. generalize ((c - 0x10000) / 1024)%N ((c - 0x10000) mod 1024)%N.
      intros q m Hdm. lia. Qed.

Lemma scan_dump_str s r n :
  scalar_str s -> (List.length (concat (map dump_char s)) < n)%nat ->
  scan_str n (concat (map dump_char s) ++ 34%N :: r) = Some (s, r).
Proof. intros Hs. revert n. induction Hs as [|c s Hc Hs IH]; intros n Hn.
  - simpl. destruct n; [simpl in Hn; lia|]. done.
  - destruct n; [lia|]. simpl map. simpl concat. rewrite <- app_assoc.
    rewrite scan_dump_char by done. rewrite IH; [done|].
    simpl in Hn. rewrite app_length in Hn.
    assert (1 <= List.length (dump_char c))%nat; [|lia].
    unfold dump_char. repeat match goal with |- context [if ?b then _ else _] => destruct b end; simpl; lia. Qed.

Lemma scan_dump_str' s r :
  scalar_str s ->
  forall t, t = concat (map dump_char s) ++ 34%N :: r ->
  scan_str (S (List.length t)) t = Some (s, r).
Proof. intros Hs t ->. apply scan_dump_str; [done|]. rewrite app_length. lia. Qed.

(** ** numbers *)
(** what may follow a value without being taken for a continuation *)
Definition stop (r : pystr) : Prop :=
  match r with [] => True | c :: _ => is_digit c = false /\ c <> 46%N /\ c <> 101%N /\ c <> 69%N end.
Definition nodigit (r : pystr) : Prop :=
  match r with [] => True | c :: _ => is_digit c = false end.

Lemma span_digits_app d r :
  Forall (fun c => is_digit c = true) d -> nodigit r -> span_digits (d ++ r) = (d, r).
Proof. intros Hd Hr. induction Hd as [|c d Hc Hd IH]; simpl.
  - destruct r as [|c r]; [done|]. simpl in *. by rewrite Hr.
  - rewrite Hc, IH. done. Qed.

Definition int_part (ip : pystr) : Prop := ip = ps "0" \/ (digits ip /\ hd_error ip <> Some 48%N).

Lemma scan_int_part_ok sg ip r :
  (sg = [] \/ sg = ps "-") -> int_part ip -> nodigit r ->
  scan_int_part (sg ++ ip ++ r) = Some (sg ++ ip, r).
Proof. intros Hsg Hip Hr.
  assert (Hgen : forall sg', match ip ++ r with
     | c :: r1 => if (c =? 48)%N then Some (sg' ++ [c], r1)
        else if is_digit c then let '(a, b) := span_digits (ip ++ r) in Some (sg' ++ a, b) else None
     | [] => None end = Some (sg' ++ ip, r)).
  { intros sg'. destruct Hip as [->|[[Hne Hd] Hh]]; [done|].
    destruct ip as [|c ip]; [done|]. cbn [app].
    rewrite (proj2 (N.eqb_neq c 48)); [|intros ->; done].
    inversion Hd; subst. rewrite H1.
    change (c :: ip ++ r) with ((c :: ip) ++ r).
    by rewrite (span_digits_app (c :: ip) r). }
  destruct Hsg as [->| ->].
  - unfold scan_int_part. simpl app at 1. specialize (Hgen []).
    assert (exists c t, ip ++ r = c :: t /\ is_digit c = true) as (c & t & Et & Hc).
    { destruct Hip as [->|[[Hne Hd] _]]; [by do 2 eexists|].
      destruct ip as [|c ip]; [done|]. inversion Hd; subst. by do 2 eexists. }
    rewrite Et in *. cbn [app]. rewrite is_digit_not_minus by done. exact Hgen.
  - unfold scan_int_part. cbn [app]. change (45 =? 45)%N with true. cbn iota. apply (Hgen [45%N]). Qed.

Lemma str_of_N_int_part n : int_part (str_of_N n).
Proof. destruct (str_of_N_head n) as [[_ ->]|(c & r & E & Hc & Hn & _)]; [by left|].
  right. split.
  - split; [by rewrite E|]. apply forallb_digits. apply str_of_N_digits.
  - rewrite E. simpl. congruence. Qed.

Lemma stop_nodigit r : stop r -> nodigit r.
Proof. destruct r; simpl; tauto. Qed.

Lemma scan_frac_stop r : stop r -> scan_frac r = ([], r).
Proof. destruct r as [|c r]; simpl; [done|]. intros (_ & H & _).
  by rewrite (proj2 (N.eqb_neq _ _) H). Qed.
Lemma scan_exp_stop r : stop r -> scan_exp r = ([], r).
Proof. destruct r as [|c r]; simpl; [done|]. intros (_ & _ & H1 & H2).
  by rewrite (proj2 (N.eqb_neq _ _) H1), (proj2 (N.eqb_neq _ _) H2). Qed.

Lemma scan_number_int z r : stop r -> scan_number (str_of_Z z ++ r) = Some (JInt z, r).
Proof. intros Hr. pose proof (Z_of_text_str z) as HZ. pose proof (stop_nodigit _ Hr) as Hn.
  assert (exists sg ip, str_of_Z z = sg ++ ip /\ (sg = [] \/ sg = ps "-") /\ int_part ip) as (sg & ip & E & Hsg & Hip).
  { destruct z as [|p|p]; simpl.
    - exists [], (ps "0"). split; [done|]. split; [by left|by left].
    - exists [], (str_of_N (Npos p)). split; [done|]. split; [by left|]. apply str_of_N_int_part.
    - exists (ps "-"), (str_of_N (Npos p)). split; [done|]. split; [by right|]. apply str_of_N_int_part. }
  unfold scan_number. rewrite E, <- app_assoc. rewrite scan_int_part_ok by done.
  rewrite scan_frac_stop, scan_exp_stop by done. by rewrite <- E, HZ. Qed.

Lemma scan_number_float t r : float_text t -> stop r -> scan_number (t ++ r) = Some (JFloat t, r).
Proof. intros (sg & ip & fr & ex & -> & Hsg & Hip & Hfr & Hex & Hne) Hr.
  unfold scan_number. rewrite <- !app_assoc.
  assert (Hexs : scan_exp (ex ++ r) = (ex, r)).
  { destruct Hex as [->|(e & s & d & -> & He & Hs & [Hd1 Hd2])]; [by apply scan_exp_stop|].
    destruct e as [|c [|]]; [by destruct He| |by destruct He].
    assert (((c =? 101) || (c =? 69))%N = true) as Hc by (destruct He as [[= ->]|[= ->]]; done).
    cbn [app]. cbn [scan_exp]. rewrite Hc.
    pose proof (span_digits_app d r Hd2 (stop_nodigit _ Hr)) as Hsp.
    rewrite <- app_assoc.
    destruct d as [|d0 d]; [done|].
    destruct Hs as [->|[->| ->]]; cbn [app].
    - cbn [app] in Hsp. assert (is_digit d0 = true) as Hd0 by by inversion Hd2.
      assert (((d0 =? 43) || (d0 =? 45))%N = false) as ->.
      { unfold is_digit in Hd0. apply andb_true_iff in Hd0 as [A B]. apply N.leb_le in A, B.
        apply orb_false_iff; rewrite !N.eqb_neq; lia. }
      rewrite Hsp. done.
    - change ((43 =? 43) || (43 =? 45))%N with true. cbn iota. cbn [app] in Hsp. rewrite Hsp. done.
    - change ((45 =? 43) || (45 =? 45))%N with true. cbn iota. cbn [app] in Hsp. rewrite Hsp. done. }
  assert (Hnd2 : nodigit (ex ++ r)).
  { destruct Hex as [->|(e & s & d & -> & He & _)]; [by apply stop_nodigit|].
    by destruct He as [->| ->]. }
  assert (Hfrs : scan_frac (fr ++ ex ++ r) = (fr, ex ++ r)).
  { destruct Hfr as [->|(d & -> & Hd1 & Hd2)].
    - cbn [app]. destruct Hex as [->|(e & s & d & -> & He & _)]; [by apply scan_frac_stop|].
      by destruct He as [->| ->].
    - cbn [app]. cbn [scan_frac]. change (46 =? 46)%N with true. cbn iota.
      rewrite span_digits_app by done. by destruct d. }
  assert (Hnd1 : nodigit (fr ++ ex ++ r)).
  { destruct Hfr as [->|(d & -> & _)]; done. }
  rewrite scan_int_part_ok by done. rewrite Hfrs, Hexs.
  rewrite <- app_assoc. destruct fr, ex; try done. exfalso. by apply Hne. Qed.

(** ** values *)
Fixpoint need (j : json) : nat :=
  match j with
  | JArr l => S (list_sum (map (fun x => S (need x)) l))
  | JObj kvs => S (list_sum (map (fun kv => S (need (snd kv))) kvs))
  | _ => 1
  end.

(** first characters of dumped values *)
Lemma dumps_head j : json_ok j -> exists c r, dumps j = c :: r /\ is_ws c = false /\ c <> 93%N /\ c <> 125%N.
Proof. destruct j as [|b|z|r| |b|s|l|kvs]; intros Hok; simpl.
  - by do 2 eexists.
  - destruct b; by do 2 eexists.
  - assert (forall n, exists c r, str_of_N n = c :: r /\ is_digit c = true) as H.
    { intros n. destruct (str_of_N_head n) as [[_ ->]|(c & r & E & Hc & _)]; by do 2 eexists. }
    assert (forall c, is_digit c = true -> is_ws c = false /\ c <> 93%N /\ c <> 125%N) as H2.
    { intros c. unfold is_digit, is_ws. rewrite andb_true_iff, !N.leb_le, !orb_false_iff, !N.eqb_neq. lia. }
    destruct z as [|p|p]; simpl; [by do 2 eexists| |by do 2 eexists].
    destruct (H (Npos p)) as (c & r & -> & Hc). eauto.
  - destruct Hok as (sg & ip & fr & ex & -> & Hsg & Hip & _).
    assert (forall c, is_digit c = true -> is_ws c = false /\ c <> 93%N /\ c <> 125%N) as H2.
    { intros c. unfold is_digit, is_ws. rewrite andb_true_iff, !N.leb_le, !orb_false_iff, !N.eqb_neq. lia. }
    destruct Hsg as [->| ->]; [|by do 2 eexists].
    destruct Hip as [->|[[Hne Hd] _]]; [by do 2 eexists|].
    destruct ip as [|c ip]; [done|]. inversion Hd; subst. simpl. eauto.
  - by do 2 eexists.
  - destruct b; by do 2 eexists.
  - by do 2 eexists.
  - by do 2 eexists.
  - by do 2 eexists. Qed.

Lemma skip_ws_dumps j r : json_ok j -> skip_ws (dumps j ++ r) = dumps j ++ r.
Proof. intros H. destruct (dumps_head j H) as (c & t & -> & Hc & _). simpl. by rewrite Hc. Qed.

Lemma strip_none p s c r : s = c :: r -> match p with [] => False | a :: _ => a <> c end -> strip_prefix p s = None.
Proof. intros ->. destruct p as [|a p]; [done|]. intros H. simpl. by rewrite (proj2 (N.eqb_neq _ _) H). Qed.

(** A text that starts like a number is scanned as one. *)
Lemma scan_once_num n s x c r :
  s = c :: r -> (c = 45%N \/ is_digit c = true) -> scan_number s = Some x -> scan_once (S n) s = Some x.
Proof. intros Hs Hc Hx.
  assert (c <> 34 /\ c <> 123 /\ c <> 91 /\ c <> 110 /\ c <> 116 /\ c <> 102)%N as (?&?&?&?&?&?).
  { destruct Hc as [->|Hc]; [done|]. unfold is_digit in Hc. apply andb_true_iff in Hc as [A B].
    apply N.leb_le in A, B. lia. }
  cbn [scan_once]. rewrite Hs at 1.
  rewrite (proj2 (N.eqb_neq c 34)), (proj2 (N.eqb_neq c 123)), (proj2 (N.eqb_neq c 91)) by done.
  rewrite !(strip_none _ s c r Hs) by auto. by rewrite Hx. Qed.

Lemma dumps_number_head z : exists c r, str_of_Z z = c :: r /\ (c = 45%N \/ is_digit c = true).
Proof. destruct z as [|p|p]; simpl; [exists 48%N, []; auto| |eauto].
  destruct (str_of_N_head (Npos p)) as [[? _]|(c & r & -> & Hc & _)]; [done|]. eauto. Qed.

Lemma float_head t : float_text t -> exists c r, t = c :: r /\ (c = 45%N \/ is_digit c = true).
Proof. intros (sg & ip & fr & ex & -> & Hsg & Hip & _).
  destruct Hsg as [->| ->]; [|simpl; eauto].
  destruct Hip as [->|[[Hne Hd] _]]; [simpl; eauto|].
  destruct ip as [|c ip]; [done|]. inversion Hd; subst. simpl; eauto. Qed.

Lemma stop_sep s : stop (44%N :: s) /\ stop (93%N :: s) /\ stop (125%N :: s).
Proof. done. Qed.

Lemma join_cons2 sep x y l : join sep (x :: y :: l) = x ++ sep ++ join sep (y :: l).
Proof. done. Qed.

Lemma scan_dumps j : json_ok j -> forall n r, stop r -> (need j <= n)%nat ->
  scan_once n (dumps j ++ r) = Some (j, r).
Proof.
  induction j as [|b|z|t| |b|s|l IH|kvs IH] using json_ind'; intros Hok n r Hr Hn.
  - destruct n; [simpl in Hn; lia|]. done.
  - destruct n; [simpl in Hn; lia|]. by destruct b.
  - destruct n; [simpl in Hn; lia|]. destruct (dumps_number_head z) as (c & t & E & Hc).
    simpl dumps. eapply scan_once_num; [by rewrite E|exact Hc|]. by apply scan_number_int.
  - destruct n; [simpl in Hn; lia|]. destruct (float_head t Hok) as (c & t' & E & Hc).
    simpl dumps. eapply scan_once_num; [by rewrite E|exact Hc|]. by apply scan_number_float.
  - destruct n; [simpl in Hn; lia|]. done.
  - destruct n; [simpl in Hn; lia|]. by destruct b.
  - destruct n; [simpl in Hn; lia|]. simpl in Hok.
    simpl dumps. unfold dump_str. cbn [app]. cbn [scan_once]. change (34 =? 34)%N with true. cbn iota.
    erewrite scan_dump_str'; [reflexivity|exact Hok|]. rewrite <- app_assoc. done.
  - apply json_ok_arr in Hok. destruct n; [simpl in Hn; lia|]. simpl dumps. cbn [app].
    cbn [scan_once]. change (91 =? 34)%N with false. change (91 =? 123)%N with false. change (91 =? 91)%N with true.
    cbn iota. destruct l as [|x l]; [done|].
    assert (Hit : forall l, l <> [] -> Forall json_ok l ->
      Forall (fun j => json_ok j -> forall n r, stop r -> (need j <= n)%nat -> scan_once n (dumps j ++ r) = Some (j, r)) l ->
      forall m, (list_sum (map (fun x => S (need x)) l) <= m)%nat ->
      scan_items m (join (ps ", ") (map dumps l) ++ 93%N :: r) = Some (l, r)).
    { clear. induction l as [|x l IHl]; [done|]. intros _ Hok IH m Hm.
      inversion Hok; subst. inversion IH; subst. destruct m; [simpl in Hm; lia|]. simpl in Hm.
      cbn [scan_items]. destruct l as [|y l].
      - simpl. rewrite H3; [done|done|done|lia].
      - cbn [map]. rewrite join_cons2. rewrite <- !app_assoc. rewrite H3; [|done|done|lia].
        cbn [skip_ws app]. change (is_ws 44) with false. cbn iota. change (44 =? 93)%N with false. change (44 =? 44)%N with true.
        cbn iota. cbn [skip_ws]. change (is_ws 32) with true. cbn iota.
        assert (Hsk : skip_ws (join (ps ", ") (map dumps (y :: l)) ++ 93%N :: r) = join (ps ", ") (map dumps (y :: l)) ++ 93%N :: r).
        { inversion H2; subst. destruct (dumps_head y H5) as (c & t & E & Hc & _).
          cbn [map]. destruct (map dumps l); simpl; rewrite E; simpl; by rewrite Hc. }
        cbn [map] in Hsk. rewrite Hsk. cbn [map] in IHl. rewrite IHl; [done|done|done|done|].
        simpl. simpl in Hm. lia. }
    specialize (Hit (x :: l)).
    assert (exists c t, join (ps ", ") (map dumps (x :: l)) ++ 93%N :: r = c :: t /\ is_ws c = false /\ c <> 93%N) as (c & t & Et & Hw & Hc).
    { inversion Hok; subst. destruct (dumps_head x H1) as (c & t & E & Hc & Hc2 & _).
      cbn [map]. destruct (map dumps l); simpl; rewrite E; simpl; eauto. }
    rewrite <- app_assoc. change ([93%N] ++ r) with (93%N :: r). rewrite Et in *. simpl skip_ws. rewrite Hw.
    rewrite (proj2 (N.eqb_neq _ _) Hc). rewrite Hit; [done|done|done|exact IH|]. simpl in Hn. simpl. lia.
  - apply json_ok_obj in Hok as [Hnd Hok]. destruct n; [simpl in Hn; lia|]. cbn [dumps]. rewrite <- app_comm_cons.
    cbn [scan_once]. change (123 =? 34)%N with false. change (123 =? 123)%N with true.
    cbn iota. destruct kvs as [|x l]; [done|].
    set (f := fun kv : pystr * json => dump_str (fst kv) ++ ps ": " ++ dumps (snd kv)) in *.
    assert (Hit : forall l, l <> [] -> Forall (fun kv => scalar_str (fst kv) /\ json_ok (snd kv)) l ->
      Forall (fun kv => json_ok (snd kv) -> forall n r, stop r -> (need (snd kv) <= n)%nat -> scan_once n (dumps (snd kv) ++ r) = Some (snd kv, r)) l ->
      forall m, (list_sum (map (fun kv => S (need (snd kv))) l) <= m)%nat ->
      scan_members m (join (ps ", ") (map f l) ++ 125%N :: r) = Some (l, r)).
    { clear. induction l as [|[k v] l IHl]; [done|]. intros _ Hok IH m Hm.
      inversion Hok as [|? ? [Hk Hv] Hok']; subst. inversion IH as [|? ? Hsc IH']; subst. simpl in Hk, Hv, Hsc.
      destruct m; [simpl in Hm; lia|]. simpl in Hm.
      assert (Hj : exists tl, join (ps ", ") (map f ((k, v) :: l)) ++ 125%N :: r = f (k, v) ++ tl /\
         tl = match l with [] => 125%N :: r | _ => ps ", " ++ join (ps ", ") (map f l) ++ 125%N :: r end).
      { destruct l as [|y l]; cbn [map].
        - eexists; split; reflexivity.
        - rewrite join_cons2. eexists; split; [|reflexivity]. by rewrite <- !app_assoc. }
      destruct Hj as (tl & -> & Htl). unfold f at 1. cbn [fst snd].
      unfold dump_str. rewrite <- !app_assoc. cbn [app]. cbn [scan_members].
      change (34 =? 34)%N with true. cbn [negb]. cbn iota.
      erewrite scan_dump_str'; [|exact Hk|by rewrite <- app_assoc].
      cbn [skip_ws]. change (is_ws 58) with false. cbn iota. change (58 =? 58)%N with true. cbn [negb]. cbn iota.
      cbn [skip_ws]. change (is_ws 32) with true. cbn iota.
      rewrite skip_ws_dumps by done.
      rewrite Hsc; [|done|destruct l; subst tl; done|lia].
      destruct l as [|y l]; subst tl.
      - done.
      - cbn [skip_ws app]. change (is_ws 44) with false. cbn iota. change (44 =? 125)%N with false. change (44 =? 44)%N with true.
        cbn iota. cbn [skip_ws]. change (is_ws 32) with true. cbn iota.
        assert (Hsk : skip_ws (join (ps ", ") (map f (y :: l)) ++ 125%N :: r) = join (ps ", ") (map f (y :: l)) ++ 125%N :: r).
        { cbn [map]. destruct (map f l); unfold f, dump_str; done. }
        rewrite Hsk. rewrite IHl; [done|done|done|done|].
        simpl. simpl in Hm. lia. }
    specialize (Hit (x :: l)).
    assert (exists t, join (ps ", ") (map f (x :: l)) ++ 125%N :: r = 34%N :: t) as (t & Et).
    { cbn [map]. destruct (map f l); unfold f, dump_str; simpl; eauto. }
    rewrite <- app_assoc. change ([125%N] ++ r) with (125%N :: r). rewrite Et in *. simpl skip_ws. change (is_ws 34) with false. cbn iota.
    change (34 =? 125)%N with false. cbn iota. rewrite Hit; [|done|done|exact IH|simpl in Hn; simpl; lia].
    by rewrite dof_nodup. Qed.

Lemma need_bound j : json_ok j -> (need j + 1 <= 2 * List.length (dumps j))%nat.
Proof. induction j as [|b|z|t| |b|s|l IH|kvs IH] using json_ind'; intros Hok.
  - simpl; lia.
  - destruct b; simpl; lia.
  - destruct (dumps_number_head z) as (c & t & E & Hc). simpl. rewrite E. simpl. lia.
  - destruct (float_head t Hok) as (c & r & -> & Hc). simpl. lia.
  - simpl; lia.
  - destruct b; simpl; lia.
  - simpl. rewrite app_length. simpl. lia.
  - apply json_ok_arr in Hok. simpl. rewrite app_length. simpl.
    assert (list_sum (map (fun x => S (need x)) l) <= 2 * List.length (join (ps ", ") (map dumps l)))%nat; [|lia].
    clear -IH Hok. induction l as [|x l IHl]; [simpl; lia|].
    inversion IH; subst. inversion Hok; subst. specialize (H1 H3). specialize (IHl H2 H4).
    destruct l as [|y l]; [simpl in *; lia|]. cbn [map] in *. rewrite join_cons2, !app_length. simpl in *. lia.
  - apply json_ok_obj in Hok as [_ Hok]. cbn [dumps need List.length]. rewrite app_length.
    set (h := fun kv : pystr * json => dump_str (fst kv) ++ ps ": " ++ dumps (snd kv)) in *.
    set (f := fun kv : pystr * json => S (need (snd kv))) in *.
    assert (list_sum (map f kvs) <= 2 * List.length (join (ps ", ") (map h kvs)))%nat; [|simpl List.length; lia].
    clear -IH Hok. induction kvs as [|x l IHl]; [simpl; lia|].
    inversion IH; subst. inversion Hok as [|? ? [_ H3] H4]; subst. specialize (H1 H3). specialize (IHl H2 H4).
    assert (f x <= 2 * List.length (h x))%nat.
    { unfold f, h. rewrite !app_length. lia. }
    clearbody f h. destruct l as [|y l]; [simpl in *; lia|].
    cbn [map] in *. rewrite join_cons2, !app_length. simpl in *. lia. Qed.

(** C06 *)
Lemma loads_dumps j : json_ok j -> loads (dumps j) = Some j.
Proof. intros Hok. unfold loads. rewrite <- (app_nil_r (dumps j)) at 2. rewrite skip_ws_dumps by done.
  rewrite (scan_dumps j Hok _ []); [done|done|]. pose proof (need_bound j Hok). lia. Qed.

Lemma dumps_ne j : json_ok j -> dumps j <> [].
Proof. intros H. destruct (dumps_head j H) as (c & r & -> & _). done. Qed.

Lemma printable_not_linesep c : printable c -> is_linesep c = false.
Proof. unfold printable, is_linesep. intros. rewrite !orb_false_iff, !N.eqb_neq. lia. Qed.

(** the dumped text is a single line *)
Lemma splitlines_dumps j : json_ok j -> splitlines (dumps j) = [dumps j].
Proof. intros H. apply splitlines_single; [by apply dumps_ne|].
  apply forallb_forall. intros c Hc. apply negb_true_iff, printable_not_linesep.
  pose proof (dumps_printable j H) as Hp. unfold printable_str in Hp. rewrite Forall_forall in Hp.
  apply Hp. by apply elem_of_list_In. Qed.

Lemma C06_line_lemma j : json_ok j ->
  Forall (fun c => 32 <= c /\ c <= 126)%N (dumps j) /\ splitlines (dumps j) = [dumps j].
Proof. intros H. split; [exact (dumps_printable j H)|by apply splitlines_dumps]. Qed.
