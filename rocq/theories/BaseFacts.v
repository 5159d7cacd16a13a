(** Facts about the definitions of [Base.v]. *)
From Verif Require Import Base.
From Coq Require Decimal DecimalN DecimalFacts.

(** ** split / join *)
Lemma split_char_ne c s : split_char c s <> [].
Proof. destruct s as [|x r]; simpl; [done|]. destruct (x =? c)%N; [done|]. by destruct (split_char c r). Qed.

Definition nochar (c : N) (s : pystr) : Prop := Forall (fun x => x <> c) s.

Lemma split_nochar c s : nochar c s -> split_char c s = [s].
Proof.
  induction 1 as [|x l Hx Hl IH]; simpl; [done|].
  destruct (N.eqb_spec x c); [done|]. by rewrite IH.
Qed.

Lemma split_char_app c s1 s2 :
  nochar c s1 -> split_char c (s1 ++ c :: s2) = s1 :: split_char c s2.
Proof.
  induction 1 as [|x l Hx Hl IH]; simpl.
  - by rewrite N.eqb_refl.
  - destruct (N.eqb_spec x c); [done|]. by rewrite IH.
Qed.

Lemma split_join c l :
  l <> [] -> Forall (nochar c) l -> split_char c (join [c] l) = l.
Proof.
  intros Hne Hl. induction Hl as [|x l Hx Hl IH]; [done|].
  destruct l as [|y l].
  - simpl. by apply split_nochar.
  - change (join [c] (x :: y :: l)) with (x ++ c :: join [c] (y :: l)).
    rewrite split_char_app; [|done]. rewrite IH; [done|done].
Qed.

Lemma split_char_nochar c s : Forall (nochar c) (split_char c s).
Proof.
  induction s as [|x r IH]; simpl.
  - constructor; [constructor|constructor].
  - destruct (N.eqb_spec x c).
    + constructor; [constructor|done].
    + destruct (split_char c r) as [|y ys]; [repeat constructor; done|].
      inversion IH; subst. constructor; [|done]. by constructor.
Qed.

Lemma join_split c s : join [c] (split_char c s) = s.
Proof.
  induction s as [|x r IH]; simpl; [done|].
  destruct (N.eqb_spec x c) as [->|].
  - pose proof (split_char_ne c r). destruct (split_char c r) as [|y ys] eqn:E; [done|].
    change (join [c] ([] :: y :: ys)) with ([] ++ [c] ++ join [c] (y :: ys)). by rewrite IH.
  - pose proof (split_char_ne c r). destruct (split_char c r) as [|y ys] eqn:E; [done|].
    destruct ys; simpl in *; by rewrite IH.
Qed.

Lemma split_char_app_gen c s1 s2 :
  split_char c (s1 ++ c :: s2) = split_char c s1 ++ split_char c s2.
Proof.
  induction s1 as [|x l IH]; simpl.
  - by rewrite N.eqb_refl.
  - destruct (N.eqb_spec x c); [by rewrite IH|].
    rewrite IH. pose proof (split_char_ne c l). by destruct (split_char c l).
Qed.

(** ** splitlines *)
Lemma splitlines_single s :
  s <> [] -> forallb (fun c => negb (is_linesep c)) s = true -> splitlines s = [s].
Proof.
  induction s as [|x r IH]; [done|]. intros _ H. simpl in H.
  apply andb_true_iff in H as [Hx Hr]. apply negb_true_iff in Hx.
  simpl. rewrite Hx. destruct r as [|y r']; [done|].
  by rewrite IH.
Qed.

(** ** decimals *)
Lemma uint_p_digits d : forallb is_digit (uint_p d) = true.
Proof. by induction d. Qed.
Lemma p_uint_p d : p_uint (uint_p d) = d.
Proof. induction d; simpl; by rewrite ?IHd. Qed.

Lemma str_of_N_digits n : forallb is_digit (str_of_N n) = true.
Proof. apply uint_p_digits. Qed.
Lemma N_of_str_of_N n : N_of_digits (str_of_N n) = n.
Proof. unfold N_of_digits, str_of_N. rewrite p_uint_p. apply DecimalN.Unsigned.of_to. Qed.

Lemma to_uint_norm n : Decimal.unorm (N.to_uint n) = N.to_uint n.
Proof. rewrite <- DecimalN.Unsigned.to_of. by rewrite DecimalN.Unsigned.of_to. Qed.

(** A printed number has no leading zero unless it is zero. *)
Lemma str_of_N_head n :
  (n = 0%N /\ str_of_N n = [48%N]) \/
  exists c r, str_of_N n = c :: r /\ is_digit c = true /\ c <> 48%N /\ n <> 0%N.
Proof.
  pose proof (to_uint_norm n) as H. pose proof (DecimalN.Unsigned.of_to n) as H2.
  unfold str_of_N. destruct (N.to_uint n) as [|d|d|d|d|d|d|d|d|d|d] eqn:E.
  1: { destruct n; simpl in H; done. }
  1: { left. cbn in H.
       assert (Hd : d = Decimal.Nil).
       { clear -H. unfold Decimal.unorm in H. simpl in H.
         assert (G : forall u, Decimal.nzhead u <> Decimal.D0 d).
         { induction u; simpl; congruence. }
         destruct (Decimal.nzhead d) eqn:E2; try (by specialize (G d); congruence); congruence. }
       subst d. split; [|done]. rewrite <- H2. done. }
  all: right; do 2 eexists; split; [simpl; reflexivity|]; split; [done|]; split; [done|];
    intros ->; discriminate E.
Qed.

Lemma str_of_N_all_digits n : all_digits (str_of_N n) = true.
Proof.
  destruct (str_of_N_head n) as [[_ ->]|(c & r & E & Hc & _)]; [done|].
  unfold all_digits. rewrite E. rewrite <- E. apply str_of_N_digits.
Qed.

Lemma is_digit_not_minus c : is_digit c = true -> (c =? 45)%N = false.
Proof. unfold is_digit. intros H. apply andb_true_iff in H as [H1 H2].
  apply N.leb_le in H1, H2. apply N.eqb_neq. lia. Qed.

Lemma Z_of_text_str z : Z_of_text (str_of_Z z) = z.
Proof.
  destruct z as [|p|p]; [done| |].
  - unfold str_of_Z. pose proof (str_of_N_all_digits (Npos p)) as H.
    pose proof (N_of_str_of_N (Npos p)) as H2.
    destruct (str_of_N (Npos p)) as [|c r] eqn:E; [done|].
    simpl in H. apply andb_true_iff in H as [Hc _].
    unfold Z_of_text. rewrite is_digit_not_minus by done. rewrite H2. done.
  - simpl. rewrite N_of_str_of_N. done.
Qed.

Lemma py_int_str z : py_int (str_of_Z z) = Some z.
Proof.
  pose proof (Z_of_text_str z) as HZ.
  destruct z as [|p|p]; [done| |].
  - unfold str_of_Z in *. pose proof (str_of_N_all_digits (Npos p)) as H.
    destruct (str_of_N (Npos p)) as [|c r] eqn:E; [done|].
    assert (is_digit c = true) by (simpl in H; by apply andb_true_iff in H as [? _]).
    unfold py_int. rewrite is_digit_not_minus by done. rewrite H. by rewrite HZ.
  - unfold py_int, str_of_Z in *. simpl (45 =? 45)%N. cbn iota.
    rewrite str_of_N_all_digits. by rewrite HZ.
Qed.

Lemma str_of_Z_inj a b : str_of_Z a = str_of_Z b -> a = b.
Proof. intros H. rewrite <- (Z_of_text_str a), <- (Z_of_text_str b). by rewrite H. Qed.

(** ** startswith *)
Lemma startswith_spec p s : startswith p s = true <-> exists r, s = p ++ r.
Proof.
  revert s. induction p as [|a p IH]; intros s; simpl; [naive_solver|].
  destruct s as [|b s]; [naive_solver|].
  rewrite andb_true_iff, N.eqb_eq, IH. naive_solver.
Qed.

(** ** dictionaries *)
Section Dict.
  Context {K V : Type} `{EqDecision K}.
  Implicit Types d : pydict K V.

  Lemma dget_dset_eq d k v : dget (dset d k v) k = Some v.
  Proof. induction d as [|[k' v'] d IH]; simpl; [by rewrite decide_True|].
    destruct (decide (k' = k)); simpl; [by rewrite decide_True|by rewrite decide_False]. Qed.
  Lemma dget_dset_ne d k k2 v : k <> k2 -> dget (dset d k v) k2 = dget d k2.
  Proof. intros Hn. induction d as [|[k' v'] d IH]; simpl; [by rewrite decide_False|].
    destruct (decide (k' = k)) as [->|]; simpl; [by rewrite !decide_False by done|].
    destruct (decide (k' = k2)); done. Qed.
  Lemma dget_dset d k k2 v : dget (dset d k v) k2 = if decide (k = k2) then Some v else dget d k2.
  Proof. destruct (decide (k = k2)) as [->|]; [apply dget_dset_eq|by apply dget_dset_ne]. Qed.

  Lemma dget_None d k : dget d k = None <-> k ∉ dkeys d.
  Proof. unfold dkeys. induction d as [|[k' v'] d IH]; simpl; [set_solver|].
    rewrite elem_of_cons. destruct (decide (k' = k)); [naive_solver|]. rewrite IH. naive_solver. Qed.
  Lemma dget_Some_In d k v : dget d k = Some v -> In (k, v) d.
  Proof. induction d as [|[k' v'] d IH]; simpl; [done|].
    destruct (decide (k' = k)) as [->|]; [intros [= ->]; by left|]. right. auto. Qed.
  Lemma dget_is_Some d k : is_Some (dget d k) <-> k ∈ dkeys d.
  Proof. rewrite <- not_eq_None_Some, dget_None. destruct (decide (k ∈ dkeys d)); tauto. Qed.
  Lemma In_dget d k v : NoDup (dkeys d) -> In (k, v) d -> dget d k = Some v.
  Proof. induction d as [|[k' v'] d IH]; simpl; [done|].
    intros Hnd. apply NoDup_cons in Hnd as [Hni Hnd]. intros [[= -> ->]|Hin].
    - by rewrite decide_True.
    - rewrite decide_False; [auto|]. intros ->. apply Hni.
      apply elem_of_list_In. apply in_map_iff. by exists (k, v). Qed.

  Lemma dkeys_dset d k v :
    dkeys (dset d k v) = if decide (k ∈ dkeys d) then dkeys d else dkeys d ++ [k].
  Proof. unfold dkeys. induction d as [|[k' v'] d IH].
    - rewrite decide_False; [done|]. simpl. set_solver.
    - cbn [dset map]. destruct (decide (k' = k)) as [->|Hne].
      + rewrite decide_True; [done|]. cbn. set_solver.
      + cbn [map fst]. rewrite IH. destruct (decide (k ∈ map fst d)).
        * rewrite decide_True; [done|]. set_solver.
        * rewrite decide_False; [done|]. set_solver. Qed.
  Lemma dset_nodup d k v : NoDup (dkeys d) -> NoDup (dkeys (dset d k v)).
  Proof. intros H. rewrite dkeys_dset. destruct (decide _); [done|].
    apply NoDup_app. split; [done|]. split; [set_solver|]. apply NoDup_singleton. Qed.
  Lemma dset_fresh d k v : k ∉ dkeys d -> dset d k v = d ++ [(k, v)].
  Proof. unfold dkeys. induction d as [|[k' v'] d IH]; simpl; [done|]. intros H.
    rewrite decide_False by set_solver. rewrite IH; [done|set_solver]. Qed.

  Lemma ddel_keys d k : NoDup (dkeys d) -> dkeys (ddel d k) = List.filter (fun x => negb (bool_decide (x = k))) (dkeys d).
  Proof. unfold dkeys. induction d as [|[k' v'] d IH]; simpl; [done|]. intros Hnd.
    apply NoDup_cons in Hnd as [Hni Hnd].
    destruct (decide (k' = k)) as [->|Hne].
    - rewrite bool_decide_true by done. simpl.
      assert (forall l : list K, k ∉ l -> List.filter (fun x => negb (bool_decide (x = k))) l = l) as Hf.
      { induction l as [|x l IHl]; simpl; [done|]. intros Hx.
        rewrite bool_decide_false by set_solver. simpl. rewrite IHl; [done|set_solver]. }
      by rewrite Hf.
    - rewrite bool_decide_false by done. simpl. by rewrite IH. Qed.
  Lemma dget_ddel_ne d k k2 : k <> k2 -> dget (ddel d k) k2 = dget d k2.
  Proof. intros Hn. induction d as [|[k' v'] d IH]; simpl; [done|].
    destruct (decide (k' = k)) as [->|]; simpl; [by rewrite decide_False|].
    destruct (decide (k' = k2)); done. Qed.
  Lemma ddel_notin d k : NoDup (dkeys d) -> k ∉ dkeys (ddel d k).
  Proof. intros H. rewrite ddel_keys by done. rewrite elem_of_list_In, filter_In.
    rewrite bool_decide_true by done. simpl. naive_solver. Qed.
  Lemma dget_ddel_eq d k : NoDup (dkeys d) -> dget (ddel d k) k = None.
  Proof. intros. apply dget_None. by apply ddel_notin. Qed.
  Lemma ddel_nodup d k : NoDup (dkeys d) -> NoDup (dkeys (ddel d k)).
  Proof. intros H. rewrite ddel_keys by done.
    apply NoDup_ListNoDup. apply List.NoDup_filter. by apply NoDup_ListNoDup. Qed.

  Lemma dof_app_fresh (l : list (K * V)) d :
    NoDup (dkeys d ++ dkeys l) ->
    fold_left (fun d kv => dset d (fst kv) (snd kv)) l d = d ++ l.
  Proof. revert d. induction l as [|[k v] l IH]; intros d H; simpl; [by rewrite app_nil_r|].
    assert (k ∉ dkeys d).
    { unfold dkeys in *. simpl in H. apply NoDup_app in H as (_ & H & _). intros Hin.
      apply (H k Hin). set_solver. }
    rewrite dset_fresh by done. rewrite IH.
    - by rewrite <- app_assoc.
    - unfold dkeys in *. rewrite map_app. simpl. by rewrite <- app_assoc. Qed.
  Lemma dof_nodup (l : list (K * V)) : NoDup (dkeys l) -> dof l = l.
  Proof. intros H. unfold dof. by rewrite dof_app_fresh. Qed.
  Lemma dof_keys_nodup (l : list (K * V)) : NoDup (dkeys (dof l)).
  Proof. unfold dof. assert (forall d, NoDup (dkeys d) ->
      NoDup (dkeys (fold_left (fun d kv => dset d (fst kv) (snd kv)) l d))) as H.
    { induction l as [|kv l IH]; intros d Hd; simpl; [done|]. apply IH. by apply dset_nodup. }
    apply H. constructor. Qed.
End Dict.

(** ** rmap *)
Lemma rmap_ok {A B} (f : A -> res B) (l : list A) (g : A -> B) :
  (forall x, In x l -> f x = Ok (g x)) -> rmap f l = Ok (map g l).
Proof. induction l as [|x l IH]; simpl; [done|]. intros H.
  rewrite H by (by left). simpl. rewrite IH by auto. done. Qed.
