(** Proofs about Meta.v *)
From Verif Require Import Base BaseFacts Path Json Spec_Json JsonFacts Refs Meta Spec_Meta RefsFacts.

(** ** Python equality *)
Lemma jeq_arr l m : jeq (JArr l) (JArr m) = true <-> Forall2 (fun x y => jeq x y = true) l m.
Proof. simpl. revert m. induction l as [|x l IH]; intros [|y m].
  - split; [constructor|done].
  - split; [done|inversion 1].
  - split; [done|inversion 1].
  - rewrite andb_true_iff, IH. split.
    + intros [? ?]. by constructor.
    + inversion 1; subst. done. Qed.
Lemma jeq_obj d e : jeq (JObj d) (JObj e) = true <->
  List.length d = List.length e /\ Forall (fun kv => exists v', dget e (fst kv) = Some v' /\ jeq (snd kv) v' = true) d.
Proof. simpl. rewrite andb_true_iff, Nat.eqb_eq. apply and_iff_compat_l.
  induction d as [|[k v] d IH]; [split; [intros; apply List.Forall_nil|done]|].
  rewrite andb_true_iff, IH. split.
  - intros [H1 H2]. constructor; [|done]. simpl. destruct (dget e k); [eauto|done].
  - inversion 1 as [|? ? (v' & E & H1) H2]; subst. simpl in *. rewrite E. done. Qed.

Definition is_num (j : json) : Prop :=
  match j with JBool _ | JInt _ | JFloat _ | JInf _ => True | _ => False end.
Lemma numval_num j n : numval j = Some n -> is_num j.
Proof. by destruct j. Qed.
Lemma jeq_num a b : is_num a ->
  jeq a b = match numval a, numval b with Some x, Some y => bool_decide (x = y) | _, _ => false end.
Proof. by destruct a. Qed.

Lemma pysame_num_inv a b : is_num a -> pysame a b -> exists n, numval a = Some n /\ numval b = Some n.
Proof. intros Ha H. destruct H; try done. eauto. Qed.

Lemma in_keys {V} (d : list (pystr * V)) k v : In (k, v) d -> In k (map fst d).
Proof. intros. apply in_map_iff. by exists (k, v). Qed.
Lemma keys_in {V} (d : list (pystr * V)) k : In k (map fst d) -> exists v, In (k, v) d.
Proof. intros ([k' v] & <- & H)%in_map_iff. eauto. Qed.

Lemma jeq_spec a b : json_ok a -> json_ok b -> (jeq a b = true <-> pysame a b).
Proof. revert b. induction a as [|x|x|x| |x|s|l IH|d IH] using json_ind'; intros b Ha Hb.
  - destruct b; simpl; split; try done; try (intros; constructor); inversion 1; try done.
  - rewrite jeq_num by done. split.
    + destruct (numval b) eqn:E; simpl; [|done]. intros H%bool_decide_eq_true. subst. by econstructor.
    + intros (n & E1 & E2)%pysame_num_inv; [|done]. rewrite E1, E2. by apply bool_decide_eq_true.
  - rewrite jeq_num by done. split.
    + destruct (numval b) eqn:E; simpl; [|done]. intros H%bool_decide_eq_true. subst. by econstructor.
    + intros (n & E1 & E2)%pysame_num_inv; [|done]. rewrite E1, E2. by apply bool_decide_eq_true.
  - rewrite jeq_num by done. split.
    + destruct (numval b) eqn:E; simpl; [|done]. intros H%bool_decide_eq_true. subst. by econstructor.
    + intros (n & E1 & E2)%pysame_num_inv; [|done]. rewrite E1, E2. by apply bool_decide_eq_true.
  - simpl. split; [done|]. inversion 1; subst; done.
  - rewrite jeq_num by done. split.
    + destruct (numval b) eqn:E; simpl; [|done]. intros H%bool_decide_eq_true. subst. by econstructor.
    + intros (n & E1 & E2)%pysame_num_inv; [|done]. rewrite E1, E2. by apply bool_decide_eq_true.
  - simpl. split.
    + destruct b; try done. intros ->%bool_decide_eq_true. constructor.
    + inversion 1; subst; [by apply bool_decide_eq_true|done].
  - split.
    + destruct b as [| | | | | | |m|]; try done. rewrite jeq_arr. intros H. constructor.
      apply json_ok_arr in Ha, Hb.
      revert m Hb H. induction l as [|x l IHl]; intros m Hb H; inversion H; subst; constructor.
      * inversion IH; subst. inversion Ha; subst. inversion Hb; subst. match goal with G : forall b, json_ok x -> _ |- _ => by apply G end.
      * inversion IH; subst. inversion Ha; subst. inversion Hb; subst. by apply IHl.
    + inversion 1 as [| |? ? n E1 E2|? m Hf|]; subst; [done|]. rewrite jeq_arr.
      apply json_ok_arr in Ha, Hb. clear H.
      revert m Hb Hf. induction l as [|x l IHl]; intros m Hb H; inversion H; subst; constructor.
      * inversion IH; subst. inversion Ha; subst. inversion Hb; subst. match goal with G : forall b, json_ok x -> _ |- _ => by apply G end.
      * inversion IH; subst. inversion Ha; subst. inversion Hb; subst. by apply IHl.
  - split.
    + destruct b as [| | | | | | | |e]; try done. rewrite jeq_obj. intros [Hlen H].
      apply json_ok_obj in Ha as [Hnd Ha]. apply json_ok_obj in Hb as [Hne Hb].
      rewrite Forall_forall in *.
      assert (H1 : forall k v, In (k, v) d -> exists v', dget e k = Some v' /\ pysame v v').
      { intros k v Hin. destruct (H (k, v)) as (v' & E & Hj); [by apply elem_of_list_In|].
        exists v'. split; [done|]. apply (IH (k, v)); [by apply elem_of_list_In| | |done].
        - apply (Ha (k, v)). by apply elem_of_list_In.
        - apply dget_Some_In in E. apply (Hb (k, v')). by apply elem_of_list_In. }
      constructor.
      * intros k v Hin. destruct (H1 k v Hin) as (v' & E & Hs). exists v'. split; [by apply dget_Some_In|done].
      * intros k v' Hin.
        assert (In k (map fst d)) as Hk.
        { apply (NoDup_length_incl (l := map fst d) (l' := map fst e)).
          - by apply NoDup_ListNoDup.
          - rewrite !map_length. lia.
          - intros x (v & Hx)%keys_in. destruct (H1 x v Hx) as (v2 & E & _).
            eapply in_keys. by apply dget_Some_In.
          - by eapply in_keys. }
        apply keys_in in Hk as (v & Hk). destruct (H1 k v Hk) as (v2 & E & Hs).
        apply (In_dget e k v') in Hin; [|done]. rewrite Hin in E. injection E as <-. eauto.
    + inversion 1 as [| |? ? n E1 E2| |? e H1 H2]; subst; [done|]. rewrite jeq_obj.
      apply json_ok_obj in Ha as [Hnd Ha]. apply json_ok_obj in Hb as [Hne Hb]. split.
      * apply Nat.le_antisymm.
        -- rewrite <- (map_length fst d), <- (map_length fst e). apply NoDup_incl_length; [by apply NoDup_ListNoDup|].
           intros x (v & Hx)%keys_in. destruct (H1 x v Hx) as (v' & ? & ?). by eapply in_keys.
        -- rewrite <- (map_length fst d), <- (map_length fst e). apply NoDup_incl_length; [by apply NoDup_ListNoDup|].
           intros x (v & Hx)%keys_in. destruct (H2 x v Hx) as (v' & ? & ?). by eapply in_keys.
      * rewrite Forall_forall in *. intros [k v] Hin. pose proof Hin as Hin'. apply elem_of_list_In in Hin'.
        destruct (H1 k v Hin') as (v' & Hv' & Hs). simpl. exists v'. split; [by apply In_dget|].
        apply (IH (k, v)); [done| | |done].
        -- by apply (Ha (k, v)).
        -- apply (Hb (k, v')). by apply elem_of_list_In. Qed.

Lemma no_nan_arr l : no_nan (JArr l) <-> Forall no_nan l.
Proof. simpl. induction l as [|x l IH]; [split; [intros; apply List.Forall_nil|done]|].
  split; [intros [H1 H2]; constructor; [done|by apply IH]|]. inversion 1; subst. split; [done|by apply IH]. Qed.
Lemma no_nan_obj d : no_nan (JObj d) <-> Forall (fun kv => no_nan (snd kv)) d.
Proof. simpl. induction d as [|x l IH]; [split; [intros; apply List.Forall_nil|done]|].
  split; [intros [H1 H2]; constructor; [done|by apply IH]|]. inversion 1; subst. split; [done|by apply IH]. Qed.

Lemma pysame_refl a : no_nan a -> pysame a a.
Proof. induction a as [|x|x|x| |x|s|l IH|d IH] using json_ind'; intros H; try done; try (eapply same_num; reflexivity); try (constructor; fail).
  - constructor. apply no_nan_arr in H. induction l; constructor; inversion IH; inversion H; subst; auto.
  - apply no_nan_obj in H. rewrite Forall_forall in *. constructor.
    + intros k v Hin. exists v. split; [done|]. apply elem_of_list_In in Hin. apply (IH (k, v)); [done|]. by apply (H (k, v)).
    + intros k v Hin. exists v. split; [done|]. apply elem_of_list_In in Hin. apply (IH (k, v)); [done|]. by apply (H (k, v)). Qed.

Lemma pysame_sym a b : pysame a b -> pysame b a.
Proof. revert b. induction a as [|x|x|x| |x|s|l IH|d IH] using json_ind'; intros b H;
  inversion H as [| |? ? n E1 E2|? m Hf|? e H1 H2]; subst; try discriminate;
  try (by apply (same_num _ _ _ E2 E1)); try (by constructor).
  - constructor. clear H. revert m Hf. induction l as [|y l IHl]; intros m Hf; inversion Hf; subst; constructor;
      inversion IH; subst; auto.
  - rewrite Forall_forall in IH. constructor.
    + intros k v' Hin. destruct (H2 k v' Hin) as (v & Hv & Hs). exists v. split; [done|].
      apply (IH (k, v)); [by apply elem_of_list_In|done].
    + intros k v Hin. destruct (H1 k v Hin) as (v' & Hv & Hs). exists v'. split; [done|].
      apply (IH (k, v)); [by apply elem_of_list_In|done]. Qed.

Lemma pysame_trans a b c : pysame a b -> pysame b c -> pysame a c.
Proof. revert b c. induction a as [|x|x|x| |x|s|l IH|d IH] using json_ind'; intros b c H1 H2.
  - inversion H1; subst; [done|discriminate].
  - inversion H1; subst. inversion H2; subst; try discriminate. rewrite H0 in H3. injection H3 as <-. by econstructor.
  - inversion H1; subst. inversion H2; subst; try discriminate. rewrite H0 in H3. injection H3 as <-. by econstructor.
  - inversion H1; subst. inversion H2; subst; try discriminate. rewrite H0 in H3. injection H3 as <-. by econstructor.
  - inversion H1; subst. inversion H2; subst; try discriminate.
  - inversion H1; subst. inversion H2; subst; try discriminate. rewrite H0 in H3. injection H3 as <-. by econstructor.
  - inversion H1; subst; [done|discriminate].
  - inversion H1 as [| | |? m Hlm|]; subst; [discriminate|].
    inversion H2 as [| | |? m' Hmm|]; subst; [discriminate|]. constructor. clear H1 H2.
    revert m m' Hlm Hmm. induction l as [|y l IHl]; intros m m' Hlm Hmm; inversion Hlm; subst; inversion Hmm; subst; constructor;
      inversion IH; subst; eauto.
  - inversion H1 as [| | | |? e Ha Hb]; subst; [discriminate|].
    inversion H2 as [| | | |? f Hc Hd]; subst; [discriminate|]. rewrite Forall_forall in IH. constructor.
    + intros k v Hin. destruct (Ha k v Hin) as (v1 & Hv1 & S1). destruct (Hc k v1 Hv1) as (v2 & Hv2 & S2).
      exists v2. split; [done|]. eapply (IH (k, v)); [by apply elem_of_list_In|done|done].
    + intros k v2 Hin. destruct (Hd k v2 Hin) as (v1 & Hv1 & S1). destruct (Hb k v1 Hv1) as (v & Hv & S2).
      exists v. split; [done|]. eapply (IH (k, v)); [by apply elem_of_list_In|done|done]. Qed.

Lemma conf_same_refl c : conf_no_nan c -> conf_same c c.
Proof. intros [H1 H2]. split; by apply pysame_refl. Qed.
Lemma conf_same_sym a b : conf_same a b -> conf_same b a.
Proof. intros [H1 H2]. split; by apply pysame_sym. Qed.
Lemma conf_same_trans a b c : conf_same a b -> conf_same b c -> conf_same a c.
Proof. intros [H1 H2] [H3 H4]. split; by eapply pysame_trans. Qed.
Lemma ec_eq_spec a b : conf_ok a -> conf_ok b -> (ec_eq a b = true <-> conf_same a b).
Proof. intros [H1 H2] [H3 H4]. unfold ec_eq, conf_same. rewrite andb_true_iff, !jeq_spec by done. done. Qed.

(** ** C10: only properly tagged documents are accepted *)
Lemma rmap_inv {A B} (f : A -> res B) l r : rmap f l = Ok r -> Forall2 (fun x y => f x = Ok y) l r.
Proof. revert r. induction l as [|x l IH]; intros r H; simpl in H.
  - injection H as <-. constructor.
  - rinv H. injection H as <-. constructor; auto. Qed.

Lemma ref_from_json_tagged d r : ref_from_json_obj d = Ok r -> tagged (ps "Reference") d.
Proof. unfold ref_from_json_obj. intros H. rinv H. by eapply tagged_intro. Qed.
Lemma ec_from_json_tagged d r : ec_from_json d = Ok r -> config_doc d.
Proof. unfold ec_from_json. intros H. rinv H. by eapply tagged_intro. Qed.
Lemma mi_from_json_tagged d r : mi_from_json d = Ok r -> instance_doc d.
Proof. unfold mi_from_json. intros H. rinv H. split; [by eapply tagged_intro|].
  exists x4. split; [by apply jsub_ok|by eapply ec_from_json_tagged]. Qed.
Lemma member_fun d k v v' : member d k v -> member d k v' -> v = v'.
Proof. intros (kvs & -> & H1) (kvs' & [= <-] & H2). congruence. Qed.
Lemma mis_from_json_tagged d r : mis_from_json d = Ok r -> instance_set_doc d.
Proof. unfold mis_from_json. intros H. rinv H. split; [by eapply tagged_intro|]. split.
  - intros l Hl. apply jsub_ok in E1. rewrite (member_fun _ _ _ _ E1 Hl) in E2. simpl in E2. injection E2 as <-.
    apply rmap_inv in E3. clear -E3. induction E3; constructor; [by eapply ec_from_json_tagged|done].
  - destruct x4; try discriminate. simpl in E5. injection E5 as <-. exists kvs. split; [by apply jsub_ok|].
    apply rmap_inv in E6. clear -E6. induction E6 as [|[k v] y l r H _ IH]; constructor; [|done].
    simpl in *. destruct (py_int k); [|done]. rinv H. by eapply mi_from_json_tagged. Qed.
Lemma meta_from_json_tagged m d r : meta_init_from_json_obj m d = Ok r -> metadata_doc d.
Proof. unfold meta_init_from_json_obj. intros H. rinv H. split; [by eapply tagged_intro|].
  destruct x1; try discriminate. simpl in E2. injection E2 as <-. exists kvs. split; [by apply jsub_ok|].
  apply rmap_inv in E3. clear -E3. induction E3 as [|[k v] y l r H _ IH]; constructor; [|done].
  simpl in *. rinv H. by eapply mis_from_json_tagged. Qed.
Lemma key_error_none_some {A} (x : res A) a : key_error_none x = Ok (Some a) -> x = Ok a.
Proof. destruct x as [|[]]; simpl; congruence. Qed.
Lemma ms_from_json_tagged d s : ms_from_json_obj d = Ok (Some s) ->
  match s with
  | LocalGit _ _ => tagged (ps "LocalGitMetadataSource") d
  | Immediate _ => tagged (ps "ImmediateMetadataSource") d
  end.
Proof. unfold ms_from_json_obj. destruct d as [| | | | | | | |kvs]; try discriminate.
  destruct (dget kvs TYPE_KEY) as [t|] eqn:E; [|discriminate].
  assert (forall X : res (option msource), match t with JNull => Ok None | _ => X end = Ok (Some s) -> X = Ok (Some s)) as Hx by (intros X; destruct t; congruence).
  intros H%Hx. clear Hx.
  destruct (jis_str t _).
  - unfold local_git_from_json in H. apply key_error_none_some in H. rinv H.
    destruct x3; try discriminate. rinv H. destruct x3; try discriminate. injection H as <-. unfold mk_local_git.
    by eapply tagged_intro.
  - destruct (jis_str t _); [|discriminate]. unfold immediate_from_json in H.
    apply key_error_none_some in H. rinv H. injection H as <-. by eapply tagged_intro. Qed.

(** ** C11 *)
Definition minst_ok (i : minst) : Prop :=
  json_ok (mi_time i) /\ json_ok (mi_author i) /\ json_ok (mi_email i) /\ conf_ok (mi_conf i) /\ json_ok (mi_content i).
Definition mis_ok (s : miset) : Prop :=
  Forall conf_ok (mis_params s) /\ NoDup (dkeys (mis_inst s)) /\ Forall (fun ki => minst_ok (snd ki)) (mis_inst s).
Definition meta_ok (m : metadata) : Prop :=
  NoDup (dkeys m) /\ Forall (fun kv => scalar_str (fst kv) /\ mis_ok (snd kv)) m.

Lemma ec_json_ok c : conf_ok c -> json_ok (ec_to_json c).
Proof. intros [H1 H2]. apply json_ok_obj. split; [repeat constructor; set_solver|].
  fcons; [scal|apply at_entry_ok; scal|]. fcons; [scal|done|]. fcons; [scal|done|]. apply List.Forall_nil. Qed.
Lemma ec_roundtrip c : ec_from_json (ec_to_json c) = Ok c.
Proof. by destruct c. Qed.
Lemma mi_json_ok i : minst_ok i -> json_ok (mi_to_json i).
Proof. intros (H1 & H2 & H3 & H4 & H5). apply json_ok_obj. split; [repeat constructor; set_solver|].
  fcons; [scal|apply at_entry_ok; scal|]. fcons; [scal|done|]. fcons; [scal|done|]. fcons; [scal|done|].
  fcons; [scal|by apply ec_json_ok|]. fcons; [scal|done|]. apply List.Forall_nil. Qed.
Lemma mi_roundtrip i : mi_from_json (mi_to_json i) = Ok i.
Proof. by destruct i as [? ? ? [? ?] ?]. Qed.

Lemma scalar_str_of_Z z : scalar_str (str_of_Z z).
Proof. assert (forall n, scalar_str (str_of_N n)) as Hn.
  { intros n. apply Forall_forall. intros c Hc%elem_of_list_In.
    pose proof (str_of_N_digits n) as H. rewrite forallb_forall in H. specialize (H c Hc).
    unfold is_digit in H. apply andb_true_iff in H as [H1 H2]. apply N.leb_le in H1, H2. left. lia. }
  destruct z; simpl; [scal|apply Hn|]. apply List.Forall_cons; [left; lia|apply Hn]. Qed.

Lemma mis_json_ok s : mis_ok s -> json_ok (mis_to_json s).
Proof. intros (H1 & H2 & H3). apply json_ok_obj. split; [repeat constructor; set_solver|].
  fcons; [scal|apply at_entry_ok; scal|].
  fcons; [scal| |].
  { apply json_ok_arr. apply Forall_map. eapply Forall_impl; [exact H1|]. apply ec_json_ok. }
  fcons; [scal| |].
  { simpl snd. apply json_ok_obj. split.
    - rewrite map_map. simpl. unfold dkeys in H2. rewrite <- (map_map fst str_of_Z).
      apply NoDup_ListNoDup. apply FinFun.Injective_map_NoDup; [intros a b; apply str_of_Z_inj|]. by apply NoDup_ListNoDup.
    - apply Forall_map. eapply Forall_impl; [exact H3|]. intros [k i] Hi. simpl in *. split; [apply scalar_str_of_Z|by apply mi_json_ok]. }
  apply List.Forall_nil. Qed.
Lemma mis_roundtrip s : NoDup (dkeys (mis_inst s)) -> mis_from_json (mis_to_json s) = Ok s.
Proof. destruct s as [P I]. intros Hnd. unfold mis_from_json.
  destruct (tagged_pass (mis_to_json (MIS P I)) (ps "MetadataInstanceSet") (tagged_at _ _)) as [-> ->].
  change (jsub (mis_to_json (MIS P I)) (ps "parameter_set")) with (Ok (JArr (map ec_to_json P))).
  change (jsub (mis_to_json (MIS P I)) (ps "instance_set"))
    with (Ok (JObj (map (fun ki => (str_of_Z (fst ki), mi_to_json (snd ki))) I))).
  cbn [rbind jiter jitems]. rewrite (rmap_ok _ _ (fun c => match ec_from_json c with Ok x => x | Err _ => EC JNull [] end)).
  2:{ intros x (c & <- & _)%in_map_iff. by rewrite ec_roundtrip. }
  cbn [rbind]. erewrite (rmap_ok _ _ (fun kv => (match py_int (fst kv) with Some z => z | None => 0%Z end,
      match mi_from_json (snd kv) with Ok x => x | Err _ => MI JNull JNull JNull (EC JNull []) JNull end))).
  2:{ intros x ([k i] & <- & _)%in_map_iff. cbn [fst snd]. rewrite py_int_str, mi_roundtrip. done. }
  cbn [rbind]. rewrite !map_map. f_equal. f_equal.
  - rewrite <- (map_id P) at 2. apply map_ext. intros c. by rewrite ec_roundtrip.
  - assert (map (fun x : Z * minst => (match py_int (fst (str_of_Z (fst x), mi_to_json (snd x))) with Some z => z | None => 0%Z end,
      match mi_from_json (snd (str_of_Z (fst x), mi_to_json (snd x))) with Ok x => x | Err _ => MI JNull JNull JNull (EC JNull []) JNull end)) I = I) as ->.
    { rewrite <- (map_id I) at 2. apply map_ext. intros [k i]. cbn [fst snd]. by rewrite py_int_str, mi_roundtrip. }
    by apply dof_nodup. Qed.

Lemma meta_json_ok m : meta_ok m -> json_ok (meta_to_json_obj m).
Proof. intros [H1 H2]. apply json_ok_obj. split; [repeat constructor; set_solver|].
  fcons; [scal|apply at_entry_ok; scal|]. fcons; [scal| |apply List.Forall_nil].
  simpl snd. apply json_ok_obj. split.
  - rewrite map_map. simpl. done.
  - apply Forall_map. eapply Forall_impl; [exact H2|]. intros [k s] [Hk Hs]. simpl in *. split; [done|by apply mis_json_ok]. Qed.
Lemma meta_obj_roundtrip m : meta_ok m -> meta_init_from_json_obj [] (meta_to_json_obj m) = Ok m.
Proof. intros [Hnd Hok]. unfold meta_init_from_json_obj.
  destruct (tagged_pass (meta_to_json_obj m) (ps "Metadata") (tagged_at _ _)) as [-> ->].
  change (jsub (meta_to_json_obj m) (ps "instance_sets"))
    with (Ok (JObj (map (fun kv => (fst kv, mis_to_json (snd kv))) m))).
  cbn [rbind jitems]. erewrite (rmap_ok _ _ (fun kv => (fst kv, match mis_from_json (snd kv) with Ok s => s | Err _ => mis_empty end))).
  2:{ intros x ([k s] & <- & Hin)%in_map_iff. cbn [fst snd]. rewrite mis_roundtrip; [done|].
      rewrite Forall_forall in Hok. apply elem_of_list_In in Hin. apply Hok in Hin. apply Hin. }
  cbn [rbind]. f_equal. rewrite map_map.
  assert (map (fun x : pystr * miset => (fst (fst x, mis_to_json (snd x)), match mis_from_json (snd (fst x, mis_to_json (snd x))) with Ok s => s | Err _ => mis_empty end)) m = m) as ->.
  { rewrite <- (map_id m) at 2. apply map_ext_in. intros [k s] Hin. cbn [fst snd]. rewrite mis_roundtrip; [done|].
    rewrite Forall_forall in Hok. apply elem_of_list_In in Hin. apply Hok in Hin. apply Hin. }
  rewrite dof_app_fresh; done. Qed.

Lemma meta_roundtrip m : meta_ok m -> meta_from_json (meta_to_json m) = Ok m.
Proof. intros H. unfold meta_from_json, meta_init_from_json, meta_to_json.
  rewrite jloads_dumps by by apply meta_json_ok. simpl. by apply meta_obj_roundtrip. Qed.

(** everything built through the API is well formed *)
Lemma json_ok_member d k v : json_ok d -> member d k v -> json_ok v.
Proof. intros H (kvs & -> & E). apply json_ok_obj in H as [_ H]. apply dget_Some_In in E.
  rewrite Forall_forall in H. apply elem_of_list_In in E. by apply H in E as [_ E]. Qed.
Lemma ec_from_json_ok d c : json_ok d -> ec_from_json d = Ok c -> conf_ok c.
Proof. unfold ec_from_json. intros Hd H. rinv H. injection H as <-. apply jsub_ok in E1, E2.
  split; simpl.
  - eapply (json_ok_member d); eassumption.
  - assert (json_ok x2) by (eapply (json_ok_member d); eassumption). destruct x2; try discriminate; simpl in E3.
    + destruct s; [|discriminate]. injection E3 as <-. apply json_ok_obj. split; constructor.
    + destruct l; [|discriminate]. injection E3 as <-. apply json_ok_obj. split; constructor.
    + injection E3 as <-. done. Qed.
Lemma mi_from_json_ok d c : json_ok d -> mi_from_json d = Ok c -> minst_ok c.
Proof. unfold mi_from_json. intros Hd H. rinv H. injection H as <-. apply jsub_ok in E1, E2, E3, E4, E6.
  repeat split; simpl; try (eapply (json_ok_member d); eassumption).
  all: apply (ec_from_json_ok x4); [eapply (json_ok_member d); eassumption|done]. Qed.
Lemma Forall_dset {K V} `{EqDecision K} (P : K -> V -> Prop) (d : pydict K V) k v :
  Forall (fun kv => P (fst kv) (snd kv)) d -> P k v -> Forall (fun kv => P (fst kv) (snd kv)) (dset d k v).
Proof. intros H1 H2. induction d as [|[k' v'] d IH]; simpl.
  - by apply List.Forall_cons.
  - inversion H1; subst. destruct (decide (k' = k)) as [->|]; apply List.Forall_cons; auto. Qed.
Lemma Forall_fold_dset {K V} `{EqDecision K} (P : K -> V -> Prop) (l : list (K * V)) (d : pydict K V) :
  Forall (fun kv => P (fst kv) (snd kv)) l -> Forall (fun kv => P (fst kv) (snd kv)) d ->
  Forall (fun kv => P (fst kv) (snd kv)) (fold_left (fun d kv => dset d (fst kv) (snd kv)) l d).
Proof. revert d. induction l as [|[k v] l IH]; intros d Hl Hd; simpl; [done|]. inversion Hl; subst.
  apply IH; [done|]. by apply Forall_dset. Qed.
Lemma fold_dset_nodup {K V} `{EqDecision K} (l : list (K * V)) (d : pydict K V) :
  NoDup (dkeys d) -> NoDup (dkeys (fold_left (fun d kv => dset d (fst kv) (snd kv)) l d)).
Proof. revert d. induction l as [|kv l IH]; intros d Hd; simpl; [done|]. apply IH. by apply dset_nodup. Qed.
Lemma mis_from_json_ok d s : json_ok d -> mis_from_json d = Ok s -> mis_ok s.
Proof. unfold mis_from_json. intros Hd H. rinv H. injection H as <-. apply jsub_ok in E1, E4.
  assert (Hx1 : json_ok x1) by (eapply (json_ok_member d); eassumption).
  split; [|split]; simpl.
  - apply rmap_inv in E3. assert (Hl : Forall json_ok x2).
    { destruct x1; try discriminate; simpl in E2; injection E2 as <-.
      - apply Forall_map. simpl in Hx1. eapply Forall_impl; [exact Hx1|]. intros c Hc. simpl. by apply List.Forall_cons.
      - by apply json_ok_arr in Hx1.
      - apply json_ok_obj in Hx1 as [_ Hx1]. apply Forall_map. eapply Forall_impl; [exact Hx1|]. by intros kv [Hk _]. }
    clear -E3 Hl. induction E3; constructor; inversion Hl; subst; [by eapply ec_from_json_ok|auto].
  - apply fold_dset_nodup. constructor.
  - apply (Forall_fold_dset (fun _ i => minst_ok i)); [|constructor].
    apply rmap_inv in E6. assert (Hx5 : json_ok x4) by (eapply (json_ok_member d); eassumption).
    destruct x4; try discriminate. simpl in E5. injection E5 as <-. apply json_ok_obj in Hx5 as [_ Hx5].
    clear -E6 Hx5. induction E6 as [|[k v] y l r H _ IH]; constructor; inversion Hx5 as [|? ? [_ Hv]]; subst; [|auto].
    simpl in *. destruct (py_int k); [|discriminate]. rinv H. injection H as <-. by eapply mi_from_json_ok. Qed.
Lemma meta_from_json_ok d m : json_ok d -> meta_init_from_json_obj [] d = Ok m -> meta_ok m.
Proof. unfold meta_init_from_json_obj. intros Hd H. rinv H. injection H as <-. apply jsub_ok in E1.
  assert (Hx1 : json_ok x1) by (eapply (json_ok_member d); eassumption).
  destruct x1; try discriminate. simpl in E2. injection E2 as <-. apply json_ok_obj in Hx1 as [_ Hx1].
  split; [apply fold_dset_nodup; constructor|].
  apply (Forall_fold_dset (fun k s => scalar_str k /\ mis_ok s)); [|constructor].
  apply rmap_inv in E3. clear -E3 Hx1. induction E3 as [|[k v] y l r H _ IH]; constructor; inversion Hx1 as [|? ? [? Hv]]; subst; [|auto].
  simpl in *. rinv H. injection H as <-. simpl. split; [done|]. by eapply mis_from_json_ok. Qed.

Lemma add_instance_ok s i s' : mis_ok s -> minst_ok i -> add_metadata_instance s i = Ok s' -> mis_ok s'.
Proof. intros (H1 & H2 & H3) Hi. unfold add_metadata_instance. destruct (ec_index _ _) eqn:E in |- *.
  2:{ discriminate. }
  intros [= <-]. split; [|split]; simpl.
  - destruct (ec_index (mi_conf i) (mis_params s)); [done|]. apply Forall_app. split; [done|].
    apply List.Forall_cons; [apply Hi|constructor].
  - by apply dset_nodup.
  - by apply (Forall_dset (fun _ i => minst_ok i)). Qed.
Lemma mis_empty_ok : mis_ok mis_empty.
Proof. repeat split; constructor. Qed.
Lemma add_run_ok m r m' : meta_ok m -> run_ok r -> add_extractor_run m r = Ok m' -> meta_ok m'.
Proof. intros [H1 H2] (Ht & Hx & Ha & He & Hc & _ & Hm) H. unfold add_extractor_run in H. rinv H. injection H as <-.
  split; [by apply dset_nodup|]. apply (Forall_dset (fun k s => scalar_str k /\ mis_ok s)); [done|].
  split; [done|]. assert (minst_ok (run_inst r)) by (split; [done|]; split; [done|]; split; [done|]; split; done).
  eapply add_instance_ok; [|done|exact E].
  destruct (dget m (ru_extractor r)) eqn:Eg; [|apply mis_empty_ok].
  apply dget_Some_In, elem_of_list_In in Eg. rewrite Forall_forall in H2. by apply H2 in Eg as [_ Eg]. Qed.
Lemma built_ok m : built m -> meta_ok m.
Proof. induction 1.
  - split; constructor.
  - by eapply meta_from_json_ok.
  - by eapply add_run_ok. Qed.
Lemma C11_lemma m : built m -> meta_from_json (meta_to_json m) = Ok m.
Proof. intros H%built_ok. by apply meta_roundtrip. Qed.

(** ** C12: the set of runs of one extractor is a map from configurations *)
Section Runs.
  (** [insts] in configuration order *)
  Definition numbered {A} (l : list A) : list (Z * A) := imap (fun k x => (Z.of_nat k, x)) l.
  Definition set_wf (s : miset) (insts : list minst) : Prop :=
    mis_inst s = numbered insts /\ Forall conf_ok (mis_params s) /\ Forall conf_no_nan (mis_params s) /\
    Forall (fun i => conf_ok (mi_conf i)) insts /\
    Forall2 (fun c i => conf_same c (mi_conf i)) (mis_params s) insts /\
    ForallOrdPairs (fun a b => ~ conf_same a b) (mis_params s).

  Lemma ec_index_None c l : conf_ok c -> Forall conf_ok l ->
    ec_index c l = None <-> Forall (fun x => ~ conf_same x c) l.
  Proof. intros Hc Hl. induction Hl as [|x l Hx Hl IH]; simpl; [split; [intros; apply List.Forall_nil|done]|].
    destruct (ec_eq x c) eqn:E.
    - split; [done|]. inversion 1; subst. exfalso. apply (ec_eq_spec x c Hx Hc) in E. done.
    - destruct (ec_index c l); simpl.
      + split; [done|]. inversion 1 as [|? ? ? Hl']; subst. by apply IH in Hl'.
      + split; [|done]. intros _. apply List.Forall_cons; [|by apply IH].
        intros Hs. apply (ec_eq_spec x c Hx Hc) in Hs. congruence. Qed.
  Lemma ec_index_Some c l k : conf_ok c -> Forall conf_ok l -> ec_index c l = Some k ->
    exists a x b, l = a ++ x :: b /\ List.length a = k /\ conf_same x c /\ Forall (fun x => ~ conf_same x c) a.
  Proof. intros Hc Hl. revert k. induction Hl as [|x l Hx Hl IH]; intros k; simpl; [done|].
    destruct (ec_eq x c) eqn:E.
    - intros [= <-]. exists [], x, l. split; [done|]. split; [done|]. split; [by apply ec_eq_spec|constructor].
    - destruct (ec_index c l) as [j|]; [|done]. intros [= <-].
      destruct (IH j eq_refl) as (a & y & b & -> & Hk & Hs & Ha). exists (x :: a), y, b.
      split; [done|]. split; [simpl; lia|]. split; [done|]. apply List.Forall_cons; [|done].
      intros Hxs. apply (ec_eq_spec x c Hx Hc) in Hxs. congruence. Qed.
  Lemma ec_index_app c a x b : conf_ok c -> Forall conf_ok (a ++ x :: b) ->
    Forall (fun x => ~ conf_same x c) a -> conf_same x c -> ec_index c (a ++ x :: b) = Some (List.length a).
  Proof. intros Hc Hl Ha Hx. induction Ha as [|y a Hy Ha IH]; simpl in *; inversion Hl; subst.
    - rewrite (proj2 (ec_eq_spec x c H1 Hc)); done.
    - destruct (ec_eq y c) eqn:E; [apply (ec_eq_spec y c H1 Hc) in E; done|]. by rewrite IH. Qed.

  Lemma numbered_app {A} (a b : list A) :
    numbered (a ++ b) = numbered a ++ imap (fun k x => (Z.of_nat (List.length a + k), x)) b.
  Proof. unfold numbered. by rewrite imap_app. Qed.
  Lemma dget_numbered_lt {A} (l : list A) (k : nat) x : l !! k = Some x -> dget (numbered l) (Z.of_nat k) = Some x.
  Proof. unfold numbered. assert (forall n, l !! k = Some x -> dget (imap (fun j y => (Z.of_nat (n + j), y)) l) (Z.of_nat (n + k)) = Some x) as H.
    { revert k. induction l as [|y l IH]; intros k n; simpl; [done|]. destruct k; simpl.
      - intros [= ->]. by rewrite decide_True.
      - intros Hk. rewrite decide_False by lia. specialize (IH k (S n) Hk).
        replace (n + S k)%nat with (S n + k)%nat by lia. rewrite <- IH. f_equal.
        apply imap_ext. intros. simpl. do 2 f_equal. lia. }
    apply (H 0%nat). Qed.
  Lemma dset_numbered_mid {A} (a : list A) x b y :
    dset (numbered (a ++ x :: b)) (Z.of_nat (List.length a)) y = numbered (a ++ y :: b).
  Proof. unfold numbered. assert (forall n, dset (imap (fun j y => (Z.of_nat (n + j), y)) (a ++ x :: b)) (Z.of_nat (n + List.length a)) y
      = imap (fun j y => (Z.of_nat (n + j), y)) (a ++ y :: b)) as H; [|apply (H 0%nat)].
    induction a as [|z a IH]; intros n; simpl.
    - by rewrite decide_True.
    - rewrite decide_False by lia. f_equal. specialize (IH (S n)).
      replace (n + S (List.length a))%nat with (S n + List.length a)%nat by lia.
      etransitivity; [|etransitivity; [exact IH|]].
      + f_equal. apply imap_ext. intros. simpl. do 2 f_equal. lia.
      + apply imap_ext. intros. simpl. do 2 f_equal. lia. Qed.
  Lemma dset_numbered_end {A} (a : list A) y :
    dset (numbered a) (Z.of_nat (List.length a)) y = numbered (a ++ [y]).
  Proof. unfold numbered. assert (forall n, dset (imap (fun j y => (Z.of_nat (n + j), y)) a) (Z.of_nat (n + List.length a)) y
      = imap (fun j y => (Z.of_nat (n + j), y)) (a ++ [y])) as H; [|apply (H 0%nat)].
    induction a as [|z a IH]; intros n; simpl; [done|].
    rewrite decide_False by lia. f_equal. specialize (IH (S n)).
    replace (n + S (List.length a))%nat with (S n + List.length a)%nat by lia.
    etransitivity; [|etransitivity; [exact IH|]].
    + f_equal. apply imap_ext. intros. simpl. do 2 f_equal. lia.
    + apply imap_ext. intros. simpl. do 2 f_equal. lia. Qed.

  Lemma fop_app {A} (R : A -> A -> Prop) l c :
    ForallOrdPairs R l -> Forall (fun x => R x c) l -> ForallOrdPairs R (l ++ [c]).
  Proof. induction 1 as [|x l Hx Hl IH]; intros H; simpl; inversion H; subst.
    - constructor; constructor.
    - constructor; [|auto]. apply Forall_app. split; [done|]. by apply List.Forall_cons. Qed.

  (** one [add_metadata_instance] *)
  Lemma add_instance_spec s insts i :
    set_wf s insts -> conf_ok (mi_conf i) -> conf_no_nan (mi_conf i) ->
    (Forall (fun x => ~ conf_same x (mi_conf i)) (mis_params s) /\
     exists s', add_metadata_instance s i = Ok s' /\ mis_params s' = mis_params s ++ [mi_conf i] /\ set_wf s' (insts ++ [i]))
    \/
    (exists a x b ia j ib, mis_params s = a ++ x :: b /\ insts = ia ++ j :: ib /\ List.length a = List.length ia
       /\ conf_same x (mi_conf i) /\
     exists s', add_metadata_instance s i = Ok s' /\ mis_params s' = mis_params s /\ set_wf s' (ia ++ i :: ib)).
  Proof. intros (Hi & Hok & Hnn & Hiok & Hf2 & Hop) Hc Hn. unfold add_metadata_instance.
    destruct (ec_index (mi_conf i) (mis_params s)) as [k|] eqn:E.
    - right. rewrite E.
      destruct (ec_index_Some _ _ _ Hc Hok E) as (a & x & b & El & Hk & Hs & Ha).
      rewrite El in Hf2. apply Forall2_app_inv_l in Hf2 as (ia & jb & Hfa & Hfb & Ei).
      inversion Hfb as [|? j ? ib Hj Hfb']; subst. exists a, x, b, ia, j, ib.
      pose proof (Forall2_length _ _ _ Hfa) as Hlen.
      split; [done|]. split; [done|]. split; [done|]. split; [done|].
      eexists. split; [reflexivity|]. split; [done|]. rewrite Hi.
      assert (Z.of_nat (List.length a) = Z.of_nat (List.length ia)) as -> by lia.
      rewrite dset_numbered_mid. split; [done|]. cbn [mis_params].
      split; [done|]. split; [done|]. apply Forall_app in Hiok as [Hi1 Hi2]. inversion Hi2; subst.
      split; [apply Forall_app; split; [done|by apply List.Forall_cons]|]. split; [|done].
      rewrite El. apply Forall2_app; [done|]. by constructor.
    - left. apply (ec_index_None _ _ Hc Hok) in E. split; [done|].
      rewrite (ec_index_app (mi_conf i) (mis_params s) (mi_conf i) []); [|done| |done|by apply conf_same_refl].
      2:{ apply Forall_app. split; [done|]. apply List.Forall_cons; [done|constructor]. }
      eexists. split; [reflexivity|]. split; [done|]. rewrite Hi.
      rewrite (Forall2_length _ _ _ Hf2). rewrite dset_numbered_end. split; [done|]. cbn [mis_params].
      split; [apply Forall_app; split; [done|apply List.Forall_cons; [done|constructor]]|].
      split; [apply Forall_app; split; [done|apply List.Forall_cons; [done|constructor]]|].
      split; [apply Forall_app; split; [done|apply List.Forall_cons; [done|constructor]]|].
      split; [apply Forall2_app; [done|]; constructor; [by apply conf_same_refl|constructor]|].
      by apply fop_app. Qed.

  (** the instance recorded for a configuration *)
  Lemma get_instance_spec s insts c i : set_wf s insts -> conf_ok c ->
    (get_instance_for_configuration s c = Ok i <->
     exists k x, mis_params s !! k = Some x /\ insts !! k = Some i /\ conf_same x c).
  Proof. intros (Hi & Hok & Hnn & Hiok & Hf2 & Hop) Hc. unfold get_instance_for_configuration, get_instance_for_configuration_index.
    split.
    - destruct (ec_index c (mis_params s)) as [k|] eqn:E; [|done].
      destruct (ec_index_Some _ _ _ Hc Hok E) as (a & x & b & El & Hk & Hs & Ha).
      assert (mis_params s !! k = Some x) as Hlk by (rewrite El, <- Hk; by apply list_lookup_middle).
      destruct (Forall2_lookup_l _ _ _ _ _ Hf2 Hlk) as (j & Hj & _).
      rewrite Hi. rewrite (dget_numbered_lt insts k j Hj). intros [= <-]. eauto.
    - intros (k & x & Hk & Hik & Hs).
      assert (El := take_drop_middle _ _ _ Hk).
      assert (Ha : Forall (fun x => ~ conf_same x c) (take k (mis_params s))).
      { apply Forall_forall. intros y Hy Hyc. rewrite <- El in Hop.
        assert (forall l1 (z : econf) l2, ForallOrdPairs (fun a b => ~ conf_same a b) (l1 ++ z :: l2) -> forall y, y ∈ l1 -> ~ conf_same y z) as Hp.
        { clear. induction l1 as [|w l1 IH]; intros z l2 H y Hy; [set_solver|]. simpl in H. inversion H as [|? ? Hw Hr]; subst.
          apply elem_of_cons in Hy as [->|Hy]; [|by eapply IH]. rewrite Forall_forall in Hw. apply Hw. set_solver. }
        apply (Hp _ _ _ Hop y Hy). eapply conf_same_trans; [exact Hyc|]. by apply conf_same_sym. }
      rewrite <- El. rewrite (ec_index_app c); [|done|by rewrite El|done|done].
      rewrite Hi. rewrite (take_length_le (mis_params s) k) by (apply lookup_lt_Some in Hk; lia).
      by rewrite (dget_numbered_lt insts k i Hik). Qed.
End Runs.

Lemma add_runs_app m l r : add_runs m (l ++ [r]) = rlet m' <- add_runs m l; add_extractor_run m' r.
Proof. revert m. induction l as [|x l IH]; intros m; simpl.
  - by destruct (add_extractor_run m r).
  - destruct (add_extractor_run m x); simpl; [apply IH|done]. Qed.

Lemma conf_same_dec a b : conf_ok a -> conf_ok b -> conf_same a b \/ ~ conf_same a b.
Proof. intros Ha Hb. pose proof (ec_eq_spec a b Ha Hb) as H. destruct (ec_eq a b); [left; by apply H|].
  right. intros Hs%H. done. Qed.

Lemma first_uses_incl {A} (same : A -> A -> Prop) l r : first_uses same l r -> forall x, x ∈ r -> x ∈ l.
Proof. induction 1; intros x Hx; set_solver. Qed.
Lemma first_uses_cover {A} (same : A -> A -> Prop) l r :
  (forall a b c, same a b -> same b c -> same a c) -> (forall a b, same a b -> same b a) -> 
  (forall x, x ∈ l -> same x x) ->
  first_uses same l r -> forall x, x ∈ l -> exists y, y ∈ r /\ same y x.
Proof. intros Ht Hs Hr H. induction H as [|l r c H IH Hn|l r c H IH Hn]; intros x Hx.
  - set_solver.
  - apply elem_of_app in Hx as [Hx|Hx].
    + destruct (IH ltac:(set_solver) x Hx) as (y & Hy & Hyx). exists y. set_solver.
    + apply elem_of_list_singleton in Hx as ->. exists c. split; [set_solver|]. apply Hr. set_solver.
  - apply elem_of_app in Hx as [Hx|Hx].
    + apply IH; [set_solver|done].
    + apply elem_of_list_singleton in Hx as ->. apply Exists_exists in Hn as (y & Hy & Hyc).
      destruct (IH ltac:(set_solver) y Hy) as (z & Hz & Hzy). exists z. split; [done|]. by eapply Ht. Qed.

Lemma last_call_snoc calls r e c r' : conf_ok c -> conf_ok (ru_conf r) ->
  last_call (calls ++ [r]) e c r' <->
  (ru_extractor r = e /\ conf_same (ru_conf r) c /\ r' = r) \/
  (~ (ru_extractor r = e /\ conf_same (ru_conf r) c) /\ last_call calls e c r').
Proof. intros Hc Hr. split.
  - intros (pre & post & E & He & Hs & Hp). destruct post as [|z post] using rev_ind.
    + apply app_inj_tail in E as [-> ->]. left. done.
    + rewrite app_comm_cons, app_assoc in E. apply app_inj_tail in E as [-> ->].
      apply Forall_app in Hp as [Hp Hz]. inversion Hz; subst. right. split; [done|]. by exists pre, post.
  - intros [(He & Hs & ->)|(Hn & pre & post & -> & He & Hs & Hp)].
    + exists calls, []. split; [done|]. split; [done|]. split; [done|]. constructor.
    + exists pre, (post ++ [r]). split; [by rewrite <- app_assoc|]. split; [done|]. split; [done|].
      apply Forall_app. split; [done|]. apply List.Forall_cons; [done|constructor]. Qed.

Definition of_ext (e : pystr) (calls : list run) : list run :=
  List.filter (fun r => bool_decide (ru_extractor r = e)) calls.

Definition ext_inv (calls : list run) (e : pystr) (s : miset) (insts : list minst) : Prop :=
  set_wf s insts /\
  first_uses conf_same (map ru_conf (of_ext e calls)) (mis_params s) /\
  forall c i, conf_ok c ->
    ((exists k x, mis_params s !! k = Some x /\ insts !! k = Some i /\ conf_same x c) <->
     exists r, last_call calls e c r /\ i = run_inst r).

Lemma of_ext_snoc e calls r : of_ext e (calls ++ [r]) =
  of_ext e calls ++ (if bool_decide (ru_extractor r = e) then [r] else []).
Proof. unfold of_ext. rewrite List.filter_app. simpl. by destruct (bool_decide _). Qed.
Lemma of_ext_ok e calls : Forall run_ok calls -> forall r, r ∈ of_ext e calls -> run_ok r.
Proof. intros H r Hr. unfold of_ext in Hr. apply elem_of_list_In, filter_In in Hr as [Hr _].
  rewrite Forall_forall in H. apply H. by apply elem_of_list_In. Qed.

Lemma ext_inv_step calls e s insts r :
  Forall run_ok calls -> run_ok r -> ru_extractor r = e ->
  ext_inv calls e s insts ->
  exists s' insts', add_metadata_instance s (run_inst r) = Ok s' /\ ext_inv (calls ++ [r]) e s' insts'.
Proof. intros Hcs (_ & _ & _ & _ & Hok & Hnn & _) He (Hwf & Hfu & Hlast).
  pose proof Hwf as (Hi & Hpok & Hpn & Hiok & Hf2 & Hop).
  destruct (add_instance_spec s insts (run_inst r) Hwf Hok Hnn)
    as [(Hnew & s' & Ha & Hp & Hwf')|(a & x & b & ia & j & ib & Ep & Ei & Hlen & Hs & s' & Ha & Hp & Hwf')].
  - exists s', (insts ++ [run_inst r]). split; [done|]. split; [done|]. split.
    + rewrite of_ext_snoc, bool_decide_true by done. rewrite map_app, Hp. simpl. apply fu_new; [done|].
      apply Forall_forall. intros y Hy Hyr.
      assert (Hrefl : forall x, x ∈ map ru_conf (of_ext e calls) -> conf_same x x).
      { intros x' Hx'. apply conf_same_refl. apply elem_of_list_In, in_map_iff in Hx' as (z & <- & Hz%elem_of_list_In).
        apply (of_ext_ok e calls Hcs) in Hz. apply Hz. }
      destruct (first_uses_cover conf_same _ _ conf_same_trans conf_same_sym Hrefl Hfu y Hy) as (z & Hz & Hzy).
      rewrite Forall_forall in Hnew. apply (Hnew z Hz). by eapply conf_same_trans.
    + intros c i Hc. rewrite Hp. pose proof (Forall2_length _ _ _ Hf2) as Hlen. split.
      * intros (k & x & Hk & Hik & Hs). apply lookup_app_Some in Hk as [Hk|[Hk1 Hk]].
        -- rewrite lookup_app_l in Hik by (apply lookup_lt_Some in Hk; lia).
           assert (exists r0, last_call calls e c r0 /\ i = run_inst r0) as (r0 & Hr0 & ->) by (apply Hlast; [done|]; eauto).
           exists r0. split; [|done]. apply last_call_snoc; [done|done|]. right. split; [|done].
           intros [_ Hrc]. rewrite Forall_forall in Hnew. apply (Hnew x); [by eapply elem_of_list_lookup_2|].
           eapply conf_same_trans; [exact Hs|]. by apply conf_same_sym.
        -- rewrite lookup_app_r in Hik by lia. rewrite <- Hlen in Hik.
           apply list_lookup_singleton_Some in Hk as [Hk0 <-]. rewrite Hk0 in Hik. injection Hik as <-.
           exists r. split; [|done]. apply last_call_snoc; [done|done|]. left. done.
      * intros (r0 & Hr0 & ->). apply last_call_snoc in Hr0 as [(_ & Hs & ->)|[Hn Hr0]]; [| |done|done].
        -- exists (List.length insts), (mi_conf (run_inst r)). rewrite <- Hlen at 1.
           rewrite list_lookup_middle, list_lookup_middle by done. done.
        -- destruct (proj2 (Hlast c (run_inst r0) Hc)) as (k & x & Hk & Hik & Hs); [eauto|].
           exists k, x. split; [by apply lookup_app_l_Some|]. split; [by apply lookup_app_l_Some|done].
  - exists s', (ia ++ run_inst r :: ib). split; [done|]. split; [done|]. split.
    + rewrite of_ext_snoc, bool_decide_true by done. rewrite map_app, Hp. simpl. apply fu_old; [done|].
      apply Exists_exists. exists x. split; [|done]. eapply first_uses_incl; [exact Hfu|]. rewrite Ep. set_solver.
    + intros c i Hc. rewrite Hp, Ep. rewrite Ep, Ei in Hlast.
      assert (Hxok : conf_ok x) by (rewrite Forall_forall in Hpok; apply Hpok; rewrite Ep; set_solver).
      (* the configurations of other positions differ from that of position |a| *)
      assert (Huniq : forall k y, (a ++ x :: b) !! k = Some y -> conf_same y x -> k = List.length a).
      { rewrite Ep in Hop. clear -Hop. induction a as [|z a IH]; intros k y Hk Hs; simpl in *.
        - destruct k; [done|]. simpl in Hk. inversion Hop as [|? ? Hz Hr]; subst. rewrite Forall_forall in Hz.
          apply elem_of_list_lookup_2 in Hk. exfalso. apply (Hz y Hk). by apply conf_same_sym.
        - inversion Hop as [|? ? Hz Hr]; subst. destruct k.
          + injection Hk as ->. rewrite Forall_forall in Hz. exfalso. apply (Hz x); [set_solver|done].
          + simpl in Hk. f_equal. by eapply IH. }
      destruct (conf_same_dec x c Hxok Hc) as [Hxc|Hxc].
      * assert (Hrc : conf_same (ru_conf r) c) by (eapply conf_same_trans; [|exact Hxc]; by apply conf_same_sym).
        split.
        -- intros (k & y & Hk & Hik & Hs').
           assert (k = List.length a) as -> by (eapply Huniq; [exact Hk|]; eapply conf_same_trans; [exact Hs'|]; by apply conf_same_sym).
           rewrite Hlen, list_lookup_middle in Hik by done. injection Hik as <-.
           exists r. split; [|done]. apply last_call_snoc; [done|done|]. by left.
        -- intros (r0 & Hr0 & ->). apply last_call_snoc in Hr0 as [(_ & _ & ->)|[Hn _]]; [|by destruct Hn|done|done].
           exists (List.length a), x. rewrite list_lookup_middle by done. rewrite Hlen, list_lookup_middle by done. done.
      * assert (Hrc : ~ conf_same (ru_conf r) c) by (intros H; apply Hxc; by eapply conf_same_trans).
        assert (Hother : forall k y (j1 j2 : minst), (a ++ x :: b) !! k = Some y -> conf_same y c ->
            (ia ++ j1 :: ib) !! k = Some i -> (ia ++ j2 :: ib) !! k = Some i).
        { intros k y j1 j2 Hk Hyc Hik.
          destruct (decide (k = List.length a)) as [->|Hne].
          - rewrite list_lookup_middle in Hk by done. injection Hk as <-. done.
          - destruct (decide (k < List.length a)%nat).
            + rewrite lookup_app_l in Hik by lia. rewrite lookup_app_l by lia. done.
            + rewrite lookup_app_r in Hik by lia. rewrite lookup_app_r by lia.
              destruct (k - List.length ia)%nat eqn:Ek; [lia|]. done. }
        split.
        -- intros (k & y & Hk & Hik & Hs').
           destruct (proj1 (Hlast c i Hc)) as (r0 & Hr0 & ->).
           { exists k, y. split; [done|]. split; [by eapply Hother|done]. }
           exists r0. split; [|done]. apply last_call_snoc; [done|done|]. right. split; [naive_solver|done].
        -- intros (r0 & Hr0 & ->). apply last_call_snoc in Hr0 as [(_ & Hs' & ->)|[_ Hr0]]; [done| |done|done].
           destruct (proj2 (Hlast c (run_inst r0) Hc)) as (k & y & Hk & Hik & Hs'); [eauto|].
           exists k, y. split; [done|]. split; [by eapply Hother|done]. Qed.

Lemma ext_inv_other calls e s insts r :
  run_ok r -> ru_extractor r <> e -> ext_inv calls e s insts -> ext_inv (calls ++ [r]) e s insts.
Proof. intros (_ & _ & _ & _ & Hok & Hnn & _) Hne (Hwf & Hfu & Hlast). split; [done|]. split.
  - rewrite of_ext_snoc, bool_decide_false by done. by rewrite app_nil_r.
  - intros c i Hc. rewrite Hlast by done. split.
    + intros (r0 & Hr0 & ->). exists r0. split; [|done]. apply last_call_snoc; [done|done|]. right. split; [|done]. by intros [? _].
    + intros (r0 & Hr0 & ->). apply last_call_snoc in Hr0 as [(? & _)|[_ Hr0]]; [done| |done|done]. eauto. Qed.

Lemma runs_inv calls : Forall run_ok calls ->
  exists m, add_runs [] calls = Ok m /\
    first_uses eq (map ru_extractor calls) (dkeys m) /\
    forall e, exists insts, ext_inv calls e (match dget m e with Some s => s | None => mis_empty end) insts.
Proof. induction calls as [|r calls IH] using rev_ind; intros H.
  - exists []. split; [done|]. split; [constructor|]. intros e. exists []. split; [|split].
    + repeat split; constructor.
    + constructor.
    + intros c i Hc. split.
      * intros (k & x & Hk & _). by destruct k.
      * intros (r & (pre & post & E & _) & _). by destruct pre.
  - apply Forall_app in H as [Hcs Hr]. inversion Hr as [|? ? Hr' _]; subst.
    destruct (IH Hcs) as (m & Hm & Hfu & Hinv). rewrite add_runs_app, Hm. simpl.
    destruct (Hinv (ru_extractor r)) as (insts & Hi).
    destruct (ext_inv_step calls (ru_extractor r) _ _ r Hcs Hr' eq_refl Hi) as (s' & insts' & Ha & Hi').
    unfold add_extractor_run. rewrite Ha. simpl. eexists. split; [reflexivity|]. split.
    + rewrite map_app. simpl. rewrite dkeys_dset. destruct (decide _) as [Hin|Hnin].
      * apply fu_old; [done|]. apply Exists_exists. exists (ru_extractor r). split; [|done]. by eapply first_uses_incl.
      * apply fu_new; [done|]. apply Forall_forall. intros x Hx ->. apply Hnin.
        destruct (first_uses_cover eq _ _ ltac:(congruence) ltac:(congruence) ltac:(done) Hfu _ Hx) as (y & Hy & <-). done.
    + intros e. rewrite dget_dset. destruct (decide (ru_extractor r = e)) as [<-|Hne]; [by exists insts'|].
      destruct (Hinv e) as (insts2 & Hi2). exists insts2. by apply ext_inv_other. Qed.

Lemma numbered_vals {A} (l : list A) : dvals (numbered l) = l.
Proof. unfold dvals, numbered. assert (forall n, map snd (imap (fun k x => (Z.of_nat (n + k), x)) l) = l) as H; [|apply (H 0%nat)].
  induction l as [|x l IH]; intros n; [done|]. simpl. f_equal. rewrite <- (IH (S n)) at 2. f_equal.
  apply imap_ext. intros. simpl. do 2 f_equal. lia. Qed.

Lemma C12_lemma calls : Forall run_ok calls ->
  exists m, add_runs [] calls = Ok m /\
    first_uses eq (map ru_extractor calls) (extractors m) /\
    forall e,
      (e ∉ map ru_extractor calls -> extractor_runs_for_extractor m e = Err KeyError) /\
      (e ∈ map ru_extractor calls ->
       exists s, extractor_runs_for_extractor m e = Ok s /\
         first_uses conf_same (map ru_conf (List.filter (fun r => bool_decide (ru_extractor r = e)) calls)) (configurations s) /\
         Forall2 (fun c i => get_instance_for_configuration s c = Ok i) (configurations s) (mis_iter s) /\
         forall c i, conf_ok c ->
           (get_instance_for_configuration s c = Ok i <-> exists r, last_call calls e c r /\ i = run_inst r)).
Proof. intros H. destruct (runs_inv calls H) as (m & Hm & Hfu & Hinv). exists m. split; [done|]. split; [done|].
  intros e. unfold extractor_runs_for_extractor. split.
  - intros Hn. destruct (dget m e) eqn:E; [|done]. exfalso. apply Hn. eapply first_uses_incl; [exact Hfu|].
    apply dget_is_Some. by eexists.
  - intros Hin. destruct (dget m e) as [s|] eqn:E.
    2:{ apply dget_None in E. destruct (first_uses_cover eq _ _ ltac:(congruence) ltac:(congruence) ltac:(done) Hfu _ Hin) as (y & Hy & <-). done. }
    destruct (Hinv e) as (insts & Hwf & Hfe & Hl). rewrite E in *. exists s. split; [done|]. split; [exact Hfe|]. split.
    + unfold configurations, mis_iter. rewrite (proj1 Hwf), numbered_vals.
      pose proof Hwf as (_ & Hpok & Hpn & _ & Hf2 & _).
      apply Forall2_same_length_lookup_2; [by eapply Forall2_length|].
      intros k c i Hc Hi. apply (get_instance_spec s insts); [done| |].
      * rewrite Forall_forall in Hpok. apply Hpok. by eapply elem_of_list_lookup_2.
      * exists k, c. split; [done|]. split; [done|]. apply conf_same_refl. rewrite Forall_forall in Hpn. apply Hpn. by eapply elem_of_list_lookup_2.
    + intros c i Hc. rewrite (get_instance_spec s insts) by done. by apply Hl. Qed.

(** ** C13 *)
Lemma jeq_refl a : json_ok a -> no_nan a -> jeq a a = true.
Proof. intros H1 H2. apply jeq_spec; [done|done|]. by apply pysame_refl. Qed.
Lemma ec_eq_refl c : conf_ok c -> conf_no_nan c -> ec_eq c c = true.
Proof. intros H1 H2. apply ec_eq_spec; [done|done|]. by apply conf_same_refl. Qed.
Lemma mi_eq_refl i : minst_ok i -> inst_no_nan i -> mi_eq i i = true.
Proof. intros (H1 & H2 & H3 & H4 & H5) (N1 & N2 & N3 & N4 & N5). unfold mi_eq.
  rewrite !jeq_refl by done. by rewrite ec_eq_refl. Qed.
Lemma inst_dict_eq_refl d : NoDup (dkeys d) -> Forall (fun ki => minst_ok (snd ki)) d ->
  Forall (fun ki => inst_no_nan (snd ki)) d -> inst_dict_eq d d = true.
Proof. intros Hnd Hok Hnn. unfold inst_dict_eq. rewrite Nat.eqb_refl. simpl. apply forallb_forall. intros [k i] Hin.
  rewrite (In_dget d k i Hnd Hin). simpl. apply elem_of_list_In in Hin. rewrite Forall_forall in Hok, Hnn.
  apply mi_eq_refl; [by apply (Hok _ Hin)|by apply (Hnn _ Hin)]. Qed.

Definition many (s : miset) : bool := (1 <? List.length (configurations s))%nat.
Lemma mis_eq_self s : mis_ok s -> Forall conf_no_nan (mis_params s) -> Forall (fun ki => inst_no_nan (snd ki)) (mis_inst s) ->
  mis_eq s s = if many s then Err TypeError else Ok true.
Proof. intros (H1 & H2 & H3) N1 N2. unfold mis_eq, many, configurations.
  destruct (mis_params s) as [|c [|c' l]] eqn:E; simpl.
  - by rewrite inst_dict_eq_refl.
  - rewrite inst_dict_eq_refl by done. inversion H1; inversion N1; subst. by rewrite ec_eq_refl.
  - done. Qed.

Lemma C13_self_lemma m : built m -> meta_no_nan m ->
  meta_eq m m = if existsb (fun kv => (1 <? List.length (configurations (snd kv)))%nat) m then Err TypeError else Ok true.
Proof. intros Hb%built_ok Hnn. unfold meta_eq. rewrite Nat.eqb_refl.
  destruct Hb as [Hnd Hok].
  assert (forall l, (forall x, In x l -> In x m) -> meta_items_eq l m =
    if existsb (fun kv => (1 <? List.length (configurations (snd kv)))%nat) l then Err TypeError else Ok true) as H; [|by apply H].
  induction l as [|[k s] l IH]; intros Hl; simpl; [done|].
  assert (Hin : In (k, s) m) by (apply Hl; by left).
  rewrite (In_dget m k s Hnd Hin). apply elem_of_list_In in Hin. rewrite Forall_forall in Hok. unfold meta_no_nan in Hnn. rewrite Forall_forall in Hnn.
  rewrite mis_eq_self; [|apply (Hok _ Hin)|apply (Hnn _ Hin)|apply (Hnn _ Hin)]. unfold many.
  destruct (1 <? _)%nat; simpl; [done|]. apply IH. intros x Hx. apply Hl. by right. Qed.

Lemma py_sorted_small l : (List.length l <= 1)%nat -> py_sorted l = Ok l.
Proof. destruct l as [|a [|b l]]; simpl; [done|done|lia]. Qed.
Lemma C13_partial_lemma a b : single_config a -> single_config b -> exists x, meta_eq a b = Ok x.
Proof. intros Ha Hb. unfold meta_eq. destruct (Nat.eqb _ _); [|eauto]. unfold single_config in *.
  induction Ha as [|[k s] l Hk Hl IH]; simpl; [eauto|].
  destruct (dget b k) as [s'|] eqn:E; [|eauto]. unfold mis_eq. rewrite (py_sorted_small (mis_params s)) by exact Hk.
  rewrite (py_sorted_small (mis_params s')).
  2:{ rewrite Forall_forall in Hb. apply dget_Some_In, elem_of_list_In in E. apply (Hb _ E). }
  simpl. destruct (_ && _); [done|eauto]. Qed.

(** ** C14 *)
Lemma lstrip_no_space c r : is_space c = false -> lstrip (c :: r) = c :: r.
Proof. intros H. simpl. by rewrite H. Qed.
Lemma lstrip_idem s : lstrip (lstrip s) = lstrip s.
Proof. induction s as [|c s IH]; simpl; [done|]. destruct (is_space c) eqn:E; [done|]. simpl. by rewrite E. Qed.
Lemma lstrip_suffix s : exists p, s = p ++ lstrip s /\ Forall (fun c => is_space c = true) p.
Proof. induction s as [|c s (p & E & Hp)]; simpl; [by exists []|]. destruct (is_space c) eqn:Ec.
  - exists (c :: p). split; [simpl; congruence|]. by constructor.
  - by exists []. Qed.
Lemma lstrip_rev_strip s : lstrip (rev (lstrip (rev (lstrip s)))) = rev (lstrip (rev (lstrip s))).
Proof. destruct (lstrip s) as [|c r] eqn:E; [done|].
  assert (Hc : is_space c = false).
  { destruct (is_space c) eqn:Hc; [|done]. pose proof (lstrip_idem s) as H. rewrite E in H. simpl in H. rewrite Hc in H.
    assert (List.length (lstrip r) <= List.length r)%nat.
    { clear. induction r as [|x r IH]; simpl; [lia|]. destruct (is_space x); simpl; lia. }
    rewrite H in H0. simpl in H0. lia. }
  (* the head survives the right strip *)
  destruct (lstrip_suffix (rev (c :: r))) as (p & E2 & Hp).
  assert (lstrip (rev (c :: r)) <> []) as Hne.
  { intros E3. rewrite E3, app_nil_r in E2. rewrite <- E2 in Hp. apply Forall_rev in Hp. rewrite rev_involutive in Hp. inversion Hp; congruence. }
  assert (exists t, rev (lstrip (rev (c :: r))) = c :: t) as (t & ->).
  { apply (f_equal (@rev N)) in E2. rewrite rev_involutive, rev_app_distr in E2.
    destruct (rev (lstrip (rev (c :: r)))) as [|x t] eqn:E3.
    - apply (f_equal (@rev N)) in E3. rewrite rev_involutive in E3. done.
    - injection E2 as <- _. eauto. }
  by apply lstrip_no_space. Qed.
Lemma strip_idem s : strip (strip s) = strip s.
Proof. unfold strip at 1. change (lstrip (strip s)) with (lstrip (rev (lstrip (rev (lstrip s))))).
  rewrite (lstrip_rev_strip s). rewrite (rev_involutive (lstrip (rev (lstrip s)))).
  rewrite lstrip_idem. done. Qed.
Lemma strip_sub s c : In c (strip s) -> In c s.
Proof. unfold strip. intros H%in_rev. destruct (lstrip_suffix (rev (lstrip s))) as (p & E & _).
  assert (In c (rev (lstrip s))) as H2%in_rev by (rewrite E; apply in_or_app; by right).
  destruct (lstrip_suffix s) as (q & E2 & _). rewrite E2. apply in_or_app. by right. Qed.
Lemma strip_scalar s : scalar_str s -> scalar_str (strip s).
Proof. unfold scalar_str. rewrite !Forall_forall. intros H c Hc%elem_of_list_In. apply H, elem_of_list_In. by apply strip_sub. Qed.

From Verif Require Import Spec_Path PathFacts.

(** paths made by [Path(...)] are read back from their text *)
Lemma splitroot_text r l : (r = [slash] \/ r = [slash; slash]) -> good_names l ->
  splitroot (r ++ join [slash] l) = (r, join [slash] l).
Proof. intros Hr Hl. pose proof (join_good_noslash l Hl) as Hj.
  assert (Hs : lstrip_slash (join [slash] l) = join [slash] l).
  { destruct (join [slash] l) as [|c t]; [done|]. unfold starts_with_slash in Hj. simpl in Hj. rewrite andb_true_r in Hj.
    simpl. rewrite N.eqb_sym in Hj. unfold slash. by rewrite Hj. }
  destruct Hr as [->| ->]; unfold splitroot; cbn [app]; change (slash =? slash)%N with true; cbn iota;
    cbn [lstrip_slash]; change (slash =? slash)%N with true; cbn iota; rewrite Hs; cbn [List.length].
  - replace (S (List.length (join [slash] l)) - List.length (join [slash] l))%nat with 1%nat by lia. done.
  - replace (S (S (List.length (join [slash] l))) - List.length (join [slash] l))%nat with 2%nat by lia. done. Qed.

Definition path_wf (p : ppath) : Prop :=
  (p_root p = [] \/ p_root p = [slash] \/ p_root p = [slash; slash]) /\ good_names (p_parts p).

Lemma splitroot_roots s : fst (splitroot s) = [] \/ fst (splitroot s) = [slash] \/ fst (splitroot s) = [slash; slash].
Proof. unfold splitroot. destruct s as [|c s]; [auto|]. destruct (c =? slash)%N; [|auto]. destruct (Nat.eqb _ _); auto. Qed.

Lemma parse_rev_root l acc : p_root (parse_rev l acc) = [] \/ p_root (parse_rev l acc) = [slash] \/ p_root (parse_rev l acc) = [slash; slash].
Proof. revert acc. induction l as [|s l IH]; intros acc; simpl; [auto|]. destruct s as [|c s]; [apply IH|].
  pose proof (splitroot_roots (c :: s)) as H. destruct (splitroot (c :: s)) as [root rel]. simpl in H.
  destruct root as [|x root]; [apply IH|]. destruct H as [H|[H|H]]; simpl; auto. Qed.

Lemma PurePosixPath_wf args : path_wf (PurePosixPath args).
Proof. split; [apply parse_rev_root|]. unfold PurePosixPath. destruct (parse_parts_spec (flatten_args args)) as [-> _]. apply pieces_good. Qed.

Lemma components_join l : good_names l -> components (join [slash] l) = l.
Proof. intros H. rewrite components_pieces. by apply pieces_join. Qed.

Lemma path_text_roundtrip p : path_wf p -> PurePosixPath [AStr (PurePath_str p)] = p.
Proof. destruct p as [r l]. intros [Hr Hl]. simpl in Hr, Hl. unfold PurePosixPath, flatten_args. simpl.
  unfold PurePath_str, format_parts. simpl. destruct Hr as [->|Hr].
  - destruct (join [slash] l) as [|c t] eqn:E.
    + destruct l as [|x l]; [done|]. exfalso. destruct l; simpl in E.
      * inversion Hl as [|? ? [H _]]; subst. done.
      * inversion Hl as [|? ? [H _]]; subst. by destruct x.
    + rewrite <- E. by apply parse_join.
  - assert (exists c t, r ++ join [slash] l = c :: t /\ r <> []) as (c & t & E & Hne).
    { destruct Hr as [->| ->]; simpl; eauto. }
    destruct r as [|x r]; [done|].
    unfold parse_parts. cbn [app rev]. cbn [parse_rev].
    change (x :: (r ++ join [slash] l)) with ((x :: r) ++ join [slash] l).
    rewrite splitroot_text by done. rewrite components_join by done. by rewrite app_nil_r. Qed.

Lemma ms_roundtrip s :
  match s with
  | LocalGit p o => path_wf p /\ scalar_str (PurePath_str p) /\ scalar_str o /\ strip o = o
  | Immediate c => json_ok c
  end -> ms_from_json_str (ms_to_json_str s) = Ok (Some s).
Proof. intros H. unfold ms_from_json_str, ms_to_json_str. rewrite jloads_dumps.
  - destruct s as [p o|c].
    + destruct H as (Hp & _ & _ & Ho). cbn [rbind].
      transitivity (Ok (Some (mk_local_git (PurePosixPath [AStr (PurePath_str p)]) o))); [reflexivity|]. unfold mk_local_git.
      by rewrite path_text_roundtrip, Ho.
    + done.
  - destruct s as [p o|c]; apply json_ok_obj; (split; [repeat constructor; set_solver|]).
    + destruct H as (_ & H1 & H2 & _). fcons; [scal|apply at_entry_ok; scal|]. fcons; [scal|scal|]. fcons; [scal|done|]. fcons; [scal|done|]. apply List.Forall_nil.
    + fcons; [scal|apply at_entry_ok; scal|]. fcons; [scal|scal|]. fcons; [scal|done|]. apply List.Forall_nil. Qed.

Lemma C14_local_lemma args o : scalar_str (PurePath_str (PurePosixPath args)) -> scalar_str o ->
  let s := mk_local_git (PurePosixPath args) o in
  ms_from_json_str (ms_to_json_str s) = Ok (Some s) /\ ms_eq s s = true.
Proof. intros Hp Ho s. split.
  - apply ms_roundtrip. split; [apply PurePosixPath_wf|]. split; [done|]. split; [by apply strip_scalar|apply strip_idem].
  - simpl. by rewrite !bool_decide_true by done. Qed.
Lemma C14_immediate_lemma c : json_ok c ->
  ms_from_json_str (ms_to_json_str (Immediate c)) = Ok (Some (Immediate c)) /\ (no_nan c -> ms_eq (Immediate c) (Immediate c) = true).
Proof. intros H. split; [by apply ms_roundtrip|]. intros Hn. by apply jeq_refl. Qed.

Lemma C14_none_lemma (kvs : list (pystr * json)) :
  (dget kvs (ps "metadata_source_type") <> Some (JStr (ps "LocalGitMetadataSource")) ->
   dget kvs (ps "metadata_source_type") <> Some (JStr (ps "ImmediateMetadataSource")) ->
   ms_from_json_obj (JObj kvs) = Ok None) /\
  (tagged (ps "LocalGitMetadataSource") (JObj kvs) ->
   dget kvs (ps "metadata_source_type") = Some (JStr (ps "LocalGitMetadataSource")) ->
   (dget kvs (ps "git_repository_path") = None \/
    (exists p, dget kvs (ps "git_repository_path") = Some (JStr p)) /\ dget kvs (ps "object_reference") = None) ->
   ms_from_json_obj (JObj kvs) = Ok None) /\
  (tagged (ps "ImmediateMetadataSource") (JObj kvs) ->
   dget kvs (ps "metadata_source_type") = Some (JStr (ps "ImmediateMetadataSource")) ->
   dget kvs (ps "content") = None ->
   ms_from_json_obj (JObj kvs) = Ok None).
Proof. unfold ms_from_json_obj. split; [|split].
  - intros H1 H2. fold TYPE_KEY in *. destruct (dget kvs TYPE_KEY) as [t|]; [|done].
    assert (jis_str t (ps "LocalGitMetadataSource") = false) as ->.
    { destruct (jis_str _ _) eqn:E; [|done]. apply jis_str_ok in E. congruence. }
    assert (jis_str t (ps "ImmediateMetadataSource") = false) as ->.
    { destruct (jis_str _ _) eqn:E; [|done]. apply jis_str_ok in E. congruence. }
    by destruct t.
  - intros Ht E H. destruct (tagged_pass _ _ Ht) as [T1 T2].
    change (dget kvs TYPE_KEY) with (dget kvs (ps "metadata_source_type")). rewrite E.
    rewrite jis_str_refl. unfold local_git_from_json. rewrite T1, T2. cbn [rbind].
    unfold TYPE_KEY. unfold jsub at 1. rewrite E. cbn [rbind]. rewrite jis_str_refl. cbn [rassert rbind].
    destruct H as [H|[(p & H) H2]]; cbn [jsub]; rewrite H; [done|]. cbn [rbind]. cbn [jsub]. by rewrite H2.
  - intros Ht E H. destruct (tagged_pass _ _ Ht) as [T1 T2].
    change (dget kvs TYPE_KEY) with (dget kvs (ps "metadata_source_type")). rewrite E.
    change (jis_str (JStr (ps "ImmediateMetadataSource")) (ps "LocalGitMetadataSource")) with false. rewrite jis_str_refl.
    unfold immediate_from_json. rewrite T1, T2. cbn [rbind].
    unfold TYPE_KEY. unfold jsub at 1. rewrite E. cbn [rbind]. rewrite jis_str_refl. cbn [rassert rbind].
    unfold jsub. by rewrite H. Qed.

(** ** statements used in Props_Meta.v *)
Lemma C09_none_lemma r :
  (is_none_reference r = true <-> exists cls : json, r = Ref cls (r_loc (get_none_reference []))) /\
  (forall cls loc, hex_text loc -> is_none_reference (ref_of cls loc) = false).
Proof. split; [|apply hex_not_none]. rewrite none_ref_iff. destruct r as [c l]. simpl. split.
  - intros ->. eauto.
  - by intros (cls & [= _ ->]). Qed.
Lemma C10_lemma (d : json) :
  (forall r, ref_from_json_obj d = Ok r -> tagged (ps "Reference") d) /\
  (forall c, ec_from_json d = Ok c -> config_doc d) /\
  (forall i, mi_from_json d = Ok i -> instance_doc d) /\
  (forall s, mis_from_json d = Ok s -> instance_set_doc d) /\
  (forall m0 m, meta_init_from_json_obj m0 d = Ok m -> metadata_doc d) /\
  (forall s, ms_from_json_obj d = Ok (Some s) ->
     match s with
     | LocalGit _ _ => tagged (ps "LocalGitMetadataSource") d
     | Immediate _ => tagged (ps "ImmediateMetadataSource") d
     end).
Proof. split; [|split; [|split; [|split; [|split]]]].
  - apply ref_from_json_tagged. - apply ec_from_json_tagged. - apply mi_from_json_tagged.
  - apply mis_from_json_tagged. - intros m0 m. apply meta_from_json_tagged. - apply ms_from_json_tagged. Qed.
#[global] Instance json_str_dec (v : json) (s : pystr) : Decision (v = JStr s).
Proof. destruct v as [| | | | | |t| |]; try (right; discriminate).
  destruct (decide (t = s)) as [->|Hn]; [by left|right; congruence]. Defined.
Lemma C10_version_lemma (kvs tag : list (pystr * json)) (t v : json) :
  dget kvs (ps "@") = Some (JObj tag) -> dget tag (ps "type") = Some t ->
  dget tag (ps "version") = Some v ->
  check_serialized_version (JObj kvs) = (if decide (v = JStr (ps "2.0")) then Ok tt else Err ValueError).
Proof. intros H1 H2 H3. unfold check_serialized_version, jsub. rewrite H1. cbn [rbind]. rewrite H2. cbn [rbind]. rewrite H3. cbn [rbind].
  destruct (decide (v = JStr (ps "2.0"))) as [->|Hn].
  - rewrite jis_str_refl. done.
  - destruct (jis_str v version_string) eqn:E; [|done]. by apply jis_str_ok in E. Qed.
Lemma C13_reload_lemma m : built m -> meta_no_nan m ->
  exists m', meta_from_json (meta_to_json m) = Ok m' /\
  meta_eq m m' = if existsb (fun kv => (1 <? List.length (configurations (snd kv)))%nat) m
                 then Err TypeError else Ok true.
Proof. intros H1 H2. exists m. split; [by apply C11_lemma|by apply C13_self_lemma]. Qed.
Lemma add_runs_built m l m' : built m -> Forall run_ok l -> add_runs m l = Ok m' -> built m'.
Proof. intros Hm Hl. revert m Hm. induction Hl as [|r l Hr Hl IH]; intros m Hm; simpl.
  - by intros [= <-].
  - intros H. apply rbind_ok in H as (m1 & E & H). eapply IH; [|exact H]. by eapply built_run. Qed.
