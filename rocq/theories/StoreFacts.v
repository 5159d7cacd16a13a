(** What is stored for an object shows the content of the object. *)
From Verif Require Import Base BaseFacts Path Spec_Path PathFacts Json Spec_Json JsonFacts Refs Meta Spec_Meta RefsFacts MetaFacts GitText Spec_Git GitTextFacts Git Spec_Store GitFacts State BlobCache ObjRef Objects Spec_Look Spec_Heap Spec_Versions WriteFacts LoadFacts PeekFacts TreeFacts VersionFacts LookFacts Spec_Content ContentFacts.

(** ** Looking at the same *)
Lemma stored_seen O k ref : look_stored O k ref [] <> Absent.
Proof. cbn [look_stored]. by destruct (stored O k ref) as [[]|]. Qed.
Lemma look_seen O h x : look O h x [] <> Absent.
Proof. cbn [look]. destruct (h !! x) as [o|]; [|done]. destruct (h_mapped _); [done|]. destruct (h_ref _); [|done]. apply stored_seen. Qed.
Definition empty_node (f : list key -> seen) : Prop := exists c, f [] = Seen (LbNode c) /\ forall n, f [KName n] = Absent.
Lemma hollow_stored_iff O k ref : hollow O k ref = true <-> empty_node (look_stored O k ref).
Proof.
  unfold hollow, empty_node. destruct (stored O k ref) as [[b ks]|] eqn:Es.
  2: { split; [done|]. intros (c & Hc & _). cbn [look_stored] in Hc. by rewrite Es in Hc. }
  split.
  - intros Hb. destruct b as [| |c [|]| | |]; try done. exists c. cbn [look_stored]. rewrite Es. split; [done|]. intros n. done.
  - intros (c & Hc & Hn). cbn [look_stored] in Hc. rewrite Es in Hc. destruct b as [| |c' d| | |]; try done. destruct d as [|[n i] d]; [done|].
    specialize (Hn n). cbn [look_stored] in Hn. rewrite Es in Hn. cbn [kids_of map dget fst snd] in Hn. rewrite decide_True in Hn by done.
    destruct (part ks i) as [[k' ref']|]; [|done]. by apply stored_seen in Hn.
Qed.
Lemma hollow_at_iff O h x : hollow_at O h x = true <-> empty_node (look O h x).
Proof.
  unfold hollow_at. destruct (h !! x) as [o|] eqn:Eo.
  2: { split; [done|]. intros (c & Hc & _). cbn [look] in Hc. by rewrite Eo in Hc. }
  destruct (h_mapped (o_hdr o)) eqn:Em.
  - split.
    + intros Hb. exists (match o_body o with BNode c _ => c | _ => LText end). cbn [look]. rewrite Eo, Em. destruct (o_body o) as [| |c [|]| | |]; done.
    + intros (c & Hc & Hn). cbn [look] in Hc. rewrite Eo, Em in Hc. destruct (o_body o) as [| |c' d| | |] eqn:Eb; try done. destruct d as [|[n i] d]; [done|].
      specialize (Hn n). cbn [look] in Hn. rewrite Eo, Em, Eb in Hn. cbn [kids_of map dget fst snd] in Hn. rewrite decide_True in Hn by done. by apply look_seen in Hn.
  - destruct (h_ref (o_hdr o)) as [ref|] eqn:Er.
    + rewrite hollow_stored_iff. unfold empty_node. cbn [look]. by rewrite Eo, Em, Er.
    + split; [done|]. intros (c & Hc & _). cbn [look] in Hc. by rewrite Eo, Em, Er in Hc.
Qed.
Lemma hollow_agree O h x k ref : (forall q, look_stored O k ref q = look O h x q) -> hollow O k ref = hollow_at O h x.
Proof.
  intros Hq. apply eq_true_iff_eq. rewrite hollow_stored_iff, hollow_at_iff. unfold empty_node.
  split; intros (c & Hc & Hn); exists c; (split; [by rewrite <- Hc, Hq|]); intros n; by rewrite <- (Hn n), Hq.
Qed.

(** ** The parts correspond *)
Definition agrees (O : store) (h : heap) (x : loc) (kr : kd * reference) : Prop := forall q, look_stored O (fst kr) (snd kr) q = look O h x q.
Definition kids_match (O : store) (h : heap) (ks : list (kd * reference)) (a b : pydict key loc) : Prop := forall k,
  match dget a k, dget b k with
  | Some x, Some i => exists kr, part ks i = Some kr /\ agrees O h x kr
  | Some x, None => is_ktree k = true /\ hollow_at O h x = true
  | None, None => True
  | None, Some _ => False
  end.
Lemma matches O h l o kd ref b ks : h !! l = Some o -> h_mapped (o_hdr o) = true -> stored O kd ref = Ok (b, ks) ->
  label_of b = label_of (o_body o) -> kids_match O h ks (kids_of (o_body o)) (kids_of b) -> forall q, look_stored O kd ref q = look O h l q.
Proof.
  intros Ho Hm Hs Hl Hk [|k q]; cbn [look look_stored]; rewrite Ho, Hm, Hs; [by rewrite Hl|]. specialize (Hk k).
  destruct (dget (kids_of (o_body o)) k) as [x|], (dget (kids_of b) k) as [i|]; try done.
  - destruct Hk as ([k' ref'] & -> & Ha). pose proof (hollow_agree _ _ _ _ _ Ha) as Hh. cbn [fst snd] in Hh. rewrite Hh. destruct (is_ktree k && hollow_at O h x); [done|]. apply Ha.
  - destruct Hk as [-> ->]. done.
Qed.
Lemma match_aligned O h ks a b : dkeys a = dkeys b -> NoDup (dkeys b) ->
  (forall i k x y, a !! i = Some (k, x) -> b !! i = Some (k, y) -> exists kr, part ks y = Some kr /\ agrees O h x kr) -> kids_match O h ks a b.
Proof.
  intros Hab Hnd Hi k. destruct (dget a k) as [x|] eqn:Ea.
  - pose proof (dget_Some_In _ _ _ Ea) as Hin. apply elem_of_list_In, elem_of_list_lookup in Hin as [i Hia].
    assert (Hkb : dkeys b !! i = Some k). { rewrite <- Hab. unfold dkeys. change (map fst a) with (fst <$> a). rewrite list_lookup_fmap, Hia. reflexivity. }
    pose proof (list_lookup_fmap_inv fst b i k Hkb) as ([k' y] & Hk' & Hib). cbn in Hk'. subst k'.
    assert (dget b k = Some y) as ->; [|by eapply Hi]. apply In_dget; [done|]. apply elem_of_list_In. by eapply elem_of_list_lookup_2.
  - destruct (dget b k) as [y|] eqn:Eb; [|done]. apply dget_None in Ea. apply Ea. rewrite Hab. apply elem_of_list_In. eapply dkeys_in. by apply dget_Some_In.
Qed.

(** ** Texts *)
Lemma hex40_id x : hex40 x -> object_id x = true.
Proof. apply object_id_hex40. Qed.
Lemma hex40_scalar x : hex40 x -> scalar_str x.
Proof. intros [_ Hx]. by apply ascii_scalar, lhex_ascii. Qed.
Lemma hex40_not_none c x : hex40 x -> is_none_reference (ref_of c x) = false.
Proof. intros [_ Hx]. apply hex_not_none. unfold hex_text. eapply Forall_impl; [exact Hx|]. unfold lower_hex_digit. lia. Qed.
Lemma json_blob O x j : json_ok j -> hex40 x -> O !! x = Some (Blob (utf8_bytes (dumps j))) -> load_text O x = Ok (dumps j).
Proof.
  intros Hj Hx Ho. unfold load_text. rewrite hex40_id by done. unfold store in *. rewrite Ho. destruct (json_text_pipeline j Hj) as [H1 H2].
  apply encode_inv in H1 as [_ H1]. by rewrite <- H1.
Qed.
Lemma none_scalar : scalar_str none_location.
Proof. apply RefsFacts.scalar_forallb. by vm_compute. Qed.
Lemma ps_scalar s : forallb scalarb s = true -> scalar_str s.
Proof. apply RefsFacts.scalar_forallb. Qed.
Ltac scl := apply ps_scalar; vm_compute; reflexivity.
Ltac jcons := apply List.Forall_cons; [split; [scl|]|].
Lemma conv_of c x : jis_str (JStr c) (ps "FileTree") || jis_str (JStr c) (ps "DatasetTree") = false -> conv_ref (ref_of c x) = ref_of c x.
Proof. intros E. unfold conv_ref. cbn [r_class ref_of]. by rewrite E. Qed.
Ltac conv := rewrite conv_of by (vm_compute; reflexivity).
Lemma meta_from_eq t : meta_init_from_json [] t = meta_from_json t.
Proof. reflexivity. Qed.
Lemma meta_to_eq m : meta_to_json m = dumps (meta_to_json_obj m).
Proof. reflexivity. Qed.
Lemma ref_to_eq r : ref_to_json_str r = dumps (ref_to_json_obj r).
Proof. reflexivity. Qed.
Lemma ref_from_eq t : ref_from_json_str t = (rlet j <- jloads t; ref_from_json_obj j).
Proof. reflexivity. Qed.

Lemma store_meta O m x t : built m -> hex40 x -> hex40 t ->
  O !! x = Some (Blob (utf8_bytes (meta_to_json m))) -> O !! t = Some (Blob (utf8_bytes (ref_to_json_str (ref_of (ps "Metadata") x)))) ->
  stored O KdMeta (ref_of (ps "Metadata") t) = Ok (BMeta m, []).
Proof.
  rewrite meta_to_eq, ref_to_eq. intros Hm Hx Ht Ho1 Ho2. unfold stored. rewrite hex40_not_none by done. conv.
  cbn [r_class ref_of type_name_of empty_body]. rewrite jis_str_refl. unfold stored_body, ref_loc. cbn [ref_of r_loc rbind].
  assert (Hj : json_ok (ref_to_json_obj (ref_of (ps "Metadata") x))) by (apply ref_json_ok; [scl|by apply hex40_scalar]).
  rewrite (json_blob O t _ Hj Ht Ho2). cbn [rbind]. rewrite ref_from_eq, jloads_dumps by done. cbn [rbind]. rewrite ref_obj_roundtrip. cbn [rbind r_loc ref_of].
  rewrite (json_blob O x (meta_to_json_obj m)); [|by apply meta_json_ok, built_ok|done|done]. cbn [rbind].
  rewrite meta_from_eq, <- meta_to_eq, C11_lemma by done. done.
Qed.

(** ** Root records *)
Lemma parse_uuid_str u : uuid_ok u -> parse_uuid (uuid_str u) = Ok u.
Proof.
  intros [Hl Hh].
  assert (HF : forall t, Forall lower_hex_digit t -> List.filter (fun c => negb (c =? 45)%N) t = t).
  { induction 1 as [|c t Hc _ IH]; [done|]. cbn [List.filter]. assert ((c =? 45)%N = false) as ->; [|by rewrite IH]. apply N.eqb_neq. unfold lower_hex_digit in Hc. lia. }
  assert (Hf : List.filter (fun c => negb (c =? 45)%N) (uuid_str u) = u).
  { unfold uuid_str. rewrite !List.filter_app. change (List.filter (fun c : N => negb (c =? 45)%N) (ps "-")) with (@nil N). rewrite !app_nil_l.
    rewrite !HF by (first [by apply Forall_take, Forall_drop | by apply Forall_take | by apply Forall_drop]).
    assert (E1 : drop 12 u = drop 4 (drop 8 u)) by by rewrite drop_drop. assert (E2 : drop 16 u = drop 4 (drop 4 (drop 8 u))) by by rewrite !drop_drop.
    assert (E3 : drop 20 u = drop 4 (drop 4 (drop 4 (drop 8 u)))) by by rewrite !drop_drop. rewrite E3, E2, E1. by rewrite !take_drop. }
  unfold parse_uuid. rewrite Hf, Hl. cbn [Nat.ltb Nat.leb Nat.eqb].
  assert (forallb is_hex u = true) as ->.
  { apply forallb_forall. intros c Hc. rewrite List.Forall_forall in Hh. apply Hh in Hc. unfold is_hex, lower_hex_digit in *.
    rewrite !orb_true_iff, !andb_true_iff, !N.leb_le. lia. }
  f_equal. clear -Hh. induction Hh as [|c t Hc _ IH]; [done|]. cbn [map]. rewrite IH. f_equal. unfold lower_hex, lower_hex_digit in *.
  destruct (_ && _) eqn:E; [|done]. apply andb_true_iff in E as [E1 E2]. apply N.leb_le in E1, E2. lia.
Qed.
Lemma uuid_scalar u : uuid_ok u -> scalar_str (uuid_str u).
Proof.
  intros [_ Hh]. unfold uuid_str. apply ascii_scalar. assert (Hu := lhex_ascii _ Hh).
  repeat (apply Forall_app; split); try (by apply Forall_take, Forall_drop || by apply Forall_take || by apply Forall_drop).
  all: try (by repeat constructor). all: by first [apply Forall_take, Forall_drop|apply Forall_take|apply Forall_drop].
Qed.
Definition ref_ok (ref : reference) : Prop := (exists c, r_class ref = JStr c /\ scalar_str c) /\ match r_loc ref with Some l => scalar_str l | None => True end.
Lemma ref_ok_json ref : ref_ok ref -> json_ok (ref_to_json_obj ref).
Proof. intros [(c & Hc & Hs) Hl]. apply ref_json_ok; [|done]. by rewrite Hc. Qed.
Definition mrr_doc (u : uuid) (w : pystr) (mref fref : reference) : json :=
  JObj [(ps "dataset_identifier", JStr (uuid_str u)); (ps "dataset_version", JStr w);
        (ps "dataset_level_metadata", ref_to_json_obj mref); (ps "file_tree", ref_to_json_obj fref)].
Lemma store_mrr O u w mref fref t : uuid_ok u -> scalar_str w -> ref_ok mref -> ref_ok fref -> hex40 t ->
  O !! t = Some (Blob (utf8_bytes (dumps (mrr_doc u w mref fref)))) ->
  let ms := if is_none_reference mref then [] else [(KdMeta, mref)] in
  stored O KdMrr (ref_of (ps "MetadataRootRecord") t) =
    Ok (BMrr (Some u) (Some w) (if is_none_reference mref then None else Some 0%N) (if is_none_reference fref then None else Some (N.of_nat (length ms))),
        ms ++ if is_none_reference fref then [] else [(KdNode LMeta, fref)]).
Proof.
  intros Hu Hw Hm Hf Ht Ho ms. unfold stored. rewrite hex40_not_none by done. conv.
  cbn [r_class ref_of type_name_of empty_body]. rewrite jis_str_refl. unfold stored_body, ref_loc. cbn [ref_of r_loc rbind].
  assert (Hj : json_ok (mrr_doc u w mref fref)).
  { apply json_ok_obj. split; [repeat constructor; set_solver|].
    jcons; [by apply uuid_scalar|]. jcons; [done|]. jcons; [by apply ref_ok_json|]. jcons; [by apply ref_ok_json|]. apply List.Forall_nil. }
  rewrite (json_blob O t _ Hj Ht Ho). cbn [rbind]. rewrite jloads_dumps by done. cbn [rbind].
  change (jsub (mrr_doc u w mref fref) (ps "dataset_level_metadata")) with (Ok (ref_to_json_obj mref)). cbn [rbind]. rewrite ref_obj_roundtrip. cbn [rbind].
  change (jsub (mrr_doc u w mref fref) (ps "file_tree")) with (Ok (ref_to_json_obj fref)). cbn [rbind]. rewrite ref_obj_roundtrip. cbn [rbind].
  change (jsub (mrr_doc u w mref fref) (ps "dataset_identifier")) with (Ok (JStr (uuid_str u))). cbn [rbind uuid_of_json]. rewrite parse_uuid_str by done. cbn [rbind].
  change (jsub (mrr_doc u w mref fref) (ps "dataset_version")) with (Ok (JStr w)). cbn [rbind]. done.
Qed.

(** ** Trees *)
Definition maybe_entry (d : dentry) : Prop := storable_name (de_name d) /\ (hex40 (de_id d) \/ de_id d = none_location).
Lemma maybe_bytes d : maybe_entry d -> utf8_bytes (tree_spec_line (spec_fields d)) =
  dflag (de_dir d) ++ [32%N] ++ dtype (de_dir d) ++ [32%N] ++ de_id d ++ [9%N] ++ enc_name d.
Proof.
  intros [(_ & Hs & _) Hid]. unfold tree_spec_line, spec_fields, dir_entry_fields, enc_name. rewrite !utf8_bytes_app.
  assert (utf8_bytes (de_id d) = de_id d) as ->.
  { apply utf8_ascii. destruct Hid as [[_ Hh]| ->]; [by apply lhex_ascii|]. by repeat constructor. }
  by destruct (de_dir d).
Qed.
Lemma maybe_no d b : maybe_entry d -> b = 0%N \/ b = 10%N -> ~ In b (utf8_bytes (tree_spec_line (spec_fields d))).
Proof.
  intros Hd Hb. rewrite maybe_bytes by done. apply nochar_In. unfold nochar. repeat (apply Forall_app; split).
  - destruct (de_dir d); fall; destruct Hb; subst; done.
  - fall; destruct Hb; subst; done.
  - destruct (de_dir d); fall; destruct Hb; subst; done.
  - fall; destruct Hb; subst; done.
  - destruct Hd as [_ [[_ Hh]| ->]].
    + apply nochar_In. eapply lhex_no; [exact Hh|]. unfold lower_hex_digit. lia.
    + fall; destruct Hb; subst; done.
  - fall; destruct Hb; subst; done.
  - apply nochar_In. intros Hin. unfold enc_name in Hin. destruct Hd as [(_ & Hs & _ & H0 & H10) _].
    apply utf8_bytes_In1 in Hin; [|by apply escape_scalar|destruct Hb; lia]. apply escape_In in Hin; [|destruct Hb; lia|destruct Hb; lia]. destruct Hb; by subst.
Qed.
Lemma none_line d : maybe_entry d -> de_id d = none_location -> mktree_line (utf8_bytes (tree_spec_line (spec_fields d))) = None.
Proof.
  intros Hd Hn. pose proof (maybe_no d 0%N Hd (or_introl eq_refl)) as Hnul. unfold mktree_line. rewrite (cut_nul_id _ Hnul). rewrite maybe_bytes by done. rewrite Hn.
  rewrite (span_app is_octal (dflag (de_dir d))); [| |done]. 2: by destruct (de_dir d); repeat constructor.
  destruct (dflag (de_dir d)) as [|x0 xs] eqn:Ef; [by destruct (de_dir d)|]. cbn [app].
  rewrite (span_app (fun c => negb (c =? 32)%N) (dtype (de_dir d))); [| |done]. 2: by destruct (de_dir d); repeat constructor.
  set (t := enc_name d). change (none_location ++ 9%N :: t) with (42%N :: ps "None*" ++ 9%N :: t).
  destruct (drop 40 _) as [|c path]; [done|]. destruct (decide (c = 9%N)) as [->|Hc].
  - destruct (name_field path); [|done].
    assert (E : forall X, forallb is_hex (take 40 (42%N :: X)) = false) by (intros; reflexivity). rewrite E, andb_false_r. done.
  - destruct c as [|c]; [done|]. repeat (destruct c as [c|c|]; try done).
Qed.
Lemma mktree_ids l input es : l <> [] -> Forall maybe_entry l -> encode (tree_spec (map spec_fields l)) = Ok input -> mktree_input input = Some es -> Forall dentry_ok l.
Proof.
  intros Hne Hl He Hm. apply encode_inv in He as [_ ->]. unfold tree_spec in Hm. rewrite utf8_bytes_app in Hm. rewrite join_utf8, map_map, map_map in Hm.
  unfold mktree_input in Hm. change (utf8_bytes [10%N]) with [10%N] in Hm. rewrite input_lines_join in Hm.
  - destruct (omap_all _ _) as [ts|] eqn:Ho in Hm; [|done]. clear Hm Hne. revert ts Ho. induction Hl as [|d l Hd _ IH]; intros ts Ho; [by apply List.Forall_nil|].
    cbn [map omap_all] in Ho. destruct (cut_nul (utf8_bytes (tree_spec_line (spec_fields d)))); [done|].
    destruct (mktree_line (utf8_bytes (tree_spec_line (spec_fields d)))) eqn:E; [|done]. destruct (omap_all _ (map _ l)) eqn:Eo in Ho; [|done].
    apply List.Forall_cons; [|by eapply IH]. pose proof Hd as [Hs [Hh|Hh]]; [done|]. by rewrite none_line in E.
  - by destruct l.
  - apply Forall_map. eapply Forall_impl; [exact Hl|]. intros d Hd. cbv beta. apply maybe_no; auto.
Qed.

(** references that lead somewhere *)
Lemma load_text_id O x t : load_text O x = Ok t -> hex40 x.
Proof. unfold load_text. destruct (object_id x) eqn:E; [|done]. intros _. by apply object_id_hex40. Qed.
Lemma load_lines_id O x t : load_lines O x = Ok t -> hex40 x.
Proof. unfold load_lines. destruct (object_id x) eqn:E; [|done]. intros _. by apply object_id_hex40. Qed.
Lemma stored_some O k ref b ks : stored O k ref = Ok (b, ks) -> is_none_reference ref = false ->
  exists x, r_loc ref = Some x /\ hex40 x /\ r_class (conv_ref ref) = JStr (type_name_of (empty_body k)) /\ stored O k (ref_of (type_name_of (empty_body k)) x) = Ok (b, ks).
Proof.
  intros Hs Hn. pose proof Hs as Hs0. unfold stored in Hs. rewrite Hn in Hs. destruct (jis_str _ _) eqn:Ej; [|done].
  assert (Hloc : exists x, r_loc ref = Some x /\ hex40 x).
  { unfold stored_body, ref_loc in Hs. destruct (r_loc ref) as [x|]; [|done]. exists x. split; [done|]. cbn [rbind] in Hs.
    destruct k; rstep Hs; first [eapply load_text_id; eassumption | eapply load_lines_id; eassumption]. }
  destruct Hloc as (x & Hl & Hx). apply jis_str_ok in Ej. exists x. split_and!; [done|done|done|].
  rewrite <- Hs0. rewrite <- (stored_conv O k ref Hn). apply stored_class.
  - unfold conv_ref. cbn. by destruct (_ || _).
  - apply jis_str_refl.
  - rewrite Ej. apply jis_str_refl.
Qed.
Lemma agrees_some O h x k ref : agrees O h x (k, ref) -> look O h x [] <> Broken -> is_none_reference ref = false ->
  exists id, r_loc ref = Some id /\ hex40 id /\ r_class (conv_ref ref) = JStr (type_name_of (empty_body k)) /\ agrees O h x (k, ref_of (type_name_of (empty_body k)) id).
Proof.
  intros Ha Hb Hn. assert (Hs : exists t, stored O k ref = Ok t).
  { rewrite <- (Ha []) in Hb. by apply look_stored_ok in Hb. }
  destruct Hs as [[b ks] Hs]. destruct (stored_some O k ref b ks Hs Hn) as (id & H1 & H2 & H3 & H4). exists id. split_and!; try done.
  intros q. rewrite <- (Ha q). cbn [fst snd]. apply look_stored_eq. by rewrite H4, Hs.
Qed.
Lemma agrees_none O h x k ref : agrees O h x (k, ref) -> look O h x [] <> Broken -> is_none_reference ref = true ->
  exists c, k = KdNode c /\ ref = get_none_reference (ps "MTreeNode") /\ hollow_at O h x = true.
Proof.
  intros Ha Hb Hn. assert (Hs : exists t, stored O k ref = Ok t).
  { rewrite <- (Ha []) in Hb. by apply look_stored_ok in Hb. }
  destruct Hs as [[b ks] Hs]. pose proof Hs as Hs0. unfold stored in Hs. rewrite Hn in Hs. destruct k as [| |c| | |]; try done. destruct (jis_str _ _) eqn:Ej; [|done].
  exists c. split; [done|]. split.
  - apply jis_str_ok in Ej. unfold is_none_reference in Hn. apply bool_decide_eq_true in Hn. destruct ref as [rc rl]. cbn in *. by subst.
  - pose proof (hollow_agree _ _ _ _ _ Ha) as Hh. cbn [fst snd] in Hh. rewrite <- Hh. unfold hollow. rewrite Hs0. injection Hs as <- _. done.
Qed.

(** numbered parts *)
Section Numbered.
  Context {A K : Type} `{EqDecision K} (key : A -> K) (kr : A -> kd * reference).
  Definition numbered (l : list A) : pydict K loc := imap (fun i e => (key e, N.of_nat i)) l.
  Lemma numbered_keys l : dkeys (numbered l) = map key l.
  Proof. unfold dkeys, numbered. change (map fst) with (fmap (M := list) (fst (A := K) (B := loc))). rewrite fmap_imap. apply list_eq. intros i. rewrite list_lookup_imap. change (map key l) with (key <$> l). rewrite list_lookup_fmap. by destruct (l !! i). Qed.
  Lemma numbered_in l e : NoDup (map key l) -> e ∈ l -> exists i, dget (numbered l) (key e) = Some i /\ part (map kr l) i = Some (kr e).
  Proof.
    intros Hnd Hin. apply elem_of_list_lookup in Hin as [i Hi]. exists (N.of_nat i). split.
    - apply In_dget; [by rewrite numbered_keys|]. apply elem_of_list_In. apply elem_of_list_lookup. exists i. unfold numbered. by rewrite list_lookup_imap, Hi.
    - unfold part. rewrite Nat2N.id. change (map kr l) with (kr <$> l). by rewrite list_lookup_fmap, Hi.
  Qed.
  Lemma numbered_none l k : k ∉ map key l -> dget (numbered l) k = None.
  Proof. intros Hk. apply dget_None. by rewrite numbered_keys. Qed.
  Lemma numbered_snoc l e : numbered (l ++ [e]) = numbered l ++ [(key e, N.of_nat (length l))].
  Proof. unfold numbered. rewrite imap_app. f_equal. cbn. by rewrite Nat.add_0_r. Qed.
End Numbered.

Definition dkind (c : leafcls) (d : dentry) : kd * reference :=
  if de_dir d then (KdNode c, ref_of (ps "MTreeNode") (de_id d)) else (leaf_kd c, ref_of (leaf_name c) (de_id d)).
Lemma add_lines_run c l : forall l0, NoDup (map de_name (l0 ++ l)) ->
  rfold (add_line c) (map (fun d => (if de_dir d then ps "tree" else ps "blob", de_id d, de_name d)) l) (numbered de_name l0, map (dkind c) l0) =
    Ok (numbered de_name (l0 ++ l), map (dkind c) (l0 ++ l)).
Proof.
  induction l as [|d l IH]; intros l0 Hnd; cbn [map rfold]; [by rewrite app_nil_r|].
  assert (E : add_line c (numbered de_name l0, map (dkind c) l0) (if de_dir d then ps "tree" else ps "blob", de_id d, de_name d) =
    Ok (numbered de_name (l0 ++ [d]), map (dkind c) (l0 ++ [d]))).
  { unfold add_line. cbn [fst snd]. assert (Hf : de_name d ∉ dkeys (numbered de_name l0)).
    { rewrite numbered_keys. rewrite map_app in Hnd. cbn in Hnd. apply NoDup_app in Hnd as (_ & Hnd & _). intros Hin. apply (Hnd _ Hin). by left. }
    rewrite numbered_snoc, map_app, map_length, dset_fresh by done. unfold dkind. cbn [map]. destruct (de_dir d).
    - rewrite bool_decide_eq_true_2 by done. done.
    - rewrite bool_decide_eq_false_2 by done. rewrite bool_decide_eq_true_2 by done. done. }
  rewrite E. cbn [rbind]. rewrite IH; rewrite <- app_assoc; done.
Qed.
Lemma unfit k b : key_fits k b = false -> dget (kids_of b) k = None.
Proof. intros H. destruct (dget (kids_of b) k) as [x|] eqn:E; [|done]. apply kids_fit in E. congruence. Qed.
Lemma node_match O h c d l (ent : pystr * loc -> dentry) : (forall nl, de_name (ent nl) = fst nl) -> l ≡ₚ map ent d -> NoDup (dkeys d) ->
  (forall nl, In nl d -> agrees O h (snd nl) (dkind c (ent nl))) ->
  kids_match O h (map (dkind c) l) (kids_of (BNode c d)) (kids_of (BNode c (numbered de_name l))).
Proof.
  intros He Hp Hnd Ha k. assert (Hl : map de_name l ≡ₚ dkeys d).
  { unfold dkeys. rewrite Hp, map_map. erewrite map_ext; [reflexivity|]. done. }
  destruct k as [n| | |v p|u].
  2-5: rewrite !unfit by done; done.
  rewrite !kids_names. destruct (dget d n) as [x|] eqn:Ed.
  - apply dget_Some_In in Ed. assert (Hin : ent (n, x) ∈ l). { rewrite Hp. apply elem_of_list_In, in_map. done. }
    destruct (numbered_in de_name (dkind c) l (ent (n, x))) as (i & Hi & Hpt); [by rewrite Hl|done|]. rewrite He in Hi. cbn [fst] in Hi. rewrite Hi.
    exists (dkind c (ent (n, x))). split; [done|]. by apply (Ha (n, x)).
  - apply dget_None in Ed. rewrite numbered_none; [done|]. by rewrite Hl.
Qed.
Lemma store_node O c l t input es : l <> [] -> Forall dentry_ok l -> NoDup (map de_name l) -> hex40 t -> encode (tree_spec (map spec_fields l)) = Ok input ->
  mktree_input input = Some es -> O !! t = Some (Tree es) ->
  exists l', l' ≡ₚ l /\ stored O (KdNode c) (ref_of (ps "MTreeNode") t) = Ok (BNode c (numbered de_name l'), map (dkind c) l').
Proof.
  intros Hne Hl Hnd Ht He Hm Ho. destruct (C04_lemma l Hne Hl) as (input' & es' & out & lines & l' & H1 & H2 & H3 & H4 & H5 & H6).
  assert (input' = input) as -> by (unfold spec_fields in He; congruence). assert (es' = es) as -> by congruence. exists l'. split; [done|].
  unfold stored. rewrite hex40_not_none by done. conv. cbn [r_class ref_of type_name_of empty_body]. rewrite jis_str_refl. unfold stored_body, ref_loc. cbn [ref_of r_loc rbind].
  unfold load_lines. rewrite hex40_id by done. unfold store in *. rewrite Ho, H3, H4. cbn [rbind]. rewrite H5. cbn [rbind].
  assert (Hn : NoDup (map de_name ([] ++ l'))) by (cbn [app]; by rewrite H6). pose proof (add_lines_run c l' [] Hn) as Hr.
  match goal with |- rbind ?x _ = _ => replace x with (Ok (numbered de_name l', map (dkind c) l')) end. done.
Qed.

(** ** UUID sets *)
Lemma uuid_plain u c : uuid_ok u -> In c (uuid_str u) -> c = 45%N \/ lower_hex_digit c.
Proof.
  intros [_ Hh] Hc. rewrite List.Forall_forall in Hh. assert (Hs : forall a b, In c (take a (drop b u)) -> lower_hex_digit c).
  { intros a b Hi. apply Hh. apply elem_of_list_In in Hi. apply elem_of_take in Hi as (i & Hi & _). rewrite lookup_drop in Hi. apply elem_of_list_In. by eapply elem_of_list_lookup_2. }
  unfold uuid_str in Hc. rewrite !in_app_iff in Hc.
  assert (Hd : forall b, In c (drop b u) -> lower_hex_digit c).
  { intros b Hi. rewrite <- (firstn_all (drop b u)) in Hi. by eapply Hs. }
  assert (H1 : In c (ps "-") -> c = 45%N) by (intros [<-|[]]; done).
  destruct Hc as [Hc|[Hc|[Hc|[Hc|[Hc|[Hc|[Hc|[Hc|Hc]]]]]]]]; auto; right; eauto.
  rewrite <- (drop_0 u) in Hc. by eapply Hs.
Qed.
Lemma uuid_name u : uuid_ok u -> storable_name (uuid_str u).
Proof.
  intros Hu. pose proof (uuid_plain u) as Hp. split_and!.
  - unfold uuid_str. intros E. apply app_eq_nil in E as [_ E]. done.
  - by apply uuid_scalar.
  - intros Hi. apply Hp in Hi; [|done]. unfold lower_hex_digit in Hi. lia.
  - intros Hi. apply Hp in Hi; [|done]. unfold lower_hex_digit in Hi. lia.
  - intros Hi. apply Hp in Hi; [|done]. unfold lower_hex_digit in Hi. lia.
Qed.
Lemma uuid_quote u : uuid_ok u -> quote_c (utf8_bytes (uuid_str u)) = uuid_str u.
Proof.
  intros Hu. pose proof (uuid_plain u) as Hp. rewrite utf8_ascii.
  - unfold quote_c. assert (existsb must_quote (uuid_str u) = false) as ->; [|done]. apply not_true_is_false. intros E. apply existsb_exists in E as (c & Hc & E).
    apply Hp in Hc; [|done]. unfold must_quote in E. rewrite !orb_true_iff, N.ltb_lt, !N.eqb_eq, N.leb_le in E. unfold lower_hex_digit in Hc. lia.
  - apply List.Forall_forall. intros c Hc. apply Hp in Hc; [|done]. unfold ascii, lower_hex_digit in *. lia.
Qed.
Definition uuid_entry (ui : uuid * pystr) : dentry := DE false (snd ui) (uuid_str (fst ui)).
Definition ukind (ui : uuid * pystr) : kd * reference := (KdVl false, ref_of (ps "VersionList") (snd ui)).
Lemma add_uuids_run l : Forall (fun ui : uuid * pystr => uuid_ok (fst ui)) l -> forall l0, NoDup (map fst (l0 ++ l)) ->
  rfold add_uuid (map (fun ui : uuid * pystr => (ps "100644", ps "blob", snd ui, uuid_str (fst ui))) l) (numbered fst l0, map ukind l0) =
    Ok (numbered fst (l0 ++ l), map ukind (l0 ++ l)).
Proof.
  induction 1 as [|[u i] l Hu Hl IH]; intros l0 Hnd; cbn [map rfold]; [by rewrite app_nil_r|].
  assert (E : add_uuid (numbered fst l0, map ukind l0) (ps "100644", ps "blob", snd (u, i), uuid_str (fst (u, i))) = Ok (numbered fst (l0 ++ [(u, i)]), map ukind (l0 ++ [(u, i)]))).
  { unfold add_uuid. cbn [fst snd] in *. rewrite parse_uuid_str by done. cbn [rbind]. assert (Hf : u ∉ dkeys (numbered fst l0)).
    { rewrite numbered_keys. rewrite map_app in Hnd. cbn in Hnd. apply NoDup_app in Hnd as (_ & Hnd & _). intros Hin. apply (Hnd _ Hin). by left. }
    rewrite numbered_snoc, map_app, map_length, dset_fresh by done. done. }
  rewrite E. cbn [rbind]. rewrite IH; rewrite <- app_assoc; done.
Qed.
Lemma us_match O h us l (idof : loc -> pystr) : l ≡ₚ map (fun ul : uuid * loc => (fst ul, idof (snd ul))) us -> NoDup (dkeys us) ->
  (forall ul, In ul us -> agrees O h (snd ul) (ukind (fst ul, idof (snd ul)))) ->
  kids_match O h (map ukind l) (kids_of (BUset us)) (kids_of (BUset (numbered fst l))).
Proof.
  intros Hp Hnd Ha k. assert (Hl : map fst l ≡ₚ dkeys us).
  { unfold dkeys. rewrite Hp, map_map. erewrite map_ext; [reflexivity|]. done. }
  destruct k as [n| | |v p|u].
  1-4: rewrite !unfit by done; done.
  rewrite !kids_uuids. destruct (dget us u) as [x|] eqn:Ed.
  - apply dget_Some_In in Ed. assert (Hin : (u, idof x) ∈ l). { rewrite Hp. apply elem_of_list_In. by apply (in_map (fun ul : uuid * loc => (fst ul, idof (snd ul))) us (u, x)). }
    destruct (numbered_in fst ukind l (u, idof x)) as (i & Hi & Hpt); [by rewrite Hl|done|]. cbn [fst] in Hi. rewrite Hi.
    exists (ukind (u, idof x)). split; [done|]. by apply (Ha (u, x)).
  - apply dget_None in Ed. rewrite numbered_none; [done|]. by rewrite Hl.
Qed.
Lemma store_us O l t input es : l <> [] -> Forall (fun ui : uuid * pystr => uuid_ok (fst ui) /\ hex40 (snd ui)) l -> NoDup (map fst l) -> hex40 t ->
  encode (tree_spec (map spec_fields (map uuid_entry l))) = Ok input -> mktree_input input = Some es -> O !! t = Some (Tree es) ->
  exists l', l' ≡ₚ l /\ stored O KdUs (ref_of (ps "UUIDSet") t) = Ok (BUset (numbered fst l'), map ukind l').
Proof.
  intros Hne Hl Hnd Ht He Hm Ho.
  assert (Hok : Forall dentry_ok (map uuid_entry l)).
  { apply List.Forall_forall. intros d Hd. apply in_map_iff in Hd as (ui & <- & Hi). rewrite List.Forall_forall in Hl. apply Hl in Hi as [H1 H2]. split; [done|]. by apply uuid_name. }
  destruct (mktree_of_spec (map uuid_entry l)) as (input' & E1 & E2); [by destruct l|done|]. assert (input' = input) as -> by congruence.
  destruct (sort_map_denc (map uuid_entry l)) as (l1 & E3 & Hp). assert (Hok1 : Forall dentry_ok l1) by by rewrite Hp.
  destruct (stdout_lines_listing l1 Hok1) as [E4 E5]. destruct (Permutation_map_inv _ _ Hp) as (l' & -> & Hp').
  exists l'. split; [done|]. rewrite E3 in E2. rewrite E2 in Hm. injection Hm as <-.
  unfold stored. rewrite hex40_not_none by done. conv. cbn [r_class ref_of type_name_of empty_body]. rewrite jis_str_refl. unfold stored_body, ref_loc. cbn [ref_of r_loc rbind].
  unfold load_lines. rewrite hex40_id by done. unfold store in *. rewrite Ho, E4, E5. cbn [rbind].
  assert (Hl' : Forall (fun ui : uuid * pystr => uuid_ok (fst ui) /\ hex40 (snd ui)) l') by by rewrite <- Hp'.
  assert (rmap split_git_lstree_line (map line_text (map uuid_entry l')) = Ok (map (fun ui : uuid * pystr => (ps "100644", ps "blob", snd ui, uuid_str (fst ui))) l')) as ->.
  { clear -Hl'. induction Hl' as [|ui l' [Hu Hi] _ IH]; [done|]. cbn [map rmap]. rewrite split_lstree_line_text by (split; [done|by apply uuid_name]).
    unfold uuid_entry at 1 2 3 4. cbn [de_dir de_id de_name]. rewrite uuid_quote by done. cbn [rbind]. rewrite IH. done. }
  cbn [rbind]. assert (Hn : NoDup (map fst ([] ++ l'))) by (cbn [app]; by rewrite <- Hp').
  assert (Hu' : Forall (fun ui : uuid * pystr => uuid_ok (fst ui)) l') by (eapply Forall_impl; [exact Hl'|]; by intros ? []).
  pose proof (add_uuids_run l' Hu' [] Hn) as Hr.
  match goal with |- rbind ?x _ = _ => replace x with (Ok (numbered fst l', map ukind l')) end. done.
Qed.

(** ** Version lists *)
Definition rkey (r : pystr * vrec) : pystr * ppath := (fst r, vr_path (snd r)).
Definition setall (l : list (pystr * vrec)) (vs : pydict pystr (pydict ppath vrec)) : pydict pystr (pydict ppath vrec) :=
  fold_left (fun vs q => vs_set vs (fst q) (vr_path (snd q)) (snd q)) l vs.
Lemma dget_snoc {K V : Type} `{EqDecision K} (pre : pydict K V) k v : k ∉ dkeys pre -> dget (pre ++ [(k, v)]) k = Some v.
Proof.
  induction pre as [|[k' v'] pre IH]; intros Hk; cbn [app dget].
  - by rewrite decide_True.
  - unfold dkeys in Hk. cbn in Hk. apply not_elem_of_cons in Hk as [H1 H2]. rewrite decide_False by congruence. by apply IH.
Qed.
Lemma dset_snoc {K V : Type} `{EqDecision K} (pre : pydict K V) k v w : k ∉ dkeys pre -> dset (pre ++ [(k, v)]) k w = pre ++ [(k, w)].
Proof.
  induction pre as [|[k' v'] pre IH]; intros Hk; cbn [app dset].
  - by rewrite decide_True.
  - unfold dkeys in Hk. cbn in Hk. apply not_elem_of_cons in Hk as [H1 H2]. rewrite decide_False by congruence. by rewrite IH.
Qed.
Lemma setall_inner (v : pystr) (d : pydict ppath vrec) : (forall p r, In (p, r) d -> vr_path r = p) -> forall pre d0, v ∉ dkeys pre -> NoDup (dkeys (d0 ++ d)) ->
  setall (map (fun pr => (v, snd pr)) d) (pre ++ [(v, d0)]) = pre ++ [(v, d0 ++ d)].
Proof.
  induction d as [|[p r] d IH]; intros Hp pre d0 Hv Hnd; cbn [map]; [by rewrite app_nil_r|]. cbn [setall fold_left fst snd].
  fold (setall (map (fun pr : ppath * vrec => (v, snd pr)) d)). unfold vs_set. rewrite dget_snoc by done. rewrite (Hp p r) by by left.
  assert (Hf : p ∉ dkeys d0). { unfold dkeys in *. rewrite map_app in Hnd. apply NoDup_app in Hnd as (_ & Hnd & _). intros Hin. apply (Hnd _ Hin). by left. }
  rewrite dset_snoc, (dset_fresh d0) by done. rewrite IH; [by rewrite <- app_assoc| |done|by rewrite <- app_assoc]. intros p' r' Hin. apply Hp. by right.
Qed.
Lemma setall_rebuild vs : well_keyed vs -> forall pre, (forall v, v ∈ dkeys pre -> v ∉ dkeys vs) -> exists vs1, setall (vs_records vs) pre = pre ++ vs1 /\ vs_records vs1 = vs_records vs /\ well_keyed vs1 /\ dkeys vs1 ⊆ dkeys vs.
Proof.
  induction vs as [|[v d] vs IH]; intros Hw pre Hpre; [exists []; rewrite app_nil_r; done|].
  assert (Hw' : well_keyed vs). { destruct Hw as [H1 H2]. unfold dkeys in *. cbn in H1. apply NoDup_cons in H1 as [_ H1]. split; [done|]. intros v' d' Hin. apply (H2 v' d'). by right. }
  assert (Hv : v ∉ dkeys vs). { destruct Hw as [H1 _]. unfold dkeys in *. cbn in H1. by apply NoDup_cons in H1 as [? _]. }
  destruct (proj2 Hw v d) as [Hn Hp]; [by left|].
  change (vs_records ((v, d) :: vs)) with (map (fun pr : ppath * vrec => (v, snd pr)) d ++ vs_records vs). unfold setall. rewrite fold_left_app.
  fold (setall (map (fun pr : ppath * vrec => (v, snd pr)) d) pre). set (S1 := setall _ pre). fold (setall (vs_records vs) S1).
  assert (Hvp : v ∉ dkeys pre). { intros Hin. apply (Hpre _ Hin). by left. }
  destruct d as [|[p r] d].
  - destruct (IH Hw' pre) as (vs1 & E1 & E2 & E3 & E4). { intros v' Hin Hin'. apply (Hpre v' Hin). by right. }
    exists vs1. split_and!; [done|done|done|]. intros v' Hv'. right. by apply E4.
  - assert (ES : S1 = pre ++ [(v, (p, r) :: d)]).
    { unfold S1. cbn [map setall fold_left fst snd]. fold (setall (map (fun pr : ppath * vrec => (v, snd pr)) d)). unfold vs_set.
      assert (dget pre v = None) as -> by by apply dget_None. rewrite dset_fresh by done. cbn [dset]. rewrite (Hp p r) by by left.
      rewrite setall_inner; [done| |done|done]. intros p' r' Hin. apply Hp. by right. }
    rewrite ES. destruct (IH Hw' (pre ++ [(v, (p, r) :: d)])) as (vs1 & E1 & E2 & E3 & E4).
    { intros v' Hin Hin'. unfold dkeys in Hin. rewrite map_app in Hin. apply elem_of_app in Hin as [Hin|Hin].
      - apply (Hpre v' Hin). by right. - cbn in Hin. apply elem_of_list_singleton in Hin as ->. done. }
    exists ((v, (p, r) :: d) :: vs1). rewrite E1, <- app_assoc. split_and!.
    + done.
    + change (vs_records ((v, (p, r) :: d) :: vs1)) with (map (fun pr : ppath * vrec => (v, snd pr)) ((p, r) :: d) ++ vs_records vs1). by rewrite E2.
    + destruct E3 as [G1 G2]. split.
      * unfold dkeys in *. cbn. apply NoDup_cons. split; [|done]. intros Hin. by apply E4 in Hin.
      * intros v' d' [[= <- <-]|Hin]; [done|by apply (G2 v' d')].
    + intros v' Hin. unfold dkeys in Hin. cbn in Hin. apply elem_of_cons in Hin as [->|Hin]; [by left|]. right. by apply E4.
Qed.
Lemma relabel vs : well_keyed vs -> forall L, map rkey L = map rkey (vs_records vs) -> exists vs1, well_keyed vs1 /\ vs_records vs1 = L /\ dkeys vs1 = dkeys vs.
Proof.
  induction vs as [|[v d] vs IH]; intros Hw L HL.
  - destruct L; [|done]. by exists [].
  - change (vs_records ((v, d) :: vs)) with (map (fun pr : ppath * vrec => (v, snd pr)) d ++ vs_records vs) in HL. rewrite map_app in HL.
    apply map_eq_app in HL as (L1 & L2 & -> & H1 & H2).
    assert (Hw' : well_keyed vs). { destruct Hw as [G1 G2]. unfold dkeys in *. cbn in G1. apply NoDup_cons in G1 as [_ G1]. split; [done|]. intros v' d' Hin. apply (G2 v' d'). by right. }
    destruct (IH Hw' L2 H2) as (vs1 & E1 & E2 & E3). destruct (proj2 Hw v d) as [Hn Hp]; [by left|].
    exists ((v, map (fun q => (vr_path (snd q), snd q)) L1) :: vs1). rewrite map_map in H1. split_and!.
    + destruct E1 as [G1 G2]. split.
      * destruct Hw as [G3 _]. unfold dkeys in *. cbn in *. by rewrite E3.
      * intros v' d' [[= <- <-]|Hin]; [|by apply (G2 v' d')]. split.
        -- unfold dkeys in *. rewrite map_map. cbn. assert (map (fun q : pystr * vrec => vr_path (snd q)) L1 = map fst d) as ->; [|done].
           transitivity (map snd (map rkey L1)); [by rewrite map_map|]. rewrite H1, map_map. apply map_ext_in. intros [p r] Hin. cbn. by apply Hp.
        -- intros p r Hin. apply in_map_iff in Hin as (q & [= <- <-] & _). done.
    + change (map (fun pr : ppath * vrec => (v, snd pr)) (map (fun q : pystr * vrec => (vr_path (snd q), snd q)) L1) ++ vs_records vs1 = L1 ++ L2). rewrite E2. f_equal.
      rewrite map_map. cbn. rewrite <- (map_id L1) at 2. apply map_ext_in. intros [v' r] Hin. cbn. f_equal.
      assert (Hin' : In (rkey (v', r)) (map rkey L1)) by by apply in_map. rewrite H1 in Hin'. apply in_map_iff in Hin' as (pr & E & _). by injection E.
    + unfold dkeys in *. cbn. by rewrite E3.
Qed.
Lemma kids_records k vs : well_keyed vs -> kids_of (BVlist k vs) = map (fun r => (KVer (fst r) (vr_path (snd r)), elt_loc (vr_elt (snd r)))) (vs_records vs).
Proof.
  intros [_ Hw]. cbn [kids_of]. unfold vs_records. rewrite concat_map, map_map. f_equal. apply map_ext_in. intros [v d] Hin. cbn. rewrite map_map. apply map_ext_in.
  intros [p r] Hin'. cbn. destruct (Hw v d Hin) as [_ Hp]. by rewrite (Hp p r).
Qed.
Lemma label_records k vs vs1 : map (fun r => (fst r, vr_path (snd r), vr_time (snd r), is_etree (vr_elt (snd r)))) (vs_records vs1) =
  map (fun r => (fst r, vr_path (snd r), vr_time (snd r), is_etree (vr_elt (snd r)))) (vs_records vs) -> label_of (BVlist k vs1) = label_of (BVlist k vs).
Proof. intros E. cbn [label_of]. by rewrite E. Qed.

Definition assoc_of (rr : pystr * vrec * reference) : pystr * pystr * ppath * bool * reference :=
  (fst (fst rr), vr_time (snd (fst rr)), vr_path (snd (fst rr)), is_etree (vr_elt (snd (fst rr))), snd rr).
Definition elt_at (t : bool) (i : nat) : elt := if t then ETree (N.of_nat i) else EMrr (N.of_nat i).
Definition new_rec (i : nat) (rr : pystr * vrec * reference) : pystr * vrec :=
  (fst (fst rr), VRec (vr_time (snd (fst rr))) (vr_path (snd (fst rr))) (elt_at (is_etree (vr_elt (snd (fst rr)))) i)).
Definition vkind (rr : pystr * vrec * reference) : kd * reference := (if is_etree (vr_elt (snd (fst rr))) then KdNode LMrr else KdMrr, snd rr).
Lemma add_assocs_run rrs : forall vs ks, fold_left add_assoc (map assoc_of rrs) (vs, ks) = (setall (imap (fun i => new_rec (length ks + i)) rrs) vs, ks ++ map vkind rrs).
Proof.
  induction rrs as [|rr rrs IH]; intros vs ks; cbn [map fold_left imap]; [by rewrite app_nil_r|].
  assert (E : add_assoc (vs, ks) (assoc_of rr) = (vs_set vs (fst (fst rr)) (vr_path (snd (fst rr))) (snd (new_rec (length ks) rr)), ks ++ [vkind rr])) by done.
  rewrite E, IH, <- app_assoc. f_equal. cbn [setall fold_left]. rewrite Nat.add_0_r. f_equal. rewrite app_length. cbn [length]. apply imap_ext. intros i x _. cbn. f_equal. lia.
Qed.

Definition assoc_doc (rr : pystr * vrec * reference) : json :=
  JObj [(ps "primary_data_version", JStr (fst (fst rr))); (ps "time_stamp", JStr (vr_time (snd (fst rr))));
        (ps "path", JStr (mp_as_posix (vr_path (snd (fst rr))))); (ps "dataset_tree", ref_to_json_obj (snd rr))].
Definition class_fits (rr : pystr * vrec * reference) : Prop :=
  if is_etree (vr_elt (snd (fst rr))) then r_class (snd rr) = JStr (ps "DatasetTree") \/ r_class (snd rr) = JStr (ps "MTreeNode")
  else r_class (snd rr) = JStr (ps "MetadataRootRecord").
Definition assoc_ok (rr : pystr * vrec * reference) : Prop :=
  scalar_str (fst (fst rr)) /\ scalar_str (vr_time (snd (fst rr))) /\ is_metadata_path (vr_path (snd (fst rr))) /\ scalar_str (mp_as_posix (vr_path (snd (fst rr)))) /\
  ref_ok (snd rr) /\ class_fits rr.
Lemma assoc_json rr : assoc_ok rr -> json_ok (assoc_doc rr).
Proof.
  intros (H1 & H2 & _ & H3 & H4 & _). apply json_ok_obj. split; [repeat constructor; set_solver|].
  jcons; [done|]. jcons; [done|]. jcons; [done|]. jcons; [by apply ref_ok_json|]. apply List.Forall_nil.
Qed.
Lemma read_assoc_doc rr : assoc_ok rr -> read_assoc (assoc_doc rr) = Ok (assoc_of rr).
Proof.
  intros (_ & _ & Hp & _ & _ & Hc). unfold read_assoc.
  change (jsub (assoc_doc rr) (ps "dataset_tree")) with (Ok (ref_to_json_obj (snd rr))). cbn [rbind]. rewrite ref_obj_roundtrip. cbn [rbind].
  assert ((if jis_str (r_class (snd rr)) (ps "DatasetTree") || jis_str (r_class (snd rr)) (ps "MTreeNode") then Ok true
           else if jis_str (r_class (snd rr)) (ps "MetadataRootRecord") then Ok false else Err ValueError) = Ok (is_etree (vr_elt (snd (fst rr))))) as ->.
  { unfold class_fits in Hc. destruct (is_etree _).
    - destruct Hc as [-> | ->]; done.
    - rewrite Hc. done. }
  cbn [rbind]. change (jsub (assoc_doc rr) (ps "primary_data_version")) with (Ok (JStr (fst (fst rr)))).
  change (jsub (assoc_doc rr) (ps "path")) with (Ok (JStr (mp_as_posix (vr_path (snd (fst rr)))))).
  change (jsub (assoc_doc rr) (ps "time_stamp")) with (Ok (JStr (vr_time (snd (fst rr))))). cbn [rbind].
  destruct Hp as [args Hp]. destruct (C02_roundtrip_lemma args) as (_ & Hc2 & _). rewrite <- Hp in Hc2. rewrite Hc2. done.
Qed.
Lemma store_vl O h k vs rrs t : well_keyed vs -> map fst rrs = vs_records vs -> Forall assoc_ok rrs -> hex40 t ->
  O !! t = Some (Blob (utf8_bytes (dumps (JArr (map assoc_doc rrs))))) ->
  exists vs1, stored O (KdVl k) (ref_of (type_name_of (BVlist k [])) t) = Ok (BVlist k vs1, map vkind rrs) /\ label_of (BVlist k vs1) = label_of (BVlist k vs) /\
    ((forall rr, In rr rrs -> agrees O h (elt_loc (vr_elt (snd (fst rr)))) (vkind rr)) -> kids_match O h (map vkind rrs) (kids_of (BVlist k vs)) (kids_of (BVlist k vs1))).
Proof.
  intros Hw Hr Ha Ht Ho. destruct (relabel vs Hw (imap new_rec rrs)) as (vs0 & Hw0 & HL0 & _).
  { rewrite <- Hr. apply list_eq. intros i. change map with (@fmap list list_fmap).
    rewrite !list_lookup_fmap, list_lookup_imap. by destruct (rrs !! i). }
  destruct (setall_rebuild vs0 Hw0 []) as (vs1 & E1 & E2 & Hw1 & _). { intros v Hv. by apply elem_of_nil in Hv. }
  exists vs1. rewrite HL0 in E1, E2. cbn [app] in E1. split_and!.
  - unfold stored. rewrite hex40_not_none by done. assert (conv_ref (ref_of (type_name_of (BVlist k [])) t) = ref_of (type_name_of (BVlist k [])) t) as -> by by destruct k.
    cbn [r_class ref_of empty_body]. rewrite jis_str_refl. unfold stored_body, ref_loc. cbn [ref_of r_loc rbind].
    assert (Hj : json_ok (JArr (map assoc_doc rrs))).
    { apply json_ok_arr. apply List.Forall_forall. intros j Hj. apply in_map_iff in Hj as (rr & <- & Hin). rewrite List.Forall_forall in Ha. by apply assoc_json, Ha. }
    rewrite (json_blob O t _ Hj Ht Ho). cbn [rbind]. rewrite jloads_dumps by done. cbn [rbind jiter].
    assert (rmap read_assoc (map assoc_doc rrs) = Ok (map assoc_of rrs)) as ->.
    { clear -Ha. induction Ha as [|rr rrs Hrr _ IH]; [done|]. cbn [map rmap]. rewrite read_assoc_doc by done. cbn [rbind]. by rewrite IH. }
    cbn [rbind]. rewrite add_assocs_run. cbn [fst snd app length Nat.add]. change (imap (fun i => new_rec i) rrs) with (imap new_rec rrs). by rewrite E1.
  - apply label_records. rewrite E2, <- Hr. apply list_eq. intros i. change map with (@fmap list list_fmap).
    rewrite !list_lookup_fmap, list_lookup_imap. destruct (rrs !! i) as [[[v r] ref]|]; [|done]. cbn. by destruct (vr_elt r).
  - intros Hag. rewrite !kids_records by done. rewrite E2, <- Hr. apply match_aligned.
    + unfold dkeys. rewrite !map_map. apply list_eq. intros i. change map with (@fmap list list_fmap).
      rewrite !list_lookup_fmap, list_lookup_imap. by destruct (rrs !! i).
    + rewrite <- E2, <- (kids_records k) by done. by apply kids_flat_keys, wk_ok.
    + intros i kk x y Hx Hy. apply (list_lookup_fmap_inv _ (map fst rrs) i (kk, x)) in Hx as (q & Hq & Hx). apply (list_lookup_fmap_inv fst rrs i q) in Hx as ([[v r] ref] & -> & Ei).
      apply (list_lookup_fmap_inv _ (imap new_rec rrs) i (kk, y)) in Hy as (q' & Hq' & Hy). rewrite list_lookup_imap, Ei in Hy. injection Hy as <-. injection Hq as -> ->. injection Hq' as ->. cbn [fst snd].
      exists (vkind (v, r, ref)). split.
      * unfold part, elt_at. assert (N.to_nat (elt_loc (if is_etree (vr_elt r) then ETree (N.of_nat i) else EMrr (N.of_nat i))) = i) as -> by (destruct (is_etree _); cbn; lia).
        change (map vkind rrs) with (vkind <$> rrs). rewrite list_lookup_fmap, Ei. done.
      * apply (Hag (v, r, ref)). apply elem_of_list_In. by eapply elem_of_list_lookup_2.
Qed.
