(** What is written is noted before it is mentioned; git keeps what is noted. *)
From Verif Require Import Base BaseFacts Path Json Spec_Json JsonFacts Refs Meta Spec_Meta RefsFacts MetaFacts GitText Spec_Git GitTextFacts Git GitFacts Spec_Store State BlobCache ObjRef Objects Spec_Look Spec_Heap Spec_Write ExecFacts Spec_Cache CacheFacts WriteFacts TreeFacts LookFacts Spec_Content StoreFacts SaveFacts RunAllFacts
  Spec_Publish Spec_Tree Spec_TreeUpd Spec_ObjRef TreeTextFacts TreeUpdFacts ObjRefFacts Spec_Flush FlushFacts Spec_Gc.

(** ** Documents *)
Definition jmentions (j : json) : list (etype * pystr) :=
  ref_ids File (ref_from_json_obj j) ++
  ref_ids File (rlet x <- jsub j (ps "dataset_level_metadata"); ref_from_json_obj x) ++
  ref_ids Directory (rlet x <- jsub j (ps "file_tree"); ref_from_json_obj x) ++
  match (rlet js <- jiter j; rmap read_assoc js) with
  | Ok rs => concat (map (fun a : pystr * pystr * ppath * bool * reference => if snd (fst a) then ref_ids Directory (Ok (snd a)) else []) rs)
  | Err _ => []
  end.
(** the ids in what a text is read back as *)
Definition blob_ids (b : pystr) (x : etype * pystr) : Prop := exists t, text_result (utf8_bytes b) = Ok t /\ In x (mentions t).
Lemma blob_json j x : json_ok j -> blob_ids (dumps j) x -> In x (jmentions j).
Proof.
  intros Hj (t & Ht & Hx). destruct (json_text_pipeline j Hj) as [H1 H2]. apply encode_inv in H1 as [_ H1]. rewrite <- H1, H2 in Ht. injection Ht as <-.
  unfold mentions in Hx. rewrite jloads_dumps in Hx by done. done.
Qed.
Lemma ref_ids_in t ref x : In x (ref_ids t (Ok ref)) -> is_none_reference ref = false /\ r_loc ref = Some (snd x) /\ fst x = t.
Proof. unfold ref_ids. destruct (is_none_reference ref); [done|]. destruct (r_loc ref); [|done]. by intros [<-|[]]. Qed.
Lemma meta_mentions m : jmentions (meta_to_json_obj m) = [].
Proof. reflexivity. Qed.
Lemma ref_mentions ref x : In x (jmentions (ref_to_json_obj ref)) -> In x (ref_ids File (Ok ref)).
Proof. unfold jmentions. rewrite ref_obj_roundtrip. rewrite !in_app_iff. intros [Hx|[[]|[[]|[]]]]. done. Qed.
Lemma mrr_mentions u w mref fref x : In x (jmentions (mrr_doc u w mref fref)) -> In x (ref_ids File (Ok mref)) \/ In x (ref_ids Directory (Ok fref)).
Proof.
  unfold jmentions. change (jsub (mrr_doc u w mref fref) (ps "dataset_level_metadata")) with (Ok (ref_to_json_obj mref)).
  change (jsub (mrr_doc u w mref fref) (ps "file_tree")) with (Ok (ref_to_json_obj fref)). cbn [rbind]. rewrite !ref_obj_roundtrip, !in_app_iff.
  intros [[]|[Hx|[Hx|[]]]]; auto.
Qed.
Lemma read_assoc_inv rr a : read_assoc (assoc_doc rr) = Ok a -> snd a = snd rr /\
  (snd (fst a) = true -> r_class (snd rr) <> JStr (ps "MetadataRootRecord")).
Proof.
  unfold read_assoc. change (jsub (assoc_doc rr) (ps "dataset_tree")) with (Ok (ref_to_json_obj (snd rr))). cbn [rbind]. rewrite ref_obj_roundtrip. cbn [rbind].
  change (jsub (assoc_doc rr) (ps "primary_data_version")) with (Ok (JStr (fst (fst rr)))).
  change (jsub (assoc_doc rr) (ps "path")) with (Ok (JStr (mp_as_posix (vr_path (snd (fst rr)))))).
  change (jsub (assoc_doc rr) (ps "time_stamp")) with (Ok (JStr (vr_time (snd (fst rr))))).
  destruct (jis_str (r_class (snd rr)) (ps "DatasetTree") || jis_str (r_class (snd rr)) (ps "MTreeNode")) eqn:E.
  - cbn [rbind]. intros [= <-]. cbn [fst snd]. split; [done|]. intros _ Hc. by rewrite Hc in E.
  - destruct (jis_str (r_class (snd rr)) (ps "MetadataRootRecord")); cbn [rbind]; [|discriminate]. intros [= <-]. cbn [fst snd]. done.
Qed.
Lemma rmap_in {A B : Type} (f : A -> res B) l l' b : rmap f l = Ok l' -> In b l' -> exists a, In a l /\ f a = Ok b.
Proof.
  revert l'. induction l as [|a l IH]; intros l' E Hb; cbn [rmap] in E.
  - injection E as <-. done.
  - apply rbind_ok in E as (c & E1 & E). apply rbind_ok in E as (cs & E2 & E). injection E as <-. destruct Hb as [<-|Hb].
    + exists a. split; [by left|done].
    + destruct (IH _ E2 Hb) as (a' & Ha & Hf). exists a'. split; [by right|done].
Qed.
Lemma vl_mentions rrs x : In x (jmentions (JArr (map assoc_doc rrs))) ->
  exists rr, In rr rrs /\ In x (ref_ids Directory (Ok (snd rr))) /\ r_class (snd rr) <> JStr (ps "MetadataRootRecord").
Proof.
  unfold jmentions. rewrite !in_app_iff. intros [[]|[[]|[[]|Hx]]]. cbn [jiter rbind] in Hx. destruct (rmap read_assoc _) as [rs|] eqn:E; [|done].
  apply in_concat in Hx as (xs & Hxs & Hx). apply in_map_iff in Hxs as (a & <- & Ha). destruct (rmap_in _ _ _ _ E Ha) as (j & Hj & Hr). apply in_map_iff in Hj as (rr & <- & Hrr).
  apply read_assoc_inv in Hr as [H1 H2]. exists rr. split; [done|]. destruct (snd (fst a)); [|done]. rewrite H1 in Hx. split; [done|by apply H2].
Qed.
Lemma fits_ok k ref : ref_fits k ref -> ref_ok ref.
Proof. intros [(c & Hc & Hs & _) (x & Hx & Hh)]. split; [by exists c|]. rewrite Hx. destruct Hh as [->|Hh]; [apply none_scalar|by apply hex40_scalar]. Qed.
Lemma fits_id t k ref x : ref_fits k ref -> In x (ref_ids t (Ok ref)) -> hex40 (snd x).
Proof.
  intros [_ (y & Hy & Hh)] Hx. apply ref_ids_in in Hx as (Hn & Hx & _). rewrite Hy in Hx. injection Hx as ->. destruct Hh as [Hh|Hh]; [|done].
  unfold is_none_reference in Hn. rewrite Hy, Hh in Hn. by rewrite bool_decide_eq_true_2 in Hn.
Qed.
Lemma fits_of k c x : scalar_str c -> (k = KdMrr -> c = ps "MetadataRootRecord") -> hex40 x -> ref_fits k (ref_of c x).
Proof. intros Hc Hk Hx. split; [by exists c|]. exists x. split; [done|by right]. Qed.
Lemma fits_none k c : scalar_str c -> (k = KdMrr -> c = ps "MetadataRootRecord") -> ref_fits k (get_none_reference c).
Proof. intros Hc Hk. split; [by exists c|]. exists none_location. split; [done|by left]. Qed.

(** ** Writing *)
Definition in_orefs (o : list (etype * pystr)) (x : etype * pystr) : Prop := x ∈ o.
Definition mono (P : list (etype * pystr) -> Prop) : Prop := forall o o', P o -> o ⊆ o' -> P o'.
Lemma mono_true : mono (fun _ => True).
Proof. done. Qed.
Lemma mono_pure (p : Prop) : mono (fun _ => p).
Proof. by intros o o' ? _. Qed.
Lemma mono_in x : mono (fun o => in_orefs o x).
Proof. intros o o' Ho Hs. by apply Hs. Qed.
Lemma mono_and P P' : mono P -> mono P' -> mono (fun o => P o /\ P' o).
Proof. intros H1 H2 o o' [? ?] Hs. split; eauto. Qed.
Lemma mono_all {A : Type} (P : A -> list (etype * pystr) -> Prop) : (forall a, mono (P a)) -> mono (fun o => forall a, P a o).
Proof. intros H1 o o' Ho Hs a. exact (H1 a o o' (Ho a) Hs). Qed.
Lemma mono_impl (p : Prop) P : mono P -> mono (fun o => p -> P o).
Proof. intros H1 o o' Ho Hs Hp. eauto. Qed.
Lemma mono_forall2 {A B : Type} (Q : A -> B -> list (etype * pystr) -> Prop) l l' : (forall a b, mono (Q a b)) -> mono (fun o => Forall2 (fun a b => Q a b o) l l').
Proof. intros H1 o o' Ho Hs. eapply Forall2_impl; [exact Ho|]. intros a b Hq. exact (H1 a b o o' Hq Hs). Qed.
Lemma set_add_in {A : Type} `{EqDecision A} (x : A) l : x ∈ set_add x l /\ l ⊆ set_add x l.
Proof. unfold set_add. destruct (decide (x ∈ l)); [done|]. split; set_solver. Qed.
Lemma set_add_inv {A : Type} `{EqDecision A} (x y : A) l : y ∈ set_add x l -> y = x \/ y ∈ l.
Proof. unfold set_add. destruct (decide (x ∈ l)); set_solver. Qed.

Section Gc.
  Context `{Env} (r : pystr) (Hr : r <> []) (B : loc -> Prop) (Bd : loc -> body) (Mp : loc -> bool).
  Context (HB : forall y, B y -> Mp y = true -> label_ok (label_of (Bd y)) /\
    forall x, In x (sub_objects (Bd y)) -> B x /\ kid_fits (Bd y) x (kind_of (Bd x))).
  Implicit Types (s : pst) (g : gstate) (P : list (etype * pystr) -> Prop).

  Definition objs_fine s : Prop := forall y, B y -> exists o, s_heap s !! y = Some o /\ o_body o = Bd y /\ h_mapped (o_hdr o) = Mp y /\
    (top_kind (kind_of (Bd y)) = false -> forall ref, h_ref (o_hdr o) = Some ref -> ref_fits (kind_of (Bd y)) ref).
  Definition docs s g : Prop := recorded s g r /\
    forall c b x, dget (s_caches s) r = Some c -> b ∈ pending c -> blob_ids b x -> noted s g r x.
  Definition J s g : Prop := objs_fine s /\ cok r s /\ docs s g /\ ids_ok (s_orefs s).
  Definition R s g s' g' : Prop := s_orefs s ⊆ s_orefs s' /\ s_locks s' = s_locks s /\ g_locks g' = g_locks g /\
    objs_of g r ⊆ objs_of g' r /\
    forall n, n <> TREE_VERSION_LIST -> n <> UUID_SET -> refs_of g' r !! n = refs_of g r !! n.
  Lemma R_refl s g : R s g s g.
  Proof. by split_and!. Qed.
  Lemma R_trans s1 g1 s2 g2 s3 g3 : R s1 g1 s2 g2 -> R s2 g2 s3 g3 -> R s1 g1 s3 g3.
  Proof. intros (A1 & A2 & A3 & A4 & A5) (B1 & B2 & B3 & B4 & B5). split_and!; [by etrans|congruence|congruence|by etrans|]. intros n H1 H2. rewrite B5, A5 by done. done. Qed.
  Lemma R_in s g s' g' t x : R s g s' g' -> protected g r t x -> protected g' r t x.
  Proof.
    intros (_ & _ & _ & Ho & Hf) [(top & Ht & Hp)|(top & es & Ht & He & Hx)]; [left; exists top|right; exists top, es].
    - split; [by rewrite Hf|]. by eapply tree_path_mono.
    - split; [destruct t; by rewrite Hf|]. split; [|done]. by eapply tree_of_mono.
  Qed.
  Lemma R_noted s g s' g' x : R s g s' g' -> noted s g r x -> noted s' g' r x.
  Proof. intros HR [Ht|Ht]; [left|right]; [by apply HR|by eapply R_in]. Qed.

  Definition pres {A : Type} P (m : M pst A) (Q : A -> list (etype * pystr) -> Prop) : Prop := forall s g a s' g',
    J s g -> P (s_orefs s) -> exec (m s) g = ((a, s'), g') -> J s' g' /\ R s g s' g' /\ forall v, a = Ok v -> Q v (s_orefs s').
  Lemma p_weak {A : Type} P P' (m : M pst A) (Q Q' : A -> list (etype * pystr) -> Prop) : pres P m Q -> (forall o, P' o -> P o) -> (forall a o, Q a o -> Q' a o) -> pres P' m Q'.
  Proof. intros Hm H1 H2 s g a s' g' HJ HP He. destruct (Hm s g a s' g' HJ (H1 _ HP) He) as (K1 & K2 & K3). split_and!; [done|done|]. intros v Hv. by apply H2, K3. Qed.
  Lemma p_ret {A : Type} P (a : A) (Q : A -> list (etype * pystr) -> Prop) : (forall o, P o -> Q a o) -> pres P (mret a) Q.
  Proof. intros HQ s g b s' g' HJ HP He. rewrite x_ret in He. injection He as <- <- <-. split_and!; [done|apply R_refl|]. intros v [= <-]. by apply HQ. Qed.
  Lemma p_raise {A : Type} P e (Q : A -> list (etype * pystr) -> Prop) : pres P (mraise e) Q.
  Proof. intros s g b s' g' HJ HP He. rewrite x_raise in He. injection He as <- <- <-. split_and!; [done|apply R_refl|]. done. Qed.
  Lemma p_res {A : Type} P (x : res A) (Q : A -> list (etype * pystr) -> Prop) : (forall a o, x = Ok a -> P o -> Q a o) -> pres P (mres x) Q.
  Proof. intros HQ s g b s' g' HJ HP He. rewrite x_res in He. injection He as <- <- <-. split_and!; [done|apply R_refl|]. intros v ->. by apply HQ. Qed.
  Lemma p_get {A : Type} P (f : pst -> A) (Q : A -> list (etype * pystr) -> Prop) : (forall a o, P o -> Q a o) -> pres P (mget f) Q.
  Proof. intros HQ s g b s' g' HJ HP He. rewrite x_get in He. injection He as <- <- <-. split_and!; [done|apply R_refl|]. intros v _. by apply HQ. Qed.
  Lemma p_assert P b : pres P (massert b) (fun _ _ => True).
  Proof. intros s g a s' g' HJ HP He. rewrite x_assert in He. injection He as <- <- <-. split_and!; [done|apply R_refl|done]. Qed.
  Lemma p_bind {A C : Type} P (m : M pst A) (f : A -> M pst C) Q1 Q2 : mono P -> pres P m Q1 -> (forall a, pres (fun o => Q1 a o /\ P o) (f a) Q2) -> pres P (mbind m f) Q2.
  Proof.
    intros HM H1 H2 s g b s' g' HJ HP He. rewrite x_bind in He. destruct (exec (m s) g) as [[[a|e] s1] g1] eqn:E1.
    - destruct (H1 _ _ _ _ _ HJ HP E1) as (J1 & R1 & Q). destruct (H2 a s1 g1 b s' g') as (J2 & R2 & Q'); [done|split; [by apply Q|eapply HM; [done|apply R1]]|done|].
      split_and!; [done|by eapply R_trans|done].
    - injection He as <- <- <-. destruct (H1 _ _ _ _ _ HJ HP E1) as (J1 & R1 & Q). split_and!; done.
  Qed.
  Lemma p_mmap {A C : Type} P (F : A -> M pst C) (Q : A -> C -> list (etype * pystr) -> Prop) ls : mono P -> (forall a c, mono (Q a c)) ->
    (forall x, In x ls -> pres P (F x) (Q x)) -> pres P (mmap F ls) (fun cs o => Forall2 (fun a c => Q a c o) ls cs).
  Proof.
    intros HM HQ. induction ls as [|x ls IH]; intros HF; cbn [mmap]; [apply p_ret; intros; constructor|].
    eapply p_bind; [done|by apply HF; left|]. intros c. cbn beta. eapply p_bind; [by apply mono_and| |].
    - eapply p_weak; [apply IH; intros z Hz; apply HF; by right| |]; [by intros o []|]. intros cs o Hcs. exact Hcs.
    - intros cs. cbn beta. apply p_ret. intros o (H1 & H2 & _). by constructor.
  Qed.
  Lemma p_miter {A : Type} P (F : A -> M pst unit) ls : mono P -> (forall x, In x ls -> pres P (F x) (fun _ _ => True)) -> pres P (miter F ls) (fun _ _ => True).
  Proof.
    intros HM. induction ls as [|x ls IH]; intros HF; cbn [miter]; [by apply p_ret|].
    eapply p_bind; [done|by apply HF; left|]. intros c. eapply p_weak; [apply IH; intros z Hz; apply HF; by right| |done]. by intros o [].
  Qed.
  (** memory *)
  Lemma p_getobj P l : B l -> pres P (getobj l) (fun o _ => o_body o = Bd l /\ h_mapped (o_hdr o) = Mp l /\
    (top_kind (kind_of (Bd l)) = false -> forall ref, h_ref (o_hdr o) = Some ref -> ref_fits (kind_of (Bd l)) ref)).
  Proof.
    intros Hl s g a s' g' HJ HP He. destruct (proj1 HJ l Hl) as (o & Ho & H1 & H2 & H3). rewrite x_getobj, Ho in He. injection He as <- <- <-.
    split_and!; [done|apply R_refl|]. intros v [= <-]. done.
  Qed.
  Lemma J_heap s g h : J s g -> objs_fine (with_heap s h) -> J (with_heap s h) g.
  Proof. intros (_ & H2 & H3 & H4) H1. done. Qed.
  Lemma p_set_hdr P l f : B l -> (forall x, h_mapped (f x) = h_mapped x) ->
    (top_kind (kind_of (Bd l)) = false -> forall x ref, h_ref (f x) = Some ref -> h_ref x = Some ref \/ ref_fits (kind_of (Bd l)) ref) -> pres P (set_hdr l f) (fun _ _ => True).
  Proof.
    intros Hl Hf Hf2 s g a s' g' HJ HP He. destruct (proj1 HJ l Hl) as (o & Ho & H1 & H2 & H3). rewrite (x_set_hdr _ _ _ _ _ Ho) in He. injection He as <- <- <-.
    split; [|split; [by split_and!|done]]. apply J_heap; [done|]. intros y Hy. cbn [s_heap with_heap]. rewrite heap_insert. destruct (decide (l = y)) as [<-|].
    - eexists. split; [reflexivity|]. cbn. rewrite Hf. split_and!; try done. intros Ht ref Href. destruct (Hf2 Ht _ _ Href); [by apply H3|done].
    - by apply HJ.
  Qed.
  Lemma p_saved P fuel l d : pres P (is_saved_on fuel l d) (fun _ _ => True).
  Proof. intros s g a s' g' HJ HP He. rewrite x_is_saved in He. injection He as <- <- <-. split_and!; [done|apply R_refl|done]. Qed.
  Lemma p_own P l : B l -> pres P (own_reference l) (fun ref _ => top_kind (kind_of (Bd l)) = false -> ref_fits (kind_of (Bd l)) ref).
  Proof.
    intros Hl s g a s' g' HJ HP He. destruct (proj1 HJ l Hl) as (o & Ho & H1 & H2 & H3). unfold own_reference in He. rewrite x_bind, x_getobj, Ho in He.
    destruct (h_ref (o_hdr o)) as [ref|] eqn:Ef; [rewrite x_ret in He|rewrite x_raise in He]; injection He as <- <- <-; (split_and!; [done|apply R_refl|]); [|done].
    intros v [= <-] Ht. by apply H3.
  Qed.
  (** references *)
  Lemma p_note P t x : hex40 x -> pres P (add_object_reference t x) (fun _ o => in_orefs o (t, x)).
  Proof.
    intros Hx s g a s' g' HJ HP He. unfold add_object_reference in He. rewrite decide_False in He.
    2: { intros ->. destruct Hx as [Hx _]. done. }
    unfold add_ref in He. rewrite x_mod in He. injection He as <- <- <-. destruct (set_add_in (t, x) (s_orefs s)) as [H1 H2].
    assert (HR : R s g (with_orefs s (set_add (t, x) (s_orefs s))) g) by by split_and!. destruct HJ as (J1 & J2 & [J3 J4] & J5). split; [|split; [done|]].
    - split_and!; [done|done| |].
      + split; [intros h b t' y Hb Ht Hy; eapply R_noted; [done|by eapply J3]|]. intros c b y Hc Hb Hy. eapply R_noted; [done|]. by eapply J4.
      + apply List.Forall_forall. intros [t' y] Hy. apply elem_of_list_In in Hy. cbn [s_orefs with_orefs] in Hy. apply set_add_inv in Hy as [[= -> ->]|Hy]; [done|].
        unfold ids_ok in J5. rewrite List.Forall_forall in J5. by apply (J5 (t', y)), elem_of_list_In.
    - intros v _. done.
  Qed.
  Lemma p_note_ref P k ref : ref_fits k ref -> pres P (if is_none_reference ref then mret tt else mlet x <- loc_of ref; add_tree_reference x)
    (fun _ o => forall x, In x (ref_ids Directory (Ok ref)) -> in_orefs o x).
  Proof.
    intros Hf. unfold ref_ids. destruct (is_none_reference ref) eqn:En; [apply p_ret; intros; done|]. pose proof Hf as [_ (x & Hx & Hh)]. unfold loc_of. rewrite Hx.
    change (mlet y <- mret x; add_tree_reference y) with (add_tree_reference x). eapply p_weak; [apply p_note|done|].
    - eapply (fits_id Directory _ _ (Directory, x)); [exact Hf|]. unfold ref_ids. rewrite En, Hx. by left.
    - intros ? o Ho y [E|[]]. by rewrite <- E.
  Qed.
  (** git *)
  Lemma put_all_inv bs g g' : put_all r bs g = Some g' -> g_locks g' = g_locks g /\ objs_of g r ⊆ objs_of g' r /\ (forall n, refs_of g' n = refs_of g n) /\
    forall h o, objs_of g' r !! h = Some o -> objs_of g r !! h = Some o \/ exists b, b ∈ bs /\ o = Blob (utf8_bytes b).
  Proof using.
    unfold put_all. destruct (local_repo g r) as [x|] eqn:El; [|done]. destruct (put_objs _ x) as [x'|] eqn:Ep; [|done]. intros [= <-].
    apply local_repo_inv in El as [_ El]. pose proof (objs_repo _ _ _ El) as Eo. pose proof (refs_repo _ _ _ El) as Ef. apply put_objs_inv in Ep as (H1 & H2 & H3 & H4).
    split_and!; [done| | |].
    - rewrite objs_set, decide_True by done. by rewrite Eo.
    - intros n. rewrite refs_set. destruct (decide (n = r)) as [->|]; [|done]. by rewrite H1, Ef.
    - intros h o. rewrite objs_set, decide_True by done. intros Ho. apply H4 in Ho as [Ho|[_ Ho]]; [left; by rewrite Eo|right].
      unfold blob_objs in Ho. apply elem_of_list_In, in_map_iff in Ho as (b & <- & Hb). exists b. split; [by apply elem_of_list_In|done].
  Qed.
  (** blobs are added that mention only what is noted *)
  Lemma J_put bs s g g' : J s g -> put_all r bs g = Some g' -> (forall b x, b ∈ bs -> blob_ids b x -> noted s g r x) -> J s g' /\ R s g s g'.
  Proof using.
    intros (J1 & J2 & [J3 J4] & J5) Hp Hb. apply put_all_inv in Hp as (H1 & H2 & H3 & H4). assert (HR : R s g s g') by (split_and!; [done|done|done|done|intros; by rewrite H3]).
    split; [|done]. split_and!; [done|done| |done]. split.
    - intros h b t x Ho Ht Hx. eapply R_noted; [exact HR|]. apply H4 in Ho as [Ho|(b' & Hb' & [= ->])]; [by eapply J3|]. eapply Hb; [done|]. by exists t.
    - intros c b x Hc Hb' Hx. eapply R_noted; [exact HR|]. by eapply J4.
  Qed.
  Definition covered P (b : pystr) : Prop := forall x o, blob_ids b x -> P o -> in_orefs o x.
  Lemma p_save_str P b : covered P b -> pres P (git_save_str r b) (fun x _ => x = blob_id b).
  Proof using.
    intros Hc s g a s' g' HJ HP He. rewrite save_str_run in He. destruct (scalar_dec b).
    2: { injection He as <- <- <-. split_and!; [done|apply R_refl|done]. }
    destruct (put_all r [b] g) as [g1|] eqn:Ep.
    2: { injection He as <- <- <-. split_and!; [done|apply R_refl|done]. }
    injection He as <- <- <-. destruct (J_put [b] s g g1 HJ Ep) as [H1 H2].
    - intros b' x Hb' Hx. apply elem_of_list_singleton in Hb' as ->. left. by apply Hc.
    - split_and!; [done|done|]. by intros v [= <-].
  Qed.
  Lemma J_caches s g cs : J s g -> cok r (with_caches s cs) ->
    (forall c b x, dget cs r = Some c -> b ∈ pending c -> blob_ids b x -> noted s g r x) -> J (with_caches s cs) g.
  Proof using. intros (J1 & J2 & [J3 J4] & J5) Hc Hp. split_and!; [done|done| |done]. split; [exact J3|exact Hp]. Qed.
  Lemma cok_set s c c' : cok r s -> dget (s_caches s) r = Some c -> cache_ok r c' -> cok r (with_caches s (dset (s_caches s) r c')).
  Proof using.
    intros Hok Ec Hc'. split; [apply dset_ok; [apply Hok|apply Hc']|]. intros c0 Hc0. cbn in Hc0. rewrite dget_dset_eq in Hc0. by injection Hc0 as <-.
  Qed.
  (** the cache is written *)
  Lemma cache_flush_J s g c e c' g' : J s g -> dget (s_caches s) r = Some c -> exec (cache_flush c) g = ((e, c'), g') ->
    J (with_caches s (dset (s_caches s) r c')) g' /\ R s g s g' /\ cache_ok r c' /\ (forall b, b ∈ pending c' -> b ∈ pending c) /\ forall u, e = Ok u -> pending c' = [].
  Proof using.
    intros HJ Ec He. pose proof HJ as (J1 & J2 & [J3 J4] & J5). pose proof (proj2 J2 c Ec) as Hc. rewrite (flush_run r) in He by done.
    destruct (put_all r (pending c) g) as [g1|] eqn:Ep.
    - injection He as <- <- <-. destruct (J_put (pending c) s g g1 HJ Ep) as [H1 H2]; [intros b x; by apply J4|]. assert (Hnew : cache_ok r (BCache r (bc_max c) [])) by (split; [done|constructor]).
      split; [|split; [done|split; [done|split; [by intros ? ?%elem_of_nil|done]]]].
      apply J_caches; [done|by eapply cok_set|]. intros c0 b x Hc0 Hb. rewrite dget_dset_eq in Hc0. injection Hc0 as <-. by apply elem_of_nil in Hb.
    - injection He as <- <- <-. split; [|split; [apply R_refl|split; [done|split; [done|done]]]].
      apply J_caches; [done|by eapply cok_set|]. intros c0 b x Hc0 Hb. rewrite dget_dset_eq in Hc0. injection Hc0 as <-. by apply (J4 c).
  Qed.
  Lemma with_caches_twice s a b : with_caches (with_caches s a) b = with_caches s b.
  Proof using. done. Qed.
  Lemma p_cache_blob P b : covered P b -> pres P (with_cache r (cache_blob r b) (mraise Unmodelled)) (fun x _ => x = blob_id b).
  Proof using.
    intros Hcov s g a s' g' HJ HP He. destruct (dget (s_caches s) r) as [c|] eqn:Ec.
    2: { unfold with_cache in He. rewrite Ec in He. rewrite x_raise in He. injection He as <- <- <-. split_and!; [done|apply R_refl|done]. }
    rewrite (x_with_cache r _ _ _ _ c Ec) in He. destruct (exec (cache_blob r b c) g) as [[a1 c1] g1] eqn:Eb. injection He as <- <- <-.
    pose proof HJ as (J1 & J2 & [J3 J4] & J5). pose proof (proj2 J2 c Ec) as Hc.
    unfold cache_blob in Eb. rewrite x_bind, x_get, x_bind, x_assert in Eb. rewrite bool_decide_eq_true_2 in Eb by (symmetry; apply Hc). rewrite x_bind in Eb.
    (* after the optional flush *)
    assert (HF : exists e c2 g2, exec ((if (N.of_nat (length (bc_objs c)) =? bc_max c)%N then cache_flush else mret tt) c) g = ((e, c2), g2) /\
      J (with_caches s (dset (s_caches s) r c2)) g2 /\ R s g s g2 /\ cache_ok r c2).
    { destruct (_ =? _)%N.
      - destruct (exec (cache_flush c) g) as [[e c2] g2] eqn:Ef. destruct (cache_flush_J _ _ _ _ _ _ HJ Ec Ef) as (K1 & K2 & K3 & _). by exists e, c2, g2.
      - exists (Ok tt), c, g. split_and!; [done| |apply R_refl|done]. apply J_caches; [done|by eapply cok_set|]. intros c0 b' x Hc0 Hb. rewrite dget_dset_eq in Hc0. injection Hc0 as <-. by apply (J4 c). }
    destruct HF as (e & c2 & g2 & EF & J' & HR & Hc2). rewrite EF in Eb. destruct e as [u|e].
    2: { injection Eb as <- <- <-. split_and!; [done| |done]. destruct HR as (K1 & K2 & K3 & K4 & K5). by split_and!. }
    rewrite x_bind, x_res, hash_blob_run in Eb. destruct (scalar_dec b) as [Hs|].
    2: { injection Eb as <- <- <-. split_and!; [done| |done]. destruct HR as (K1 & K2 & K3 & K4 & K5). by split_and!. }
    rewrite x_bind, x_mod, x_ret in Eb. injection Eb as <- <- <-. rewrite (proj1 Hc2). change (BCache r (bc_max c2) (bc_objs c2 ++ [(b, blob_id b)])) with (cached r c2 b).
    split_and!; [|destruct HR as (K1 & K2 & K3 & K4 & K5); by split_and!|by intros v [= <-]].
    set (s2 := with_caches s (dset (s_caches s) r c2)) in J'. pose proof J' as (K1 & K2 & [K3 K4] & K5).
    assert (E2 : dget (s_caches s2) r = Some c2) by (cbn; by rewrite dget_dset_eq).
    assert (HX : J (with_caches s2 (dset (s_caches s2) r (cached r c2 b))) g2).
    { apply J_caches; [done|eapply cok_set; [done|exact E2|by apply cached_ok]|]. intros c0 b' x Hc0 Hb Hx. rewrite dget_dset_eq in Hc0. injection Hc0 as <-.
      unfold pending, cached in Hb. cbn [bc_objs] in Hb. rewrite map_app in Hb. apply elem_of_app in Hb as [Hb|Hb]; [by apply (K4 c2 b')|].
      cbn in Hb. apply elem_of_list_singleton in Hb as ->. left. by apply Hcov. }
    assert (Hdd : dset (dset (s_caches s) r c2) r (cached r c2 b) = dset (s_caches s) r (cached r c2 b)).
    { clear. induction (s_caches s) as [|[k v] d IH]; cbn [dset]; [by rewrite decide_True|]. destruct (decide (k = r)) as [->|]; cbn [dset]; [by rewrite decide_True|]. rewrite decide_False by done. by rewrite IH. }
    unfold s2 in HX. cbn [s_caches with_caches] in HX. rewrite Hdd in HX. exact HX.
  Qed.
  Lemma p_cache_realm P : pres P (cache_realm (Some r)) (fun _ _ => True).
  Proof using.
    intros s g a s' g' HJ HP He. unfold cache_realm in He. rewrite x_bind, x_get in He. unfold dmem in He. destruct (dget (s_caches s) r) as [c|] eqn:Ec.
    - cbn [is_some] in He. rewrite x_raise in He. injection He as <- <- <-. split_and!; [done|apply R_refl|done].
    - cbn [is_some] in He. rewrite x_mod in He. injection He as <- <- <-. pose proof HJ as (J1 & J2 & [J3 J4] & J5).
      split; [|split; [by split_and!|done]]. apply J_caches; [done| |].
      + split; [by apply dset_ok; [apply J2|]|]. intros c Hc. cbn in Hc. rewrite dget_dset_eq in Hc. injection Hc as <-. apply new_cache_ok.
      + intros c b x Hc Hb. rewrite dget_dset_eq in Hc. injection Hc as <-. by apply elem_of_nil in Hb.
  Qed.
  Lemma p_flush_realm P : pres P (flush_realm r) (fun _ _ => True).
  Proof using.
    intros s g a s' g' HJ HP He. unfold flush_realm in He. rewrite x_bind in He. destruct (dget (s_caches s) r) as [c|] eqn:Ec.
    2: { unfold with_cache in He. rewrite Ec, x_raise in He. injection He as <- <- <-. split_and!; [done|apply R_refl|done]. }
    rewrite (x_with_cache r _ _ _ _ c Ec) in He. destruct (exec (cache_flush c) g) as [[e c'] g1] eqn:Ef. destruct (cache_flush_J _ _ _ _ _ _ HJ Ec Ef) as (K1 & K2 & K3 & K4 & K5).
    destruct e as [u|e]; [rewrite x_mod in He|]; injection He as <- <- <-.
    - split; [|split; [destruct K2 as (? & ? & ? & ? & ?); by split_and!|done]]. set (s1 := with_caches s (dset (s_caches s) r c')) in *.
      assert (Hd : dget (ddel (s_caches s1) r) r = None) by (apply dget_ddel; apply K1).
      apply J_caches; [done| |intros c0 b x Hc0; change (dget (ddel (s_caches s1) r) r = Some c0) in Hc0; congruence]. split; [apply ddel_ok; apply K1|]. intros c0 Hc0. change (dget (ddel (s_caches s1) r) r = Some c0) in Hc0. congruence.
    - split; [done|]. split; [|done]. destruct K2 as (? & ? & ? & ? & ?). by split_and!.
  Qed.
  (** commands that store trees or set other references *)
  Definition no_blobs g g' : Prop := forall h b, objs_of g' r !! h = Some (Blob b) -> objs_of g r !! h = Some (Blob b).
  Lemma J_other s g g' : J s g -> R s g s g' -> no_blobs g g' -> J s g'.
  Proof using.
    intros (J1 & J2 & [J3 J4] & J5) HR Hn. split_and!; [done|done| |done]. split.
    - intros h b t x Ho Ht Hx. eapply R_noted; [exact HR|]. eapply J3; [by apply Hn|done|done].
    - intros c b x Hc Hb' Hx. eapply R_noted; [exact HR|]. by eapply J4.
  Qed.
  Lemma mktree_R inp s g : R s g s (snd (git (MkTree r inp) g)) /\ no_blobs g (snd (git (MkTree r inp) g)).
  Proof using.
    unfold R, no_blobs. cbn [git]. destruct (local_repo g r) as [x|] eqn:El; [|by split_and!]. destruct (mktree_input inp) as [es|]; [|by split_and!]. destruct (_ && _); [|by split_and!].
    destruct (put_obj _ x) as [x'|] eqn:Ep; [|by split_and!]. cbn [snd]. apply local_repo_inv in El as [_ El]. apply put_obj_inv in Ep as (H1 & H2 & H3 & H4).
    rewrite !objs_set, !refs_set, !decide_True by done. rewrite (objs_repo _ _ _ El), (refs_repo _ _ _ El), H1. split_and!; try done.
    intros h b Hb. by apply H4 in Hb as [Hb|[_ Hb]].
  Qed.
  Lemma update_R name x s g : name = TREE_VERSION_LIST \/ name = UUID_SET -> R s g s (snd (git (UpdateRef r name x) g)) /\ no_blobs g (snd (git (UpdateRef r name x) g)).
  Proof using.
    intros Hn. unfold R, no_blobs. cbn [git]. destruct (local_repo g r) as [rp|] eqn:El; [|by split_and!]. destruct (resolve rp x) as [h|]; [|by split_and!]. destruct (r_objs rp !! h); [|by split_and!].
    cbn [snd]. apply local_repo_inv in El as [_ El]. rewrite !objs_set, !refs_set, !decide_True by done. cbn [r_objs r_refs]. rewrite (objs_repo _ _ _ El), (refs_repo _ _ _ El).
    split_and!; try done. intros n H1 H2. rewrite lookup_insert_ne; [done|]. by destruct Hn as [->| ->].
  Qed.
  Lemma p_checked P c : (forall s g, R s g s (snd (git c g)) /\ no_blobs g (snd (git c g))) -> pres P (checked_execute c) (fun ls _ => exists g out, fst (git c g) = Some out /\ stdout_lines out = Ok ls).
  Proof using.
    intros Hc s g a s' g' HJ HP He. rewrite x_checked in He. destruct (Hc s g) as [H1 H2]. destruct (git c g) as [ans g1] eqn:Eg. cbn [fst snd] in *. injection He as <- <- <-.
    split_and!; [by eapply J_other|done|]. intros v Hv. exists g. rewrite Eg. cbn [fst]. destruct ans as [out|]; [|done]. by exists out.
  Qed.
  Lemma p_save_tree P es : mono P -> pres P (git_save_tree_node r es) (fun x _ => hex40 x).
  Proof using.
    intros HM. unfold git_save_tree_node. eapply p_bind; [done|by apply (p_res _ _ (fun _ _ => True))|]. intros inp.
    eapply p_bind; [by apply mono_and; [apply mono_pure|]| |].
    - apply p_checked. intros s g. apply mktree_R.
    - intros ls. cbn beta. destruct ls as [|l ls]; [apply p_raise|]. apply p_ret. intros o [(g & out & Hg & Hl) _].
      cbn [git] in Hg. destruct (local_repo g r) as [x|]; [|done]. destruct (mktree_input inp) as [ts|]; [|done]. destruct (_ && _); [|done]. destruct (put_obj _ x); [|done].
      injection Hg as <-. rewrite line_lines in Hl by apply oid_hex. injection Hl as <- _. apply oid_hex.
  Qed.
  Lemma p_update P name x : mono P -> name = TREE_VERSION_LIST \/ name = UUID_SET -> pres P (git_update_ref r name x) (fun _ _ => True).
  Proof using.
    intros HM Hn. unfold git_update_ref. eapply p_bind; [done|apply p_checked; intros s g; by apply update_R|]. intros ls. by apply p_ret.
  Qed.
  Ltac mn := cbn beta; repeat match goal with
    | |- mono (fun o => _ /\ _) => apply mono_and
    | |- mono (fun o => forall x, In x _ -> in_orefs o x) => apply mono_all; intros ?; apply mono_impl, mono_in
    | |- mono (fun o => in_orefs o _) => apply mono_in
    | |- mono (fun o => Forall2 _ _ _) => apply mono_forall2; intros ? ?
    | |- mono (fun _ => ?p) => apply (mono_pure p)
    | |- mono _ => first [assumption | apply mono_true]
    end.
  Definition fit (x : loc) (ref : reference) : Prop := top_kind (kind_of (Bd x)) = false -> ref_fits (kind_of (Bd x)) ref.
  Definition safe_ids (t : etype) (ref : reference) (o : list (etype * pystr)) : Prop := forall x, In x (ref_ids t (Ok ref)) -> in_orefs o x.
  Lemma mono_safe t ref : mono (safe_ids t ref).
  Proof using. unfold safe_ids. mn. Qed.

  Lemma meta_covered P m : built m -> covered P (meta_to_json m).
  Proof using. intros Hm x o Hx _. rewrite meta_to_eq in Hx. apply blob_json in Hx; [|by apply meta_json_ok, built_ok]. rewrite meta_mentions in Hx. done. Qed.
  Lemma refdoc_covered P x : hex40 x -> (forall o, P o -> in_orefs o (File, x)) -> covered P (ref_to_json_str (ref_of (ps "Metadata") x)).
  Proof using.
    intros Hx HP y o Hy Ho. rewrite ref_to_eq in Hy. apply blob_json in Hy; [|apply ref_json_ok; [scl|by apply hex40_scalar]].
    destruct y as [t y]. apply ref_mentions, ref_ids_in in Hy as (_ & Hy & Et). cbn [fst snd] in *. injection Hy as <-. subst t. by apply HP.
  Qed.
  Lemma p_pure {A : Type} (p : Prop) P (m : M pst A) Q : (p -> pres P m Q) -> pres (fun o => p /\ P o) m Q.
  Proof using. intros Hp s g a s' g' HJ [H1 H2] He. by eapply (Hp H1). Qed.
  Ltac pu := cbn beta; apply p_pure.
  Lemma p_meta P m : mono P -> built m -> pres P (map_out_meta m r) (fun ref _ => ref_fits KdMeta ref).
  Proof using.
    intros HM Hm. unfold map_out_meta. eapply p_bind; [done|by apply (p_get _ _ (fun _ _ => True))|]. intros cs. pu. intros _.
    assert (Hid : forall b, hex40 (blob_id b)) by (intros; apply oid_hex).
    destruct (dmem cs r).
    - eapply p_bind; [mn|by apply p_cache_blob, meta_covered|]. intros x. pu. intros ->.
      eapply p_bind; [mn|by apply p_note|]. intros ?. eapply p_bind; [mn|apply p_cache_blob, refdoc_covered; [done|by intros o []]|]. intros y. pu. intros ->.
      apply p_ret. intros o _. apply fits_of; [scl|done|done].
    - eapply p_bind; [mn|by apply p_save_str, meta_covered|]. intros x. pu. intros ->.
      eapply p_bind; [mn|by apply p_note|]. intros ?. eapply p_bind; [mn|apply p_save_str, refdoc_covered; [done|by intros o []]|]. intros y. pu. intros ->.
      apply p_ret. intros o _. apply fits_of; [scl|done|done].
  Qed.
  Section Rec.
    Context (rec : loc -> option pystr -> bool -> M pst reference).
    Context (Hrec : forall P x b, mono P -> B x -> pres P (rec x (Some r) b) (fun ref _ => fit x ref)).
    Lemma p_proxy P ft l force c : mono P -> B l -> kind_of (Bd l) = KdNode c -> pres P (proxy_write_out rec ft l (Some r) force) (fun ref o => ref_fits (KdNode c) ref /\ safe_ids Directory ref o).
    Proof using Hrec Hr.
      intros HM Hl Hk. unfold proxy_write_out. eapply p_bind; [done|by apply p_getobj|]. intros o. pu. intros _.
      assert (or_else (Some r) (h_realm (o_hdr o)) = Some r) as -> by (unfold or_else; by destruct r).
      eapply p_bind; [done|destruct ft; [apply p_cache_realm|by apply p_ret]|]. intros ?. pu. intros _.
      eapply p_bind; [done|by apply Hrec|]. intros ref. pu. unfold fit. rewrite Hk. intros Hf. specialize (Hf eq_refl).
      eapply p_bind; [done|destruct ft; [apply p_flush_realm|by apply p_ret]|]. intros ?. pu. intros _.
      eapply p_bind; [done|by eapply p_note_ref|]. intros ?. apply p_ret. intros o' [Ho _]. done.
    Qed.
    Lemma p_map_out P l force : mono P -> B l -> Mp l = true -> pres P (map_out rec l r force) (fun ref _ => fit l ref).
    Proof using Hrec Hr HB.
      intros HM Hl Hm. destruct (HB l Hl Hm) as [Hlab Hkid]. unfold map_out. eapply p_bind; [done|by apply p_getobj|]. intros o. pu. intros (Hb & _ & _). unfold fit. rewrite Hb.
      destruct (Bd l) as [m|t|c d|i v m t|k vs|us] eqn:Eb; cbn [label_of label_ok sub_objects kind_of] in *.
      - eapply p_weak; [by apply p_meta|done|]. intros ref o' Hf _. done.
      - done.
      - destruct d as [|nl d]; [apply p_ret; intros; apply fits_none; [scl|done]|].
        eapply p_bind; [done|apply p_miter; [done|]; intros x Hx; eapply p_bind; [done|apply Hrec; [done|by apply Hkid]|intros ?; by apply p_ret]|].
        intros ?. pu. intros _.
        eapply p_bind; [done|apply (p_mmap _ _ (fun _ _ _ => True)); [done|intros; mn|]|].
        { intros x Hx. unfold dir_entry. eapply p_bind; [done|apply p_getobj; apply Hkid; unfold dvals; by apply (in_map snd)|]. intros ox. destruct (h_ref (o_hdr ox)); [by apply p_ret|apply p_raise]. }
        intros es. cbn beta. eapply p_bind; [mn|apply p_save_tree; mn|]. intros x. pu. intros Hx. apply p_ret. intros _ _ _. apply fits_of; [scl|done|done].
      - destruct Hlab as [(u & -> & Hu) (w & -> & Hw)]. cbn [opt_text].
        eapply (p_bind _ _ _ (fun fref o => (exists k, ref_fits k fref) /\ safe_ids Directory fref o)); [done| |].
        { destruct t as [y|]; [|apply p_ret; intros; split; [exists KdMeta; apply fits_none; [scl|done]|intros x []]].
          destruct (Hkid y) as [Hy [_ Hky]]; [apply in_app_iff; right; by left|]. specialize (Hky eq_refl).
          eapply p_bind; [done|by eapply p_proxy|]. intros ref. eapply p_weak; [|intros o' [[H1 H2] _]; exact (conj H1 H2)|intros ? ? Hq; exact Hq].
          pu. intros Hf. eapply p_bind; [apply mono_safe|by eapply p_note_ref|]. intros ?. apply p_ret. intros o' [_ Ho]. split; [by eexists|done]. }
        intros fref. eapply p_weak; [|intros o' [[H1 H2] H3]; exact (conj H1 (conj H2 H3))|intros ? ? Hq; exact Hq]. pu. intros [kf Hf].
        eapply (p_bind _ _ _ (fun mref o => (exists k, ref_fits k mref) /\ safe_ids File mref o)); [mn; apply mono_safe| |].
        { destruct m as [y|]; [|apply p_ret; intros; split; [exists KdMeta; apply fits_none; [scl|done]|intros x []]].
          destruct (Hkid y) as [Hy [Hky _]]; [by left|]. specialize (Hky eq_refl).
          eapply p_bind; [mn; apply mono_safe|apply Hrec; [mn; apply mono_safe|done]|]. intros ref. pu. unfold fit. rewrite Hky. intros Hfm. specialize (Hfm eq_refl).
          pose proof Hfm as [_ (x & Hx & Hh)]. unfold loc_of. rewrite Hx.
          eapply p_bind; [mn; apply mono_safe|apply (p_ret _ x (fun a _ => a = x)); done|]. intros a. pu. intros ->.
          destruct Hh as [->|Hh].
          - eapply (p_bind _ _ _ (fun _ _ => True)); [mn; apply mono_safe| |].
            + unfold add_blob_reference, add_object_reference. rewrite decide_True by done. by apply p_ret.
            + intros ?. apply p_ret. intros o' _. split; [by eexists|]. intros z Hz. apply ref_ids_in in Hz as (Hz & _ & _). unfold is_none_reference in Hz. rewrite Hx in Hz. by rewrite bool_decide_eq_true_2 in Hz.
          - eapply p_bind; [mn; apply mono_safe|by apply p_note|]. intros ?. apply p_ret. intros o' [Ho _]. split; [by eexists|]. intros [tz z] Hz. apply ref_ids_in in Hz as (_ & Hz & Et). cbn [fst snd] in *. rewrite Hx in Hz. injection Hz as <-. by subst tz. }
        intros mref. eapply p_weak; [|intros o' [[H1 H2] H3]; exact (conj H1 (conj H2 H3))|intros ? ? Hq; exact Hq]. pu. intros [km Hfm].
        eapply p_bind; [mn; apply mono_safe|apply p_save_str|].
        { intros x o' Hx [Ho1 [Ho2 _]]. apply (blob_json (mrr_doc u w mref fref)) in Hx; [|apply mrr_json; [done|done|by eapply fits_ok|by eapply fits_ok]].
          apply mrr_mentions in Hx as [Hx|Hx]; [by apply Ho1|by apply Ho2]. }
        intros x. pu. intros ->. apply p_ret. intros _ _ _. apply fits_of; [scl|done|apply oid_hex].
      - eapply p_bind; [done|apply (p_mmap _ _ (fun (rc : pystr * vrec) j o => exists ref, j = assoc_doc (rc, ref) /\ (exists kr, ref_fits kr ref) /\
            (r_class ref <> JStr (ps "MetadataRootRecord") -> safe_ids Directory ref o))); [done| |]|].
        { intros rc j o1 o2 (ref & H1 & H2 & H3) Hs. exists ref. split_and!; [done|done|]. intros Hne. eapply mono_safe; [by apply H3|done]. }
        { intros rc Hrc. pose proof (Hkid (elt_loc (vr_elt (snd rc)))) as [Hx Hkx]; [apply in_map_iff; by exists rc|]. specialize (Hkx rc Hrc eq_refl).
          eapply (p_bind _ _ _ (fun ref o => (exists kr, ref_fits kr ref) /\ (r_class ref <> JStr (ps "MetadataRootRecord") -> safe_ids Directory ref o))); [done| |].
          - destruct (vr_elt (snd rc)) as [y|y]; cbn [is_etree elt_loc] in *.
            + eapply p_weak; [by eapply p_proxy|done|]. intros ref o' [H1 H2]. split; [by eexists|done].
            + eapply p_weak; [by apply Hrec|done|]. intros ref o' Hf. unfold fit in Hf. rewrite Hkx in Hf. specialize (Hf eq_refl). split; [by eexists|]. intros Hne. exfalso. apply Hne.
              destruct Hf as [(c & Hc & _ & Hc') _]. rewrite Hc. f_equal. by apply Hc'.
          - intros ref. apply p_ret. intros o' [[H1 H2] _]. exists ref. split_and!; done. }
        intros js. cbn beta. eapply p_bind; [|apply p_save_str|].
        { apply mono_and; [|done]. apply mono_forall2. intros rc j o1 o2 (ref & H1 & H2 & H3) Hs. exists ref. split_and!; [done|done|]. intros Hne. eapply mono_safe; [by apply H3|done]. }
        { intros x o' Hx [Hjs _].
          assert (HR : exists rrs, js = map assoc_doc rrs /\ Forall (fun rr : pystr * vrec * reference => In (fst rr) (vs_records vs) /\ (exists kr, ref_fits kr (snd rr)) /\
            (r_class (snd rr) <> JStr (ps "MetadataRootRecord") -> safe_ids Directory (snd rr) o')) rrs).
          { clear -Hjs. assert (HI : forall a, In a (vs_records vs) -> In a (vs_records vs)) by done. revert HI Hjs. generalize (vs_records vs) at 1 3 as l0. intros l0 HI Hjs. revert HI. induction Hjs as [|rc j l0 js (ref & -> & H1 & H2) Hjs IH]; intros HI.
            - exists []. split; [done|constructor].
            - destruct IH as (rrs & -> & HF); [intros a Ha; apply HI; by right|]. exists ((rc, ref) :: rrs). split; [done|]. apply List.Forall_cons; [|done]. split_and!; [apply HI; by left|done|done]. }
          destruct HR as (rrs & -> & HF). rewrite List.Forall_forall in HF. apply blob_json in Hx.
          - apply vl_mentions in Hx as (rr & Hrr & Hx & Hc). apply HF in Hrr as (_ & _ & Hs). by apply Hs.
          - apply json_ok_arr. apply List.Forall_forall. intros j Hj. apply in_map_iff in Hj as ([rc ref] & <- & Hrr). apply HF in Hrr as (H1 & [kr H2] & _). cbn [fst snd] in *.
            destruct (Hlab (fst rc) (vr_path (snd rc)) (vr_time (snd rc)) (is_etree (vr_elt (snd rc)))) as (K1 & K2 & K3 & K4); [apply in_map_iff; by exists rc|].
            apply record_json; [done|done|done|by eapply fits_ok]. }
        intros x. cbn beta. eapply p_bind; [|destruct k; [apply p_update|by apply p_ret]|].
        { apply mono_and; [mn|]. apply mono_and; [|done]. apply mono_forall2. intros rc j o1 o2 (ref & H1 & H2 & H3) Hs. exists ref. split_and!; [done|done|]. intros Hne. eapply mono_safe; [by apply H3|done]. }
        { apply mono_and; [mn|]. apply mono_and; [|done]. apply mono_forall2. intros rc j o1 o2 (ref & H1 & H2 & H3) Hs. exists ref. split_and!; [done|done|]. intros Hne. eapply mono_safe; [by apply H3|done]. }
        { by left. }
        intros ?. apply p_ret. intros o' (_ & -> & _) _. apply fits_of; [scl|done|apply oid_hex].
      - eapply p_bind; [done|apply (p_mmap _ _ (fun _ _ _ => True)); [done|intros; mn|]|].
        { intros x Hx. eapply p_bind; [done|apply Hrec; [done|apply Hkid; unfold dvals; by apply (in_map snd)]|]. intros ref. eapply p_bind; [mn| |].
          - unfold loc_of. destruct (r_loc ref); [by apply (p_ret _ _ (fun _ _ => True))|apply p_raise].
          - intros ?. by apply p_ret. }
        intros es. cbn beta. eapply p_bind; [mn|apply p_save_tree; mn|]. intros x. pu. intros Hx.
        eapply p_bind; [mn|apply p_update; [mn|by right]|]. intros ?. apply p_ret. intros _ _ Ht. done.
    Qed.
  End Rec.
  Lemma p_write_out fuel : forall P l force, mono P -> B l -> pres P (write_out fuel l (Some r) force) (fun ref _ => fit l ref).
  Proof using Hr HB.
    induction fuel as [|f IH]; intros P l force HM Hl; cbn [write_out]; [apply p_raise|]. eapply p_bind; [done|by apply p_getobj|]. intros o. pu. intros (Hb & Hm & _).
    destruct (h_mapped (o_hdr o)) eqn:Em; cbn [negb].
    - assert ((if truthy (h_realm (o_hdr o)) then or_else (Some r) (h_realm (o_hdr o)) else Some r) = Some r) as -> by (destruct (truthy _); [unfold or_else|]; by destruct r).
      destruct (is_remote r); [apply p_raise|].
      eapply p_bind; [done|apply p_set_hdr; [done|done|by left]|]. intros ?. pu. intros _. eapply p_bind; [done|apply p_saved|]. intros b. pu. intros _.
      destruct (b && negb force); [by apply p_own|]. eapply p_bind; [done|apply p_map_out; [exact IH|done|done|done]|]. intros ref. pu. intros Hf.
      eapply p_bind; [done|apply p_set_hdr; [done|done|]|].
      { intros Ht x ref' [= <-]. right. by apply Hf. }
      intros ?. pu. intros _. eapply p_bind; [done|apply p_set_hdr; [done|done|by left]|]. intros ?. by apply p_ret.
    - eapply p_bind; [done|apply p_assert|]. intros ?. pu. intros _. eapply p_bind; [done|apply p_assert|]. intros ?. pu. intros _.
      eapply p_bind; [done|apply p_saved|]. intros b. pu. intros _. destruct b; [by apply p_own|apply p_raise].
  Qed.
  Lemma p_proxy_any rec ft P l force : (forall P x b, mono P -> B x -> pres P (rec x (Some r) b) (fun ref _ => fit x ref)) -> mono P -> B l ->
    top_kind (kind_of (Bd l)) = false -> pres P (proxy_write_out rec ft l (Some r) force) (fun _ _ => True).
  Proof using Hr.
    intros Hrec HM Hl Hk. unfold proxy_write_out. eapply p_bind; [done|by apply p_getobj|]. intros o. pu. intros _.
    assert (or_else (Some r) (h_realm (o_hdr o)) = Some r) as -> by (unfold or_else; by destruct r).
    eapply p_bind; [done|destruct ft; [apply p_cache_realm|by apply p_ret]|]. intros ?. pu. intros _.
    eapply p_bind; [done|by apply Hrec|]. intros ref. pu. intros Hf. specialize (Hf Hk).
    eapply p_bind; [done|destruct ft; [apply p_flush_realm|by apply p_ret]|]. intros ?. pu. intros _.
    eapply p_bind; [done|by eapply p_note_ref|]. intros ?. by apply p_ret.
  Qed.
  Lemma p_writes fuel l force m : B l -> writes fuel l (Some r) force m -> (m = write_out fuel l (Some r) force \/ top_kind (kind_of (Bd l)) = false) -> pres (fun _ => True) m (fun _ _ => True).
  Proof using Hr HB.
    intros Hl Hw Hk. destruct Hw.
    - eapply p_weak; [apply p_write_out; [apply mono_true|done]|done|done].
    - destruct Hk as [E|Hk]; [|apply p_proxy_any; [apply p_write_out|apply mono_true|done|done]]. rewrite E. eapply p_weak; [apply p_write_out; [apply mono_true|done]|done|done].
    - destruct Hk as [E|Hk]; [|apply p_proxy_any; [apply p_write_out|apply mono_true|done|done]]. rewrite E. eapply p_weak; [apply p_write_out; [apply mono_true|done]|done|done].
  Qed.
End Gc.
