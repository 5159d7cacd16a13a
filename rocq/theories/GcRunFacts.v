(** Proofs: what git keeps after any use of a repository. *)
From Verif Require Import Base BaseFacts Path Json Refs Meta GitText Spec_Git GitTextFacts Git Spec_Store TreeTextFacts GitFacts Rely State BlobCache Lock TreeUpd ObjRef Objects
  Spec_Look Spec_Heap Spec_Write WriteFacts Spec_Content Spec_Publish Spec_Tree TreeUpdFacts Spec_ObjRef LockFacts ObjRefFacts Spec_Flush FlushFacts RefsFacts LookFacts SaveFacts ExecFacts Spec_Gc GcFacts.

Section NoBlobs.
  Context `{Env}.
  Definition no_blob (c : cmd) : Prop := match c with HashObject _ _ | HashFiles _ _ | Init _ | Fetch _ _ _ _ => False | _ => True end.
  Notation nb m := (mall no_blob (fun _ => True) m).
  Lemma nb_adapt {S : Type} n x : is_remote n = false -> nb (adapt_for_remote (S := S) n x).
  Proof. intros Hn. unfold adapt_for_remote. rewrite Hn. apply mall_ret. Qed.
  Lemma nb_get_dir {S : Type} n x : is_remote n = false -> nb (get_dir (S := S) n x).
  Proof.
    intros Hn. unfold get_dir, git_read_tree_node. apply mall_bind; [|intros; apply mall_res]. apply mall_bind; [by apply nb_adapt|]. intros. by apply mall_checked.
  Qed.
  Lemma nb_write_dir {S : Type} n es : nb (write_dir (S := S) n es).
  Proof. unfold write_dir, git_save_tree_node. apply mall_bind; [apply mall_res|]. intros inp. apply mall_bind; [by apply mall_checked|]. intros []; [apply mall_raise|apply mall_ret]. Qed.
  Lemma nb_add_paths {S : Type} n f : is_remote n = false -> forall infos es, nb (add_paths_f (S := S) f n infos es).
  Proof.
    intros Hn. induction f as [|f IH]; intros infos es; cbn [add_paths_f]; [apply mall_raise|].
    do 4 (apply mall_bind; [apply mall_res|]; intros ?). apply mall_bind; [|intros; apply nb_write_dir].
    generalize a2. induction a as [|[name subs] ls IHl]; intros acc; [apply mall_ret|].
    apply mall_bind; [|intros ses; apply mall_bind; [apply IH|intros h; apply mall_bind; [apply mall_res|intros d; apply IHl]]].
    destruct (dget _ name); [|apply mall_ret]. destruct (decide _); [by apply nb_get_dir|apply mall_raise].
  Qed.
  Lemma nb_flush n : is_remote n = false -> nb (flush_object_references n).
  Proof.
    intros Hn.
    unfold flush_object_references. apply mall_bind.
    - unfold add_legacy_store_entries. apply mall_bind; [apply mall_get|]. intros l. destruct (decide _); [apply mall_ret|].
      apply mall_bind; [by apply mall_mod|]. intros ?.
      assert (HL : forall name t, nb (add_legacy_store_entries_from n name t)).
      { intros name t. unfold add_legacy_store_entries_from. apply mall_try.
        - apply mall_bind; [unfold git_ls_tree; apply mall_bind; [by apply nb_adapt|]; intros; by apply mall_checked|]. intros ls. apply mall_bind; [|intros; apply mall_ret]. apply mall_iter. intros x _.
          apply mall_bind; [apply mall_res|]. intros [[[? ?] ?] ?]. by apply mall_mod.
        - intros []; try apply mall_raise; apply mall_ret. }
      apply mall_bind; [apply HL|]. intros ?. apply mall_bind; [apply HL|]. intros ?. apply mall_ret.
    - intros lg. apply mall_bind; [apply mall_get|]. intros refs. apply mall_bind.
      + destruct refs as [|x refs]; [apply mall_ret|]. apply mall_bind; [apply mall_res|]. intros infos. apply mall_bind; [|intros; by apply mall_mod].
        unfold locked_backend. apply mall_bind.
        * unfold lock_backend. apply mall_bind; [apply mall_get|]. intros c. apply mall_bind; [|intros; unfold set_counter; by apply mall_mod].
          destruct (c =? 0)%nat; [|apply mall_ret]. apply mall_bind; [by apply mall_execute|]. intros []; [apply mall_ret|apply mall_raise].
        * intros ?. apply mall_finally.
          -- apply mall_bind; [apply mall_try; [by apply nb_get_dir|intros []; try apply mall_raise; apply mall_ret]|]. intros root.
             apply mall_bind; [by apply nb_add_paths|]. intros h. unfold git_update_ref. apply mall_bind; [by apply mall_checked|]. intros; apply mall_ret.
          -- unfold unlock_backend. apply mall_bind; [apply mall_get|]. intros c. apply mall_bind; [apply mall_assert|]. intros ?. apply mall_bind; [unfold set_counter; by apply mall_mod|].
             intros ?. destruct (c - 1 =? 0)%nat; [|apply mall_ret]. apply mall_bind; [by apply mall_execute|]. intros; apply mall_ret.
      + intros ?. unfold git_delete_ref. apply mall_bind; [destruct (fst lg : bool)|intros ?; destruct (snd lg : bool)]; try apply mall_ret; apply mall_bind; try (by apply mall_checked); intros; apply mall_ret.
  Qed.
  Lemma no_blob_cmd r c g : no_blob c -> no_blobs r g (snd (git c g)).
  Proof.
    intros Hc h b. destruct c; try done; cbn [git]; repeat case_match; cbn [snd]; try done.
    - rewrite objs_set. destruct (decide _) as [->|]; [|done]. apply local_repo_inv in H0 as [_ El]. rewrite (objs_repo _ _ _ El).
      apply put_obj_inv in H3 as (H1' & H2' & H3' & H4'). intros Hb. by apply H4' in Hb as [Hb|[_ Hb]].
    - rewrite objs_set. destruct (decide _) as [->|]; [|done]. apply local_repo_inv in H0 as [_ El]. by rewrite (objs_repo _ _ _ El).
    - rewrite objs_set. destruct (decide _) as [->|]; [|done]. apply local_repo_inv in H0 as [_ El]. by rewrite (objs_repo _ _ _ El).
  Qed.
  Lemma flush_no_blobs r s g res s' g' : is_remote r = false -> exec (flush_object_references r s) g = ((res, s'), g') -> no_blobs r g g'.
  Proof.
    intros Hr He. eapply (pall_trace no_blob _ (no_blobs r) (flush_object_references r s) g g').
    - intros c g0 Hc. by apply no_blob_cmd.
    - intros g0 h b Hb. done.
    - intros a b c H1 H2 h x Hx. apply H1, H2, Hx.
    - by apply nb_flush.
    - right. by rewrite He.
  Qed.
End NoBlobs.

Section Uses.
  Context `{Env} (r : pystr) (Hr : r <> []) (Hl : is_remote r = false).
  Implicit Types (s : pst) (g : gstate).
  Definition inv s g : Prop := cok r s /\ docs r s g /\ ids_ok (s_orefs s) /\ good g /\ refs_readable g r /\ locks_counted (g_locks g) s.
  Lemma inv_write B Bd Mp s g s' g' : inv s g -> J r B Bd Mp s' g' -> R r s g s' g' -> grow g g' -> good g' -> inv s' g'.
  Proof.
    intros (I1 & I2 & I3 & I4 & I5 & I6) (_ & J1 & J2 & J3) (_ & R1 & R2 & R3 & R4) Hg Hgood. split_and!; [done|done|done|done| |].
    - eapply (refs_same g g' r Hg); [by apply R4|done].
    - intros n. rewrite R2. unfold lock_counter. rewrite R1. apply I6.
  Qed.
  Lemma inv_step s g s' g' : inv s g -> uses r (s, g) (s', g') -> inv s' g'.
  Proof using Hl Hr.
    intros HI Hu. inversion Hu as [fuel l force ? ? res ? ? Hw He|fuel l force m ? ? o c d res ? ? Hwr Hw Ho Hb He|? ? res ? ? He|? ? ? ? H1 H2 H3 H4 H5 H6]; subst.
    1, 2: pose (h := s_heap s); pose (Bd := fun y : loc => match h !! y with Some o => o_body o | None => BText None end);
      pose (Mp := fun y : loc => match h !! y with Some o => h_mapped (o_hdr o) | None => false end).
    1, 2: assert (HB : forall y, loaded_below h l y -> Mp y = true -> label_ok (label_of (Bd y)) /\
      forall x, In x (sub_objects (Bd y)) -> loaded_below h l x /\ kid_fits (Bd y) x (kind_of (Bd x)))
      by (intros y Hy; assert (exists o, h !! y = Some o) as [oy Hoy] by (clear -Hy; induction Hy; eauto); unfold Bd, Mp; rewrite Hoy; intros Hm;
          destruct (Hw y oy Hy Hoy) as [_ Hk]; destruct (Hk Hm) as [Hk1 Hk2]; split; [done|]; intros x Hx; destruct (Hk2 x Hx) as (ox & Hox & Hf); fold h in Hox; rewrite Hox; split; [|done];
          clear -Hy Hoy Hm Hx Hox; induction Hy as [z oz Hz|z oz w y Hz Hmz Hin Hy IH]; [eapply below_sub; [exact Hoy|done|done|]; by eapply below_self|eapply below_sub; [exact Hz|done|done|]; by apply IH]).
    1, 2: assert (HJ : J r (loaded_below h l) Bd Mp s g) by (destruct HI as (I1 & I2 & I3 & I4 & I5 & I6); split_and!; [|done|done|done];
        intros y Hy; assert (exists o, h !! y = Some o) as [oy Hoy] by (clear -Hy; induction Hy; eauto); exists oy; unfold Bd, Mp; rewrite Hoy; split_and!; [done|done|done|]; by apply (Hw y oy)).
    - destruct (s_heap s !! l) as [o|] eqn:Eo.
      + assert (Hll : loaded_below h l l) by by eapply below_self.
        destruct (p_writes r Hr (loaded_below h l) Bd Mp HB fuel l force _ Hll (writes_any _ _ _ _) (or_introl eq_refl) s g res s' g' HJ I He) as (HJ' & HR & _).
        eapply inv_write; [done|done|done|..]; [replace g' with (snd (exec (write_out fuel l (Some r) force s) g)) by (by rewrite He); apply exec_grow|].
        replace g' with (snd (exec (write_out fuel l (Some r) force s) g)) by (by rewrite He). apply exec_good, HI.
      + destruct fuel as [|f]; cbn [write_out] in He; [rewrite x_raise in He; by injection He as <- <- <-|]. rewrite x_bind, x_getobj, Eo in He. by injection He as <- <- <-.
    - assert (Hll : loaded_below h l l) by by eapply below_self.
      assert (Htk : top_kind (kind_of (Bd l)) = false) by (unfold Bd, h; rewrite Ho, Hb; done).
      destruct (p_writes r Hr (loaded_below h l) Bd Mp HB fuel l force m Hll Hwr (or_intror Htk) s g res s' g' HJ I He) as (HJ' & HR & _).
      eapply inv_write; [done|done|done|..]; [replace g' with (snd (exec (m s) g)) by (by rewrite He); apply exec_grow|].
      replace g' with (snd (exec (m s) g)) by (by rewrite He). apply exec_good, HI.
    - destruct HI as (I1 & I2 & I3 & I4 & I5 & I6). pose proof (flush_no_blobs r s g res s' g' Hl He) as Hnb.
      assert (Hw := flush_wp false (g_locks g) r s (fun X a s1 g1 => X = g_locks g /\ flush_post false r s g a s1 g1) g Hl (conj I4 I5) I3 I6 ltac:(done)).
      feed specialize Hw. { intros. done. }
      destruct (wp_exec (safe false) (g_locks g) _ _ g eq_refl Hw) as (X' & HX & (-> & Hre & Hs & Hok & Hin & _) & _). rewrite He in *. cbn [fst snd] in *.
      destruct (rely_keeps false r ∅ g g' Hre (conj I4 I5)) as ([Hg' Hr'] & K1 & K2).
      assert (Hnote : forall x, noted s g r x -> noted s' g' r x).
      { intros [t x] [Ht|Ht]; [|right; by apply K2]. destruct (Hin t x Ht) as [Hi|Hi]; [by left|right; by left]. }
      destruct Hs as (Hs1 & Hs2 & Hs3 & Hs4).
      split_and!.
      + unfold cok, caches_ok. rewrite Hs3. apply I1.
      + split; [intros h b t x Hb Ht Hx; apply Hnote; eapply (proj1 I2); [by apply Hnb|done|done]|].
        intros c b x. rewrite Hs3. intros Hc Hb Hx. apply Hnote. by eapply (proj2 I2).
      + done.
      + done.
      + done.
      + intros n. rewrite HX, Hs4. apply I6.
    - destruct HI as (I1 & I2 & I3 & I4 & I5 & I6).
      assert (Eo : objs_of g' r = objs_of g r) by (unfold objs_of; by rewrite H6). assert (Ef : refs_of g' r = refs_of g r) by (unfold refs_of; by rewrite H6).
      assert (Hnote : forall x, noted s g r x -> noted s' g' r x).
      { intros x. unfold noted, protected, in_refs, in_legacy. by rewrite H2, Eo, Ef. }
      split_and!.
      + unfold cok, caches_ok. rewrite H1. apply I1.
      + split; [intros h b t x; rewrite Eo; intros; apply Hnote; by eapply (proj1 I2)|].
        intros c b x. rewrite H1. intros. apply Hnote. by eapply (proj2 I2).
      + by rewrite H2.
      + done.
      + unfold refs_readable. rewrite Eo, Ef. exact I5.
      + intros n. unfold lock_counter. rewrite H5, H3. apply I6.
  Qed.
  Lemma inv_uses s g s' g' : inv s g -> rtc (uses r) (s, g) (s', g') -> inv s' g'.
  Proof using Hl Hr.
    intros HI Hu. remember (s, g) as a eqn:Ea. remember (s', g') as b eqn:Eb. revert s g Ea HI. induction Hu as [a|a [s1 g1] b H1 _ IH]; intros s g -> HI.
    - injection Eb as -> ->. done.
    - eapply IH; [done|done|]. by eapply inv_step.
  Qed.
  Lemma inv_start s g : begin_ok r s g -> caches_ok s -> dget (s_caches s) r = None -> recorded s g r -> inv s g.
  Proof.
    intros (_ & H1 & H2 & H3 & H4) H5 H6 H7. split_and!; [|split; [done|]|done|done|done|done].
    - split; [done|]. by rewrite H6.
    - intros c b x. by rewrite H6.
  Qed.
End Uses.

(** ** What git keeps *)
Section Keeps.
  Context `{Env} (g : gstate) (r : pystr) (Hg : good g) (Ha : submodules_apart (objs_of g r)).
  Notation O := (objs_of g r).
  Lemma leads_in x es e y : O !! x = Some (Tree es) -> In e es -> is_Some (O !! te_id e) -> leads O (te_id e) y -> leads O x y.
  Proof using Ha.
    intros Hx He [o Ho] Hy. eapply leads_entry; [done|done| |done]. intros Ht. pose proof (Ha x es e Hx He Ht) as Hno. unfold store in *. congruence.
  Qed.
  Lemma entry_at_in es b t h : entry_at es b = Some (t, h) -> exists e, In e es /\ te_id e = h /\ entry_kind e = t.
  Proof. unfold entry_at. destruct List.find as [e|] eqn:E; [|done]. intros [= <- <-]. apply find_some in E as [E _]. apply in_rev in E. by exists e. Qed.
  Lemma path_leads p : forall h es t x, O !! h = Some (Tree es) -> at_path O (entry_at es) p = Some (t, x) -> is_Some (O !! x) -> leads O h x.
  Proof using Ha.
    induction p as [|b p IH]; intros h es t x Hh Hp Hx; [done|]. cbn [at_path] in Hp. destruct p as [|b' p].
    - apply entry_at_in in Hp as (e & He & <- & _). eapply leads_in; [done|done|done|constructor].
    - destruct (entry_at es b) as [[[] h']|] eqn:E; try done. destruct (tree_of O h') as [es'|] eqn:Et; [|done]. apply entry_at_in in E as (e & He & <- & _).
      apply tree_of_inv in Et as [Et _]. eapply leads_in; [done|done|by eexists|]. by eapply IH.
  Qed.
  Lemma protected_kept t x : protected g r t x -> is_Some (O !! x) -> git_keeps g r x.
  Proof using Ha.
    intros [(top & Ht & Hp)|(top & es & Ht & He & Hin)] Hx.
    - exists object_references, top. split; [done|]. unfold tree_path in Hp. destruct (tree_of O top) as [es|] eqn:E; [|done]. apply tree_of_inv in E as [E _]. by eapply path_leads.
    - exists (legacy_references t), top. split; [done|]. apply tree_of_inv in He as [He _]. apply elem_of_list_In, in_map_iff in Hin as (e & <- & Hin). eapply leads_in; [done|done|done|constructor].
  Qed.
  Lemma leads_trans x y z : leads O x y -> leads O y z -> leads O x z.
  Proof. induction 1 as [|x es e y Hx He Ht Hl IH]; [done|]. intros Hz. eapply leads_entry; [done|done|done|]. by apply IH. Qed.
  Lemma keeps_leads x y : git_keeps g r x -> leads O x y -> git_keeps g r y.
  Proof. intros (n & h & Hn & Hh) Hy. exists n, h. split; [done|]. by eapply leads_trans. Qed.
  Lemma lines_ids x ls l q : load_lines O x = Ok ls -> In l ls -> split_git_lstree_line l = Ok q ->
    exists es e, O !! x = Some (Tree es) /\ In e es /\ snd (fst q) = te_id e.
  Proof using Hg.
    unfold load_lines, store. destruct (object_id x); [|done]. destruct (O !! x) as [[|es]|] eqn:E; try done. unfold tree_listing. destruct (existsb _ _); [done|].
    pose proof (Hg _ _ _ E) as [_ Hwf]. cbn in Hwf. rewrite listing_lines by done. intros [= <-] Hin Hs. apply in_map_iff in Hin as (e & <- & He).
    rewrite split_eline in Hs by (by apply (proj1 (List.Forall_forall _ _) Hwf)). injection Hs as <-. by exists es, e.
  Qed.
  Context (Hrec : forall h b t x, O !! h = Some (Blob b) -> text_result b = Ok t -> In x (mentions t) -> protected g r (fst x) (snd x)).
  Lemma mention_kept y t x : load_text O y = Ok t -> In x (mentions t) -> is_Some (O !! snd x) -> git_keeps g r (snd x).
  Proof using Hrec Ha.
    intros Ht Hx Hi. unfold load_text, store in Ht. destruct (object_id y); [|done]. destruct (O !! y) as [[b|]|] eqn:E; try done.
    pose proof (Hrec _ _ _ _ E Ht Hx) as Hp. by eapply protected_kept.
  Qed.
  Definition rkept (ref : reference) : Prop := is_none_reference ref = false -> forall x, r_loc ref = Some x -> is_Some (O !! x) -> git_keeps g r x.
  Lemma rfold_parts {A C D : Type} (f : A * list C -> D -> res (A * list C)) (P : C -> D -> Prop) l a t :
    (forall a e b, f a e = Ok b -> forall c, In c (snd b) -> In c (snd a) \/ P c e) -> rfold f l a = Ok t -> forall c, In c (snd t) -> In c (snd a) \/ exists e, In e l /\ P c e.
  Proof.
    intros Hf. revert a. induction l as [|e l IH]; intros a Ht c Hc; cbn [rfold] in Ht.
    - injection Ht as <-. by left.
    - rstep Ht. destruct (IH _ Ht c Hc) as [Hi|(e' & He' & Hp)]; [|right; exists e'; split; [by right|done]]. destruct (Hf _ _ _ E c Hi) as [?|?]; [by left|right; exists e; split; [by left|done]].
  Qed.
  Lemma part_in ks i k : part ks i = Some k -> In k ks.
  Proof. unfold part. intros Hp. apply elem_of_list_In. by eapply elem_of_list_lookup_2. Qed.
  Lemma fold_assoc rs : forall t c, In c (snd (fold_left add_assoc rs t)) -> In c (snd t) \/ exists a, In a rs /\ c = (if snd (fst a) : bool then KdNode LMrr else KdMrr, snd a).
  Proof.
    induction rs as [|a rs IH]; intros t c Hc; cbn [fold_left] in Hc; [by left|]. apply IH in Hc as [Hc|(a' & Ha' & Hc)]; [|right; exists a'; split; [by right|done]].
    destruct a as [[[[v ts] q] tree] ref]. unfold add_assoc in Hc. cbn [snd fst] in Hc. apply in_app_iff in Hc as [Hc|[<-|[]]]; [by left|right]. eexists. split; [by left|]. done.
  Qed.
  Lemma mention_part y t et ref : load_text O y = Ok t -> (forall x, In x (ref_ids et (Ok ref)) -> In x (mentions t)) -> rkept ref.
  Proof using Hrec Ha.
    intros Ht Hm Hn x Hx Hi. eapply (mention_kept _ _ (et, x)); [done| |done]. apply Hm. unfold ref_ids. rewrite Hn, Hx. by left.
  Qed.
  (** the references of the parts of a stored object *)
  Lemma parts_kept k ref b ks k' ref' : rkept ref \/ k = KdMrr -> stored O k ref = Ok (b, ks) -> In (k', ref') ks -> rkept ref' \/ (k' = KdMrr /\ exists b, k = KdVl b).
  Proof using Hrec Ha Hg.
    intros Hk Hs Hin. unfold stored in Hs. destruct (is_none_reference ref) eqn:En.
    { destruct k; try done. destruct (jis_str _ _); [|done]. injection Hs as <- <-. done. }
    destruct (jis_str _ _); [|done]. unfold stored_body in Hs. apply rbind_inv in Hs as (x & E & Hs). unfold ref_loc in E. destruct (r_loc ref) as [x'|] eqn:Ex; [|done]. injection E as <-. destruct k.
    - rstep Hs. rstep Hs. rstep Hs. rstep Hs. rstep Hs. by injection Hs as <- <-.
    - rstep Hs. by injection Hs as <- <-.
    - destruct Hk as [Hk|]; [|done]. specialize (Hk En x' Ex). apply rbind_inv in Hs as (ls & Els & Hs). apply rbind_inv in Hs as (es & Ees & Hs). apply rbind_inv in Hs as (t & Et & Hs). injection Hs as <- <-. left. intros Hn y Hy Hi.
      apply (rfold_parts _ (fun c e => r_loc (snd c) = Some (snd (fst e)))) with (c := (k', ref')) in Et; [|clear|exact Hin].
      + destruct Et as [[]|(e & He & Hloc)]. cbn [snd] in Hloc. rewrite Hy in Hloc. injection Hloc as ->.
        destruct (rmap_in _ _ _ _ Ees He) as (l & Hl & Hrl). unfold read_tree_line in Hrl. apply rbind_inv in Hrl as (q & Eq & Hrl).
        destruct (lines_ids _ _ _ _ Els Hl Eq) as (es' & e' & Hx & He' & Hid).
        destruct q as [[[m ty] h] nm]. apply rbind_inv in Hrl as (nm' & En' & Hrl). injection Hrl as <-. cbn [fst snd] in *. subst h. eapply keeps_leads; [apply Hk; by eexists|]. eapply leads_in; [done|done|done|constructor].
      + intros t [[ty h] nm] t' Ht c' Hc. unfold add_line in Ht. apply rbind_inv in Ht as (kr & E & Ht). injection Ht as <-. cbn [snd] in Hc. apply in_app_iff in Hc as [Hc|[<-|[]]]; [by left|right].
        cbn [fst snd]. destruct (bool_decide _); [by injection E as <-|]. destruct (bool_decide _); [by injection E as <-|done].
    - apply rbind_inv in Hs as (t & Et & Hs). apply rbind_inv in Hs as (j & Ej & Hs). apply rbind_inv in Hs as (mj & Emj & Hs). apply rbind_inv in Hs as (mref & Em & Hs).
      apply rbind_inv in Hs as (fj & Efj & Hs). apply rbind_inv in Hs as (fref & Ef & Hs). rstep Hs. rstep Hs. rstep Hs. rstep Hs. injection Hs as <- <-. left.
      apply in_app_iff in Hin as [Hin|Hin].
      + eapply (mention_part _ _ File); [done|]. intros y Hy. unfold mentions. rewrite Ej, Emj, Efj. cbn [rbind]. rewrite Em, Ef. rewrite !in_app_iff. right. left. destruct (is_none_reference mref); [done|]. by destruct Hin as [[= <- <-]|[]].
      + eapply (mention_part _ _ Directory); [done|]. intros y Hy. unfold mentions. rewrite Ej, Emj, Efj. cbn [rbind]. rewrite Em, Ef. rewrite !in_app_iff. right. right. left. destruct (is_none_reference fref); [done|]. by destruct Hin as [[= <- <-]|[]].
    - apply rbind_inv in Hs as (t & Et & Hs). apply rbind_inv in Hs as (j & Ej & Hs). apply rbind_inv in Hs as (js & Ejs & Hs). apply rbind_inv in Hs as (rs & Ers & Hs). injection Hs as <- <-.
      apply fold_assoc in Hin as [[]|(a & Hin & [= -> ->])]. destruct (snd (fst a)) eqn:Etr; [left|right; split; [done|by eexists]].
      eapply (mention_part _ _ Directory); [done|]. intros y Hy. unfold mentions. rewrite Ej, Ejs. cbn [rbind]. rewrite Ers. rewrite !in_app_iff. right. right. right.
      apply in_concat. eexists. split; [apply in_map_iff; exists a; split; [done|exact Hin]|]. by rewrite Etr.
    - destruct Hk as [Hk|]; [|done]. specialize (Hk En x' Ex). apply rbind_inv in Hs as (ls & Els & Hs). apply rbind_inv in Hs as (es & Ees & Hs). apply rbind_inv in Hs as (t & Et & Hs). injection Hs as <- <-. left. intros Hn y Hy Hi.
      apply (rfold_parts _ (fun c e => r_loc (snd c) = Some (snd (fst e)))) with (c := (k', ref')) in Et; [|clear|exact Hin].
      + destruct Et as [[]|(e & He & Hloc)]. cbn [snd] in Hloc. rewrite Hy in Hloc. injection Hloc as ->.
        destruct (rmap_in _ _ _ _ Ees He) as (l & Hl & Hrl). 
        destruct (lines_ids _ _ _ _ Els Hl Hrl) as (es' & e' & Hx & He' & Hid).
        rewrite Hid in *. eapply keeps_leads; [apply Hk; by eexists|]. eapply leads_in; [done|done|done|constructor].
      + intros t [[[m ty] h] nm] t' Ht c' Hc. unfold add_uuid in Ht. apply rbind_inv in Ht as (kr & E & Ht). injection Ht as <-. cbn [snd] in Hc. apply in_app_iff in Hc as [Hc|[<-|[]]]; [by left|by right].
  Qed.
  Lemma found_kept p : forall k ref k' ref', rkept ref \/ k = KdMrr -> found O k ref p = Some (k', ref') -> (k' = KdMrr -> p = [] -> rkept ref) ->
    rkept ref' \/ listed p k'.
  Proof using Hrec Ha Hg.
    induction p as [|x p IH]; intros k ref k' ref' Hk Hf H0; cbn [found] in Hf.
    - injection Hf as <- <-. left. destruct Hk as [Hk| ->]; [done|by apply H0].
    - destruct (stored O k ref) as [[b ks]|] eqn:Es; [|done]. destruct (dget (kids_of b) x) as [i|] eqn:Ei; [|done]. destruct (part ks i) as [[k1 ref1]|] eqn:Ep; [|done].
      pose proof (parts_kept _ _ _ _ _ _ Hk Es (part_in _ _ _ Ep)) as Hk1.
      destruct (decide (p = [])) as [->|Hp].
      + cbn [found] in Hf. injection Hf as <- <-. destruct Hk1 as [Hk1|[-> [v ->]]]; [by left|right]. split; [done|]. exists [].
        assert (exists v w, x = KVer v w) as (v1 & w1 & ->); [|by exists v1, w1]. clear -Es Ei. unfold stored in Es.
        destruct (is_none_reference ref); [done|]. destruct (jis_str _ _); [|done]. unfold stored_body in Es. do 5 rstep Es. injection Es as <- _. cbn [kids_of] in Ei.
        apply dget_Some_In in Ei. apply in_concat in Ei as (l & Hl & Hx). apply in_map_iff in Hl as ([vv pd] & <- & _). apply in_map_iff in Hx as ([pp pr] & [= <- _] & _). by eexists _, _.
      + destruct (IH k1 ref1 k' ref') as [?|[-> (q & v & w & ->)]]; [destruct Hk1 as [?|[-> _]]; auto|done|done|by left|right]. split; [done|]. by exists (x :: q), v, w.
  Qed.
  Lemma needed_kept p k x : needed g r p k x -> git_keeps g r x \/ listed p k.
  Proof using Hrec Ha Hg.
    intros (k0 & ref0 & ref & Hpub & Hf & Hn & Hx & Hread).
    assert (H0 : rkept ref0).
    { intros _ y Hy _. destruct Hpub as (h & [(_ & Hh & ->)|(_ & Hh & ->)]); injection Hy as <-; eexists _, h; (split; [exact Hh|constructor]). }
    destruct Hread as [Hl|(-> & y & t & ref2 & Hy & Ht & H2 & Hn2 & Hl2)].
    - destruct (found_kept p k0 ref0 k ref (or_introl H0) Hf (fun _ _ => H0)) as [Hk|Hk]; [left; by apply (Hk Hn)|by right].
    - left. eapply (mention_kept _ _ (File, x)); [done| |done]. unfold mentions, ref_from_json_str in *. apply rbind_inv in H2 as (j & Hj & H2). rewrite Hj. apply in_app_iff. left. rewrite H2. unfold ref_ids. rewrite Hn2, Hl2. by left.
  Qed.
End Keeps.

Section Kept.
  Context `{Env}.
  Lemma C41_records_lemma r s g s' g' : r <> [] -> begin_ok r s g -> caches_ok s -> dget (s_caches s) r = None -> recorded s g r ->
    rtc (uses r) (s, g) (s', g') -> begin_ok r s' g' /\ recorded s' g' r.
  Proof.
    intros Hr Hb Hc Hu Hrec Hrtc. pose proof (inv_uses r Hr (proj1 Hb) s g s' g' (inv_start r s g Hb Hc Hu Hrec) Hrtc) as (I1 & [I2 I2'] & I3 & I4 & I5 & I6).
    split; [split_and!; [apply Hb|done|done|done|done]|done].
  Qed.
  Lemma C41_kept_lemma r s g s1 g1 s' g' : r <> [] -> begin_ok r s g -> caches_ok s -> dget (s_caches s) r = None -> recorded s g r ->
    rtc (uses r) (s, g) (s1, g1) -> exec (flush_object_references r s1) g1 = ((Ok tt, s'), g') ->
    (forall s2, recorded s2 g' r) /\
    (submodules_apart (objs_of g' r) -> forall p k x, needed g' r p k x -> git_keeps g' r x \/ listed p k).
  Proof.
    intros Hr Hb Hc Hu Hrec Hrtc Hf.
    destruct (C41_records_lemma r s g s1 g1 Hr Hb Hc Hu Hrec Hrtc) as [(B1 & B2 & B3 & B4 & B5) _].
    destruct (C41_records_lemma r s g s' g' Hr Hb Hc Hu Hrec) as [(B1' & B2' & B3' & B4' & B5') R'].
    { eapply rtc_r; [exact Hrtc|]. by eapply uses_flush. }
    assert (Ho : s_orefs s' = []).
    { assert (Hw := flush_wp false (g_locks g1) r s1 (fun X a s1' g1' => flush_post false r s1 g1 a s1' g1') g1 B1 (conj B2 B3) B4 B5 ltac:(done)).
      feed specialize Hw. { intros. done. }
      destruct (wp_exec (safe false) (g_locks g1) _ _ g1 eq_refl Hw) as (X' & HX & (_ & _ & _ & _ & Hok) & _). rewrite Hf in Hok. by apply Hok. }
    assert (HP : forall h b t y, objs_of g' r !! h = Some (Blob b) -> text_result b = Ok t -> In y (mentions t) -> protected g' r (fst y) (snd y)).
    { intros h b t y Hob Ht Hy. destruct (R' h b t y Hob Ht Hy) as [Hi|Hp]; [|done]. rewrite Ho in Hi. by apply elem_of_nil in Hi. }
    split.
    - intros s2 h b t y Hob Ht Hy. right. by eapply HP.
    - intros Ha p k x Hn. by eapply needed_kept.
  Qed.
  Lemma C41_all_lemma r s g s1 g1 s' g' : r <> [] -> begin_ok r s g -> caches_ok s -> dget (s_caches s) r = None -> recorded s g r ->
    rtc (uses r) (s, g) (s1, g1) -> exec (flush_object_references r s1) g1 = ((Ok tt, s'), g') -> submodules_apart (objs_of g' r) ->
    (forall p x, needed g' r p KdMrr x -> listed p KdMrr -> exists q, needed g' r q KdMrr x /\ ~ listed q KdMrr) ->
    forall p k x, needed g' r p k x -> git_keeps g' r x.
  Proof.
    intros Hr Hb Hc Hu Hrec Hrtc Hf Ha Hl p k x Hn. destruct (C41_kept_lemma r s g s1 g1 s' g' Hr Hb Hc Hu Hrec Hrtc Hf) as [_ HK]. specialize (HK Ha).
    destruct (HK p k x Hn) as [?|Hli]; [done|]. pose proof Hli as [-> _]. destruct (Hl p x Hn Hli) as (q & Hq & Hnq). by destruct (HK q KdMrr x Hq).
  Qed.
End Kept.
