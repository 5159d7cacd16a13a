(** Calls that only look, load or unload. *)
From Verif Require Import Base BaseFacts Path Spec_Path PathFacts Json Refs RefsFacts Meta Spec_Meta MetaFacts GitText Spec_Git Git GitFacts Spec_Store State BlobCache ObjRef Objects Spec_Objects Spec_Look Spec_Heap Spec_Versions Spec_Write ExecFacts LoadFacts PeekFacts TreeFacts TreeEditFacts VersionFacts LookFacts ReadFacts Spec_Content ContentFacts WriteFacts StoreFacts SaveFacts WriteBackFacts WriteAllFacts ReadBackFacts PurgeFacts EditFacts RealmFacts GraftFacts AddFacts ListFacts Spec_History.

Record keeps (O : store) (r : pystr) (s s' : pst) : Prop := {
  kp_calm : calm O r s s';
  kp_ok : heap_ok s -> heap_ok s';
  kp_some : forall a, is_Some (s_heap s !! a) -> is_Some (s_heap s' !! a);
  kp_apart : forall a b, is_Some (s_heap s !! a) -> is_Some (s_heap s !! b) -> apart (s_heap s) a b -> apart (s_heap s') a b;
}.
Lemma kp_refl O r s : keeps O r s s.
Proof. split; [apply ca_refl|done..]. Qed.
Lemma kp_trans O r a b c : keeps O r a b -> keeps O r b c -> keeps O r a c.
Proof. intros [A1 A2 A3 A4] [B1 B2 B3 B4]. split; [by eapply ca_trans|auto|auto|]. intros x y Hx Hy Ha. apply B4; auto. Qed.
Lemma kp_quiet O r s s' : quiet O r s s' -> keeps O r s s'.
Proof.
  intros HQ. split; [by apply calm_quiet| | |].
  - intros _. apply (gs_ok _ _ (qu_good _ _ _ _ HQ)).
  - intros a [o Ho]. destruct (lo_obj _ _ (gs_loads _ _ (qu_good _ _ _ _ HQ)) a o Ho) as (o' & Ho' & _). eauto.
  - apply (gs_apart _ _ (qu_good _ _ _ _ HQ)).
Qed.
Lemma kp_drops O r s h' : r <> [] -> drops (marked r) (s_heap s) h' -> keeps O r s (with_heap s h').
Proof.
  intros Hr Hd. split; [by apply calm_drops| | |].
  - intros Hok. by eapply dr_heap_ok.
  - intros a [o Ho]. destruct (dr_get _ _ _ _ _ Hd Ho) as (o' & Ho' & _). eauto.
  - intros a b _ _ Ha p q x Hp Hq. apply (Ha p q x); by eapply dr_reach.
Qed.

(** Objects that can be loaded and unloaded at any time. *)
Definition able (O : store) (r : pystr) (s : pst) (x : loc) : Prop := tidy O r s x /\ one_realm r (s_heap s) x.
Lemma able_reach O r s l p x : able O r s l -> reach (s_heap s) l p = Some x -> able O r s x.
Proof.
  intros [H1 H2] Hp. split; [by eapply tidy_reach|]. intros q y o Hq Hy. apply (H2 (p ++ q) y o); [|done]. by rewrite reach_app, Hp.
Qed.
Lemma able_kid O r s l o k x : able O r s l -> s_heap s !! l = Some o -> h_mapped (o_hdr o) = true -> dget (kids_of (o_body o)) k = Some x -> able O r s x.
Proof. intros Ha Ho Hm Hd. apply (able_reach O r s l [k]); [done|]. cbn [reach]. by rewrite Ho, Hm, Hd. Qed.
Lemma able_kid_in O r s l o k x : able O r s l -> s_heap s !! l = Some o -> h_mapped (o_hdr o) = true -> In (k, x) (kids_of (o_body o)) -> able O r s x.
Proof.
  intros Ha Ho Hm Hd. eapply able_kid; try done. apply TreeFacts.In_dget; [|done]. destruct Ha as [Ha _]. apply (td_heap _ _ _ _ Ha l o Ho).
Qed.
Lemma able_keeps O r s s' x : keeps O r s s' -> able O r s x -> able O r s' x.
Proof. intros HK [H1 H2]. destruct (ca_old _ _ _ _ (kp_calm _ _ _ _ HK) x H1 H2) as [E1 E2 _ _ _ _]. by split. Qed.
Lemma able_some O r s x : able O r s x -> is_Some (s_heap s !! x).
Proof. intros [H1 _]. destruct (tidy_root _ _ _ _ H1) as (o & Ho & _). eauto. Qed.

Section Use.
  Context `{Env}.
  Context (r : pystr) (g : gstate) (Hrem : is_remote r = false) (Hr : r <> []).
  Notation O := (objs_of g r).
  Notation keeps := (keeps O r).
  Notation able := (able O r).

  Definition soft {A} (m : M pst A) (s : pst) (Q : A -> pst -> Prop) : Prop :=
    exists a s', exec (m s) g = ((a, s'), g) /\ keeps s s' /\ forall v, a = Ok v -> Q v s'.
  Lemma soft_any {A} (m : M pst A) s Q : soft m s Q -> soft m s (fun _ _ => True).
  Proof. intros (a & s' & H1 & H2 & _). by exists a, s'. Qed.
  Lemma soft_ret {A} (v : A) s (Q : A -> pst -> Prop) : Q v s -> soft (mret v) s Q.
  Proof. intros Hq. exists (Ok v), s. rewrite x_ret. split_and!; [done|apply kp_refl|]. by intros v' [= <-]. Qed.
  Lemma soft_raise {A} e s (Q : A -> pst -> Prop) : soft (mraise e) s Q.
  Proof. exists (Err e), s. rewrite x_raise. split_and!; [done|apply kp_refl|done]. Qed.
  Lemma soft_bind {A B} (m : M pst A) (f : A -> M pst B) s Q Q' : soft m s Q -> (forall v s1, keeps s s1 -> Q v s1 -> soft (f v) s1 Q') -> soft (mbind m f) s Q'.
  Proof.
    intros (a & s1 & Hx & HK & Hq) Hf. unfold soft. rewrite x_bind, Hx. destruct a as [v|e].
    - destruct (Hf v s1 HK (Hq v eq_refl)) as (b & s2 & Hx2 & HK2 & Hq2). exists b, s2. split_and!; [done|by eapply kp_trans|done].
    - exists (Err e), s1. done.
  Qed.
  Lemma soft_get l s (Q : obj -> pst -> Prop) : (forall o, s_heap s !! l = Some o -> Q o s) -> soft (getobj l) s Q.
  Proof.
    intros Hq. unfold soft. rewrite x_getobj. destruct (s_heap s !! l) as [o|].
    - exists (Ok o), s. split_and!; [done|apply kp_refl|]. intros v [= <-]. auto.
    - exists (Err Unmodelled), s. split_and!; [done|apply kp_refl|done].
  Qed.
  Lemma soft_res {A} (a : res A) s (Q : A -> pst -> Prop) : (forall v, a = Ok v -> Q v s) -> soft (mres a) s Q.
  Proof. intros Hq. unfold soft. rewrite x_res. exists a, s. split_and!; [done|apply kp_refl|done]. Qed.
  Lemma soft_ensure fuel l s : able s l -> soft (ensure_mapped fuel l) s (fun _ s' => exists o, s_heap s' !! l = Some o /\ h_mapped (o_hdr o) = true).
  Proof using Hrem Hr.
    intros [HT _]. destruct (tidy_root _ _ _ _ HT) as (o & Ho & Hh & Hlk). destruct (ensure_quiet r g Hrem Hr fuel s l o (td_heap _ _ _ _ HT) Ho Hh Hlk) as (b & s' & o' & Hx & HQ & Ho' & Hm' & _).
    exists (Ok b), s'. split_and!; [done|by apply kp_quiet|]. intros _ _. eauto.
  Qed.
  Lemma soft_read fuel l s : able s l -> soft (read_in fuel l) s (fun _ _ => True).
  Proof using Hrem Hr.
    intros [HT _]. destruct (tidy_root _ _ _ _ HT) as (o & Ho & Hh & Hlk). destruct (read_in_quiet r g Hrem Hr fuel s l o (td_heap _ _ _ _ HT) Ho Hh Hlk) as (s' & Hx & HQ).
    exists (Ok tt), s'. split_and!; [done|by apply kp_quiet|done].
  Qed.
  Lemma soft_purge fuel l s : able s l -> soft (purge fuel l) s (fun _ _ => True).
  Proof using Hr.
    intros [HT Ho]. destruct (tidy_root _ _ _ _ HT) as (o & Hl & _).
    destruct (purge_run (marked r) (marked_dropped r) fuel l s g (td_heap _ _ _ _ HT) (ex_intro _ o Hl) (purgeable_tidy _ _ _ _ HT Ho)) as (res & s' & Hx & (h' & ->) & Hd & _).
    exists res, (with_heap s h'). split_and!; [done|by apply kp_drops|done].
  Qed.
  Lemma soft_mmap {A B} (f : A -> M pst B) (P : pst -> A -> Prop) xs : (forall s s' x, keeps s s' -> P s x -> P s' x) -> (forall s x, P s x -> soft (f x) s (fun _ _ => True)) ->
    forall s, Forall (P s) xs -> soft (mmap f xs) s (fun _ _ => True).
  Proof.
    intros HP Hf. induction xs as [|x xs IH]; intros s Hs; cbn [mmap]; [by apply soft_ret|]. apply List.Forall_cons_iff in Hs as [Hx Hs].
    eapply soft_bind; [by apply Hf|]. intros v s1 HK _. eapply soft_bind; [apply IH|]; [|intros; by apply soft_ret].
    eapply Forall_impl; [exact Hs|]. intros y. by apply HP.
  Qed.
  Lemma soft_children l s : able s l -> soft (children l) s (fun cd s' => s' = s /\ exists hx, s_heap s !! l = Some (Obj hx (BNode (fst cd) (snd cd)))).
  Proof.
    intros Ha. unfold children. eapply soft_bind; [by apply (soft_get l s (fun o s' => s' = s /\ s_heap s !! l = Some o))|]. intros [hx b] s1 _ [-> Ho]. cbn [o_body].
    destruct b; try apply soft_raise. apply soft_ret. split; [done|]. by exists hx.
  Qed.
  Lemma soft_child fuel l n s : able s l -> soft (get_child fuel l n) s (fun x s' => forall y, x = Some y -> able s' y).
  Proof using Hrem Hr.
    intros Ha. unfold get_child. eapply soft_bind; [by apply soft_ensure|]. intros _ s1 HK (o & Ho & Hm). pose proof (able_keeps _ _ _ _ _ HK Ha) as Ha1.
    eapply soft_bind; [by apply soft_children|]. intros [c d] s2 _ [-> [hx Hl]]. cbn [fst snd] in *. rewrite Hl in Ho. injection Ho as <-. apply soft_ret. cbn [o_hdr] in Hm.
    intros y Hy. apply (able_kid O r s1 l _ (KName n) y Ha1 Hl Hm). cbn [o_body]. by rewrite kids_names.
  Qed.
  Lemma soft_node l s : soft (is_mtreenode l) s (fun _ s' => s' = s).
  Proof. unfold is_mtreenode. eapply soft_bind; [by apply (soft_get l s (fun _ s' => s' = s))|]. intros o s1 _ ->. by apply soft_ret. Qed.
  Lemma soft_walk fuel parts : forall l s, able s l -> soft (walk fuel l parts) s (fun x s' => forall y, x = Some y -> able s' y).
  Proof using Hrem Hr.
    induction parts as [|e parts IH]; intros l s Ha; cbn [walk]; [apply soft_ret; by intros y [= <-]|].
    eapply soft_bind; [apply soft_node|]. intros [] s1 _ ->; [|by apply soft_ret]. eapply soft_bind; [by apply soft_child|]. intros [x|] s1 _ Hx; [|by apply soft_ret]. apply IH. by apply Hx.
  Qed.
  Lemma soft_with {A} fuel l (m : M pst A) s : able s l -> (forall s1 o, keeps s s1 -> s_heap s1 !! l = Some o -> h_mapped (o_hdr o) = true -> soft m s1 (fun _ _ => True)) -> soft (with_mapped fuel l m) s (fun _ _ => True).
  Proof using Hrem Hr.
    intros Ha Hm. unfold with_mapped. eapply soft_bind; [by apply soft_ensure|]. intros b s1 HK (o & Ho & Hmo). destruct (Hm s1 o HK Ho Hmo) as (a & s2 & Hx & HK2 & _).
    assert (Hp : soft (if b : bool then purge fuel l else mret tt) s2 (fun _ _ => True)).
    { destruct b; [|by apply soft_ret]. apply soft_purge. eapply able_keeps; [exact HK2|]. by eapply able_keeps. }
    destruct Hp as (u & s3 & Hx3 & HK3 & _). unfold soft. rewrite x_finally, Hx. destruct a as [a|e]; rewrite Hx3; destruct u as [u|e'].
    all: eexists _, s3; split_and!; [done|by eapply kp_trans|done].
  Qed.
  Lemma soft_paths b fuel : forall l s, able s l -> soft (get_paths_recursive fuel b l) s (fun _ _ => True).
  Proof using Hrem Hr.
    induction fuel as [|f IH]; intros l s Ha; cbn [get_paths_recursive]; [apply soft_raise|]. eapply soft_bind; [|intros; by apply soft_ret]. apply soft_with; [done|].
    intros s1 o HK Ho Hm. pose proof (able_keeps _ _ _ _ _ HK Ha) as Ha1. eapply soft_bind; [by apply soft_children|]. intros [c d] s2 _ [-> [hx Hl]]. cbn [fst snd] in *.
    rewrite Hl in Ho. injection Ho as <-. apply (soft_mmap _ (fun s nl => able s (snd nl))).
    - intros s2 s3 nl. apply able_keeps.
    - intros s2 nl Hn. eapply soft_bind; [apply soft_node|]. intros [] s3 _ ->; [|by apply soft_ret]. eapply soft_bind; [by apply IH|]. intros; by apply soft_ret.
    - apply List.Forall_forall. intros [n x] Hin. cbn [snd]. apply (able_kid_in O r s1 l _ (KName n) x Ha1 Hl Hm). cbn [o_body kids_of]. by apply (in_map (fun nl : pystr * loc => (KName (fst nl), snd nl)) d (n, x)).
  Qed.
  (** getters of parts *)
  Lemma soft_parts l s : soft (mrr_parts l) s (fun p s' => s' = s /\ exists hx, s_heap s !! l = Some (Obj hx (let '(i, v, m, t) := p in BMrr i v m t))).
  Proof.
    unfold mrr_parts. eapply soft_bind; [by apply (soft_get l s (fun o s' => s' = s /\ s_heap s !! l = Some o))|]. intros [hx b] s1 _ [-> Ho]. cbn [o_body].
    destruct b; try apply soft_raise. apply soft_ret. split; [done|]. by exists hx.
  Qed.
  Lemma soft_versions l s : soft (versions l) s (fun kv s' => s' = s /\ exists hx, s_heap s !! l = Some (Obj hx (BVlist (fst kv) (snd kv)))).
  Proof.
    unfold versions. eapply soft_bind; [by apply (soft_get l s (fun o s' => s' = s /\ s_heap s !! l = Some o))|]. intros [hx b] s1 _ [-> Ho]. cbn [o_body].
    destruct b; try apply soft_raise. apply soft_ret. split; [done|]. by exists hx.
  Qed.
  Lemma soft_entries l s : soft (uuid_entries l) s (fun us s' => s' = s /\ exists hx, s_heap s !! l = Some (Obj hx (BUset us))).
  Proof.
    unfold uuid_entries. eapply soft_bind; [by apply (soft_get l s (fun o s' => s' = s /\ s_heap s !! l = Some o))|]. intros [hx b] s1 _ [-> Ho]. cbn [o_body].
    destruct b; try apply soft_raise. apply soft_ret. split; [done|]. by exists hx.
  Qed.
  Lemma able_record s l hx k vs v d p rc : able s l -> s_heap s !! l = Some (Obj hx (BVlist k vs)) -> h_mapped hx = true -> dget vs v = Some d -> In (p, rc) d -> able s (elt_loc (vr_elt rc)).
  Proof.
    intros Ha Ho Hm Hv Hp. apply (able_kid_in O r s l _ (KVer v p) _ Ha Ho Hm). cbn [o_body kids_of]. apply in_concat. eexists. split; [apply in_map_iff; exists (v, d); split; [reflexivity|by apply dget_Some_In]|].
    cbn [fst snd]. apply in_map_iff. exists (p, rc). done.
  Qed.
  Lemma soft_record fuel l v p s : able s l -> soft (get_version_record fuel l v p) s (fun rc s' => able s' (elt_loc (vr_elt rc))).
  Proof using Hrem Hr.
    intros Ha. unfold get_version_record. eapply soft_bind; [by apply soft_ensure|]. intros _ s1 HK (o & Ho & Hm). pose proof (able_keeps _ _ _ _ _ HK Ha) as Ha1.
    eapply soft_bind; [apply soft_versions|]. intros [k vs] s2 _ [-> [hx Hl]]. cbn [fst snd] in *. rewrite Hl in Ho. injection Ho as <-.
    destruct (dget vs v) as [d|] eqn:Ed; [|apply soft_raise]. destruct (dget d p) as [rc|] eqn:Ep; [|apply soft_raise]. apply soft_ret. eapply able_record; try done. by apply dget_Some_In.
  Qed.
  Lemma use_soft fuel y A (m : M pst A) s : use_call fuel y A m -> able s y -> soft m s (fun _ _ => True).
  Proof using Hrem Hr.
    intros Hu Ha.
    assert (HE : forall {B} (f : bool -> M pst B), (forall b s1 o, keeps s s1 -> able s1 y -> s_heap s1 !! y = Some o -> h_mapped (o_hdr o) = true -> soft (f b) s1 (fun _ _ => True)) -> soft (mbind (ensure_mapped fuel y) f) s (fun _ _ => True)).
    { intros B f Hf. eapply soft_bind; [by apply soft_ensure|]. intros b s1 HK (o & Ho & Hm). eapply Hf; try done. by eapply able_keeps. }
    assert (HW : forall {B} path (f : option loc -> M pst B), (forall s1, soft (f None) s1 (fun _ _ => True)) -> (forall x s1, able s1 x -> soft (f (Some x)) s1 (fun _ _ => True)) -> soft (mbind (get_object_at_path fuel y path) f) s (fun _ _ => True)).
    { intros B path f H0 H1. eapply soft_bind; [by apply soft_walk|]. intros [x|] s1 _ Hx; [|apply H0]. apply H1. by apply Hx. }
    assert (HR : forall {B} x s1 (v : B), able s1 x -> soft (read_in fuel x ;;; mret v) s1 (fun _ _ => True)).
    { intros B x s1 v Hx. eapply soft_bind; [by apply soft_read|]. intros; by apply soft_ret. }
    destruct Hu.
    - by apply soft_read.
    - eapply soft_any. by apply soft_ensure.
    - by apply soft_purge.
    - eexists _, s. rewrite x_is_saved. split_and!; [done|apply kp_refl|done].
    - eapply soft_any. by apply soft_child.
    - eapply soft_any. by apply soft_walk.
    - by apply soft_paths.
    - unfold get_metadata. apply HW; [intros; by apply soft_ret|]. intros x s1 Hx. eapply soft_bind; [by apply (soft_get x s1 (fun _ s' => s' = s1))|]. intros o s2 _ ->.
      destruct (o_body o); try apply soft_raise. eapply soft_bind; [by apply soft_ensure|]. intros; by apply soft_ret.
    - unfold dataset_in. apply HW; intros; by apply soft_ret.
    - unfold get_metadata_root_record. apply HW; [intros; by apply soft_ret|]. intros x s1 Hx. eapply soft_bind; [by apply (soft_get x s1 (fun _ s' => s' = s1))|]. intros o s2 _ ->.
      destruct (o_body o); try apply soft_raise. eapply soft_bind; [by apply soft_ensure|]. intros; by apply soft_ret.
    - unfold dataset_paths. eapply soft_bind; [by apply soft_paths|]. intros. by apply soft_res.
    - unfold get_file_tree. apply HE. intros _ s1 o HK Ha1 Ho Hm. eapply soft_bind; [apply soft_parts|]. intros [[[i v] m] t] s2 _ [-> [hx Hl]]. rewrite Hl in Ho. injection Ho as <-.
      destruct t as [t|]; [|by apply soft_ret]. apply HR. apply (able_kid_in O r s1 y _ KTree t Ha1 Hl Hm). cbn [o_body kids_of]. apply in_app_iff. right. by left.
    - unfold get_dataset_level_metadata. apply HE. intros _ s1 o HK Ha1 Ho Hm. eapply soft_bind; [apply soft_parts|]. intros [[[i v] m] t] s2 _ [-> [hx Hl]]. rewrite Hl in Ho. injection Ho as <-.
      destruct m as [m|]; [|by apply soft_raise]. apply HR. apply (able_kid_in O r s1 y _ KMeta m Ha1 Hl Hm). cbn [o_body kids_of]. apply in_app_iff. left. by left.
    - unfold version_list_len. eapply soft_bind; [apply soft_versions|]. intros; by apply soft_ret.
    - unfold versions_and_prefix_paths. apply HE. intros _ s1 o HK Ha1 Ho Hm. eapply soft_bind; [apply soft_versions|]. intros; by apply soft_ret.
    - unfold get_versioned_element. apply HE. intros _ s1 o HK Ha1 Ho Hm. eapply soft_bind; [by apply soft_record|]. intros rc s2 _ Hrc. by apply HR.
    - unfold get_versioned_elements. apply HE. intros _ s1 o HK Ha1 Ho Hm. eapply soft_bind; [apply soft_versions|]. intros [k vs] s2 _ [-> [hx Hl]]. cbn [fst snd] in *. rewrite Hl in Ho. injection Ho as <-.
      destruct (dget vs v) as [d|] eqn:Ed; [|apply soft_raise]. apply (soft_mmap _ (fun s rc => able s (elt_loc (vr_elt rc)))).
      + intros s2 s3 rc. apply able_keeps.
      + intros s2 rc Hrc. by apply HR.
      + apply List.Forall_forall. intros rc Hin. unfold dvals in Hin. apply in_map_iff in Hin as ([p rc'] & <- & Hin). by eapply able_record.
    - unfold versioned_elements. apply HE. intros _ s1 o HK Ha1 Ho Hm. eapply soft_bind; [apply soft_versions|]. intros; by apply soft_ret.
    - unfold uuids. apply HE. intros _ s1 o HK Ha1 Ho Hm. eapply soft_bind; [apply soft_entries|]. intros; by apply soft_ret.
    - unfold get_version_list. apply HE. intros _ s1 o HK Ha1 Ho Hm. eapply soft_bind; [apply soft_entries|]. intros us s2 _ [-> [hx Hl]]. rewrite Hl in Ho. injection Ho as <-.
      destruct (dget us u) as [x|] eqn:Eu; [|apply soft_raise]. apply HR. apply (able_kid_in O r s1 y _ (KUuid u) x Ha1 Hl Hm). cbn [o_body kids_of]. apply (in_map (fun ul : uuid * loc => (KUuid (fst ul), snd ul)) us (u, x)). by apply dget_Some_In.
  Qed.
End Use.
