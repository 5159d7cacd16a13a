(** C22, C26, C29, C31: saved marks and the git commands of write_out. *)
From Verif Require Import Base BaseFacts Path Json Refs Meta GitText Git Spec_Store GitFacts State BlobCache ObjRef Objects Lock Spec_Lock ExecFacts BlockFacts Spec_Write.

Lemma heap_insert (h : heap) l o l' : (<[l := o]> h) !! l' = if decide (l = l') then Some o else h !! l'.
Proof.
  unfold heap in *. destruct (decide (l = l')) as [<-|Hne]; [apply (lookup_insert (M := gmap loc))|].
  by apply (lookup_insert_ne (M := gmap loc)).
Qed.

Ltac same := intros ? HH; exact HH.

(** ** All commands of a program, whatever the answers are *)
Fixpoint pall {A : Type} (P : cmd -> Prop) (Q : A -> Prop) (p : prog A) : Prop :=
  match p with
  | Ret a => Q a
  | Do c k => P c /\ forall x, pall P Q (k x)
  end.
Lemma pall_bind {A B : Type} (P : cmd -> Prop) (Q : B -> Prop) (p : prog A) (f : A -> prog B) :
  pall P (fun a => pall P Q (f a)) p -> pall P Q (pbind p f).
Proof. induction p as [a|c k IH]; cbn; [done|]. intros [H1 H2]. split; [done|]. intros x. apply IH, H2. Qed.
Lemma pall_mono {A : Type} (P P' : cmd -> Prop) (Q Q' : A -> Prop) (p : prog A) :
  (forall c, P c -> P' c) -> (forall a, Q a -> Q' a) -> pall P Q p -> pall P' Q' p.
Proof. intros HP HQ. induction p as [a|c k IH]; cbn; [apply HQ|]. intros [H1 H2]. split; [by apply HP|]. intros x. apply IH, H2. Qed.
Lemma pall_exec `{Env} {A : Type} (P : cmd -> Prop) (Q : A -> Prop) (p : prog A) g : pall P Q p -> Q (fst (exec p g)).
Proof.
  revert g. induction p as [a|c k IH]; intros g; cbn; [done|]. intros [H1 H2]. destruct (git c g) as [x g']. apply IH, H2.
Qed.
Lemma pall_trace `{Env} {A : Type} (P : cmd -> Prop) (Q : A -> Prop) (R : gstate -> gstate -> Prop) (p : prog A) g g' :
  (forall c g, P c -> R g (snd (git c g))) -> (forall g, R g g) -> (forall a b c, R a b -> R b c -> R a c) ->
  pall P Q p -> g' ∈ trace p g \/ g' = snd (exec p g) -> R g g'.
Proof.
  intros Hc Hr Ht. revert g. induction p as [a|c k IH]; intros g; cbn.
  - intros _ [[]%elem_of_nil| ->]. apply Hr.
  - intros [H1 H2]. specialize (Hc c g H1). destruct (git c g) as [x g1]. cbn in Hc.
    intros [[->|Hin]%elem_of_cons| ->]; [done| |]; (eapply Ht; [exact Hc|]); apply (IH x); auto.
Qed.

Definition mall {S A : Type} (P : cmd -> Prop) (I : S -> Prop) (m : M S A) : Prop :=
  forall s, I s -> pall P (fun rs => I (snd rs)) (m s).
Section Mall.
  Context {S : Type} (P : cmd -> Prop) (I : S -> Prop).
  Lemma mall_ret {A : Type} (a : A) : mall P I (mret a).
  Proof. intros s Hs. exact Hs. Qed.
  Lemma mall_raise {A : Type} e : mall P I (mraise (A := A) e).
  Proof. intros s Hs. exact Hs. Qed.
  Lemma mall_res {A : Type} (x : res A) : mall P I (mres x).
  Proof. destruct x; intros s Hs; exact Hs. Qed.
  Lemma mall_assert b : mall P I (massert b).
  Proof. destruct b; intros s Hs; exact Hs. Qed.
  Lemma mall_get {A : Type} (f : S -> A) : mall P I (mget f).
  Proof. intros s Hs. exact Hs. Qed.
  Lemma mall_mod (f : S -> S) : (forall s, I s -> I (f s)) -> mall P I (mmod f).
  Proof. intros Hf s Hs. by apply Hf. Qed.
  Lemma mall_bind {A B : Type} (m : M S A) (f : A -> M S B) : mall P I m -> (forall a, mall P I (f a)) -> mall P I (mbind m f).
  Proof.
    intros Hm Hf s Hs. unfold mbind. apply pall_bind. eapply pall_mono; [same| |exact (Hm s Hs)].
    intros [[a|e] s']; cbn; [apply Hf|done].
  Qed.
  Lemma mall_try {A : Type} (m : M S A) (f : exn -> M S A) : mall P I m -> (forall e, mall P I (f e)) -> mall P I (mtry m f).
  Proof.
    intros Hm Hf s Hs. unfold mtry. apply pall_bind. eapply pall_mono; [same| |exact (Hm s Hs)].
    intros [[a|e] s']; cbn; [done|apply Hf].
  Qed.
  Lemma mall_finally {A : Type} (m : M S A) (f : M S unit) : mall P I m -> mall P I f -> mall P I (mfinally m f).
  Proof.
    intros Hm Hf s Hs. unfold mfinally. apply pall_bind. eapply pall_mono; [same| |exact (Hm s Hs)].
    intros [r s'] Hs'. apply pall_bind. eapply pall_mono; [same| |exact (Hf s' Hs')].
    intros [[a|e] s'']; done.
  Qed.
  Lemma mall_execute c : P c -> mall P I (execute c).
  Proof. intros Hc s Hs. by split. Qed.
  Lemma mall_checked c : P c -> mall P I (checked_execute c).
  Proof. intros Hc. apply mall_bind; [by apply mall_execute|]. intros [x|]; [apply mall_res|apply mall_raise]. Qed.
  Lemma mall_map {A B : Type} (f : A -> M S B) (l : list A) : (forall x, In x l -> mall P I (f x)) -> mall P I (mmap f l).
  Proof.
    induction l as [|x l IH]; intros Hl; [apply mall_ret|]. cbn [mmap]. apply mall_bind; [apply Hl; by left|]. intros y.
    apply mall_bind; [apply IH; intros; apply Hl; by right|]. intros. apply mall_ret.
  Qed.
  Lemma mall_iter {A : Type} (f : A -> M S unit) (l : list A) : (forall x, In x l -> mall P I (f x)) -> mall P I (miter f l).
  Proof.
    induction l as [|x l IH]; intros Hl; [apply mall_ret|]. cbn [miter]. apply mall_bind; [apply Hl; by left|]. intros _.
    apply IH. intros. apply Hl. by right.
  Qed.
  (** use of the state before *)
  Lemma mall_bind_get {A B : Type} (f : S -> A) (k : A -> M S B) :
    (forall s, I s -> pall P (fun rs => I (snd rs)) (k (f s) s)) -> mall P I (mbind (mget f) k).
  Proof. intros Hk s Hs. cbn. by apply Hk. Qed.
End Mall.

(** ** Effects of commands *)
Section Effects.
  Context `{Env}.
  Lemma git_repos c g n : n <> cmd_repo c -> g_repos (snd (git c g)) !! n = g_repos g !! n.
  Proof.
    intros Hn. destruct c; cbn in *; repeat case_match; cbn; try done; by rewrite lookup_insert_ne by done.
  Qed.
End Effects.

Lemma dset_ok (cs : pydict pystr bcache) n c : caches_wf cs -> bc_realm c = n -> caches_wf (dset cs n c).
Proof.
  intros [Hnd Hc] Hn. split; [by apply dset_nodup|]. clear Hnd. induction cs as [|[k v] cs IH]; intros m c'; cbn [dset].
  - intros [[= <- <-]|[]]. done.
  - destruct (decide (k = n)) as [->|].
    + intros [[= <- <-]|Hin]; [done|]. apply Hc. by right.
    + intros [[= <- <-]|Hin]; [apply Hc; by left|]. revert Hin. apply IH. intros. apply Hc. by right.
Qed.
Lemma ddel_in {V : Type} (cs : pydict pystr V) n m c : In (m, c) (ddel cs n) -> In (m, c) cs.
Proof.
  induction cs as [|[k v] cs IH]; cbn [ddel]; [done|]. destruct (decide (k = n)); [by right|].
  intros [?|?]; [by left|right; by apply IH].
Qed.
Lemma ddel_ok (cs : pydict pystr bcache) n : caches_wf cs -> caches_wf (ddel cs n).
Proof. intros [Hnd Hc]. split; [by apply ddel_nodup|]. intros m c Hm. apply Hc. by eapply ddel_in. Qed.

(** Only realms and references change, and marks are added. *)
Definition marks_grow (h h' : heap) : Prop := forall l,
  match h !! l, h' !! l with
  | Some o, Some o' => o_body o' = o_body o /\ h_mapped (o_hdr o') = h_mapped (o_hdr o) /\ h_saved (o_hdr o) ⊆ h_saved (o_hdr o')
  | None, None => True
  | _, _ => False
  end.
Lemma mg_refl h : marks_grow h h.
Proof. intros l. by destruct (h !! l). Qed.
Lemma mg_trans h1 h2 h3 : marks_grow h1 h2 -> marks_grow h2 h3 -> marks_grow h1 h3.
Proof.
  intros H1 H2 l. specialize (H1 l). specialize (H2 l). destruct (h1 !! l), (h2 !! l), (h3 !! l); try done.
  destruct H1 as (? & ? & ?), H2 as (? & ? & ?). split_and!; [congruence|congruence|set_solver].
Qed.
Lemma mg_get h h' l o : marks_grow h h' -> h !! l = Some o ->
  exists o', h' !! l = Some o' /\ o_body o' = o_body o /\ h_mapped (o_hdr o') = h_mapped (o_hdr o) /\ h_saved (o_hdr o) ⊆ h_saved (o_hdr o').
Proof. intros Hm Hl. specialize (Hm l). rewrite Hl in Hm. destruct (h' !! l) as [o'|]; [|done]. by exists o'. Qed.

Section Write.
  Context `{Env}.
  Context (h0 : heap) (d : pystr) (Hd : d <> []).
  (** what writing keeps *)
  Definition keeps_bodies (s : pst) : Prop :=
    caches_ok s /\ marks_grow h0 (s_heap s).
  Definition store_cmd (c : cmd) : Prop :=
    (exists b, c = HashObject d b) \/ (exists bs, c = HashFiles d bs) \/ (exists b, c = MkTree d b).
  Definition write_cmd (l : loc) (c : cmd) : Prop :=
    store_cmd c \/ (is_tree_version_list h0 l /\ exists x, c = UpdateRef d TREE_VERSION_LIST x)
    \/ (is_uuid_set h0 l /\ exists x, c = UpdateRef d UUID_SET x).
  Context (Htop : top_level_only h0).

  Lemma kb_body s l o : keeps_bodies s -> s_heap s !! l = Some o -> exists x, h0 !! l = Some (Obj x (o_body o)).
  Proof.
    intros [_ Hb] Hl. specialize (Hb l). rewrite Hl in Hb. destruct (h0 !! l) as [[x b]|]; [|done].
    cbn in Hb. destruct Hb as (-> & _). by exists x.
  Qed.
  Lemma write_cmd_sub s l o l' c : keeps_bodies s -> s_heap s !! l = Some o -> In l' (sub_objects (o_body o)) ->
    write_cmd l' c -> store_cmd c.
  Proof.
    intros Hs Hl Hin [?|[[? _]|[? _]]]; [done| |]; destruct (kb_body _ _ _ Hs Hl) as [x Hx];
      destruct (Htop l (Obj x (o_body o)) l' Hx) as [H1 H2]; done.
  Qed.
  Lemma kb_set_hdr l f : (forall x, h_mapped (f x) = h_mapped x /\ h_saved x ⊆ h_saved (f x)) ->
    mall (fun _ => False) keeps_bodies (set_hdr l f).
  Proof.
    intros Hf s [Hc Hb]. unfold set_hdr, getobj, mbind. cbn. destruct (s_heap s !! l) as [o|] eqn:E; cbn; [|by split].
    split; [done|]. intros l'. specialize (Hb l').
    change (match h0 !! l', <[l:=Obj (f (o_hdr o)) (o_body o)]> (s_heap s) !! l' with
    | Some o, Some o' => o_body o' = o_body o /\ h_mapped (o_hdr o') = h_mapped (o_hdr o) /\ h_saved (o_hdr o) ⊆ h_saved (o_hdr o')
    | None, None => True
    | _, _ => False
    end).
    rewrite heap_insert. destruct (decide (l = l')) as [<-|Hne]; [|done].
    rewrite E in Hb. destruct (h0 !! l); [|done]. cbn. destruct (Hf (o_hdr o)) as [H1 H2], Hb as (? & ? & ?).
    split_and!; [done|congruence|set_solver].
  Qed.
  Lemma kb_getobj (P : cmd -> Prop) l : mall P keeps_bodies (getobj l).
  Proof. intros s Hs. unfold getobj. by destruct (s_heap s !! l). Qed.
  Lemma kb_is_saved (P : cmd -> Prop) fuel l x : mall P keeps_bodies (is_saved_on fuel l x).
  Proof. apply mall_bind; [apply mall_get|]. intros. apply mall_res. Qed.
  Lemma kb_own (P : cmd -> Prop) l : mall P keeps_bodies (own_reference l).
  Proof. apply mall_bind; [apply kb_getobj|]. intros o. destruct (h_ref (o_hdr o)); [apply mall_ret|apply mall_raise]. Qed.
  Lemma kb_loc_of (P : cmd -> Prop) r : mall P keeps_bodies (loc_of r).
  Proof. unfold loc_of. destruct (r_loc r); [apply mall_ret|apply mall_raise]. Qed.
  Lemma kb_orefs (P : cmd -> Prop) t h : mall P keeps_bodies (add_object_reference t h).
  Proof. unfold add_object_reference. destruct (decide _); [apply mall_ret|]. apply mall_mod. intros s [H1 H2]. by split. Qed.
  Lemma kb_save_str b : mall store_cmd keeps_bodies (git_save_str d b).
  Proof.
    apply mall_bind; [apply mall_res|]. intros x. apply mall_bind; [apply mall_checked; left; eauto|].
    intros [|y ys]; [apply mall_raise|apply mall_ret].
  Qed.
  Lemma kb_save_tree es : mall store_cmd keeps_bodies (git_save_tree_node d es).
  Proof.
    apply mall_bind; [apply mall_res|]. intros x. apply mall_bind; [apply mall_checked; right; right; eauto|].
    intros [|y ys]; [apply mall_raise|apply mall_ret].
  Qed.
  Definition of_realm (c : bcache) : Prop := bc_realm c = d.
  Lemma kb_flush : mall store_cmd of_realm cache_flush.
  Proof.
    intros c Hc. unfold cache_flush, mbind. cbn. unfold of_realm in Hc. rewrite Hc.
    destruct (rmap _ _) as [files|e]; cbn; [|done]. split; [right; left; by eexists|].
    intros [out|]; cbn; [|done]. destruct (stdout_lines out) as [hs|e]; cbn; [|done].
    destruct (length hs =? length files)%nat; cbn; [|done]. by destruct (forallb _ _).
  Qed.
  Lemma kb_cache_blob b : mall store_cmd of_realm (cache_blob d b).
  Proof.
    unfold cache_blob. apply mall_bind; [apply mall_get|]. intros c. apply mall_bind; [apply mall_assert|]. intros _.
    apply mall_bind; [destruct (_ =? _)%N; [apply kb_flush|apply mall_ret]|]. intros _.
    apply mall_bind; [apply mall_res|]. intros h. apply mall_bind; [|intros; apply mall_ret]. by apply mall_mod.
  Qed.
  Lemma kb_with_cache {A : Type} (m : M bcache A) none : mall store_cmd of_realm m -> mall store_cmd keeps_bodies none ->
    mall store_cmd keeps_bodies (with_cache d m none).
  Proof.
    intros Hm Hn s Hs. unfold with_cache. destruct (dget (s_caches s) d) as [c|] eqn:E; [|by apply Hn].
    apply pall_bind. eapply pall_mono; [same| |apply (Hm c)]; [|destruct Hs as [Hc _]; apply Hc; by apply dget_Some_In].
    intros [r c'] Hc'. cbn in *. destruct Hs as [Hc Hb]. split; [|done]. unfold caches_ok. cbn.
    by apply dset_ok.
  Qed.
  Lemma kb_flush_realm : mall store_cmd keeps_bodies (flush_realm d).
  Proof.
    apply mall_bind; [apply kb_with_cache; [apply kb_flush|apply mall_raise]|]. intros _. apply mall_mod. intros s [H1 H2].
    split; [|done]. by apply ddel_ok.
  Qed.
  Lemma kb_cache_realm (P : cmd -> Prop) r : mall P keeps_bodies (cache_realm r).
  Proof.
    destruct r as [r|]; [|apply mall_raise]. apply mall_bind; [apply mall_get|]. intros cs.
    destruct (dmem cs r); [apply mall_raise|]. apply mall_mod. intros s [H1 H2]. split; [|done]. unfold caches_ok. cbn.
    by apply dset_ok.
  Qed.
  Lemma kb_map_out_meta m : mall store_cmd keeps_bodies (map_out_meta m d).
  Proof.
    unfold map_out_meta. apply mall_bind; [apply mall_get|]. intros cs. destruct (dmem cs d).
    - apply mall_bind; [apply kb_with_cache; [apply kb_cache_blob|apply mall_raise]|]. intros x.
      apply mall_bind; [apply kb_orefs|]. intros _.
      apply mall_bind; [apply kb_with_cache; [apply kb_cache_blob|apply mall_raise]|]. intros y. apply mall_ret.
    - apply mall_bind; [apply kb_save_str|]. intros x. apply mall_bind; [apply kb_orefs|]. intros _.
      apply mall_bind; [apply kb_save_str|]. intros y. apply mall_ret.
  Qed.
  Lemma kb_proxy rec ft l destination force s (P : cmd -> Prop) :
    (forall c, store_cmd c -> P c) ->
    keeps_bodies s -> (forall o, s_heap s !! l = Some o -> destination_of o destination = Some d) ->
    (forall s', keeps_bodies s' -> (forall o, s_heap s' !! l = Some o -> destination_of o destination = Some d) ->
       pall P (fun rs => keeps_bodies (snd rs)) (rec l destination force s')) ->
    pall P (fun rs => keeps_bodies (snd rs)) (proxy_write_out rec ft l destination force s).
  Proof.
    intros HP Hs Hdest Hrec. unfold proxy_write_out, mbind at 1. apply pall_bind. unfold getobj.
    destruct (s_heap s !! l) as [o|] eqn:E; [|done]. cbn [pall fst snd]. change (or_else destination (h_realm (o_hdr o))) with (destination_of o destination).
    rewrite (Hdest o) by done. cbv zeta.
    destruct ft.
    - unfold mbind at 1. apply pall_bind. eapply pall_mono; [exact HP| |].
      2:{ instantiate (1 := fun rs => keeps_bodies (snd rs) /\ s_heap (snd rs) = s_heap s). unfold cache_realm, mbind. cbn.
          destruct (dmem (s_caches s) d); cbn; [done|]. split; [|done]. destruct Hs as [H1 H2]. split; [|done]. unfold caches_ok. cbn.
          by apply dset_ok. }
      intros [[[]|e] s1] [Hs1 Hh]; cbn in *; [|done].
      unfold mbind at 1. apply pall_bind. eapply pall_mono; [same| |apply Hrec; [done|intros o'; rewrite Hh, E; apply Hdest]].
      intros [[r|e] s2] Hs2; cbn in *; [|done].
      revert s2 Hs2. change (mall P keeps_bodies (flush_realm d ;;; (if is_none_reference r then mret tt else mlet x <- loc_of r; add_tree_reference x) ;;; mret r)).
      apply mall_bind; [intros s2 Hs2; eapply pall_mono; [exact HP|same|by apply kb_flush_realm]|]. intros _.
      apply mall_bind; [|intros; apply mall_ret]. destruct (is_none_reference r); [apply mall_ret|].
      apply mall_bind; [apply kb_loc_of|]. intros. apply kb_orefs.
    - unfold mbind at 1. apply pall_bind. cbn. unfold mbind at 1. apply pall_bind. eapply pall_mono; [same| |apply Hrec; [done|intros o'; rewrite E; apply Hdest]].
      intros [[r|e] s2] Hs2; cbn in *; [|done].
      revert s2 Hs2. change (mall P keeps_bodies ((if is_none_reference r then mret tt else mlet x <- loc_of r; add_tree_reference x) ;;; mret r)).
      apply mall_bind; [|intros; apply mall_ret]. destruct (is_none_reference r); [apply mall_ret|].
      apply mall_bind; [apply kb_loc_of|]. intros. apply kb_orefs.
  Qed.
  Lemma dest_some o : destination_of o (Some d) = Some d.
  Proof using Hd. unfold destination_of, or_else, truthy. by destruct d. Qed.
  Lemma mall_weak {A : Type} (P P' : cmd -> Prop) (m : M pst A) : (forall c, P c -> P' c) -> mall P keeps_bodies m -> mall P' keeps_bodies m.
  Proof. intros HP Hm s Hs. eapply pall_mono; [exact HP|same|by apply Hm]. Qed.

  Lemma kb_map_out rec l force s :
    (forall x f, In x (match s_heap s !! l with Some o => sub_objects (o_body o) | None => [] end) ->
       mall store_cmd keeps_bodies (rec x (Some d) f)) ->
    keeps_bodies s -> pall (write_cmd l) (fun rs => keeps_bodies (snd rs)) (map_out rec l d force s).
  Proof using Hd.
    intros Hrec Hs. unfold map_out, mbind at 1. apply pall_bind. unfold getobj. destruct (s_heap s !! l) as [o|] eqn:E; [|done]. cbn [pall fst snd].
    assert (HS : forall c, store_cmd c -> write_cmd l c) by by left.
    assert (Hp : forall ft x f, In x (sub_objects (o_body o)) -> mall store_cmd keeps_bodies (proxy_write_out rec ft x (Some d) f)).
    { intros ft x f Hin s1 Hs1. apply kb_proxy; [done|done|intros; apply dest_some|]. intros s2 Hs2 _. by apply Hrec. }
    destruct (kb_body _ _ _ Hs E) as [hx Hx].
    destruct (o_body o) as [m|t|c dd|i v m t|k vs|us] eqn:Eb; revert s Hs E Hrec; intros s Hs E Hrec;
      (eapply pall_mono; [ |same| match goal with |- pall _ _ (?m s) => refine ((_ : mall _ keeps_bodies m) s Hs) end]).
    1,3,5,7: exact HS. 5,7: same.
    - apply kb_map_out_meta.
    - destruct t; [|apply mall_raise]. apply mall_bind; [apply kb_save_str|]. intros. apply mall_ret.
    - destruct dd as [|x dd]; [apply mall_ret|]. apply mall_bind.
      { apply mall_iter. intros y Hy. apply mall_bind; [by apply Hrec|]. intros. apply mall_ret. }
      intros _. apply mall_bind.
      { apply mall_map. intros y _. apply mall_bind; [apply kb_getobj|]. intros oy. destruct (h_ref _); [apply mall_ret|apply mall_raise]. }
      intros es. apply mall_bind; [apply kb_save_tree|]. intros. apply mall_ret.
    - apply mall_bind.
      { destruct t as [y|]; [|apply mall_ret]. apply mall_bind; [apply Hp; cbn; apply in_or_app; right; by left|]. intros r.
        apply mall_bind; [|intros; apply mall_ret]. destruct (is_none_reference r); [apply mall_ret|].
        apply mall_bind; [apply kb_loc_of|]. intros. apply kb_orefs. }
      intros fref. apply mall_bind.
      { destruct m as [y|]; [|apply mall_ret]. apply mall_bind; [apply Hrec; cbn; by left|]. intros r.
        apply mall_bind; [apply kb_loc_of|]. intros. apply mall_bind; [apply kb_orefs|intros; apply mall_ret]. }
      intros mref. apply mall_bind; [apply kb_save_str|]. intros. apply mall_ret.
    - apply mall_bind.
      { apply mall_map. intros [v0 r] Hin. assert (Hin' : In (elt_loc (vr_elt r)) (sub_objects (BVlist k vs))).
        { cbn. apply in_map_iff. by exists (v0, r). }
        apply mall_bind; [|intros; apply mall_ret]. cbn [fst snd]. eapply mall_weak; [exact HS|].
        destruct (vr_elt r); [by apply Hp|by apply Hrec]. }
      intros js. apply mall_bind; [eapply mall_weak; [exact HS|apply kb_save_str]|]. intros x.
      apply mall_bind; [|intros; apply mall_ret]. destruct k; [|apply mall_ret].
      apply mall_bind; [apply mall_checked|intros; apply mall_ret]. right; left. split; [|by eexists]. red. eauto.
    - apply mall_bind.
      { apply mall_map. intros [u y] Hin. apply mall_bind; [eapply mall_weak; [exact HS|apply Hrec]|].
        - cbn. apply in_map_iff. by exists (u, y).
        - intros r. apply mall_bind; [apply kb_loc_of|]. intros. apply mall_ret. }
      intros es. apply mall_bind; [eapply mall_weak; [exact HS|apply kb_save_tree]|]. intros x.
      apply mall_bind; [|intros; apply mall_ret].
      apply mall_bind; [apply mall_checked|intros; apply mall_ret]. right; right. split; [|by eexists]. red. eauto.
  Qed.

  Lemma kb_write_out fuel : forall l destination force s, keeps_bodies s ->
    (forall o, s_heap s !! l = Some o -> destination_of o destination = Some d) ->
    pall (write_cmd l) (fun rs => keeps_bodies (snd rs)) (write_out fuel l destination force s).
  Proof using Hd Htop.
    induction fuel as [|f IH]; intros l destination force s Hs Hdest; [done|]. cbn [write_out].
    unfold mbind at 1. apply pall_bind. unfold getobj at 1. destruct (s_heap s !! l) as [o|] eqn:E; [|done]. cbn [pall fst snd].
    destruct (h_mapped (o_hdr o)); cbn [negb].
    2:{ match goal with |- pall _ _ (?m s) => refine ((_ : mall _ keeps_bodies m) s Hs) end.
        apply mall_bind; [apply mall_assert|]. intros _. apply mall_bind; [apply mall_assert|]. intros _.
        apply mall_bind; [apply kb_is_saved|]. intros []; [apply kb_own|apply mall_raise]. }
    specialize (Hdest o eq_refl). unfold destination_of, or_else in Hdest.
    assert ((if truthy (h_realm (o_hdr o)) then or_else destination (h_realm (o_hdr o)) else destination) = Some d) as ->.
    { unfold or_else. destruct (truthy (h_realm (o_hdr o))) eqn:E1; [done|]. destruct (truthy destination); [done|].
      rewrite Hdest in E1. cbn in E1. by destruct d. }
    destruct (is_remote d); [done|].
    unfold mbind at 1. apply pall_bind.
    eapply (pall_mono (fun _ => False)); [by intros ? []| |apply (kb_set_hdr l (hd_realm (Some d)) ltac:(done) s Hs)]. intros [[[]|e] s1] Hs1; cbn in Hs1; [|done]. cbn [fst snd].
    unfold mbind at 1. apply pall_bind. eapply (pall_mono (fun _ => False)); [by intros ? []| |apply (kb_is_saved (fun _ => False) _ _ _ s1 Hs1)].
    intros [[b|e] s2] Hs2; cbn in Hs2; [|done]. cbn [fst snd].
    destruct (b && negb force); [by apply kb_own|].
    unfold mbind at 1. apply pall_bind. eapply pall_mono; [same| |apply kb_map_out; [|done]].
    - intros [[r|e] s3] Hs3; cbn in Hs3; [|done]. cbn [fst snd].
      match goal with |- pall _ _ (?m s3) => refine ((_ : mall _ keeps_bodies m) s3 Hs3) end.
      apply mall_bind; [eapply (mall_weak (fun _ => False)); [by intros ? []|by apply kb_set_hdr]|]. intros _.
      apply mall_bind; [eapply (mall_weak (fun _ => False)); [by intros ? []|apply kb_set_hdr]|].
      { intros x. cbn. split; [done|]. set_solver. }
      intros _. apply mall_ret.
    - intros x f' Hx s3 Hs3. destruct (s_heap s2 !! l) as [o2|] eqn:E2; [|done].
      eapply pall_mono; [|same|apply IH; [done|intros; apply dest_some]]. intros c Hc. exact (write_cmd_sub s2 l o2 x c Hs2 E2 Hx Hc).
  Qed.
End Write.

(** ** C29 *)
Section C29.
  Context `{Env}.
  Lemma write_cmd_adds h d l c g : write_cmd h d l c -> adds_to h d l g (snd (git c g)).
  Proof.
    intros Hc. split_and!.
    - intros n Hn. apply git_repos. intros ->. apply Hn.
      destruct Hc as [[[b ->]|[[bs ->]|[b ->]]]|[[_ [x ->]]|[_ [x ->]]]]; done.
    - apply (git_grow c g).
    - intros x Hx. destruct Hc as [Hc|Hc].
      + destruct Hx. apply git_refs. destruct Hc as [[b ->]|[[bs ->]|[b ->]]]; done.
      + destruct Hc as [[Hl [y ->]]|[Hl [y ->]]]; [left|right]; split; try done; apply dec_stable; intros Hne; apply Hx;
          apply git_refs; cbn; congruence.
  Qed.
  Lemma adds_refl h d l g : adds_to h d l g g.
  Proof. split_and!; done. Qed.
  Lemma adds_trans h d l g1 g2 g3 : adds_to h d l g1 g2 -> adds_to h d l g2 g3 -> adds_to h d l g1 g3.
  Proof.
    intros (H1 & H2 & H3) (H4 & H5 & H6). split_and!.
    - intros n Hn. rewrite H4, H1; done.
    - by etrans.
    - intros x Hx. destruct (decide (refs_of g2 d !! x = refs_of g1 d !! x)) as [E|E]; [|by apply H3].
      apply H6. congruence.
  Qed.
  Lemma C29_lemma {A : Type} (m : M pst A) h d l s g g' :
    pall (write_cmd h d l) (fun _ => True) (m s) -> g' ∈ trace (m s) g \/ g' = snd (exec (m s) g) ->
    adds_to h d l g g'.
  Proof.
    intros Hp. apply (pall_trace _ _ (adds_to h d l) _ _ _ (write_cmd_adds h d l) (adds_refl h d l) (adds_trans h d l) Hp).
  Qed.
  Lemma kb_init s : caches_ok s -> keeps_bodies (s_heap s) s.
  Proof. intros Hc. split; [done|apply mg_refl]. Qed.
  Lemma write_out_cmds fuel l o destination force s (d : pystr) : caches_ok s -> top_level_only (s_heap s) ->
    s_heap s !! l = Some o -> destination_of o destination = Some d -> d <> [] ->
    pall (write_cmd (s_heap s) d l) (fun rs => keeps_bodies (s_heap s) (snd rs)) (write_out fuel l destination force s).
  Proof. intros Hc Ht Hl Ho Hd. apply kb_write_out; [done|done|by apply kb_init|]. intros o' Ho'. by simplify_eq. Qed.
  Lemma proxy_cmds fuel ft l o destination force s (d : pystr) : caches_ok s -> top_level_only (s_heap s) ->
    s_heap s !! l = Some o -> destination_of o destination = Some d -> d <> [] ->
    pall (write_cmd (s_heap s) d l) (fun rs => keeps_bodies (s_heap s) (snd rs))
      (proxy_write_out (write_out fuel) ft l destination force s).
  Proof.
    intros Hc Ht Hl Ho Hd. apply (kb_proxy (s_heap s) d); [by left|by apply kb_init|intros o' Ho'; by simplify_eq|].
    intros s' Hs' Hd'. by apply kb_write_out.
  Qed.
  Lemma pall_weak {A : Type} (P : cmd -> Prop) (Q : A -> Prop) p : pall P Q p -> pall P (fun _ => True) p.
  Proof. apply pall_mono; done. Qed.

  (** ** C31 *)
  Lemma C31_write_lemma f l o destination force s (d : pystr) : s_heap s !! l = Some o -> h_mapped (o_hdr o) = true ->
    destination_of o destination = Some d -> d <> [] -> is_remote d = true ->
    write_out (S f) l destination force s = Ret (Err RuntimeError, s).
  Proof.
    intros Hl Hm Hdest Hd Hr. cbn [write_out]. unfold mbind at 1, getobj at 1. rewrite Hl. cbn [pbind fst snd]. rewrite Hm. cbn [negb].
    assert ((if truthy (h_realm (o_hdr o)) then or_else destination (h_realm (o_hdr o)) else destination) = Some d) as ->.
    { unfold destination_of, or_else in *. destruct (truthy (h_realm (o_hdr o))) eqn:E1; [done|].
      destruct (truthy destination); [done|]. rewrite Hdest in E1. cbn in E1. by destruct d. }
    by rewrite Hr.
  Qed.
  Lemma C31_proxy_lemma f ft l o destination force s (d : pystr) : s_heap s !! l = Some o -> h_mapped (o_hdr o) = true ->
    destination_of o destination = Some d -> d <> [] -> is_remote d = true ->
    exists s', proxy_write_out (write_out (S f)) ft l destination force s = Ret (Err RuntimeError, s').
  Proof.
    intros Hl Hm Hdest Hd Hr. unfold proxy_write_out. unfold mbind at 1, getobj at 1. rewrite Hl. cbn [pbind fst snd].
    unfold mbind at 1. cbv zeta. fold (destination_of o destination). rewrite Hdest. destruct ft.
    - unfold cache_realm, mbind at 1, mget at 1. cbn [pbind fst snd]. destruct (dmem (s_caches s) d); [by eexists|].
      unfold mmod at 1. cbn [pbind fst snd]. unfold mbind at 1. erewrite C31_write_lemma; [by eexists|exact Hl|done|exact Hdest|done|done].
    - cbn [pbind fst snd mret]. unfold mret at 1. cbn [pbind fst snd]. unfold mbind at 1. erewrite C31_write_lemma; [by eexists|exact Hl|done|exact Hdest|done|done].
  Qed.
End C29.

Section C31.
  Context `{Env}.
  Definition any (s : pst) : Prop := True.
  Context (r cp : pystr) (Hr : is_remote r = true) (Hcp : get_repo_cache_path r = Ok cp).
  Definition on_cache (c : cmd) : Prop := cmd_repo c = cp.
  Lemma cp_local : is_remote cp = false.
  Proof using Hcp.
    unfold get_repo_cache_path in Hcp. destruct (encode r) as [b|]; cbn [rbind] in Hcp; [|done].
    injection Hcp as <-. unfold is_remote. cbn -[N.eqb]. done.
  Qed.
  Definition returns {A : Type} (V : A -> Prop) (m : M pst A) : Prop :=
    forall s, pall on_cache (fun rs => forall a, fst rs = Ok a -> V a) (m s).
  Lemma oc_bind {A B : Type} (V : A -> Prop) (m : M pst A) (f : A -> M pst B) : returns V m -> (forall a, V a -> mall on_cache any (f a)) ->
    mall on_cache any (mbind m f).
  Proof.
    intros Hm Hf s _. unfold mbind. apply pall_bind. eapply pall_mono; [same| |apply Hm].
    intros [[a|e] s'] Ha; cbn; [|done]. apply Hf; [by apply Ha|done].
  Qed.
  Lemma oc_res {A B : Type} (x : A) (f : A -> M pst B) : mall on_cache any (f x) -> mall on_cache any (mbind (mres (Ok x)) f).
  Proof. intros Hf s Hs. cbn. by apply Hf. Qed.
  Lemma oc_fetch x o : mall on_cache any (git_fetch_reference (S := pst) cp r x o).
  Proof. apply mall_bind; [by apply mall_checked|]. intros. apply mall_ret. Qed.
  Lemma oc_adapt x : returns (fun d => d = cp) (adapt_for_remote (S := pst) r x).
  Proof using Hr Hcp.
    intros s. unfold adapt_for_remote. rewrite Hr. rewrite Hcp. unfold mbind. apply pall_bind.
    eapply (pall_mono on_cache on_cache (fun _ : res unit * pst => True)); [same| |].
    - intros [[a|e] s'] _; [|done]. cbn. by intros a' [= <-].
    - eapply (pall_mono on_cache _ (fun rs : res unit * pst => any (snd rs))); [same|done|].
      assert (mall on_cache any (cache_object (S := pst) r x)) as Hm; [|by apply Hm].
      unfold cache_object, ensure_cache_exists. rewrite Hcp. apply mall_bind.
      + apply oc_res. apply mall_bind; [by apply mall_execute|]. intros [b|]; [apply mall_ret|].
        apply mall_bind; [by apply mall_checked|]. intros. apply mall_ret.
      + intros _. apply oc_res. destruct (startswith _ _); [apply oc_fetch|].
        apply mall_bind; [apply mall_bind; [by apply mall_execute|intros; apply mall_ret]|].
        intros []; [apply mall_ret|apply oc_fetch].
  Qed.
  Lemma oc_load_str x : mall on_cache any (git_load_str (S := pst) r x).
  Proof using Hr Hcp.
    eapply oc_bind; [apply oc_adapt|]. intros d ->. apply mall_bind; [by apply mall_checked|]. intros. apply mall_ret.
  Qed.
  Lemma oc_load_json x : mall on_cache any (git_load_json (S := pst) r x).
  Proof using Hr Hcp.
    eapply oc_bind; [apply oc_adapt|]. intros d ->. apply mall_bind; [|intros; apply mall_res].
    unfold git_load_str, adapt_for_remote. rewrite cp_local. apply (oc_res cp).
    apply mall_bind; [by apply mall_checked|]. intros. apply mall_ret.
  Qed.
  Lemma any_getobj l : mall on_cache any (getobj l).
  Proof. intros s Hs. unfold getobj. by destruct (s_heap s !! l). Qed.
  Lemma any_setobj l o : mall on_cache any (setobj l o).
  Proof. done. Qed.
  Lemma any_set_hdr l f : mall on_cache any (set_hdr l f).
  Proof. apply mall_bind; [apply any_getobj|]. intros. apply any_setobj. Qed.
  Lemma any_set_body l b : mall on_cache any (set_body l b).
  Proof. apply mall_bind; [apply any_getobj|]. intros. apply any_setobj. Qed.
  Lemma any_new b x y : mall on_cache any (new_obj b x y).
  Proof. apply mall_bind; [apply mall_res|]. by intros. Qed.
  Lemma any_loc_of x : mall on_cache any (loc_of x).
  Proof. unfold loc_of. destruct (r_loc x); [apply mall_ret|apply mall_raise]. Qed.
  Lemma any_purge_impl rec l : (forall x, mall on_cache any (rec x)) -> mall on_cache any (purge_impl rec l).
  Proof.
    intros Hrec. apply mall_bind; [apply any_getobj|]. intros o.
    destruct (o_body o) as [m|t|c d|i v m t|k vs|us]; try apply any_set_body;
      try (apply mall_bind; [apply mall_iter; intros; apply Hrec|intros; apply any_set_body]).
    destruct m; [|apply mall_raise]. apply mall_bind; [apply Hrec|]. intros _.
    apply mall_bind; [destruct t; [apply Hrec|apply mall_ret]|]. intros. apply any_set_body.
  Qed.
  Lemma any_purge fuel : forall l, mall on_cache any (purge fuel l).
  Proof.
    induction fuel as [|f IH]; intros l; [apply mall_raise|]. cbn [purge]. apply mall_bind; [apply any_getobj|]. intros o.
    destruct (h_mapped (o_hdr o)); [|apply mall_ret]. destruct (decide _); [apply mall_raise|].
    apply mall_bind; [by apply any_purge_impl|]. intros. apply any_set_hdr.
  Qed.
  Lemma oc_map_in l ref : mall on_cache any (map_in l r ref).
  Proof using Hr Hcp.
    unfold map_in. apply mall_bind; [apply any_getobj|]. intros o0. apply mall_bind; [apply any_set_hdr|]. intros _.
    apply mall_bind; [apply mall_assert|]. intros _. match goal with |- mall _ _ (map_in_impl l r ?x) => generalize x end. intros ref'.
    unfold map_in_impl. apply mall_bind; [apply any_getobj|]. intros o.
    destruct (o_body o) as [m|t|c d|i v m t|k vs|us].
    - apply mall_bind; [apply any_loc_of|]. intros x. apply mall_bind; [apply oc_load_str|]. intros t.
      apply mall_bind; [apply mall_res|]. intros ref2. apply mall_bind; [apply any_loc_of|]. intros y.
      apply mall_bind; [apply oc_load_str|]. intros t2. apply mall_bind; [apply mall_res|]. intros. apply any_set_body.
    - apply mall_bind; [apply any_loc_of|]. intros x. apply mall_bind; [apply oc_load_str|]. intros. apply any_set_body.
    - destruct (is_none_reference ref'); [apply any_set_body|]. apply mall_bind; [apply any_loc_of|]. intros x.
      apply mall_bind.
      { eapply oc_bind; [apply oc_adapt|]. intros d' ->. by apply mall_checked. }
      intros ls. apply mall_iter. intros ln _. apply mall_bind; [apply mall_res|]. intros [[ty h] nm].
      apply mall_bind; [repeat case_bool_decide; try apply any_new; apply mall_raise|]. intros child.
      apply mall_bind; [apply any_getobj|]. intros o'. destruct (o_body o'); try apply mall_raise. apply any_set_body.
    - apply mall_bind; [apply any_loc_of|]. intros x. apply mall_bind; [apply oc_load_json|]. intros j.
      apply mall_bind; [apply mall_res|]. intros mj. apply mall_bind; [apply mall_res|]. intros mref.
      apply mall_bind; [destruct (is_none_reference mref); [apply mall_ret|apply mall_bind; [apply any_new|intros; apply mall_ret]]|]. intros md.
      apply mall_bind; [apply mall_res|]. intros fj. apply mall_bind; [apply mall_res|]. intros fref.
      apply mall_bind; [destruct (is_none_reference fref); [apply mall_ret|apply mall_bind; [apply any_new|intros; apply mall_ret]]|]. intros ft.
      apply mall_bind; [apply mall_res|]. intros uj. apply mall_bind; [apply mall_res|]. intros u.
      apply mall_bind; [apply mall_res|]. intros vj.
      destruct vj; try apply mall_raise; (apply mall_bind; [apply mall_res|]); intros; apply any_setobj.
    - apply mall_bind; [apply any_loc_of|]. intros x. apply mall_bind; [apply oc_load_json|]. intros j.
      apply mall_bind; [apply mall_res|]. intros js. apply mall_bind; [|intros; apply any_set_body].
      apply mall_map. intros a _. unfold map_in_assoc. apply mall_bind; [apply mall_res|]. intros rj.
      apply mall_bind; [apply mall_res|]. intros ref1.
      apply mall_bind.
      { destruct (_ || _); [apply mall_bind; [apply any_new|intros; apply mall_ret]|].
        destruct (jis_str _ _); [apply mall_bind; [apply any_new|intros; apply mall_ret]|apply mall_raise]. }
      intros e. apply mall_bind; [apply mall_res|]. intros v. apply mall_bind; [apply mall_res|]. intros p.
      destruct v; try apply mall_raise. destruct p; try apply mall_raise.
      apply mall_bind; [apply mall_res|]. intros t. destruct t; try apply mall_raise. apply mall_ret.
    - apply mall_bind; [apply any_set_body|]. intros _. apply mall_bind; [apply any_loc_of|]. intros x.
      apply mall_bind.
      { eapply oc_bind; [apply oc_adapt|]. intros d' ->. by apply mall_checked. }
      intros ls. apply mall_iter. intros ln _. apply mall_bind; [apply mall_res|]. intros [[[? ?] h] nm].
      apply mall_bind; [apply any_new|]. intros vl. apply mall_bind; [apply mall_res|]. intros u.
      apply mall_bind; [apply any_getobj|]. intros o'. destruct (o_body o'); try apply mall_raise. apply any_set_body.
  Qed.
  Lemma C31_read_lemma fuel l o s : s_heap s !! l = Some o -> h_realm (o_hdr o) = Some r ->
    pall on_cache (fun _ => True) (read_in fuel l s).
  Proof using Hr Hcp.
    intros Hl Hrl. unfold read_in. unfold mbind at 1. apply pall_bind. unfold getobj at 1. rewrite Hl. cbn [pall fst snd].
    destruct (h_mapped (o_hdr o)); [done|]. rewrite Hrl. destruct (h_ref (o_hdr o)) as [ref|]; [|done].
    match goal with |- pall _ _ (?m s) => eapply pall_mono; [same| |refine ((_ : mall on_cache any m) s I)]; [done|] end.
    destruct (is_none_reference ref).
    - apply mall_bind; [apply mall_assert|]. intros _. apply any_purge_impl. apply any_purge.
    - destruct (in_saved o (Some r)); [|apply mall_raise]. apply mall_bind; [apply oc_map_in|]. intros. apply any_set_hdr.
  Qed.
  Lemma on_cache_local c g n : on_cache c -> n <> cp -> g_repos (snd (git c g)) !! n = g_repos g !! n.
  Proof. intros Hc Hn. apply git_repos. by rewrite Hc. Qed.
End C31.

(** ** C22: what [saved_on] says *)
Lemma all_saved_true f ls : all_saved f ls = Ok true <-> forall x, In x ls -> f x = Ok true.
Proof.
  induction ls as [|l ls IH]; cbn [all_saved]; [split; [done|done]|]. split.
  - destruct (f l) as [[]|e] eqn:E; cbn [rbind]; [|done|done]. intros Ha x [<-|Hx]; [done|]. by apply IH.
  - intros Hx. rewrite (Hx l) by by left. cbn [rbind]. apply IH. intros. apply Hx. by right.
Qed.
Lemma C22_marks_lemma fuel : forall h x y r, saved_on fuel h x (Some r) = Ok true -> loaded_below h x y -> saved_mark h y r.
Proof.
  induction fuel as [|f IH]; intros h x y r Hs Hb; [done|]. cbn [saved_on] in Hs.
  assert (Hx : forall o, h !! x = Some o -> r ∈ h_saved (o_hdr o)).
  { intros o Ho. rewrite Ho in Hs. unfold in_saved in Hs. case_bool_decide; [done|done]. }
  destruct Hb as [x o Ho|x o z y Ho Hm Hz Hb].
  - exists o. split; [done|by apply Hx].
  - rewrite Ho in Hs. destruct (negb _); [done|]. rewrite Hm in Hs. eapply IH; [|exact Hb].
    by apply (proj1 (all_saved_true _ _) Hs).
Qed.
Lemma saved_on_fuel f : forall h l r, saved_on f h l (Some r) <> Err RecursionError ->
  (forall y, loaded_below h l y -> exists o, h !! y = Some o /\ r ∈ h_saved (o_hdr o) /\
     forall z, h_mapped (o_hdr o) = true -> In z (sub_objects (o_body o)) -> is_Some (h !! z)) ->
  is_Some (h !! l) -> saved_on f h l (Some r) = Ok true.
Proof.
  induction f as [|f IH]; intros h l r Hn Hb [o Ho]; [done|]. cbn [saved_on] in *. rewrite Ho in *.
  destruct (Hb l) as (o' & Ho' & Hr & Hsub); [by econstructor|]. simplify_eq.
  assert (negb (in_saved o (Some r)) = false) as E by (unfold in_saved; by rewrite bool_decide_true).
  rewrite E in *. destruct (h_mapped (o_hdr o)) eqn:Em; [|done].
  assert (Hall : forall x, In x (sub_objects (o_body o)) -> saved_on f h x (Some r) <> Err RecursionError -> saved_on f h x (Some r) = Ok true).
  { intros x Hx Hr'. apply IH; [done| |by apply Hsub]. intros y Hy. apply Hb. by econstructor. }
  clear -Hn Hall. induction (sub_objects (o_body o)) as [|x ls IHl]; [done|]. cbn [all_saved] in *.
  assert (E : saved_on f h x (Some r) = Ok true).
  { apply Hall; [by left|]. intros E. apply Hn. by rewrite E. }
  rewrite E in *. cbn [rbind] in *. apply IHl; [done|]. intros. apply Hall; [by right|done].
Qed.
Lemma saved_on_mono fuel : forall h h' l d, marks_grow h h' -> saved_on fuel h l d = Ok true -> saved_on fuel h' l d = Ok true.
Proof.
  induction fuel as [|f IH]; intros h h' l d Hm Hs; [done|]. cbn [saved_on] in *.
  destruct (h !! l) as [o|] eqn:E; [|done]. destruct (mg_get _ _ _ _ Hm E) as (o' & -> & Hb & Hma & Hsa).
  destruct d as [d|]; [|done]. unfold in_saved in *. case_bool_decide as H1; [|done]. cbn [negb] in *.
  rewrite bool_decide_true by set_solver. cbn [negb]. rewrite Hma, Hb. destruct (h_mapped (o_hdr o)); [|done].
  apply all_saved_true. intros x Hx. eapply IH; [done|]. by apply (proj1 (all_saved_true _ _) Hs).
Qed.

(** ** C26 *)
Section C26.
  Context `{Env}.
  Lemma x_is_saved fuel l x s g : exec (is_saved_on fuel l x s) g = ((saved_on fuel (s_heap s) l x, s), g).
  Proof. unfold is_saved_on. rewrite x_bind, x_get. cbn. by rewrite x_res. Qed.
  Lemma x_set_hdr l f o s g : s_heap s !! l = Some o ->
    exec (set_hdr l f s) g = ((Ok tt, with_heap s (<[l := Obj (f (o_hdr o)) (o_body o)]> (s_heap s))), g).
  Proof. intros Hl. unfold set_hdr. rewrite x_bind, x_getobj, Hl. done. Qed.
  Lemma x_own l o ref s g : s_heap s !! l = Some o -> h_ref (o_hdr o) = Some ref -> exec (own_reference l s) g = ((Ok ref, s), g).
  Proof. intros Hl Hr. unfold own_reference. by rewrite x_bind, x_getobj, Hl, Hr. Qed.
  (** what a write that does nothing does: the realm of a loaded object is set *)
  Definition realm_set (s : pst) (l : loc) (d : pystr) : pst :=
    match s_heap s !! l with
    | Some o => if h_mapped (o_hdr o)
                then with_heap s (<[l := Obj (hd_realm (Some d) (o_hdr o)) (o_body o)]> (s_heap s)) else s
    | None => s
    end.
  Lemma set_realm_saved h l o (d : pystr) fuel : h !! l = Some o ->
    saved_on fuel (<[l := Obj (hd_realm (Some d) (o_hdr o)) (o_body o)]> h) l (Some d) = saved_on fuel h l (Some d).
  Proof.
    intros Hl. set (h' := <[l := _]> h).
    assert (Hsame : forall x, saved_on fuel h' x (Some d) = saved_on fuel h x (Some d)); [|by apply Hsame].
    induction fuel as [|f IH]; intros x; [done|]. cbn [saved_on]. unfold h'. rewrite heap_insert. destruct (decide (l = x)) as [<-|Hx].
    - rewrite Hl. cbn. unfold in_saved. cbn. destruct (bool_decide _); cbn; [|done]. destruct (h_mapped (o_hdr o)); [|done].
      generalize (sub_objects (o_body o)). intros ls. induction ls as [|y ls IHl]; [done|]. cbn [all_saved]. fold h'. rewrite IH.
      destruct (saved_on f h y (Some d)) as [[]|]; cbn; [apply IHl|done|done].
    - destruct (h !! x) as [ox|]; [|done]. destruct (negb _); [done|]. destruct (h_mapped (o_hdr ox)); [|done].
      generalize (sub_objects (o_body ox)). intros ls. induction ls as [|y ls IHl]; [done|]. cbn [all_saved]. fold h'. rewrite IH.
      destruct (saved_on f h y (Some d)) as [[]|]; cbn; [apply IHl|done|done].
  Qed.
  Lemma C26_noop_lemma fuel l o ref s g (d : pystr) : s_heap s !! l = Some o -> h_ref (o_hdr o) = Some ref ->
    (h_mapped (o_hdr o) = false -> is_some (h_realm (o_hdr o)) = true) ->
    d <> [] -> (h_mapped (o_hdr o) = true -> is_remote d = false) -> saved_on fuel (s_heap s) l (Some d) = Ok true ->
    exec (write_out fuel l (Some d) false s) g = ((Ok ref, realm_set s l d), g).
  Proof.
    intros Hl Hr Hrl Hd Hrem Hs. destruct fuel as [|f]; [done|]. cbn [write_out]. rewrite x_bind, x_getobj, Hl. unfold realm_set. rewrite Hl.
    destruct (h_mapped (o_hdr o)) eqn:Em; cbn [negb].
    - assert ((if truthy (h_realm (o_hdr o)) then or_else (Some d) (h_realm (o_hdr o)) else Some d) = Some d) as ->.
      { unfold or_else. destruct d; [done|]. by destruct (truthy _). }
      rewrite Hrem by done. rewrite x_bind, (x_set_hdr l _ o) by done. rewrite x_bind, x_is_saved.
      change (s_heap (with_heap s ?h)) with h. rewrite set_realm_saved by done.
 rewrite Hs. cbn [andb negb].
      erewrite x_own; [done| |]; [change (s_heap (with_heap s ?h)) with h; rewrite heap_insert; by rewrite decide_True|done].
    - rewrite x_bind, x_assert, Hrl by done. rewrite x_bind, x_assert, Hr. cbn [is_some]. rewrite x_bind, x_is_saved, Hs. by eapply x_own.
  Qed.

  (** objects that are written are saved *)
  Lemma mg_exec {A : Type} (P : cmd -> Prop) (m : M pst A) s g r s' g' :
    pall P (fun rs => keeps_bodies (s_heap s) (snd rs)) (m s) -> exec (m s) g = ((r, s'), g') ->
    caches_ok s' /\ marks_grow (s_heap s) (s_heap s').
  Proof. intros Hp He. apply (pall_exec _ _ _ g) in Hp. by rewrite He in Hp. Qed.
  Lemma write_mg fuel l (d : pystr) force s g r s' g' : caches_ok s -> d <> [] -> top_level_only (s_heap s) ->
    exec (write_out fuel l (Some d) force s) g = ((r, s'), g') -> caches_ok s' /\ marks_grow (s_heap s) (s_heap s').
  Proof.
    intros Hc Hd Ht He. eapply mg_exec; [|exact He]. apply kb_write_out; [done|done|by apply kb_init|]. intros. by apply dest_some.
  Qed.
  Lemma top_mg h h' : marks_grow h h' -> top_level_only h -> top_level_only h'.
  Proof.
    intros Hm Ht l o' l' Hl Hin. pose proof (Hm l) as Hl1. rewrite Hl in Hl1. destruct (h !! l) as [o|] eqn:E; [|done].
    destruct Hl1 as (Hb & _). rewrite Hb in Hin. destruct (Ht l o l' E Hin) as [H1 H2]. pose proof (Hm l') as Hl2.
    split; intros (x & y & Hx); rewrite Hx in Hl2; (destruct (h !! l') as [[x0 b0]|] eqn:E'; [|done]);
      destruct Hl2 as (Hb2 & _); cbn in Hb2; subst b0; [apply H1|apply H2]; red; eauto.
  Qed.
  Definition inv (s : pst) : Prop := caches_ok s /\ top_level_only (s_heap s).
  (** one step of writing, and what it says about an object *)
  Definition wstep (f : nat) (d : pystr) (s s' : pst) (r : bool) (x : loc) : Prop :=
    inv s' /\ marks_grow (s_heap s) (s_heap s') /\ (r = true -> saved_on f (s_heap s') x (Some d) = Ok true).
  Definition okb {A : Type} (r : res A) : bool := match r with Ok _ => true | Err _ => false end.
  Lemma mmap_saved {A B : Type} f d (F : A -> M pst B) (key : A -> loc) ls : forall s g r s' g',
    (forall a s g r s' g', In a ls -> inv s -> exec (F a s) g = ((r, s'), g') -> wstep f d s s' (okb r) (key a)) ->
    inv s -> exec (mmap F ls s) g = ((r, s'), g') ->
    inv s' /\ marks_grow (s_heap s) (s_heap s') /\
    (okb r = true -> forall a, In a ls -> saved_on f (s_heap s') (key a) (Some d) = Ok true).
  Proof.
    induction ls as [|a ls IH]; intros s g r s' g' HF Hi; cbn [mmap].
    - rewrite x_ret. intros [= <- <- <-]. split_and!; [done|apply mg_refl|done].
    - rewrite x_bind. destruct (exec (F a s) g) as [[[y|e] s1] g1] eqn:E1.
      + destruct (HF a s g _ _ _ (or_introl eq_refl) Hi E1) as (Hi1 & Hm1 & Hs1). specialize (Hs1 eq_refl).
        rewrite x_bind. destruct (exec (mmap F ls s1) g1) as [[[ys|e] s2] g2] eqn:E2;
          (destruct (IH s1 g1 _ _ _ (fun a s g r s' g' Hin => HF a s g r s' g' (or_intror Hin)) Hi1 E2) as (Hi2 & Hm2 & Hs2)).
        * rewrite x_ret. intros [= <- <- <-]. split_and!; [done|by eapply mg_trans|]. intros _ b [<-|Hb]; [by eapply saved_on_mono|by apply Hs2].
        * intros [= <- <- <-]. split_and!; [done|by eapply mg_trans|done].
      + destruct (HF a s g _ _ _ (or_introl eq_refl) Hi E1) as (Hi1 & Hm1 & _). intros [= <- <- <-]. split_and!; done.
  Qed.
  Lemma miter_mmap {A : Type} (F : A -> M pst unit) ls : forall s g, exec (miter F ls s) g =
    match exec (mmap F ls s) g with ((Ok _, s'), g') => ((Ok tt, s'), g') | ((Err e, s'), g') => ((Err e, s'), g') end.
  Proof.
    induction ls as [|a ls IH]; intros s g; [done|]. cbn [mmap miter]. rewrite !x_bind. destruct (exec (F a s) g) as [[[[]|e] s1] g1]; [|done].
    rewrite IH, x_bind. destruct (exec (mmap F ls s1) g1) as [[[ys|e] s2] g2]; [by rewrite x_ret|done].
  Qed.
  Lemma step_rest {A : Type} (m : M pst A) s g r s' g' : inv s ->
    (forall h0, mall (fun _ => True) (keeps_bodies h0) m) -> exec (m s) g = ((r, s'), g') -> inv s' /\ marks_grow (s_heap s) (s_heap s').
  Proof.
    intros [Hc Ht] Hm He. destruct (mg_exec (fun _ => True) m s g r s' g') as [H1 H2]; [|done|].
    - apply Hm. by apply kb_init.
    - split; [split; [done|by eapply top_mg]|done].
  Qed.
  Lemma wstep_write f d x force s g r s' g' : d <> [] -> inv s ->
    (forall s g r s' g', inv s -> exec (write_out f x (Some d) force s) g = ((Ok r, s'), g') ->
       saved_on f (s_heap s') x (Some d) = Ok true) ->
    exec (write_out f x (Some d) force s) g = ((r, s'), g') -> wstep f d s s' (okb r) x.
  Proof.
    intros Hd [Hc Ht] IH He. destruct (write_mg f x d force s g r s' g') as [H1 H2]; [done..|].
    split_and!; [split; [done|by eapply top_mg]|done|]. destruct r as [a|e]; [|done]. intros _. eapply IH; [|exact He]. by split.
  Qed.
  Lemma wstep_proxy f d ft x force s g r s' g' : d <> [] -> inv s ->
    (forall s g r s' g', inv s -> exec (write_out f x (Some d) force s) g = ((Ok r, s'), g') ->
       saved_on f (s_heap s') x (Some d) = Ok true) ->
    exec (proxy_write_out (write_out f) ft x (Some d) force s) g = ((r, s'), g') -> wstep f d s s' (okb r) x.
  Proof.
    intros Hd [Hc Ht] IH He.
    assert (Hk : pall (write_cmd (s_heap s) d x) (fun rs => keeps_bodies (s_heap s) (snd rs)) (proxy_write_out (write_out f) ft x (Some d) force s)).
    { apply (kb_proxy (s_heap s) d); [by left|by apply kb_init|intros; by apply dest_some|].
      intros s1 Hs1 Hd1. by apply kb_write_out. }
    destruct (mg_exec _ _ _ _ _ _ _ Hk He) as [H1 H2].
    split_and!; [split; [done|by eapply top_mg]|done|]. destruct r as [a|e]; [|done]. intros _.
    unfold proxy_write_out in He. xi He.
    assert (Hc1 : inv s /\ marks_grow (s_heap s0) (s_heap s)).
    { destruct ft; [|xi X; split; [by split|apply mg_refl]]. fold (destination_of v (Some d)) in X. rewrite dest_some in X by done.
      eapply (step_rest (cache_realm (Some d))); [by split| |exact X]. intros h0. apply kb_cache_realm. }
    destruct Hc1 as [Hi1 Hm1]. specialize (IH s g a s1 g1 Hi1 X0).
    assert (Hi2 : inv s1). { destruct (write_mg f x d force s g _ s1 g1 (proj1 Hi1) Hd (proj2 Hi1) X0) as [? Hm2]. split; [done|eapply top_mg; [exact Hm2|apply Hi1]]. }
    assert (Hm3 : inv s2 /\ marks_grow (s_heap s1) (s_heap s2)).
    { destruct ft; [|xi X1; split; [done|apply mg_refl]]. fold (destination_of v (Some d)) in X1. rewrite dest_some in X1 by done.
      eapply (step_rest (flush_realm d)); [done| |exact X1]. intros h0. eapply (mall_weak h0 (store_cmd d)); [|apply kb_flush_realm]. done. }
    assert (Hm4 : inv s' /\ marks_grow (s_heap s2) (s_heap s')).
    { eapply (step_rest (if is_none_reference a then mret tt else mlet x <- loc_of a; add_tree_reference x)); [apply Hm3| |exact X2].
      intros h0. destruct (is_none_reference a); [apply mall_ret|]. apply mall_bind; [apply kb_loc_of|]. intros. apply kb_orefs. }
    eapply saved_on_mono; [|exact IH]. eapply mg_trans; [apply Hm3|apply Hm4].
  Qed.
  Lemma map_out_saved f (d : pystr) l o force s g ref s' g' : d <> [] -> inv s -> s_heap s !! l = Some o ->
    (forall x force s g r s' g', inv s -> exec (write_out f x (Some d) force s) g = ((Ok r, s'), g') ->
       saved_on f (s_heap s') x (Some d) = Ok true) ->
    exec (map_out (write_out f) l d force s) g = ((Ok ref, s'), g') ->
    inv s' /\ marks_grow (s_heap s) (s_heap s') /\
    forall x, In x (sub_objects (o_body o)) -> saved_on f (s_heap s') x (Some d) = Ok true.
  Proof.
    intros Hd Hi Hl IH He. unfold map_out in He. rewrite x_bind, x_getobj, Hl in He. cbn beta iota in He.
    assert (HS : forall h0 b, mall (fun _ => True) (keeps_bodies h0) (git_save_str d b)).
    { intros h0 b. eapply (mall_weak h0 (store_cmd d)); [done|apply kb_save_str]. }
    assert (HT : forall h0 b, mall (fun _ => True) (keeps_bodies h0) (git_save_tree_node d b)).
    { intros h0 b. eapply (mall_weak h0 (store_cmd d)); [done|apply kb_save_tree]. }
    assert (HU : forall h0 n b, mall (fun _ => True) (keeps_bodies h0) (git_update_ref (S := pst) d n b)).
    { intros h0 n b. apply mall_bind; [by apply mall_checked|intros; apply mall_ret]. }
    destruct (o_body o) as [m|t|c dd|i v m t|k vs|us] eqn:Eb.
    - destruct (step_rest (map_out_meta m d) s g (Ok ref) s' g' Hi) as [? ?]; [|exact He|done].
      intros h0. eapply (mall_weak h0 (store_cmd d)); [done|apply kb_map_out_meta].
    - destruct t as [t|]; [|by xi He]. xi He. destruct (step_rest _ _ _ _ _ _ Hi (fun h0 => HS h0 t) X) as [? ?]. done.
    - destruct dd as [|e dd]; [xi He; split_and!; [done|apply mg_refl|done]|]. set (D := e :: dd) in *. clearbody D.
      apply xi_bind in He as (v1 & s1 & g1 & X & He). rewrite miter_mmap in X.
      destruct (exec (mmap _ _ s) g) as [[[us|] s1'] g1'] eqn:E1; [|done]. injection X as _ <- <-.
      eapply (mmap_saved f d _ (fun x => x)) in E1 as (Hi1 & Hm1 & Hs1); [| |done].
      2:{ intros a s2 g2 r2 s2' g2' _ Hi2 E2. rewrite x_bind in E2.
        destruct (exec (write_out f a (Some d) false s2) g2) as [[[r|e'] s3] g3] eqn:E3;
          (apply (wstep_write f d a false) in E3; [|done|done|intros; by eapply IH]); inversion E2; subst; exact E3. }
      apply xi_bind in He as (es & s2 & g2 & X2 & He).
      assert (H2 : inv s2 /\ marks_grow (s_heap s1') (s_heap s2)).
      { eapply (step_rest (mmap dir_entry D)); [done| |exact X2]. intros h0. apply mall_map. intros y _.
        apply mall_bind; [apply kb_getobj|]. intros oy. destruct (h_ref _); [apply mall_ret|apply mall_raise]. }
      xi He. destruct (step_rest _ _ _ _ _ _ (proj1 H2) (fun h0 => HT h0 es) X) as [H3 H4].
      assert (Hm : marks_grow (s_heap s1') (s_heap s')) by (eapply mg_trans; [apply H2|done]).
      split_and!; [done|by eapply mg_trans|]. intros x Hx. eapply saved_on_mono; [exact Hm|]. by apply Hs1.
    - apply xi_bind in He as (fref & s1 & g1 & X1 & He). apply xi_bind in He as (mref & s2 & g2 & X2 & He).
      assert (H1 : inv s1 /\ marks_grow (s_heap s) (s_heap s1) /\ forall y, t = Some y -> saved_on f (s_heap s1) y (Some d) = Ok true).
      { destruct t as [y|]; [|xi X1; split_and!; [done|apply mg_refl|done]].
        apply xi_bind in X1 as (r & s3 & g3 & X3 & X4). apply (wstep_proxy f d) in X3 as (Hi3 & Hm3 & Hs3); [|done|done|intros; by eapply IH].
        specialize (Hs3 eq_refl). apply xi_bind in X4 as (u & s4 & g4 & X4 & X5). xi X5.
        assert (H4 : inv s1 /\ marks_grow (s_heap s3) (s_heap s1)).
        { eapply (step_rest (if is_none_reference fref then mret tt else mlet x <- loc_of fref; add_tree_reference x)); [done| |exact X4].
          intros h0. destruct (is_none_reference fref); [apply mall_ret|]. apply mall_bind; [apply kb_loc_of|]. intros. apply kb_orefs. }
        destruct H4 as [H4 H5]. split_and!; [done|by eapply mg_trans|]. intros ? [= <-]. by eapply saved_on_mono. }
      destruct H1 as (Hi1 & Hm1 & Ht1).
      assert (H2 : inv s2 /\ marks_grow (s_heap s1) (s_heap s2) /\ forall y, m = Some y -> saved_on f (s_heap s2) y (Some d) = Ok true).
      { destruct m as [y|]; [|xi X2; split_and!; [done|apply mg_refl|done]].
        apply xi_bind in X2 as (r & s3 & g3 & X3 & X4). apply (wstep_write f d) in X3 as (Hi3 & Hm3 & Hs3); [|done|done|intros; by eapply IH].
        specialize (Hs3 eq_refl). 
        assert (H4 : inv s2 /\ marks_grow (s_heap s3) (s_heap s2)).
        { eapply (step_rest (mlet x <- loc_of r; add_blob_reference x;;; mret r)); [done| |exact X4].
          intros h0. apply mall_bind; [apply kb_loc_of|]. intros. apply mall_bind; [apply kb_orefs|intros; apply mall_ret]. }
        destruct H4 as [H4 H5]. split_and!; [done|by eapply mg_trans|]. intros ? [= <-]. by eapply saved_on_mono. }
      destruct H2 as (Hi2 & Hm2 & Ht2). xi He.
      destruct (step_rest _ _ _ _ _ _ Hi2 (fun h0 => HS h0 _) X) as [Hi3 Hm3].
      split_and!; [done|eapply mg_trans; [exact Hm1|by eapply mg_trans]|]. cbn [sub_objects]. intros x Hx. apply in_app_or in Hx as [Hx|Hx].
      + destruct m as [y|]; [|done]. destruct Hx as [<-|[]]. eapply saved_on_mono; [exact Hm3|]. by apply Ht2.
      + destruct t as [y|]; [|done]. destruct Hx as [<-|[]]. eapply saved_on_mono; [|by apply Ht1]. by eapply mg_trans.
    - apply xi_bind in He as (js & s1 & g1 & X1 & He).
      eapply (mmap_saved f d _ (fun r => elt_loc (vr_elt (snd r)))) in X1 as (Hi1 & Hm1 & Hs1); [| |done].
      2:{ intros [v0 r0] s2 g2 r2 s2' g2' _ Hi2 E2. rewrite x_bind in E2. cbn [fst snd] in *.
        destruct (vr_elt r0) as [y|y].
        - destruct (exec (proxy_write_out (write_out f) false y (Some d) false s2) g2) as [[[r|e'] s3] g3] eqn:E3;
            (apply (wstep_proxy f d false y false) in E3; [|done|done|intros; by eapply IH]); inversion E2; subst; exact E3.
        - destruct (exec (write_out f y (Some d) false s2) g2) as [[[r|e'] s3] g3] eqn:E3;
            (apply (wstep_write f d y false) in E3; [|done|done|intros; by eapply IH]); inversion E2; subst; exact E3. }
      apply xi_bind in He as (x & s2 & g2 & X2 & He).
      destruct (step_rest _ _ _ _ _ _ Hi1 (fun h0 => HS h0 _) X2) as [Hi2 Hm2].
      apply xi_bind in He as (u & s3 & g3 & X3 & He). xi He.
      assert (H3 : inv s' /\ marks_grow (s_heap s2) (s_heap s')).
      { eapply (step_rest (if k then git_update_ref d TREE_VERSION_LIST x else mret tt)); [done| |exact X3].
        intros h0. destruct k; [apply HU|apply mall_ret]. }
      destruct H3 as [Hi3 Hm3]. assert (Hm : marks_grow (s_heap s1) (s_heap s')) by by eapply mg_trans.
      split_and!; [done|by eapply mg_trans|]. cbn [sub_objects]. intros y Hy. apply in_map_iff in Hy as (r0 & <- & Hr0).
      eapply saved_on_mono; [exact Hm|]. by apply (Hs1 eq_refl r0).
    - apply xi_bind in He as (es & s1 & g1 & X1 & He).
      eapply (mmap_saved f d _ (fun ul => snd ul)) in X1 as (Hi1 & Hm1 & Hs1); [| |done].
      2:{ intros [u0 y] s2 g2 r2 s2' g2' _ Hi2 E2. rewrite x_bind in E2. cbn [fst snd] in *.
        destruct (exec (write_out f y (Some d) false s2) g2) as [[[r|e'] s3] g3] eqn:E3;
            (apply (wstep_write f d y false) in E3 as (Hi3 & Hm3 & Hs3); [|done|done|intros; by eapply IH]).
        - assert (H4 : inv s2' /\ marks_grow (s_heap s3) (s_heap s2')).
          { eapply (step_rest (mlet x <- loc_of r; mret (ps "100644", ps "blob", x, uuid_str u0))); [done| |exact E2].
            intros h0. apply mall_bind; [apply kb_loc_of|]. intros. apply mall_ret. }
          destruct H4 as [H4 H5]. split_and!; [done|by eapply mg_trans|]. intros _. eapply saved_on_mono; [exact H5|]. by apply Hs3.
        - inversion E2; subst. split_and!; [done|done|done]. }
      apply xi_bind in He as (x & s2 & g2 & X2 & He).
      destruct (step_rest _ _ _ _ _ _ Hi1 (fun h0 => HT h0 _) X2) as [Hi2 Hm2].
      apply xi_bind in He as (u & s3 & g3 & X3 & He). xi He.
      destruct (step_rest _ _ _ _ _ _ Hi2 (fun h0 => HU h0 _ _) X3) as [Hi3 Hm3].
      assert (Hm : marks_grow (s_heap s1) (s_heap s')) by by eapply mg_trans.
      split_and!; [done|by eapply mg_trans|]. cbn [sub_objects]. intros y Hy. apply in_map_iff in Hy as (r0 & <- & Hr0).
      eapply saved_on_mono; [exact Hm|]. by apply (Hs1 eq_refl r0).
  Qed.
  Definition written (s : pst) (fuel : nat) (l : loc) (d : pystr) (ref : reference) : Prop :=
    saved_on fuel (s_heap s) l (Some d) = Ok true /\
    exists o, s_heap s !! l = Some o /\ h_ref (o_hdr o) = Some ref /\
              (h_mapped (o_hdr o) = false -> is_some (h_realm (o_hdr o)) = true) /\
              (h_mapped (o_hdr o) = true -> is_remote d = false).
  Lemma written_saved fuel : forall (d : pystr) l force s g ref s' g', d <> [] -> inv s ->
    exec (write_out fuel l (Some d) force s) g = ((Ok ref, s'), g') -> written s' fuel l d ref.
  Proof.
    induction fuel as [|f IH]; intros d l force s g ref s' g' Hd Hi He; [done|]. cbn [write_out] in He.
    rewrite x_bind, x_getobj in He. destruct (s_heap s !! l) as [o|] eqn:Hl; [|done]. cbn beta iota in He.
    destruct (h_mapped (o_hdr o)) eqn:Em; cbn [negb] in He.
    2:{ rewrite x_bind, x_assert in He. destruct (is_some (h_realm (o_hdr o))) eqn:E1; [|done].
        rewrite x_bind, x_assert in He. destruct (is_some (h_ref (o_hdr o))) eqn:E2; [|done].
        rewrite x_bind, x_is_saved in He. destruct (saved_on (S f) (s_heap s) l (Some d)) as [[]|] eqn:E3; [|done|done].
        unfold own_reference in He. rewrite x_bind, x_getobj, Hl in He. destruct (h_ref (o_hdr o)) as [r|] eqn:E4; [|done].
        inversion He; subst. split; [done|]. exists o. split_and!; [done|done|done|]. by rewrite Em. }
    assert ((if truthy (h_realm (o_hdr o)) then or_else (Some d) (h_realm (o_hdr o)) else Some d) = Some d) as EQ.
    { unfold or_else. destruct d; [done|]. by destruct (truthy _). }
    rewrite EQ in He. destruct (is_remote d) eqn:Er; [done|].
    rewrite x_bind, (x_set_hdr l _ o) in He by done. set (o1 := Obj (hd_realm (Some d) (o_hdr o)) (o_body o)) in He.
    set (s1 := with_heap s (<[l := o1]> (s_heap s))) in He.
    assert (Hs1 : s_heap s1 !! l = Some o1). { unfold s1. change (s_heap (with_heap s ?h)) with h. rewrite heap_insert. by rewrite decide_True. }
    assert (Hm1 : marks_grow (s_heap s) (s_heap s1)).
    { intros x. unfold s1. change (s_heap (with_heap s ?h)) with h. rewrite heap_insert. destruct (decide (l = x)) as [<-|]; [by rewrite Hl|].
      by destruct (s_heap s !! x). }
    assert (Hi1 : inv s1). { split; [apply Hi|]. eapply top_mg; [exact Hm1|apply Hi]. }
    rewrite x_bind, x_is_saved in He. destruct (saved_on (S f) (s_heap s1) l (Some d)) as [b|] eqn:E3; [|done].
    destruct (b && negb force) eqn:Eb.
    - apply andb_prop in Eb as [-> _]. unfold own_reference in He. rewrite x_bind, x_getobj, Hs1 in He.
      cbn beta iota in He. destruct (h_ref (o_hdr o1)) as [r|] eqn:E4; [|done].
      inversion He; subst. split; [done|]. exists o1. done.
    - apply xi_bind in He as (r & s2 & g2 & X & He).
      destruct (map_out_saved f d l o1 force s1 g r s2 g2 Hd Hi1 Hs1) as (Hi2 & Hm2 & Hs2); [|exact X|].
      { intros. eapply IH; done. }
      destruct (mg_get _ _ _ _ Hm2 Hs1) as (o2 & Hl2 & Hb2 & Hma & Hsa).
      rewrite x_bind, (x_set_hdr l _ o2) in He by done. rewrite x_bind in He. unfold set_saved_on in He.
      erewrite x_set_hdr in He; [|change (s_heap (with_heap s2 ?h)) with h; rewrite heap_insert; by rewrite decide_True].
      inversion He; subst r s' g'. clear He. unfold written. change (s_heap (with_heap _ ?h)) with h. set (h3 := <[l := _]> _).
      assert (Hl3 : h3 !! l = Some (Obj (hd_saved ({[d]} ∪ h_saved (o_hdr o2)) (hd_ref (Some ref) (o_hdr o2))) (o_body o2))).
      { unfold h3. rewrite heap_insert. by rewrite decide_True. }
      assert (Hm3 : marks_grow (s_heap s2) h3).
      { intros x. unfold h3. rewrite heap_insert. destruct (decide (l = x)) as [<-|]; [rewrite Hl2; cbn; split_and!; [done|done|set_solver]|].
        rewrite heap_insert, decide_False by done. by destruct (s_heap s2 !! x). }
      clearbody h3. cbn in Hma. rewrite Em in Hma.
      assert (Hsv : saved_on (S f) h3 l (Some d) = Ok true).
      { cbn [saved_on]. rewrite Hl3. unfold in_saved. cbn. rewrite bool_decide_true by set_solver. cbn. rewrite Hma.
        apply all_saved_true. intros x Hx. eapply saved_on_mono; [exact Hm3|]. apply Hs2. by rewrite Hb2 in Hx. }
      split; [exact Hsv|]. eexists. split; [exact Hl3|]. cbn.
      split_and!; [done|by rewrite Hma|done].
  Qed.
  Lemma C26_second_lemma fuel (d : pystr) l force s g ref s' g' : d <> [] -> caches_ok s -> top_level_only (s_heap s) ->
    exec (write_out fuel l (Some d) force s) g = ((Ok ref, s'), g') ->
    forall g2, exec (write_out fuel l (Some d) false s') g2 = ((Ok ref, realm_set s' l d), g2).
  Proof.
    intros Hd Hc Ht He g2. destruct (written_saved fuel d l force s g ref s' g' Hd (conj Hc Ht) He) as [Hs (o & Hl & Hr & H1 & H2)].
    by eapply C26_noop_lemma.
  Qed.
  (** FileTree and DatasetTree *)
  Lemma set_repo_id g d r : g_repos g !! d = Some r -> set_repo g d r = g.
  Proof. intros Hr. unfold set_repo. rewrite insert_id by done. by destruct g. Qed.
  Lemma C26_proxy_lemma fuel ft l o ref s g (d : pystr) r : s_heap s !! l = Some o -> h_ref (o_hdr o) = Some ref ->
    (h_mapped (o_hdr o) = false -> is_some (h_realm (o_hdr o)) = true) ->
    d <> [] -> local_repo g d = Some r -> saved_on fuel (s_heap s) l (Some d) = Ok true ->
    (ft = true -> dmem (s_caches s) d = false) -> (is_none_reference ref = false -> is_some (r_loc ref) = true) ->
    exists s2, exec (proxy_write_out (write_out fuel) ft l (Some d) false s) g = ((Ok ref, s2), g) /\
               s_heap s2 = s_heap (realm_set s l d).
  Proof.
    intros Hl Hr Hrl Hd Hrep Hs Hn Hx. 
    assert (Hrem : is_remote d = false) by (unfold local_repo in Hrep; by destruct (is_remote d)).
    assert (Hg : g_repos g !! d = Some r) by (unfold local_repo in Hrep; by rewrite Hrem in Hrep). unfold proxy_write_out. rewrite x_bind, x_getobj, Hl.
    fold (destination_of o (Some d)). rewrite dest_some by done. rewrite x_bind.
    assert (HA : forall s3, exists s4, exec ((if is_none_reference ref then mret tt else mlet x <- loc_of ref; add_tree_reference x) s3) g
                               = ((Ok tt, s4), g) /\ s_heap s4 = s_heap s3).
    { intros s3. destruct (is_none_reference ref); [by eexists|]. rewrite x_bind. unfold loc_of.
      destruct (r_loc ref) as [x|]; [|by specialize (Hx eq_refl)]. cbn.
      unfold add_tree_reference, add_object_reference. destruct (decide _); by eexists. }
    destruct ft.
    - unfold cache_realm at 1. rewrite x_bind, x_get. cbn beta iota. rewrite Hn, x_mod by done. cbn beta iota.
      set (s1 := with_caches s _). rewrite x_bind, (C26_noop_lemma fuel l o ref s1 g d) by done. rewrite x_bind.
      set (s2 := realm_set s1 l d).
      assert (Hc2 : s_caches s2 = dset (s_caches s) d (new_cache d 2000)).
      { unfold s2, realm_set. destruct (s_heap s1 !! l) as [o1|]; [|done]. by destruct (h_mapped (o_hdr o1)). }
      assert (Hh2 : s_heap s2 = s_heap (realm_set s l d)).
      { unfold s2, realm_set. change (s_heap s1) with (s_heap s). rewrite Hl. by destruct (h_mapped (o_hdr o)). }
      assert (HF : exists s3, exec (flush_realm d s2) g = ((Ok tt, s3), g) /\ s_heap s3 = s_heap s2).
      { unfold flush_realm. rewrite x_bind. unfold with_cache at 1. rewrite Hc2, dget_dset_eq. cbn.
        unfold local_repo. rewrite Hrem, Hg. cbn. rewrite set_repo_id by done. eexists. split; [done|]. done. }
      destruct HF as (s3 & -> & Hh3). cbn beta iota. rewrite x_bind. destruct (HA s3) as (s4 & -> & Hh4). eexists. split; [done|].
      by rewrite Hh4, Hh3.
    - rewrite x_ret. cbn beta iota. rewrite x_bind, (C26_noop_lemma fuel l o ref s g d) by done. rewrite x_bind, x_ret. cbn beta iota. rewrite x_bind.
      destruct (HA (realm_set s l d)) as (s4 & -> & Hh4). by eexists.
  Qed.
  Lemma x_refs_step (ref : reference) s g u s' g' :
    exec ((if is_none_reference ref then mret tt else mlet x <- loc_of ref; add_tree_reference x) s) g = ((Ok u, s'), g') ->
    s_heap s' = s_heap s /\ s_caches s' = s_caches s /\ g' = g /\ (is_none_reference ref = false -> is_some (r_loc ref) = true).
  Proof.
    destruct (is_none_reference ref); [intros He; by xi He|]. rewrite x_bind. unfold loc_of. destruct (r_loc ref) as [x|]; [|done].
    cbn. unfold add_tree_reference, add_object_reference. destruct (decide _); cbn; intros He; by inversion He.
  Qed.
  Lemma C26_proxy_second_lemma fuel ft (d : pystr) l force s g ref s' g' : d <> [] -> caches_ok s -> top_level_only (s_heap s) ->
    exec (proxy_write_out (write_out fuel) ft l (Some d) force s) g = ((Ok ref, s'), g') ->
    forall g2 r, local_repo g2 d = Some r ->
    exists s2, exec (proxy_write_out (write_out fuel) ft l (Some d) false s') g2 = ((Ok ref, s2), g2) /\
               s_heap s2 = s_heap (realm_set s' l d).
  Proof.
    intros Hd Hc Ht He g2 r Hg2. 
    destruct (wstep_proxy fuel d ft l force s g (Ok ref) s' g') as (Hi' & Hm' & Hs'); [done|by split| |exact He|].
    { intros. eapply written_saved; done. }
    specialize (Hs' eq_refl). unfold proxy_write_out in He. rewrite x_bind, x_getobj in He.
    destruct (s_heap s !! l) as [o|] eqn:Hl; [|done]. cbn beta iota in He.
    fold (destination_of o (Some d)) in He. rewrite dest_some in He by done.
    apply xi_bind in He as (u1 & s1 & g1 & X1 & He). apply xi_bind in He as (ref' & s2 & g2' & X2 & He).
    apply xi_bind in He as (u3 & s3 & g3 & X3 & He). apply xi_bind in He as (u4 & s4 & g4 & X4 & He). xi He.
    apply x_refs_step in X4 as (Hh4 & Hc4 & -> & Hx).
    assert (Hi1 : inv s1).
    { destruct ft; [|xi X1; by split].
      eapply (step_rest (cache_realm (Some d))) in X1 as [? _]; [done|by split|]. intros h0. apply kb_cache_realm. }
    pose proof (written_saved fuel d l force _ _ _ _ _ Hd Hi1 X2) as (Hs2 & o2 & Hl2 & Hr2 & Hrl2 & Hrem2).
    destruct (write_mg fuel l d force _ _ _ _ _ (proj1 Hi1) Hd (proj2 Hi1) X2) as [Hc2 _].
    assert (H3 : s_heap s3 = s_heap s2 /\ (ft = true -> dmem (s_caches s3) d = false)).
    { destruct ft; [|xi X3; done]. unfold flush_realm in X3. apply xi_bind in X3 as (u5 & s5 & g5 & X5 & X6).
      assert (H5 : s_heap s5 = s_heap s2 /\ caches_ok s5).
      { split.
        - unfold with_cache in X5. destruct (dget (s_caches s2) d) as [c|]; [|done].
          rewrite exec_bind in X5. destruct (exec (cache_flush c) g2') as [[? ?] ?]. cbn in X5. by inversion X5.
        - eapply (step_rest (with_cache d cache_flush (mraise RuntimeError))) in X5 as [[? ?] _]; [done| |].
          + split; [done|]. eapply top_mg; [|apply Hi1]. by eapply write_mg in X2 as [_ ?]; [|apply Hi1|done|apply Hi1].
          + intros h0. eapply (mall_weak h0 (store_cmd d)); [done|]. apply kb_with_cache; [apply kb_flush|apply mall_raise]. }
      destruct H5 as [H5 H6]. xi X6. cbn. split; [done|]. intros _. unfold dmem. destruct H6 as [H6 _]. by rewrite dget_ddel_eq. }
    destruct H3 as [Hh3 Hn3]. rewrite <- Hh3, <- Hh4 in Hl2.
    eapply C26_proxy_lemma; [exact Hl2|done|done|done|exact Hg2|done| |done].
    by rewrite Hc4.
  Qed.
End C26.

(** ** C22: a modification of one object *)
Section Modify.
  Context `{Env}.
  Implicit Types (s : pst) (g : gstate).

  Definition only_at (y : loc) (h h' : heap) : Prop :=
    (forall z, z <> y -> h' !! z = h !! z) /\ exists o, h' !! y = Some o /\ h_saved (o_hdr o) = ∅.
  Lemma below_only_at y h h' x : only_at y h h' -> loaded_below h x y -> loaded_below h' x y.
  Proof.
    intros [Ho (oy & Hy & _)] Hb. induction Hb as [x o Hx|x o z y Hx Hm Hz Hb IH]; [by eapply below_self|].
    destruct (decide (x = y)) as [->|Hn]; [by eapply below_self|].
    eapply below_sub; [by rewrite Ho|done|done|by apply IH].
  Qed.
  Lemma saved_only_at y h h' x r fuel : only_at y h h' -> loaded_below h x y -> saved_on fuel h' x (Some r) <> Ok true.
  Proof.
    intros Ho Hb Hs. pose proof (below_only_at _ _ _ _ Ho Hb) as Hb'. destruct Ho as [_ (o & Hy & He)].
    destruct (C22_marks_lemma _ _ _ _ _ Hs Hb') as (o' & Hy' & Hr). rewrite Hy in Hy'. simplify_eq. set_solver.
  Qed.
  Lemma x_mapped fuel l o s g : s_heap s !! l = Some o -> h_mapped (o_hdr o) = true ->
    exec (ensure_mapped fuel l s) g = ((Ok false, s), g).
  Proof. intros Hl Hm. unfold ensure_mapped. by rewrite x_bind, x_getobj, Hl, Hm. Qed.
  Lemma x_set_body l b o s g : s_heap s !! l = Some o ->
    exec (set_body l b s) g = ((Ok tt, with_heap s (<[l := Obj (o_hdr o) b]> (s_heap s))), g).
  Proof. intros Hl. unfold set_body. rewrite x_bind, x_getobj, Hl. done. Qed.
  Lemma two_inserts (y : loc) (o1 o2 : obj) (h : heap) : h_saved (o_hdr o2) = ∅ -> only_at y h (<[y := o2]> (<[y := o1]> h)).
  Proof.
    intros Hs. split.
    - intros z Hz. by rewrite !heap_insert, !decide_False by done.
    - exists o2. by rewrite heap_insert, decide_True.
  Qed.
  Lemma modifies_only_at fuel y m o s g u s' g' : modifies fuel y m -> s_heap s !! y = Some o -> h_mapped (o_hdr o) = true ->
    exec (m s) g = ((Ok u, s'), g') -> only_at y (s_heap s) (s_heap s') /\ g' = g.
  Proof.
    intros Hm Hy Hmap.
    assert (HT : exists s1, s_heap s1 = <[y := Obj (hd_saved ∅ (o_hdr o)) (o_body o)]> (s_heap s) /\
                   exec (touch y s) g = ((Ok tt, s1), g)).
    { eexists. split; [|by apply x_set_hdr]. done. }
    destruct HT as (s1 & Hs1 & Et).
    assert (Hy1 : s_heap s1 !! y = Some (Obj (hd_saved ∅ (o_hdr o)) (o_body o))) by (rewrite Hs1, heap_insert; by rewrite decide_True).
    assert (HB : forall b, exec (set_body y b s1) g = ((Ok u, s'), g') -> only_at y (s_heap s) (s_heap s') /\ g' = g).
    { intros b. rewrite (x_set_body y b _ s1 g Hy1). intros He. inversion He; subst. split; [|done].
      change (s_heap (with_heap s1 ?h)) with h. rewrite Hs1. by apply two_inserts. }
    destruct Hm.
    - unfold add_child. rewrite x_bind, x_assert. destruct (negb _); [|done]. rewrite x_bind, x_assert. destruct (negb _); [|done].
      rewrite x_bind, (x_mapped fuel y o) by done. rewrite x_bind. unfold children. rewrite x_bind, x_getobj, Hy.
      cbn beta iota. destruct (o_body o) as [| |c d| | |] eqn:Eb; try done. rewrite x_ret. cbn beta iota.
      destruct (dmem _ _); [done|]. rewrite x_bind, Et. apply HB.
    - unfold remove_child. rewrite x_bind, (x_mapped fuel y o) by done. rewrite x_bind, Et. unfold children.
      rewrite x_bind, x_bind, x_getobj, Hy1. cbn [o_body]. destruct (o_body o) as [| |c d| | |] eqn:Eb; try done. rewrite x_ret. cbn beta iota.
      destruct (dmem _ _); [|done]. apply HB.
    - unfold metadata_add_run. rewrite x_bind, (x_mapped fuel y o) by done. rewrite x_bind, Et.
      rewrite x_bind, x_getobj, Hy1. cbn [o_body]. destruct (o_body o) as [m| | | | |] eqn:Eb; try done. rewrite x_bind, x_res.
      destruct (add_extractor_run m r); [|done]. apply HB.
    - unfold set_file_tree, mrr_parts. rewrite x_bind, (x_mapped fuel y o) by done. rewrite x_bind, Et.
      rewrite x_bind, x_bind, x_getobj, Hy1. cbn [o_body]. destruct (o_body o) as [| | |i v mm tt| |] eqn:Eb; try done. rewrite x_ret. apply HB.
    - unfold set_dataset_level_metadata, mrr_parts. rewrite x_bind, (x_mapped fuel y o) by done. rewrite x_bind, Et.
      rewrite x_bind, x_bind, x_getobj, Hy1. cbn [o_body]. destruct (o_body o) as [| | |i v mm tt| |] eqn:Eb; try done. rewrite x_ret. apply HB.
    - unfold set_versioned_element, versions. rewrite x_bind, (x_mapped fuel y o) by done. rewrite x_bind, Et.
      rewrite x_bind, x_bind, x_getobj, Hy1. cbn [o_body]. destruct (o_body o) as [| | | |k vs|] eqn:Eb; try done. rewrite x_ret. apply HB.
    - unfold set_version_list, uuid_entries. rewrite x_bind, Et.
      rewrite x_bind, x_bind, x_getobj, Hy1. cbn [o_body]. destruct (o_body o) as [| | | | |us] eqn:Eb; try done. rewrite x_ret. apply HB.
  Qed.
  Lemma C22_modify_lemma fuel fuel2 x y m o s g u s' g' r : modifies fuel y m -> s_heap s !! y = Some o -> h_mapped (o_hdr o) = true ->
    loaded_below (s_heap s) x y -> exec (m s) g = ((Ok u, s'), g') -> saved_on fuel2 (s_heap s') x (Some r) <> Ok true.
  Proof. intros Hm Hy Hmap Hb He. eapply saved_only_at; [|exact Hb]. by eapply modifies_only_at. Qed.
End Modify.

(** ** The three entry points together *)
Section Entry.
  Context `{Env}.
  Lemma C29_entry_lemma fuel l (destination : option pystr) force m s o (d : pystr) g g' :
    writes fuel l destination force m -> caches_ok s -> top_level_only (s_heap s) ->
    s_heap s !! l = Some o -> destination_of o destination = Some d -> d <> [] ->
    g' ∈ trace (m s) g \/ g' = snd (exec (m s) g) -> adds_to (s_heap s) d l g g'.
  Proof.
    intros Hw Hc Ht Hl Ho Hd. apply C29_lemma. eapply pall_weak. destruct Hw.
    - by eapply write_out_cmds.
    - by eapply proxy_cmds.
    - by eapply proxy_cmds.
  Qed.
  Lemma C31_entry_lemma fuel l (destination : option pystr) force m s o (d : pystr) g :
    writes (S fuel) l destination force m -> s_heap s !! l = Some o -> h_mapped (o_hdr o) = true ->
    destination_of o destination = Some d -> d <> [] -> is_remote d = true ->
    fst (fst (exec (m s) g)) = Err RuntimeError /\ events (m s) g = [].
  Proof.
    intros Hw Hl Hm Ho Hd Hr.
    assert (exists s', m s = Ret (Err RuntimeError, s')) as [s' ->]; [|done].
    destruct Hw; [eexists; by eapply C31_write_lemma|by eapply C31_proxy_lemma|by eapply C31_proxy_lemma].
  Qed.
  Lemma pall_events {A : Type} (P : cmd -> Prop) (Q : A -> Prop) p : forall g, pall P Q p -> Forall (fun e => P (snd e)) (events p g).
  Proof.
    induction p as [a|c k IH]; intros g; cbn; [intros; apply List.Forall_nil|].
    intros [H1 H2]. destruct (git c g) as [x g1]. apply List.Forall_cons; [done|]. by apply IH.
  Qed.
  Lemma C31_read_entry_lemma (r cp : pystr) fuel l o s g :
    is_remote r = true -> get_repo_cache_path r = Ok cp -> s_heap s !! l = Some o -> h_realm (o_hdr o) = Some r ->
    Forall (fun e => cmd_repo (snd e) = cp) (events (read_in fuel l s) g) /\ is_remote cp = false /\
    forall n g', n <> cp -> g' ∈ trace (read_in fuel l s) g \/ g' = snd (exec (read_in fuel l s) g) ->
      g_repos g' !! n = g_repos g !! n.
  Proof.
    intros Hr Hcp Hl Hrl. pose proof (C31_read_lemma r cp Hr Hcp fuel l o s Hl Hrl) as Hp. split_and!.
    - exact (pall_events _ _ _ g Hp).
    - by eapply cp_local.
    - intros n g' Hn Hg. refine (pall_trace _ _ (fun g g' => g_repos g' !! n = g_repos g !! n) _ g g' _ _ _ Hp Hg).
      + intros c g0 Hc. by eapply on_cache_local.
      + done.
      + intros a b c Hab Hbc. by rewrite Hbc, Hab.
  Qed.
  Lemma pall_no_events {A : Type} (Q : A -> Prop) p g : pall (fun _ => False) Q p -> events p g = [].
  Proof. destruct p; [done|]. by intros [[] _]. Qed.
  Lemma mrun_ret_events {A : Type} (m : prog A) g : (exists a, m = Ret a) -> events m g = [].
  Proof. by intros [a ->]. Qed.
  Lemma C26_noop_events_lemma fuel l o ref s g (d : pystr) : s_heap s !! l = Some o -> h_ref (o_hdr o) = Some ref ->
    (h_mapped (o_hdr o) = false -> is_some (h_realm (o_hdr o)) = true) ->
    d <> [] -> (h_mapped (o_hdr o) = true -> is_remote d = false) -> saved_on fuel (s_heap s) l (Some d) = Ok true ->
    exec (write_out fuel l (Some d) false s) g = ((Ok ref, realm_set s l d), g) /\
    events (write_out fuel l (Some d) false s) g = [].
  Proof.
    intros Hl Hr Hrl Hd Hrem Hs. split; [by eapply C26_noop_lemma|].
    assert (HG : forall l s, events (getobj l s) g = []). { intros l0 s0. unfold getobj. by destruct (s_heap s0 !! l0). }
    assert (HO : forall l s, events (own_reference l s) g = []).
    { intros l0 s0. unfold own_reference. rewrite e_bind, HG, x_getobj. destruct (s_heap s0 !! l0) as [o0|]; [|done]. cbn. by destruct (h_ref (o_hdr o0)). }
    assert (HS : forall fuel l d s, events (is_saved_on fuel l d s) g = []).
    { intros f0 l0 d0 s0. unfold is_saved_on. rewrite e_bind, x_get. cbn beta iota. by destruct (saved_on f0 (s_heap s0) l0 d0). }
    assert (HA : forall b s, events (massert b s : prog (res unit * pst)) g = []) by by intros [].
    destruct fuel as [|f]; [done|]. cbn [write_out]. rewrite e_bind, HG, x_getobj, Hl.
    destruct (h_mapped (o_hdr o)) eqn:Em; cbn [negb].
    - assert ((if truthy (h_realm (o_hdr o)) then or_else (Some d) (h_realm (o_hdr o)) else Some d) = Some d) as ->.
      { unfold or_else. destruct d; [done|]. by destruct (truthy _). }
      rewrite Hrem by done. rewrite e_bind, (x_set_hdr l _ o) by done.
      unfold set_hdr at 1. rewrite e_bind, HG, x_getobj, Hl. cbn [app]. rewrite e_bind, HS, x_is_saved.
      change (s_heap (with_heap s ?h)) with h. rewrite set_realm_saved by done. rewrite Hs. cbn [andb negb]. by rewrite HO.
    - rewrite e_bind, HA, x_assert, Hrl by done. rewrite e_bind, HA, x_assert, Hr. cbn [is_some].
      rewrite e_bind, HS, x_is_saved, Hs. by rewrite HO.
  Qed.
  Lemma C26_second_events_lemma fuel (d : pystr) l force s g ref s' g' : d <> [] -> caches_ok s -> top_level_only (s_heap s) ->
    exec (write_out fuel l (Some d) force s) g = ((Ok ref, s'), g') ->
    forall g2, exec (write_out fuel l (Some d) false s') g2 = ((Ok ref, realm_set s' l d), g2) /\
               events (write_out fuel l (Some d) false s') g2 = [].
  Proof.
    intros Hd Hc Ht He g2. destruct (written_saved fuel d l force s g ref s' g' Hd (conj Hc Ht) He) as [Hs (o & Hl & Hr & H1 & H2)].
    by eapply C26_noop_events_lemma.
  Qed.
End Entry.
