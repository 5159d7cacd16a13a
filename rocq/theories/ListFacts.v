(** Listing of trees whose parts are loaded on demand. *)
From Verif Require Import Base BaseFacts Path Spec_Path PathFacts Json Refs Meta Spec_Meta GitText Spec_Git Git Spec_Store State BlobCache ObjRef Objects Spec_Look Spec_Heap Spec_Versions Spec_Write ExecFacts LoadFacts PeekFacts TreeFacts TreeEditFacts VersionFacts LookFacts Spec_Content ContentFacts WriteFacts StoreFacts SaveFacts WriteBackFacts WriteAllFacts ReadBackFacts PurgeFacts EditFacts GraftFacts AddFacts.

(** ** Loading and unloading *)
Record calm1 (O : store) (r : pystr) (s s' : pst) (a : loc) : Prop := {
  ca_tidy : tidy O r s' a;
  ca_one : one_realm r (s_heap s') a;
  ca_look : forall q, look O (s_heap s') a q = look O (s_heap s) a q;
  ca_kind : forall o, s_heap s !! a = Some o -> exists o', s_heap s' !! a = Some o' /\ kind_of (o_body o') = kind_of (o_body o);
  ca_saved : full (look O (s_heap s) a) -> all_saved r (s_heap s) a -> all_saved r (s_heap s') a;
  ca_dirty : dirty (s_heap s) a -> dirty (s_heap s') a;
}.
Record calm (O : store) (r : pystr) (s s' : pst) : Prop := {
  ca_rest : rest_same s s';
  ca_old : forall a, tidy O r s a -> one_realm r (s_heap s) a -> calm1 O r s s' a;
}.
Lemma ca_refl O r s : calm O r s s.
Proof. split; [done|]. intros a Ha Ho. split; try done. eauto. Qed.
Lemma ca_trans O r a b c : calm O r a b -> calm O r b c -> calm O r a c.
Proof.
  intros [A1 A2] [B1 B2]. split; [by eapply rs_trans|]. intros x Hx Ho. destruct (A2 x Hx Ho) as [C1 C2 C3 C4 C5 C6]. destruct (B2 x C1 C2) as [D1 D2 D3 D4 D5 D6]. split; try done; auto.
  - intros q. by rewrite D3.
  - intros o H0. destruct (C4 o H0) as (o1 & H1 & E1). destruct (D4 o1 H1) as (o2 & H2 & E2). exists o2. split; [done|congruence].
  - intros Hf Hs. apply D5; [|auto]. eapply full_ext; [|exact Hf]. done.
Qed.
Lemma calm_quiet O r s s' : quiet O r s s' -> calm O r s s'.
Proof.
  intros HQ. pose proof (gs_loads _ _ (qu_good _ _ _ _ HQ)) as HL. split; [apply HL|]. intros a Ha Ho. assert (HS : is_Some (s_heap s !! a)).
  { destruct (tidy_root _ _ _ _ Ha) as (o & Hx & _). eauto. }
  split.
  - by eapply qu_tidy; [exact HQ| |].
  - by eapply qu_one; [exact HQ| |].
  - intros q. by eapply qu_look; [exact HQ|].
  - intros o H0. destruct (lo_obj _ _ HL a o H0) as (o' & H1 & H2 & _). eauto.
  - intros Hf. apply (qu_saved _ _ _ _ HQ a HS); [apply Ha|done].
  - intros (p & x & Hp & (o & Hx & Hm & Hs)). exists p, x. split; [by eapply loads_reach|]. destruct (lo_obj _ _ HL x o Hx) as (o' & H1 & _ & H2). rewrite (H2 Hm) in H1. by exists o.
Qed.
Lemma calm_drops O r s h' : r <> [] -> drops (marked r) (s_heap s) h' -> calm O r s (with_heap s h').
Proof.
  intros Hr Hd. split; [done|]. intros a Ha Ho. split.
  - by eapply dr_tidy.
  - by eapply dr_one_realm.
  - intros q. by apply (dr_look O r s (with_heap s h') q Hd).
  - intros o H0. destruct (dr_get _ _ _ _ _ Hd H0) as (o' & H1 & [->|(-> & _)]); [eauto|]. exists (dropped o). split; [done|]. unfold dropped. cbn. by rewrite unloaded_kind.
  - intros _ Hs p x o' Hp Hx. cbn [with_heap s_heap] in *. destruct (dr_back _ _ _ _ _ Hd Hx) as (o & H0 & Hc). pose proof (Hs p x o (dr_reach _ _ _ _ Hd _ _ Hp) H0) as Hi.
    by destruct Hc as [->|(-> & _)].
  - intros (p & x & Hp & (o & Hx & Hm & Hs)). exists p, x. cbn [with_heap s_heap]. assert (Hn : ~ marked r o) by (intros [Hi|[Hi _]]; [rewrite Hs in Hi; set_solver|congruence]).
    split; [by destruct (dr_lost _ _ _ _ Hd _ _ _ Hp Hx)|]. destruct (dr_get _ _ _ _ _ Hd Hx) as (o' & H1 & [->|(-> & _ & Hall)]); [by exists o|]. exfalso. apply Hn. by apply (Hall [] x o).
Qed.

(** ** Purging *)
(** There is something [n] or, with its last step, [n + 1] steps down. *)
Definition deep (n : nat) (c : content) : Prop := exists p lb, n <= S (length p) /\ c p = Seen lb.
Lemma look_root O r s l : tidy O r s l -> exists lb, look O (s_heap s) l [] = Seen lb.
Proof.
  intros HT. destruct (tidy_root _ _ _ _ HT) as (o & Ho & _ & Hb). cbn [look] in *. rewrite Ho in *. destruct (h_mapped (o_hdr o)); [eauto|].
  destruct (h_ref (o_hdr o)) as [ref|]; [|done]. cbn [look_stored] in *. destruct (stored O (kind_of (o_body o)) ref) as [[? ?]|]; [eauto|done].
Qed.
Lemma deep_reach O r s l p x : tidy O r s l -> reach (s_heap s) l p = Some x -> deep (length p) (look O (s_heap s) l).
Proof.
  intros HT. destruct p as [|k p _] using rev_ind; intros Hp.
  - destruct (look_root _ _ _ _ HT) as [lb Hl]. exists [], lb. split; [cbn; lia|done].
  - rewrite reach_app in Hp. destruct (reach (s_heap s) l p) as [z|] eqn:Hz; [|done]. cbn [reach] in Hp. destruct (s_heap s !! z) as [o|] eqn:Ho; [|done].
    destruct (h_mapped (o_hdr o)) eqn:Em; [|done]. destruct (dget (kids_of (o_body o)) k) as [y|] eqn:Ek; [|done].
    assert (Hh : is_hollow (o_body o) = false) by by eapply kids_not_hollow.
    pose proof (reach_look O _ _ _ _ _ Hz Ho Em Hh []) as E. rewrite app_nil_r in E. destruct (look_root _ _ _ _ (tidy_reach _ _ _ _ _ _ HT Hz)) as [lb Hl].
    exists p, lb. rewrite E. split; [rewrite app_length; cbn; lia|done].
Qed.

Section Purge.
  Context `{Env}.
  Context (O : store) (r : pystr) (g : gstate) (Hr : r <> []).
  Lemma purge_calm fuel s l : tidy O r s l -> one_realm r (s_heap s) l -> exists res s', exec (purge fuel l s) g = ((res, s'), g) /\ calm O r s s' /\
    match res with
    | Ok _ => ~ dirty (s_heap s) l
    | Err e => (e = ValueError /\ dirty (s_heap s) l) \/ (e = AttributeError /\ exists p i v, look O (s_heap s) l p = Seen (LbMrr i v) /\ look O (s_heap s) l (p ++ [KMeta]) = Absent) \/ (e = RecursionError /\ deep fuel (look O (s_heap s) l))
    end.
  Proof using Hr.
    intros HT Ho. destruct (tidy_root _ _ _ _ HT) as (o & Hl & _).
    destruct (purge_run (marked r) (marked_dropped r) fuel l s g (td_heap _ _ _ _ HT) (ex_intro _ o Hl) (purgeable_tidy _ _ _ _ HT Ho)) as (res & s' & Hx & (h' & ->) & Hd & Hres).
    exists res, (with_heap s h'). split; [done|]. split; [by apply calm_drops|]. destruct res as [u|e].
    - destruct Hres as [Hall _]. intros (p & x & Hp & (ox & Hox & Hm & Hs)). destruct (Hall p x ox Hp Hox) as [Hi|[Hi _]]; [rewrite Hs in Hi; set_solver|congruence].
    - destruct Hres as [(-> & p & x & ox & H1 & H2 & H3 & H4)|[(-> & p & x & hx & i & v & t & H1 & H2 & H3)|(-> & p & Hn & x & Hp)]]; [left|right; left|do 2 right]; (split; [done|]).
      + exists p, x. split; [done|]. by exists ox.
      + exists p, i, v. assert (E : forall q, look O (s_heap s) l (p ++ q) = look O (s_heap s) x q) by (by eapply reach_look).
        rewrite E. rewrite <- (app_nil_r p) at 1. rewrite E. cbn [look]. rewrite H2. cbn [o_hdr o_body]. rewrite H3. split; [done|]. cbn. by destruct t.
      + rewrite <- Hn. by eapply deep_reach.
  Qed.
End Purge.

(** ** Listing *)
Lemma listable_ext (c c' : content) : (forall p, c' p = c p) -> listable c -> listable c'.
Proof.
  intros He [L1 L2 L3]. split; [by eapply full_ext|..].
  - intros p n lb. rewrite He. apply L2.
  - intros p i v. rewrite !He. apply L3.
Qed.
Lemma listable_kid (c : content) k : listable c -> listable (fun p => c (k :: p)).
Proof.
  intros [L1 L2 L3]. split.
  - intros p cl Hp Hn. by apply (L1 (k :: p) cl).
  - intros p n lb Hp. by apply (L2 (k :: p) n lb).
  - intros p i v. apply (L3 (k :: p) i v).
Qed.
Lemma storable_good n : storable_name n -> n <> ps "." -> good_name n.
Proof. by intros (H1 & _ & H2 & _) Hn. Qed.
(** What is listed. *)
Definition shown (inter : bool) (lb : label) : Prop := inter = true \/ forall c, lb <> LbNode c.
Record lists (O : store) (r : pystr) (inter : bool) (c : content) (s : pst) (xs : list (ppath * loc)) : Prop := {
  ls_paths : Forall (fun px => wfp (fst px)) xs;
  ls_once : NoDup (map (fun px => p_parts (fst px)) xs);
  ls_exact : forall q, In q (map (fun px => p_parts (fst px)) xs) <-> exists lb, c (map KName q) = Seen lb /\ shown inter lb;
  ls_objs : forall p x, In (p, x) xs -> tidy O r s x /\ one_realm r (s_heap s) x /\ forall q, look O (s_heap s) x q = c (map KName (p_parts p) ++ q);
}.
Lemma ls_calm O r inter c s s' xs : calm O r s s' -> lists O r inter c s xs -> lists O r inter c s' xs.
Proof.
  intros HC [L1 L2 L3 L4]. split; try done. intros p x Hx. destruct (L4 p x Hx) as (A & B & E). destruct (ca_old _ _ _ _ HC x A B) as [D1 D2 D3 _ _ _].
  split_and!; try done. intros q. by rewrite D3.
Qed.
Lemma ls_ext O r inter c c' s xs : (forall q, c' q = c q) -> lists O r inter c s xs -> lists O r inter c' s xs.
Proof.
  intros He [L1 L2 L3 L4]. split; try done.
  - intros q. rewrite L3. by rewrite He.
  - intros p x Hx. destruct (L4 p x Hx) as (A & B & E). split_and!; try done. intros q. by rewrite He.
Qed.
(** [xs] for the entry [n] of a directory *)
Definition lists_at (O : store) (r : pystr) (inter : bool) (c : content) (s : pst) (n : pystr) (xs : list (ppath * loc)) : Prop :=
  lists O r inter (fun q => match q with KName m :: q' => if decide (m = n) then c q' else Absent | _ => Absent end) s xs.
(** one more directory name in front *)
Lemma ls_front O r inter c s n xs : good_name n -> lists O r inter c s xs ->
  lists_at O r inter c s n (map (fun px => (truediv (MetadataPath [AStr n]) (APath (fst px)), snd px)) xs).
Proof.
  intros Hn [L1 L2 L3 L4]. assert (Hw : wfp (MetadataPath [AStr n]) /\ p_parts (MetadataPath [AStr n]) = [n]).
  { destruct (parts_again [n]) as [A B]; [by apply List.Forall_cons; [|apply List.Forall_nil]|]. split; [done|]. by rewrite <- wfp_all. }
  destruct Hw as [Hw Hp].
  assert (HP : forall px, In px xs -> p_parts (truediv (MetadataPath [AStr n]) (APath (fst px))) = n :: p_parts (fst px)).
  { intros px Hx. rewrite List.Forall_forall in L1. rewrite truediv_path by auto. cbn [p_parts]. by rewrite Hp. }
  assert (HM : map (fun px => p_parts (fst px)) (map (fun px => (truediv (MetadataPath [AStr n]) (APath (fst px)), snd px)) xs) = map (cons n) (map (fun px => p_parts (fst px)) xs)).
  { rewrite !map_map. apply map_ext_in. intros px Hx. cbn [fst]. by apply HP. }
  split.
  - apply List.Forall_forall. intros px Hx. apply in_map_iff in Hx as (py & <- & Hy). cbn [fst]. apply truediv_wf; [done|]. rewrite List.Forall_forall in L1. auto.
  - rewrite HM. apply (NoDup_fmap_2 (cons n)), L2.
  - intros q. rewrite HM, in_map_iff. split.
    + intros (q' & <- & Hq). apply L3 in Hq. cbn [map]. by rewrite decide_True.
    + intros (lb & Hq & Hs). destruct q as [|m q]; [done|]. cbn [map] in Hq. destruct (decide (m = n)) as [->|]; [|done]. exists q. split; [done|]. apply L3. eauto.
  - intros p x Hx. apply in_map_iff in Hx as ([p' x'] & E & Hy). cbn [fst snd] in E. injection E as <- <-. destruct (L4 p' x' Hy) as (A & B & E). split_and!; try done.
    intros q. pose proof (HP _ Hy) as E2. cbn [fst] in E2. rewrite E2. cbn [map app]. rewrite decide_True by done. apply E.
Qed.

Section List.
  Context `{Env}.
  Context (r : pystr) (g : gstate) (Hrem : is_remote r = false) (Hr : r <> []).
  Notation O := (objs_of g r).

  (** Loaded or saved here. *)
  Definition home_mark (h : heap) (l : loc) : Prop := forall o, h !! l = Some o -> h_mapped (o_hdr o) = false -> r ∈ h_saved (o_hdr o).
  Definition listing (n : nat) (inter : bool) (f : loc -> M pst (list (ppath * loc))) : Prop := forall s x hx c d,
    tidy O r s x -> one_realm r (s_heap s) x -> s_heap s !! x = Some (Obj hx (BNode c d)) -> listable (look O (s_heap s) x) -> home_mark (s_heap s) x ->
    exists res s', exec (f x s) g = ((res, s'), g) /\ calm O r s s' /\
      match res with Ok xs => lists O r inter (look O (s_heap s) x) s' xs | Err e => e = RecursionError /\ deep n (look O (s_heap s) x) end.

  (** the entries, one after the other *)
  Definition entry (rec : loc -> M pst (list (ppath * loc))) (nl : pystr * loc) : M pst (list (ppath * loc)) :=
    mlet node <- is_mtreenode (snd nl);
    if node : bool then
      mlet sub <- rec (snd nl);
      mret (map (fun px => (truediv (MetadataPath [AStr (fst nl)]) (APath (fst px)), snd px)) sub)
    else mret [(MetadataPath [AStr (fst nl)], snd nl)].
  Definition solid (c : content) : Prop := forall cl, c [] = Seen (LbNode cl) -> exists k lb, c [k] = Seen lb.
  Definition part_of (s1 : pst) (nl : pystr * loc) : Prop :=
    good_name (fst nl) /\ tidy O r s1 (snd nl) /\ one_realm r (s_heap s1) (snd nl) /\ listable (look O (s_heap s1) (snd nl)) /\ solid (look O (s_heap s1) (snd nl)).
  (** what is not loaded has entries *)
  Lemma full_home s x : tidy O r s x -> solid (look O (s_heap s) x) -> home_mark (s_heap s) x.
  Proof.
    intros HT Hf o Ho Hm. destruct (td_home _ _ _ _ HT [] x o eq_refl Ho Hm) as (_ & _ & ref & Hrf & [Hn|Hi]); [|done]. exfalso.
    assert (Hst : stored O (kind_of (o_body o)) ref = match kind_of (o_body o) with KdNode c => if jis_str (r_class ref) (ps "MTreeNode") then Ok (BNode c [], []) else Err AssertionError | _ => Err Unmodelled end)
      by (unfold stored; by rewrite Hn).
    assert (HL : forall q, look O (s_heap s) x q = look_stored O (kind_of (o_body o)) ref q) by (intros q; destruct q; cbn [look]; by rewrite Ho, Hm, Hrf).
    destruct (td_complete _ _ _ _ HT []) as (C1 & _). rewrite HL in C1. cbn [look_stored] in C1. rewrite Hst in C1.
    destruct (kind_of (o_body o)) as [| |c0| | |] eqn:Ek; try done. destruct (jis_str (r_class ref) (ps "MTreeNode")) eqn:Ej; [|done].
    destruct (Hf c0) as (k & lb & Hk).
    - rewrite HL. cbn [look_stored]. by rewrite Hst.
    - rewrite HL in Hk. cbn [look_stored] in Hk. by rewrite Hst in Hk.
  Qed.
  Lemma part_calm s1 s2 nl : calm O r s1 s2 -> part_of s1 nl -> part_of s2 nl /\ forall q, look O (s_heap s2) (snd nl) q = look O (s_heap s1) (snd nl) q.
  Proof.
    intros HC (H1 & H2 & H3 & H4 & H5). destruct (ca_old _ _ _ _ HC _ H2 H3) as [D1 D2 D3 D4 D5 D6]. unfold part_of. split; [|done]. split_and!; try done.
    - eapply listable_ext; [|exact H4]. done.
    - intros cl. rewrite D3. intros Hc. destruct (H5 cl Hc) as (k & lb & Hk). exists k, lb. by rewrite D3.
  Qed.
  Lemma entry_run f inter rec s nl : listing f inter rec -> part_of s nl -> exists res s', exec (entry rec nl s) g = ((res, s'), g) /\ calm O r s s' /\ match res with Ok xs => lists_at O r inter (look O (s_heap s) (snd nl)) s' (fst nl) xs | Err e => e = RecursionError /\ deep f (look O (s_heap s) (snd nl)) end.
  Proof.
    intros Hrec (H1 & H2 & H3 & H4 & H5). destruct nl as [n x]. cbn [fst snd] in *. destruct (tidy_root _ _ _ _ H2) as (o & Ho & _ & Hb).
    unfold entry. cbn [fst snd]. rewrite x_bind, (x_is_node _ _ _ _ Ho). cbn beta iota. destruct (is_node o) eqn:En.
    - destruct o as [hx b]. destruct b as [| |c d| | |]; try done.
      destruct (Hrec s x hx c d H2 H3 Ho H4 (full_home s x H2 H5)) as (res & s' & Hx & HC & HL). rewrite x_bind, Hx. cbn beta iota. destruct res as [xs|e].
      + eexists (Ok _), s'. rewrite x_ret. split; [done|]. split; [done|]. by apply ls_front.
      + exists (Err e), s'. done.
    - eexists (Ok _), s. rewrite x_ret. split; [done|]. split; [apply ca_refl|].
      assert (Hw : wfp (MetadataPath [AStr n]) /\ p_parts (MetadataPath [AStr n]) = [n]).
      { destruct (parts_again [n]) as [A B]; [by apply List.Forall_cons; [|apply List.Forall_nil]|]. split; [done|]. by rewrite <- wfp_all. }
      destruct Hw as [Hw Hp]. destruct (look_root _ _ _ _ H2) as [lb El].
      assert (Hnn : forall c, lb <> LbNode c). { intros c ->. destruct (lab_node _ _ _ _ _ _ H2 Ho El) as [_ Hx]. rewrite Hx in En; [done|by exists c]. }
      split.
      + apply List.Forall_cons; [done|apply List.Forall_nil].
      + cbn [map fst]. apply NoDup_singleton.
      + intros q. cbn [map fst]. rewrite Hp. split.
        * intros [<-|[]]. exists lb. cbn [map]. rewrite decide_True by done. split; [done|]. by right.
        * intros (lb' & Hq & _). left. destruct q as [|m q]; [done|]. cbn [map] in Hq. destruct (decide (m = n)) as [->|]; [|done]. destruct q as [|m2 q]; [done|].
          cbn [map] in Hq. rewrite (look_leaf r g s x o m2 _ H2 Ho En) in Hq. done.
      + intros p y [E|[]]. injection E as <- <-. split_and!; try done. intros q. rewrite Hp. cbn [map app]. by rewrite decide_True.
  Qed.
  Lemma entries_run n inter rec : listing n inter rec -> forall ds s, Forall (part_of s) ds -> exists res s', exec (mmap (entry rec) ds s) g = ((res, s'), g) /\ calm O r s s' /\ match res with Ok xss => Forall2 (fun nl xs => lists_at O r inter (look O (s_heap s) (snd nl)) s' (fst nl) xs) ds xss | Err e => e = RecursionError /\ exists nl, In nl ds /\ deep n (look O (s_heap s) (snd nl)) end.
  Proof.
    intros Hrec. induction ds as [|nl ds IH]; intros s Hds; cbn [mmap].
    - exists (Ok []), s. rewrite x_ret. split; [done|]. split; [apply ca_refl|constructor].
    - apply List.Forall_cons_iff in Hds as [Hnl Hds]. destruct (entry_run n inter rec s nl Hrec Hnl) as (res & s1 & Hx & HC & HL). rewrite x_bind, Hx. cbn beta iota. destruct res as [xs|e].
      2:{ exists (Err e), s1. destruct HL as [-> HL]. split; [done|]. split; [done|]. split; [done|]. exists nl. split; [by left|done]. }
      destruct (IH s1) as (res & s2 & Hx2 & HC2 & HL2). { eapply Forall_impl; [exact Hds|]. intros nl2 H2. by eapply part_calm. }
      rewrite x_bind, Hx2. cbn beta iota. destruct res as [xss|e].
      + exists (Ok (xs :: xss)), s2. rewrite x_ret. split; [done|]. split; [by eapply ca_trans|]. constructor; [by eapply ls_calm|]. clear -HL2 HC Hds.
        induction HL2 as [|nl2 xs2 ds xss HL HL2 IH]; [constructor|]. apply List.Forall_cons_iff in Hds as [Hnl Hds]. constructor; [|by apply IH].
        eapply ls_ext; [|exact HL]. intros q. destruct q as [|k q]; [done|]. destruct k; try done. destruct (decide (n = nl2.1)); [|done]. symmetry. by eapply part_calm.
      + exists (Err e), s2. split; [done|]. split; [by eapply ca_trans|]. destruct HL2 as (-> & nl2 & Hin & p & lb & Hn & Hlb). split; [done|]. exists nl2. split; [by right|]. exists p, lb. split; [done|].
        rewrite List.Forall_forall in Hds. destruct (part_calm _ _ nl2 HC (Hds _ Hin)) as [_ E]. by rewrite <- E.
  Qed.
  (** all entries together *)
  Lemma ls_concat inter c s (ds : list (pystr * loc)) xss : NoDup (map fst ds) -> Forall2 (fun nl xs => lists_at O r inter (fun q => c (KName (fst nl) :: q)) s (fst nl) xs) ds xss ->
    (forall n q lb, c (KName n :: q) = Seen lb -> In n (map fst ds)) ->
    lists O r inter (fun q => match q with KName _ :: _ => c q | _ => Absent end) s (concat xss).
  Proof.
    intros Hnd HF Hin. assert (Hcomplete : forall q, In q (map (fun px => p_parts (fst px)) (concat xss)) <-> exists n q', q = n :: q' /\ In n (map fst ds) /\ exists lb, c (map KName q) = Seen lb /\ shown inter lb).
    { clear Hin Hnd. induction HF as [|nl xs ds xss HL HF IH]; intros q.
      - cbn. split; [done|]. by intros (n & q' & _ & [] & _).
      - cbn [concat]. rewrite map_app, in_app_iff, IH, (ls_exact _ _ _ _ _ _ HL). cbn [map]. split.
        + intros [(lb & Hq & Hs)|(n & q' & -> & Hn & Hq)].
          * destruct q as [|n q']; [done|]. cbn [map] in Hq. destruct (decide (n = nl.1)) as [->|]; [|done]. exists (fst nl), q'. split_and!; [done|by left|]. eauto.
          * exists n, q'. split_and!; [done|by right|done].
        + intros (n & q' & -> & Hn & Hq). destruct (decide (n = nl.1)) as [->|Hne].
          * left. destruct Hq as (lb & Hq & Hs). exists lb. cbn [map] in Hq |- *. by rewrite decide_True.
          * right. exists n, q'. split_and!; [done| |done]. destruct Hn as [<-|Hn]; done. }
    split.
    - clear Hin Hcomplete Hnd. induction HF as [|nl xs ds xss HL HF IH]; [apply List.Forall_nil|]. cbn [concat]. apply Forall_app. split; [apply HL|done].
    - clear Hin Hcomplete. induction HF as [|nl xs ds xss HL HF IH]; [apply NoDup_nil_2|]. cbn [concat map] in *. apply NoDup_cons in Hnd as [Hn1 Hn2]. rewrite map_app. apply NoDup_app.
      split_and!; [apply HL| |by apply IH]. intros q Hq1 Hq2. rewrite elem_of_list_In in Hq1, Hq2. apply (ls_exact _ _ _ _ _ _ HL) in Hq1 as (lb & Hq1 & _).
      destruct q as [|n q]; [done|]. cbn [map] in Hq1. destruct (decide (n = nl.1)) as [->|]; [|done]. apply Hn1. clear IH HL Hn1 Hn2 Hq1.
      induction HF as [|nl2 xs2 ds xss HL HF IH]; [done|]. cbn [concat] in Hq2. rewrite map_app in Hq2. apply in_app_iff in Hq2 as [Hq2|Hq2]; cbn [map].
      + apply (ls_exact _ _ _ _ _ _ HL) in Hq2 as (lb2 & Hq2 & _). cbn [map] in Hq2. destruct (decide (nl.1 = nl2.1)) as [->|]; [|done]. by left.
      + right. by apply IH.
    - intros q. rewrite Hcomplete. split.
      + intros (n & q' & -> & _ & Hq). exact Hq.
      + intros (lb & Hq & Hs). destruct q as [|n q]; [done|]. cbn [map] in Hq. exists n, q. split; [done|]. split; [exact (Hin _ _ _ Hq)|]. by exists lb.
    - clear Hin Hcomplete Hnd. intros p x Hx. induction HF as [|nl xs ds xss HL HF IH]; [done|]. cbn [concat] in Hx. apply in_app_iff in Hx as [Hx|Hx]; [|by apply IH].
      destruct (ls_objs _ _ _ _ _ _ HL p x Hx) as (A & B & E). split_and!; try done. intros q. rewrite E.
      assert (Hp : In (p_parts p) (map (fun px => p_parts (fst px)) xs)) by (apply in_map_iff; by exists (p, x)). apply (ls_exact _ _ _ _ _ _ HL) in Hp as (lb & Hp & _).
      destruct (p_parts p) as [|n q']; [done|]. cbn [map app] in *. by destruct (decide (n = nl.1)) as [->|].
  Qed.

  Lemma list_calm inter fuel : listing fuel inter (get_paths_recursive fuel inter).
  Proof using Hrem Hr.
    induction fuel as [|f IH]; intros s x hx c d HT H1 Hx HL Hhm.
    - exists (Err RecursionError), s. split; [done|]. split; [apply ca_refl|]. split; [done|]. destruct (look_root _ _ _ _ HT) as [lb Hl]. exists [], lb. split; [lia|done].
    - assert (Hlk : look O (s_heap s) x [] <> Broken) by apply (td_complete _ _ _ _ HT []).
      assert (Hhome : h_mapped hx = false -> home1 r (Obj hx (BNode c d))) by (intros Hm; exact (td_home _ _ _ _ HT [] x _ eq_refl Hx Hm)).
      destruct (ensure_quiet r g Hrem Hr (S f) s x _ (td_heap _ _ _ _ HT) Hx Hhome Hlk) as (b & s1 & o1 & He & HQ & Ho1 & Hm1 & Hk1).
      destruct (kind_node o1 c Hk1) as [d1 E]. destruct o1 as [hx1 b1]. cbn in E. injection E as ->. cbn [o_hdr] in Hm1. clear Hk1.
      assert (Hneed : b = true -> all_saved r (s_heap s) x).
      { intros ->. unfold ensure_mapped in He. rewrite x_bind, x_getobj, Hx in He. cbn beta iota in He. cbn [o_hdr] in He. destruct (h_mapped hx) eqn:Em; [rewrite x_ret in He; done|].
        intros [|k p] y oy Hp Hy; cbn [reach] in Hp; [injection Hp as <-; rewrite Hx in Hy; injection Hy as <-; by apply (Hhm _ Hx)|]. rewrite Hx in Hp. cbn [o_hdr] in Hp. by rewrite Em in Hp. }
      pose proof (calm_quiet _ _ _ _ HQ) as HC1. destruct (ca_old _ _ _ _ HC1 x HT H1) as [D1 D2 D3 D4 D5 D6].
      assert (Hlook : forall n q, look O (s_heap s) x (KName n :: q) = match dget d1 n with Some y => look O (s_heap s1) y q | None => Absent end).
      { intros n q. rewrite <- D3. cbn [look]. rewrite Ho1. cbn [o_hdr o_body]. rewrite Hm1, kids_names. by destruct (dget d1 n). }
      assert (Hnd : NoDup (dkeys d1)). { apply (kids_node_keys _ c). apply (td_heap _ _ _ _ D1 x _ Ho1). }
      assert (Hparts : Forall (part_of s1) d1).
      { apply List.Forall_forall. intros [n y] Hin. pose proof (TreeFacts.In_dget _ _ _ Hnd Hin) as Hdn. assert (Hdk : dget (kids_of (BNode c d1)) (KName n) = Some y) by by rewrite kids_names.
        destruct (tidy_kid_label O r s1 x _ (KName n) y D1 Ho1 Hm1 Hdk eq_refl) as (oy & lb & Hoy & Hly & _ & Hpo).
        assert (Hly2 : forall q, look O (s_heap s1) y q = look O (s_heap s) x (KName n :: q)) by (intros q; by rewrite Hlook, Hdn).
        split_and!; cbn [fst snd].
        - cbn in Hpo. apply storable_good; [apply Hpo|]. apply (li_name _ HL [] n lb). cbn [app]. by rewrite <- Hly2.
        - by eapply tidy_kid; [exact D1|exact Ho1| |exact Hdk].
        - intros p z oz Hp. apply (D2 (KName n :: p)). cbn [reach]. rewrite Ho1. cbn [o_hdr o_body]. by rewrite Hm1, Hdk.
        - eapply listable_ext; [exact Hly2|]. by apply (listable_kid (look O (s_heap s) x) (KName n)).
        - intros cl. rewrite Hly2. intros Hc. destruct (li_full _ HL [KName n] cl Hc) as (k & lb2 & Hk); [done|]. exists k, lb2. by rewrite Hly2. }
      cbn [get_paths_recursive]. rewrite x_bind. unfold with_mapped. rewrite x_bind, He. cbn beta iota. rewrite x_finally, x_bind, (x_children _ _ _ _ _ _ Ho1). cbn beta iota. cbn [snd].
      change (fun nl : pystr * loc => _) with (entry (get_paths_recursive f inter)).
      destruct (entries_run f inter _ IH d1 s1 Hparts) as (res & s2 & Hx2 & HC2 & HL2). rewrite Hx2. cbn beta iota.
      assert (HC12 : calm O r s s2) by by eapply ca_trans.
      assert (Hpurge : exists u s3, exec ((if b then purge (S f) x else mret tt) s2) g = ((u, s3), g) /\ calm O r s2 s3 /\ match u with Ok _ => True | Err e => e = RecursionError /\ deep (S f) (look O (s_heap s) x) end).
      { destruct b; [|exists (Ok tt), s2; rewrite x_ret; split; [done|]; split; [apply ca_refl|done]]. destruct (ca_old _ _ _ _ HC12 x HT H1) as [E1 E2 E3 E4 E5 E6].
        destruct (purge_calm O r g Hr (S f) s2 x E1 E2) as (u & s3 & Hx3 & HC3 & Hu). exists u, s3. split; [done|]. split; [done|]. destruct u as [u|e]; [done|].
        destruct Hu as [(-> & p & y & Hp & (oy & Hoy & Hmy & Hsy))|[(-> & p & i & v & Hp1 & Hp2)|(-> & p & lb & Hn & Hp)]]; [| |split; [done|]; exists p, lb; split; [done|]; by rewrite <- E3].
        - exfalso. pose proof (E5 (li_full _ HL) (Hneed eq_refl) p y oy Hp Hoy) as Hi. rewrite Hsy in Hi. set_solver.
        - exfalso. rewrite E3 in Hp1. rewrite E3 in Hp2. by apply (li_meta _ HL p i v). }
      destruct Hpurge as (u & s3 & Hx3 & HC3 & Hu). rewrite Hx3. cbn beta iota. assert (HC : calm O r s s3) by by eapply ca_trans.
      destruct u as [u|e]; [|by exists (Err e), s3]. destruct res as [xss|e].
      2:{ exists (Err e), s3. split; [done|]. split; [done|]. destruct HL2 as (-> & [n y] & Hin & p & lb & Hn & Hp). split; [done|]. exists (KName n :: p), lb. split; [cbn; lia|].
          rewrite Hlook, (TreeFacts.In_dget _ _ _ Hnd Hin). done. }
      rewrite x_ret.
      eexists (Ok _), s3. split; [done|]. split; [done|].
      assert (HLL : lists O r inter (fun q => match q with KName _ :: _ => look O (s_heap s) x q | _ => Absent end) s3 (concat xss)).
      { eapply ls_calm; [exact HC3|]. apply (ls_concat inter (look O (s_heap s) x) s2 d1 xss).
        - exact Hnd.
        - clear -HL2 Hlook Hnd. assert (Hsub : forall nl, In nl d1 -> dget d1 (fst nl) = Some (snd nl)) by (intros [n y] Hin; by apply TreeFacts.In_dget).
          revert HL2 Hsub. generalize d1 at 1 2 4 as ds. intros ds HL2. induction HL2 as [|nl xs ds xss HL HL2 IH]; intros Hsub; constructor; [|apply IH; intros nl2 H2; apply Hsub; by right].
          eapply ls_ext; [|exact HL]. intros q. destruct q as [|k q]; [done|]. destruct k; try done. destruct (decide (n = nl.1)); [|done]. rewrite Hlook. by rewrite (Hsub nl) by (by left).
        - intros n q lb Hq. rewrite Hlook in Hq. destruct (dget d1 n) as [y|] eqn:Ed; [|done]. apply dget_Some_In in Ed. apply in_map_iff. by exists (n, y). }
      assert (Hroot : look O (s_heap s) x [] = Seen (LbNode c)) by (rewrite <- D3; cbn [look]; rewrite Ho1; cbn [o_hdr o_body]; by rewrite Hm1).
      destruct HLL as [L1 L2 L3 L4]. destruct (ca_old _ _ _ _ HC x HT H1) as [E1 E2 E3 E4 E5 E6].
      assert (Hw : wfp (MetadataPath [AStr []]) /\ p_parts (MetadataPath [AStr []]) = []) by (split; [split; [done|constructor]|done]). destruct Hw as [Hw Hp].
      assert (Hin : forall q, q <> [] -> In q (map (fun px => p_parts (fst px)) (concat xss)) <-> exists lb, look O (s_heap s) x (map KName q) = Seen lb /\ shown inter lb).
      { intros q Hq. rewrite L3. by destruct q as [|n q]. }
      assert (Hno : ~ In [] (map (fun px => p_parts (fst px)) (concat xss))). { rewrite L3. by intros (lb & Hb & _). }
      assert (HO : forall p y, In (p, y) (concat xss) -> tidy O r s3 y /\ one_realm r (s_heap s3) y /\ forall q, look O (s_heap s3) y q = look O (s_heap s) x (map KName (p_parts p) ++ q)).
      { intros p y Hy. destruct (L4 p y Hy) as (A & B & E). split_and!; try done. intros q. rewrite E. destruct (p_parts p) as [|n q'] eqn:Ep; [|done].
        exfalso. apply Hno. apply in_map_iff. exists (p, y). done. }
      destruct inter; cbn [app].
      + split.
        * by apply List.Forall_cons.
        * cbn [map fst]. rewrite Hp. apply NoDup_cons. split; [|done]. by rewrite elem_of_list_In.
        * intros q. cbn [map fst In]. rewrite Hp. destruct q as [|n q].
          { split; [|by left]. intros _. exists (LbNode c). split; [done|by left]. }
          rewrite Hin by done. split; [intros [?|?]; done|by right].
        * intros p y [E|Hy]; [|by apply HO]. injection E as <- <-. split_and!; try done.
      + split; try done. intros q. destruct q as [|n q]; [|by apply Hin]. split; [done|]. intros (lb & Hb & [?|Hb2]); [done|]. cbn [map] in Hb. rewrite Hroot in Hb. injection Hb as <-. by destruct (Hb2 c).
  Qed.
End List.

Lemma C17_contents_lemma `{Env} (r : pystr) (Hr : r <> []) (Hrem : is_remote r = false) (inter : bool) (fuel : nat) (l : loc) (hx : hdr) (cl : leafcls) (d : pydict pystr loc) (s : pst) (g : gstate) res s' g' :
  tidy (objs_of g r) r s l -> one_realm r (s_heap s) l -> s_heap s !! l = Some (Obj hx (BNode cl d)) -> (h_mapped hx = false -> r ∈ h_saved hx) ->
  let c := look (objs_of g r) (s_heap s) l in
  listable c -> exec (get_paths_recursive fuel inter l s) g = ((res, s'), g') ->
  g' = g /\ tidy (objs_of g r) r s' l /\ (forall q, look (objs_of g r) (s_heap s') l q = c q) /\
  match res with
  | Ok xs => NoDup (map fst xs) /\
      (forall p x, In (p, x) xs -> is_metadata_path p /\ forall q, look (objs_of g r) (s_heap s') x q = c (map KName (all_parts p) ++ q)) /\
      forall p, is_metadata_path p -> In p (map fst xs) <-> exists lb, c (map KName (all_parts p)) = Seen lb /\ (inter = true \/ forall cl, lb <> LbNode cl)
  | Err e => e = RecursionError /\ exists q lb, fuel <= S (length q) /\ c q = Seen lb
  end.
Proof.
  intros HT H1 Hl Hs c HL He. destruct (list_calm r g Hrem Hr inter fuel s l hx cl d HT H1 Hl HL) as (res0 & s0 & Hx & HC & Hres). { intros o Ho. rewrite Hl in Ho. by injection Ho as <-. }
  rewrite Hx in He. injection He as -> -> ->. destruct (ca_old _ _ _ _ HC l HT H1) as [D1 D2 D3 _ _ _]. split_and!; try done. destruct res as [xs|e]; [|done]. destruct Hres as [L1 L2 L3 L4]. rewrite List.Forall_forall in L1. split_and!.
  - rewrite <- (map_map fst p_parts) in L2. by apply NoDup_fmap_1 in L2.
  - intros p x Hp. pose proof (L1 _ Hp) as Hw. cbn [fst] in Hw. split; [by apply wf_mpath|]. rewrite wfp_all by done. by destruct (L4 p x Hp) as (_ & _ & E).
  - intros p Hp. pose proof (mpath_wf _ Hp) as Hw. rewrite wfp_all by done. pose proof (L3 (p_parts p)) as L5. rewrite <- (map_map fst p_parts), (in_map_iff p_parts) in L5. etrans; [|exact L5]. split; [eauto|].
    intros (p' & E & Hin). assert (p' = p) as ->; [|done]. apply in_map_iff in Hin as (px & <- & Hin). apply wfp_eq; [by apply L1|done|done].
Qed.
