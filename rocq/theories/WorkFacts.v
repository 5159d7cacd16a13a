(** From the repository to the repository: proofs for C55. *)
From Verif Require Import Base BaseFacts Path Spec_Path PathFacts Json Refs RefsFacts Meta Spec_Meta MetaFacts GitText Spec_Git Git GitFacts Spec_Store State BlobCache ObjRef Objects Spec_Objects Spec_Look Spec_Heap Spec_Versions Spec_Write ExecFacts LoadFacts PeekFacts TreeFacts TreeEditFacts VersionFacts LookFacts ReadFacts Spec_Content ContentFacts WriteFacts StoreFacts SaveFacts WriteBackFacts WriteAllFacts ReadBackFacts PurgeFacts EditFacts RealmFacts GraftFacts AddFacts ListFacts Spec_History UseFacts FrameFacts DatasetFacts HistoryFacts
  Common Spec_Common CommonFacts Spec_Publish Spec_Demand Spec_Workflow.

Definition topk (k : kd) : Prop := k = KdVl true \/ k = KdUs.
Lemma kid_spec_us b k : ~ kid_spec b k KdUs.
Proof.
  intros Hk. destruct b, k; cbn [kid_spec] in Hk; try done.
  - destruct Hk as [_ [E|E]]; [done|match goal with c : leafcls |- _ => by destruct c end].
  - destruct Hk as (rc & _ & _ & _ & E). by destruct (is_etree _).
  - by destruct Hk.
Qed.

Section Ready.
  Context (O : store) (r : pystr).
  Definition is_top (s : pst) (y : loc) : Prop := exists o, s_heap s !! y = Some o /\ topk (kind_of (o_body o)).
  (** Below an object there are no top nodes. *)
  Lemma below_low s p : forall x k y, tidy O r s x -> reach (s_heap s) x (k :: p) = Some y -> ~ is_top s y.
  Proof.
    induction p as [|k2 p IH]; intros x k y HT Hp (o & Ho & Hk).
    - cbn [reach] in Hp. destruct (s_heap s !! x) as [ox|] eqn:Ex; [|done]. destruct (h_mapped (o_hdr ox)) eqn:Em; [|done]. destruct (dget (kids_of (o_body ox)) k) as [z|] eqn:Ed; [|done].
      injection Hp as ->. destruct (kid_kind _ _ _ _ _ _ _ HT Ex Em Ed) as (oy & Hoy & Hs). assert (oy = o) as -> by congruence.
      destruct Hk as [Hk|Hk]; rewrite Hk in Hs; [by apply kid_spec_tvl in Hs|by apply kid_spec_us in Hs].
    - cbn [reach] in Hp. destruct (s_heap s !! x) as [ox|] eqn:Ex; [|done]. destruct (h_mapped (o_hdr ox)) eqn:Em; [|done]. destruct (dget (kids_of (o_body ox)) k) as [z|] eqn:Ed; [|done].
      apply (IH z k2 y); [by eapply tidy_kid|done|by exists o].
  Qed.
  Record ready (s : pst) (l : loc) (o : obj) : Prop := {
    rd_ok : heap_ok s;
    rd_obj : s_heap s !! l = Some o;
    rd_map : h_mapped (o_hdr o) = true;
    rd_top : topk (kind_of (o_body o));
    rd_kid : forall k x, dget (kids_of (o_body o)) k = Some x -> tidy O r s x;
    rd_two : forall k k' x x', dget (kids_of (o_body o)) k = Some x -> dget (kids_of (o_body o)) k' = Some x' -> k <> k' -> apart (s_heap s) x x';
    rd_keyed : forall k vs, o_body o = BVlist k vs -> well_keyed vs;
    rd_label : label_ok (label_of (o_body o));
    rd_part : forall k x lb, dget (kids_of (o_body o)) k = Some x -> look O (s_heap s) x [] = Seen lb -> part_ok (label_of (o_body o)) k lb;
  }.
  Section OfReady.
    Context (s : pst) (l : loc) (o : obj) (R : ready s l o).
    Lemma rd_plain k x : dget (kids_of (o_body o)) k = Some x -> is_ktree k = false.
    Proof using R. intros Hd%kids_fit. pose proof (rd_top _ _ _ R) as Hk. destruct (o_body o); try (by destruct Hk); by destruct k. Qed.
    Lemma rd_some k x : dget (kids_of (o_body o)) k = Some x -> is_Some (s_heap s !! x).
    Proof using R. intros Hd. destruct (tidy_root _ _ _ _ (rd_kid _ _ _ R k x Hd)) as (ox & Hx & _). by exists ox. Qed.
    Lemma rd_seen k x : dget (kids_of (o_body o)) k = Some x -> exists lb, look O (s_heap s) x [] = Seen lb /\ part_ok (label_of (o_body o)) k lb.
    Proof using R.
      intros Hd. pose proof (rd_kid _ _ _ R k x Hd) as HT. destruct (tidy_root _ _ _ _ HT) as (ox & Hx & _ & Hb).
      destruct (look O (s_heap s) x []) as [| |lb] eqn:El; [by apply look_seen in El|done|]. exists lb. split; [done|]. by apply (rd_part _ _ _ R k x lb).
    Qed.
    Lemma rd_low k x : dget (kids_of (o_body o)) k = Some x -> ~ is_top s x.
    Proof using R.
      intros Hd (ox & Hx & Hk). destruct (rd_seen k x Hd) as (lb & El & Hp). pose proof (look_kind _ _ _ _ _ Hx El) as Hlk. rewrite <- Hlk in Hk.
      pose proof (rd_top _ _ _ R) as Ht. destruct (o_body o) as [| | | |kk vs|us]; try (by destruct Ht); destruct k; try done; cbn [label_of part_ok] in Hp.
      - destruct Hp as (t & b & _ & Hp). destruct lb; try done; by destruct Hk.
      - destruct Hp as (_ & rs & ->). by destruct Hk.
    Qed.
    Lemma rd_away k x q y : dget (kids_of (o_body o)) k = Some x -> is_top s y -> reach (s_heap s) x q <> Some y.
    Proof using R.
      intros Hd Hy Hq. destruct q as [|k2 q]; [injection Hq as ->; by eapply rd_low|]. by eapply below_low; [eapply (rd_kid _ _ _ R)| |].
    Qed.
    Lemma rd_is_top : is_top s l.
    Proof using R. exists o. split; apply R. Qed.
    Lemma rd_reach k q : reach (s_heap s) l (k :: q) = match dget (kids_of (o_body o)) k with Some x => reach (s_heap s) x q | None => None end.
    Proof using R. cbn [reach]. by rewrite (rd_obj _ _ _ R), (rd_map _ _ _ R). Qed.
    Lemma rd_look k q : look O (s_heap s) l (k :: q) = match dget (kids_of (o_body o)) k with Some x => look O (s_heap s) x q | None => Absent end.
    Proof using R. cbn [look]. rewrite (rd_obj _ _ _ R), (rd_map _ _ _ R). destruct (dget _ k) eqn:Ed; [|done]. by rewrite (rd_plain _ _ Ed). Qed.
    Lemma rd_nil : look O (s_heap s) l [] = Seen (label_of (o_body o)).
    Proof using R. cbn [look]. by rewrite (rd_obj _ _ _ R), (rd_map _ _ _ R). Qed.
    Lemma rd_unshared : unshared (s_heap s) l.
    Proof using R.
      intros p q x Hp Hq. destruct p as [|k p], q as [|k2 q]; [done| | |].
      - injection Hp as <-. rewrite rd_reach in Hq. destruct (dget _ k2) as [z|] eqn:Ez; [|done]. destruct (rd_away k2 z q l Ez rd_is_top Hq).
      - injection Hq as <-. rewrite rd_reach in Hp. destruct (dget _ k) as [z|] eqn:Ez; [|done]. destruct (rd_away k z p l Ez rd_is_top Hp).
      - rewrite rd_reach in Hp, Hq. destruct (dget (kids_of (o_body o)) k) as [z|] eqn:Ez; [|done]. destruct (dget (kids_of (o_body o)) k2) as [z2|] eqn:Ez2; [|done].
        destruct (decide (k = k2)) as [->|Hn].
        + assert (z2 = z) as -> by congruence. f_equal. by apply (td_unshared _ _ _ _ (rd_kid _ _ _ R _ _ Ez) p q x).
        + destruct (rd_two _ _ _ R k k2 z z2 Ez Ez2 Hn p q x Hp Hq).
    Qed.
    Lemma rd_complete : complete (look O (s_heap s) l).
    Proof using R.
      intros [|k p].
      - rewrite rd_nil. split; [done|]. split; [intros lb [= <-]; apply R|]. intros k lb'. cbn [app]. rewrite rd_look. destruct (dget _ k) as [x|] eqn:Ed; [|done]. intros Hl.
        eexists. split; [done|]. by eapply (rd_part _ _ _ R).
      - cbn [app]. rewrite rd_look. destruct (dget (kids_of (o_body o)) k) as [x|] eqn:Ed.
        + destruct (td_complete _ _ _ _ (rd_kid _ _ _ R _ _ Ed) p) as (C1 & C2 & C3). split; [done|]. split; [done|]. intros k' lb'. rewrite rd_look, Ed. apply C3.
        + split; [done|]. split; [done|]. intros k' lb'. by rewrite rd_look, Ed.
    Qed.
    Lemma rd_tidy : (all_marked r (s_heap s) l -> exists ref, h_ref (o_hdr o) = Some ref /\ forall q, look_stored O (kind_of (o_body o)) ref q = look O (s_heap s) l q) -> tidy O r s l.
    Proof using R.
      intros Hma. pose proof (rd_top _ _ _ R) as Ht. eapply tidy_up; [apply R|apply R|apply R|apply R|apply rd_unshared|apply rd_complete|apply R| | |done].
      - intros ref Hk. rewrite Hk in Ht. by destruct Ht.
      - intros i v m t Hb. rewrite Hb in Ht. by destruct Ht.
    Qed.
  End OfReady.


  (** ** Steps that keep it *)
  Definition based (s : pst) (l : loc) (o : obj) : Prop := ready s l o /\ forall k x, dget (kids_of (o_body o)) k = Some x -> one_realm r (s_heap s) x.
  Lemma based_kid s l o k x : based s l o -> dget (kids_of (o_body o)) k = Some x -> able O r s x.
  Proof. intros [R H1] Hd. split; [by eapply (rd_kid _ _ _ R)|by eapply H1]. Qed.
  Lemma quiet_cell s s' (l : loc) o : quiet O r s s' -> s_heap s !! l = Some o -> h_mapped (o_hdr o) = true -> s_heap s' !! l = Some o.
  Proof. intros HQ Ho Hm. destruct (lo_obj _ _ (gs_loads _ _ (qu_good _ _ _ _ HQ)) l o Ho) as (o' & H1 & _ & H2). by rewrite H1, (H2 Hm). Qed.
  Lemma based_quiet s s' l o : quiet O r s s' -> based s l o -> based s' l o.
  Proof.
    intros HQ [R H1]. assert (HS : forall k x, dget (kids_of (o_body o)) k = Some x -> is_Some (s_heap s !! x)) by (intros; by eapply rd_some).
    split; [split|].
    - apply (gs_ok _ _ (qu_good _ _ _ _ HQ)).
    - eapply quiet_cell; [exact HQ|apply R|apply R].
    - apply R.
    - apply R.
    - intros k x Hd. eapply qu_tidy; [exact HQ|by eapply HS|by eapply (rd_kid _ _ _ R)].
    - intros k k' x x' Hd Hd' Hn. apply (gs_apart _ _ (qu_good _ _ _ _ HQ)); [by eapply HS|by eapply HS|]. by eapply (rd_two _ _ _ R).
    - apply R.
    - apply R.
    - intros k x lb Hd. rewrite (qu_look _ _ _ _ HQ) by by eapply HS. by apply (rd_part _ _ _ R).
    - intros k x Hd. eapply qu_one; [exact HQ|by eapply HS|by eapply H1].
  Qed.
  (** something else changes *)
  Lemma based_same s s' l o : heap_ok s' -> s_heap s' !! l = s_heap s !! l -> based s l o ->
    (forall k x, dget (kids_of (o_body o)) k = Some x -> same_below (s_heap s) (s_heap s') x) -> based s' l o.
  Proof.
    intros Hok Hl [R H1] HS. split; [split|].
    - done.
    - rewrite Hl. apply R.
    - apply R.
    - apply R.
    - intros k x Hd. eapply tidy_same; [by eapply (rd_kid _ _ _ R)|done|by eapply HS].
    - intros k k' x x' Hd Hd' Hn. apply (sb_apart (s_heap s)); [by eapply HS|by eapply HS|]. by eapply (rd_two _ _ _ R).
    - apply R.
    - apply R.
    - intros k x lb Hd. rewrite (fo_look O (s_heap s) (s_heap s')) by (apply sb_fo; by eapply HS). by apply (rd_part _ _ _ R).
    - intros k x Hd. eapply sb_one; [by eapply HS|by eapply H1].
  Qed.
  Lemma kids_below s s' l o : ready s l o -> s_heap s' !! l = s_heap s !! l -> (forall k x, dget (kids_of (o_body o)) k = Some x -> same_below (s_heap s) (s_heap s') x) -> same_below (s_heap s) (s_heap s') l.
  Proof.
    intros R Hl HS [|k q] y Hq; [injection Hq as <-; done|]. rewrite (rd_reach s l o R) in Hq. destruct (dget _ k) as [x|] eqn:Ed; [|done]. by apply (HS k x Ed q).
  Qed.
  (** a top node gets another entry *)
  Section Top.
    Context (s : pst) (l : loc) (o o' : obj) (k0 : key) (c : loc) (B : based s l o).
    Context (Hh : o_hdr o' = hd_saved ∅ (o_hdr o)) (Hk : kind_of (o_body o') = kind_of (o_body o)).
    Context (Hkids : forall k x, dget (kids_of (o_body o')) k = Some x -> (k <> k0 /\ dget (kids_of (o_body o)) k = Some x) \/ (k = k0 /\ x = c)).
    Context (Hc : able O r s c) (Hap : forall k x, k <> k0 -> dget (kids_of (o_body o)) k = Some x -> apart (s_heap s) x c) (Hlow : forall q y, reach (s_heap s) c q = Some y -> ~ is_top s y).
    Context (Hnd : NoDup (dkeys (kids_of (o_body o')))) (Hwk : forall k vs, o_body o' = BVlist k vs -> well_keyed vs) (Hlab : label_ok (label_of (o_body o'))).
    Context (Hpart : forall k x lb, dget (kids_of (o_body o')) k = Some x -> look O (s_heap s) x [] = Seen lb -> part_ok (label_of (o_body o')) k lb).
    Notation s' := (edited s l o').
    Let R : ready s l o := proj1 B.
    Lemma top_kid k x : dget (kids_of (o_body o')) k = Some x -> able O r s x /\ forall q, reach (s_heap s) x q <> Some l.
    Proof using All.
      intros Hd. destruct (Hkids _ _ Hd) as [[_ Hd']|[-> ->]].
      - split; [by eapply based_kid|]. intros q. eapply rd_away; [exact R|exact Hd'|by eapply rd_is_top].
      - split; [done|]. intros q Hq. apply (Hlow q l Hq). by eapply rd_is_top.
    Qed.
    Lemma top_below a : (forall q, reach (s_heap s) a q <> Some l) -> same_below (s_heap s) (s_heap s') a.
    Proof using. intros Ha. by apply up_same. Qed.
    Lemma top_sub x : In x (sub_objects (o_body o')) -> exists k, dget (kids_of (o_body o')) k = Some x.
    Proof using All.
      intros Hx. rewrite <- sub_kids in Hx. apply in_map_iff in Hx as ([k y] & <- & Hin). exists k. by apply BaseFacts.In_dget.
    Qed.
    Lemma top_ok : heap_ok s'.
    Proof using All.
      intros x ox Hx. unfold edited in Hx. cbn [s_heap with_heap] in Hx. rewrite heap_insert in Hx. cbn [edited s_next with_heap]. destruct (decide (l = x)) as [<-|Hn].
      - injection Hx as <-. destruct (rd_ok _ _ _ R l o (rd_obj _ _ _ R)) as (H1 & H2 & H3 & H4). split; [done|]. split.
        + intros y Hy. destruct (top_sub y Hy) as [k Hd]. destruct (top_kid k y Hd) as [Ha _]. cbn [s_heap with_heap edited]. rewrite heap_insert. destruct (decide _); [by eexists|]. by eapply able_some.
        + split; [|done]. rewrite Hh. cbn. intros Hm. by rewrite (rd_map _ _ _ R) in Hm.
      - destruct (rd_ok _ _ _ R x ox Hx) as (H1 & H2 & H3). split; [done|]. split; [|done]. intros y Hy. cbn [s_heap with_heap edited]. rewrite heap_insert. destruct (decide _); [by eexists|]. by apply H2.
    Qed.
    Lemma top_based : based s' l o'.
    Proof using All.
      assert (HB : forall k x, dget (kids_of (o_body o')) k = Some x -> same_below (s_heap s) (s_heap s') x) by (intros k x Hd; apply top_below; by eapply top_kid).
      split; [split|].
      - apply top_ok.
      - apply et_obj'.
      - rewrite Hh. apply R.
      - rewrite Hk. apply R.
      - intros k x Hd. eapply tidy_same; [apply (top_kid k x Hd)|apply top_ok|by eapply HB].
      - intros k k' x x' Hd Hd' Hn. apply (sb_apart (s_heap s)); [by eapply HB|by eapply HB|].
        destruct (Hkids _ _ Hd) as [[N1 D1]|[-> ->]], (Hkids _ _ Hd') as [[N2 D2]|[-> ->]]; [by eapply (rd_two _ _ _ R)|by eapply Hap| |done].
        apply ap_sym. by eapply Hap.
      - done.
      - done.
      - intros k x lb Hd. rewrite (fo_look O (s_heap s) (s_heap s')) by (apply sb_fo; by eapply HB). by apply Hpart.
      - intros k x Hd. eapply sb_one; [by eapply HB|apply (top_kid k x Hd)].
    Qed.
    Lemma top_other l2 o2 : based s l2 o2 -> l2 <> l -> based s' l2 o2 /\ same_below (s_heap s) (s_heap s') l2.
    Proof using All.
      intros B2 Hn. assert (HB : forall k x, dget (kids_of (o_body o2)) k = Some x -> same_below (s_heap s) (s_heap s') x).
      { intros k x Hd. apply top_below. intros q. eapply rd_away; [apply B2|exact Hd|by eapply rd_is_top]. }
      assert (Hl2 : s_heap s' !! l2 = s_heap s !! l2). { unfold edited. cbn [s_heap with_heap]. by rewrite heap_insert, decide_False. }
      split; [eapply based_same; [apply top_ok|done|done|done]|]. eapply kids_below; [apply B2|done|done].
    Qed.
    Lemma top_look k q : look O (s_heap s') l (k :: q) = match dget (kids_of (o_body o')) k with Some x => look O (s_heap s) x q | None => Absent end.
    Proof using All.
      rewrite (rd_look s' l o' (proj1 top_based)). destruct (dget _ k) as [x|] eqn:Ed; [|done]. apply fo_look, sb_fo, top_below. by eapply top_kid.
    Qed.
    Lemma top_dirty : dirty (s_heap s') l.
    Proof using Hh B. exists [], l. split; [done|]. exists o'. split; [apply et_obj'|]. rewrite Hh. split; [apply B|done]. Qed.
  End Top.
  (** a part of an entry of a top node changes *)
  Section Low.
    Context (s : pst) (l : loc) (ol : obj) (k0 : key) (x y : loc) (p : list key) (o o' : obj) (new : option (key * loc)) (B : based s l ol).
    Context (Hx : dget (kids_of (o_body ol)) k0 = Some x) (E : edits O r s x y p o o' new).
    Context (Hnew : forall k c k1 x1, new = Some (k, c) -> k1 <> k0 -> dget (kids_of (o_body ol)) k1 = Some x1 -> apart (s_heap s) c x1).
    Notation s' := (edited s y o').
    Context (Hpart : forall lb, look O (s_heap s') x [] = Seen lb -> part_ok (label_of (o_body ol)) k0 lb).
    Let R : ready s l ol := proj1 B.
    Lemma low_cell z oz : s_heap s !! z = Some oz -> topk (kind_of (o_body oz)) -> s_heap s' !! z = s_heap s !! z.
    Proof using R Hx E.
      intros Hz Hk. unfold edited. cbn [s_heap with_heap]. rewrite heap_insert, decide_False; [done|]. intros <-.
      apply (rd_away s l ol R k0 x p y Hx); [by exists oz|apply E].
    Qed.
    Lemma low_same k1 x1 : k1 <> k0 -> dget (kids_of (o_body ol)) k1 = Some x1 -> same_below (s_heap s) (s_heap s') x1.
    Proof using All. intros Hn Hd. eapply et_same; [exact E|]. by apply (rd_two _ _ _ R k0 k1). Qed.
    Lemma low_based : based s' l ol.
    Proof using All.
      pose proof (et_able' _ _ _ _ _ _ _ _ _ E) as HA.
      split; [split|].
      - apply HA.
      - rewrite (low_cell l ol); apply R.
      - apply R.
      - apply R.
      - intros k x1 Hd. destruct (decide (k = k0)) as [->|Hn]; [by assert (x1 = x) as -> by congruence; apply HA|].
        eapply tidy_same; [by eapply (rd_kid _ _ _ R)|apply HA|by apply (low_same k)].
      - intros k k' x1 x2 Hd Hd' Hn. destruct (decide (k = k0)) as [->|Hn1]; [|destruct (decide (k' = k0)) as [->|Hn2]].
        + assert (x1 = x) as -> by congruence. eapply et_apart; [exact E|by eapply (rd_two _ _ _ R)|]. intros k1 c1 Hc1. by eapply Hnew.
        + assert (x2 = x) as -> by congruence. apply ap_sym. eapply et_apart; [exact E|by eapply (rd_two _ _ _ R)|]. intros k1 c1 Hc1. by eapply Hnew.
        + apply (sb_apart (s_heap s)); [by apply (low_same k)|by apply (low_same k')|]. by eapply (rd_two _ _ _ R).
      - apply R.
      - apply R.
      - intros k x1 lb Hd. destruct (decide (k = k0)) as [->|Hn]; [assert (x1 = x) as -> by congruence; apply Hpart|].
        rewrite (fo_look O (s_heap s) (s_heap s')) by (apply sb_fo; by apply (low_same k)). by apply (rd_part _ _ _ R).
      - intros k x1 Hd. destruct (decide (k = k0)) as [->|Hn]; [by assert (x1 = x) as -> by congruence; apply HA|].
        eapply sb_one; [by apply (low_same k)|by eapply (proj2 B)].
    Qed.
    Lemma low_other l2 o2 : based s l2 o2 -> (forall k2 x2, dget (kids_of (o_body o2)) k2 = Some x2 -> apart (s_heap s) x x2) -> based s' l2 o2 /\ same_below (s_heap s) (s_heap s') l2.
    Proof using All.
      intros B2 Ha. assert (HB : forall k x, dget (kids_of (o_body o2)) k = Some x -> same_below (s_heap s) (s_heap s') x).
      { intros k2 x2 Hd. eapply et_same; [exact E|]. by eapply Ha. }
      assert (Hl2 : s_heap s' !! l2 = s_heap s !! l2) by (eapply low_cell; [apply B2|apply B2]).
      split; [eapply based_same; [apply (et_able' _ _ _ _ _ _ _ _ _ E)|done|done|done]|]. eapply kids_below; [apply B2|done|done].
    Qed.
    Lemma low_look k q : look O (s_heap s') l (k :: q) = if decide (k = k0) then look O (s_heap s') x q else look O (s_heap s) l (k :: q).
    Proof using All.
      rewrite (rd_look s' l ol (proj1 low_based)), (rd_look s l ol R). destruct (decide (k = k0)) as [->|Hn]; [by rewrite Hx|].
      destruct (dget _ k) as [x1|] eqn:Ed; [|done]. apply fo_look, sb_fo. by apply (low_same k).
    Qed.
    Lemma low_dirty : dirty (s_heap s') l.
    Proof using All.
      exists (k0 :: p), y. split.
      - rewrite (rd_reach s' l ol (proj1 low_based)), Hx. by eapply et_reach'.
      - exists o'. split; [apply et_obj'|]. rewrite (et_hdr _ _ _ _ _ _ _ _ _ E). split; [apply E|done].
    Qed.
  End Low.
End Ready.

(** ** Contents *)
Lemma grows_refl lb : grows lb lb.
Proof. destruct lb; try done. split; [done|]. by intros x. Qed.
Lemma grows_trans a b c : grows a b -> grows b c -> grows a c.
Proof.
  intros H1 H2. destruct a as [| | | |k rs|], b as [| | | |k2 rs2|]; try discriminate H1; try (injection H1; intros; subst; exact H2); try exact H2.
  destruct c as [| | | |k3 rs3|]; try discriminate H2. destruct H1 as [-> H1], H2 as [-> H2]. split; [done|]. by eapply incl_tran.
Qed.
Lemma grows_node lb cl : grows lb (LbNode cl) -> lb = LbNode cl.
Proof. by destruct lb. Qed.
Lemma within_refl c : within c c.
Proof. intros p lb Hp. exists lb. split; [done|apply grows_refl]. Qed.
Lemma within_trans a b c : within a b -> within b c -> within a c.
Proof. intros H1 H2 p lb Hp. destruct (H1 p lb Hp) as (lb1 & Hb & G1). destruct (H2 p lb1 Hb) as (lb2 & Hc & G2). exists lb2. split; [done|by eapply grows_trans]. Qed.
Lemma within_ext (a a' b b' : content) : (forall q, a q = a' q) -> (forall q, b q = b' q) -> within a b -> within a' b'.
Proof. intros Ha Hb H p lb. rewrite <- Ha. intros Hp. destruct (H p lb Hp) as (lb' & H1 & H2). rewrite Hb in H1. eauto. Qed.

(** Trees without entries are in [X], records are where they belong. *)
Record shaped (X : list key -> Prop) (c : content) : Prop := {
  sh_full : forall p cl, c p = Seen (LbNode cl) -> p <> [] -> X p \/ exists k lb, c (p ++ [k]) = Seen lb;
  sh_tree : forall p e lb, c p = Seen (LbNode LMrr) -> c (p ++ [KName e]) = Seen lb -> (e = root_record_name <-> exists i v, lb = LbMrr i v);
  sh_list : forall p rs v q lb, c p = Seen (LbVl true rs) -> c (p ++ [KVer v q]) = Seen lb -> lb = LbNode LMrr;
}.
Definition nowhere : list key -> Prop := fun _ => False.
Lemma shaped_neat c : complete c -> shaped nowhere c -> well_formed c /\ full c.
Proof. intros Hc [H1 H2 H3]. split; [done|]. intros p cl Hp Hn. by destruct (H1 p cl Hp Hn). Qed.
Lemma neat_shaped c : well_formed c -> full c -> shaped nowhere c.
Proof. intros [_ H2 H3] H1. split; [|done|done]. intros p cl Hp Hn. right. by eapply H1. Qed.
Lemma shaped_ext X (c c' : content) : (forall p, c p = c' p) -> shaped X c -> shaped X c'.
Proof.
  intros E [H1 H2 H3]. split.
  - intros p cl. rewrite <- E. intros Hp Hn. destruct (H1 p cl Hp Hn) as [?|(k & lb & Hk)]; [by left|right]. exists k, lb. by rewrite <- E.
  - intros p e lb. rewrite <- !E. apply H2.
  - intros p rs v q lb. rewrite <- !E. apply H3.
Qed.
Lemma shaped_weak (X X' : list key -> Prop) c : (forall p, X p -> X' p) -> shaped X c -> shaped X' c.
Proof. intros HX [H1 H2 H3]. split; [|done|done]. intros p cl Hp Hn. destruct (H1 p cl Hp Hn) as [?|?]; [left|right]; auto. Qed.
Lemma adds_grows k t lb lb' : adds k t lb lb' -> grows lb lb'.
Proof. destruct lb, lb'; try done. intros (H1 & H2 & _). done. Qed.
Lemma plus_within Q k t n c c' : plus Q k t n c c' -> within c c'.
Proof.
  intros [P1 P2 (lb0 & lb1 & P3 & P4 & P5%adds_grows) P6] p lb Hp. destruct (decide (p = Q)) as [->|Hn]; [rewrite P3 in Hp; injection Hp as <-; eauto|].
  assert (Hx : ~ extends p (Q ++ [k])). { intros [q ->]. rewrite <- app_assoc in Hp. cbn [app] in Hp. by rewrite P6 in Hp. }
  exists lb. split; [by rewrite P2|apply grows_refl].
Qed.
Lemma plus_shaped Q k t n c c' X (X' : list key -> Prop) lbn : plus Q k t n c c' -> n [] = Seen lbn -> shaped X c -> shaped nowhere n ->
  (forall p, X p -> X' p \/ p = Q) -> (forall cl, lbn = LbNode cl -> X' (Q ++ [k]) \/ exists k2 lb, n [k2] = Seen lb) ->
  (forall e, c Q = Seen (LbNode LMrr) -> k = KName e -> (e = root_record_name <-> exists i v, lbn = LbMrr i v)) ->
  (forall v q rs, c Q = Seen (LbVl true rs) -> k = KVer v q -> lbn = LbNode LMrr) -> shaped X' c'.
Proof.
  intros HP Hn [C1 C2 C3] [N1 N2 N3] HX HF HT HL. pose proof (plus_within _ _ _ _ _ _ HP) as HW. destruct HP as [P1 P2 (lb0 & lb1 & P3 & P4 & P5%adds_grows) P6].
  assert (HN : c' (Q ++ [k]) = Seen lbn) by by rewrite P1.
  (* every path is old, new, or the place *)
  assert (HC : forall p, (exists q, p = Q ++ k :: q) \/ p = Q \/ (p <> Q /\ ~ extends p (Q ++ [k]))).
  { intros p. destruct (decide (p = Q)) as [->|Hne]; [by right; left|].
    destruct (decide (take (length (Q ++ [k])) p = Q ++ [k])) as [E|E].
    - left. exists (drop (length (Q ++ [k])) p). rewrite <- (take_drop (length (Q ++ [k])) p) at 1. rewrite E, <- app_assoc. done.
    - right; right. split; [done|]. intros [q ->]. apply E. by rewrite take_app. }
  assert (HLb : forall p lb', c' p = Seen lb' -> ~ (exists q, p = Q ++ k :: q) -> exists lb, c p = Seen lb /\ grows lb lb').
  { intros p lb' Hp Hnq. destruct (HC p) as [?|[->|[Hne Hnx]]]; [done| |].
    - rewrite P4 in Hp. injection Hp as <-. eauto.
    - rewrite P2 in Hp by done. exists lb'. split; [done|apply grows_refl]. }
  assert (HK : forall p k2 lb, c' (p ++ [k2]) = Seen lb -> ~ (exists q, p = Q ++ k :: q) -> (p = Q /\ k2 = k /\ lb = lbn) \/ exists lb0, c (p ++ [k2]) = Seen lb0 /\ grows lb0 lb).
  { intros p k2 lb Hp Hnq. destruct (HC (p ++ [k2])) as [[q E]|Hne].
    - destruct q as [|k3 q _] using rev_ind.
      + left. apply app_inj_tail in E as [-> ->]. rewrite HN in Hp. by injection Hp as <-.
      + exfalso. apply Hnq. exists q. rewrite app_comm_cons, app_assoc in E. by apply app_inj_tail in E as [-> _].
    - right. apply HLb; [done|]. intros [q E]. destruct Hne as [E2|[_ E2]].
      + rewrite E2 in E. apply (f_equal length) in E. rewrite app_length in E. cbn in E. lia.
      + apply E2. exists q. by rewrite <- app_assoc. }
  split.
  - intros p cl Hp Hne. destruct (HC p) as [[q ->]|Ho].
    + rewrite P1 in Hp. destruct q as [|k2 q].
      * rewrite Hn in Hp. injection Hp as ->. destruct (HF cl eq_refl) as [?|(k2 & lb & Hk2)]; [by left|right]. exists k2, lb. rewrite <- app_assoc. cbn [app]. by rewrite P1.
      * destruct (N1 (k2 :: q) cl Hp ltac:(done)) as [[]|(k3 & lb & Hk3)]. right. exists k3, lb. rewrite <- app_assoc. cbn [app]. by rewrite P1.
    + assert (Hnq : ~ exists q, p = Q ++ k :: q). { intros [q E]. destruct Ho as [->|[_ Ho]]; [apply (f_equal length) in E; rewrite app_length in E; cbn in E; lia|]. apply Ho. exists q. by rewrite <- app_assoc. }
      destruct (HLb p _ Hp Hnq) as (lb & Hlb & Hg). apply grows_node in Hg as ->. destruct (C1 p cl Hlb Hne) as [Hx|(k2 & lb & Hk2)].
      * destruct (HX p Hx) as [?| ->]; [by left|]. right. eauto.
      * right. destruct (HW _ _ Hk2) as (lb' & Hk3 & _). eauto.
  - intros p e lb Hp He. destruct (HC p) as [[q ->]|Ho].
    + rewrite P1 in Hp. rewrite <- app_assoc in He. cbn [app] in He. rewrite P1 in He. by apply (N2 q).
    + assert (Hnq : ~ exists q, p = Q ++ k :: q). { intros [q E]. destruct Ho as [->|[_ Ho]]; [apply (f_equal length) in E; rewrite app_length in E; cbn in E; lia|]. apply Ho. exists q. by rewrite <- app_assoc. }
      destruct (HLb p _ Hp Hnq) as (lb2 & Hlb & Hg). apply grows_node in Hg as ->. destruct (HK p _ _ He Hnq) as [(-> & <- & ->)|(lb2 & Hlb2 & Hg)]; [by apply HT|].
      rewrite (C2 p e lb2 Hlb Hlb2). split; intros (i & v & E); exists i, v; rewrite E in Hg; [by destruct lb|by destruct lb2].
  - intros p rs v q lb Hp He. destruct (HC p) as [[q2 ->]|Ho].
    + rewrite P1 in Hp. rewrite <- app_assoc in He. cbn [app] in He. rewrite P1 in He. by apply (N3 q2 rs v q).
    + assert (Hnq : ~ exists q, p = Q ++ k :: q). { intros [q2 E]. destruct Ho as [->|[_ Ho]]; [apply (f_equal length) in E; rewrite app_length in E; cbn in E; lia|]. apply Ho. exists q2. by rewrite <- app_assoc. }
      destruct (HLb p _ Hp Hnq) as (lb2 & Hlb & Hg). destruct lb2 as [| | | |k2 rs2|]; try done. cbn in Hg. destruct Hg as [-> Hg].
      destruct (HK p _ _ He Hnq) as [(-> & <- & ->)|(lb2 & Hlb2 & Hg2)]; [by eapply HL|].
      rewrite (C3 p rs2 v q lb2 Hlb Hlb2) in Hg2. by destruct lb.
Qed.

Lemma plus_ext Q k t (n n2 c c2 c' c2' : content) : (forall q, n q = n2 q) -> (forall q, c q = c2 q) -> (forall q, c' q = c2' q) -> plus Q k t n c c' -> plus Q k t n2 c2 c2'.
Proof.
  intros E1 E2 E3 [P1 P2 (lb0 & lb1 & P3 & P4 & P5) P6]. split.
  - intros q. by rewrite <- E3, P1, E1.
  - intros q Hq Hx. by rewrite <- E3, <- E2, P2.
  - exists lb0, lb1. by rewrite <- E2, <- E3.
  - intros q. by rewrite <- E2.
Qed.
Lemma part_ext Q k t (n n2 c c2 c' c2' : content) : (forall q, n q = n2 q) -> (forall q, c q = c2 q) -> (forall q, c' q = c2' q) -> with_part Q k t n c c' -> with_part Q k t n2 c2 c2'.
Proof.
  intros E1 E2 E3 [[(lb & H1) H2]|HP]; [left|right; by eapply plus_ext]. split; [exists lb; by rewrite <- E2|]. intros q. by rewrite <- E2, <- E3.
Qed.
