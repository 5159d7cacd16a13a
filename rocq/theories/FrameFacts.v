(** Changes of one object graph, and what they leave alone. *)
From Verif Require Import Base BaseFacts Path Spec_Path PathFacts Json Refs RefsFacts Meta Spec_Meta MetaFacts GitText Spec_Git Git GitFacts Spec_Store State BlobCache ObjRef Objects Spec_Objects Spec_Look Spec_Heap Spec_Versions Spec_Write ExecFacts LoadFacts PeekFacts TreeFacts TreeEditFacts VersionFacts LookFacts ReadFacts Spec_Content ContentFacts WriteFacts StoreFacts SaveFacts WriteBackFacts WriteAllFacts ReadBackFacts PurgeFacts EditFacts RealmFacts GraftFacts AddFacts ListFacts Spec_History UseFacts.

Lemma ap_sym h a b : apart h a b -> apart h b a.
Proof. intros H p q x Hp Hq. by apply (H q p x). Qed.
Lemma sb_reach_eq h h' a p : same_below h h' a -> reach h' a p = reach h a p.
Proof. intros Hs. by apply fo_reach, sb_fo. Qed.
Lemma sb_apart h h' a b : same_below h h' a -> same_below h h' b -> apart h a b -> apart h' a b.
Proof. intros Ha Hb H p q x. rewrite (sb_reach_eq h h') by done. rewrite (sb_reach_eq h h') by done. apply H. Qed.

(** Objects that have nothing in common with [l] and [x]. *)
Definition off (h : heap) (l : loc) (x : option loc) (a : loc) : Prop := is_Some (h !! a) /\ apart h l a /\ forall c, x = Some c -> apart h c a.
Record frames (O : store) (r : pystr) (s s' : pst) (l : loc) (x : option loc) : Prop := {
  fm_rest : rest_same s s';
  fm_ok : heap_ok s';
  fm_one : forall a, off (s_heap s) l x a -> able O r s a -> off (s_heap s') l x a /\ able O r s' a /\ forall q, look O (s_heap s') a q = look O (s_heap s) a q;
  fm_two : forall a b, off (s_heap s) l x a -> off (s_heap s) l x b -> able O r s a -> able O r s b -> apart (s_heap s) a b -> apart (s_heap s') a b;
}.
Lemma fm_trans O r a b c l x : frames O r a b l x -> frames O r b c l x -> frames O r a c l x.
Proof.
  intros [A1 A2 A3 A4] [B1 B2 B3 B4]. split; [by eapply rs_trans|done| |].
  - intros y Hy Ha. destruct (A3 y Hy Ha) as (H1 & H2 & H3). destruct (B3 y H1 H2) as (H4 & H5 & H6). split; [done|]. split; [done|]. intros q. by rewrite H6.
  - intros y z Hy Hz Ha Hb Hap. destruct (A3 y Hy Ha) as (H1 & H2 & _). destruct (A3 z Hz Hb) as (H4 & H5 & _). by apply B4; auto.
Qed.
Lemma fm_keeps O r s s' l x : heap_ok s -> keeps O r s s' -> is_Some (s_heap s !! l) -> (forall c, x = Some c -> is_Some (s_heap s !! c)) -> frames O r s s' l x.
Proof.
  intros Hok HK Hl Hx. split.
  - apply HK.
  - by apply HK.
  - intros a (H1 & H2 & H3) Ha. split; [|split].
    + split; [by apply (kp_some _ _ _ _ HK)|]. split; [by apply (kp_apart _ _ _ _ HK)|]. intros c Hc. apply (kp_apart _ _ _ _ HK); auto.
    + by eapply able_keeps.
    + destruct Ha as [Ha Hb]. apply (ca_look _ _ _ _ _ (ca_old _ _ _ _ (kp_calm _ _ _ _ HK) a Ha Hb)).
  - intros a b (H1 & _) (H2 & _) _ _. by apply (kp_apart _ _ _ _ HK).
Qed.

(** ** Another body for one part *)
Record edits (O : store) (r : pystr) (s : pst) (l y : loc) (p : list key) (o o' : obj) (new : option (key * loc)) : Prop := {
  et_able : able O r s l;
  et_reach : reach (s_heap s) l p = Some y;
  et_obj : s_heap s !! y = Some o;
  et_mapped : h_mapped (o_hdr o) = true;
  et_hdr : o_hdr o' = hd_saved ∅ (o_hdr o);
  et_kind : kind_of (o_body o') = kind_of (o_body o);
  et_new : forall k c, new = Some (k, c) -> able O r s c /\ apart (s_heap s) l c;
  et_kids : forall k x, dget (kids_of (o_body o')) k = Some x -> dget (kids_of (o_body o)) k = Some x \/ new = Some (k, x);
  et_nodup : NoDup (dkeys (kids_of (o_body o')));
  et_keyed : forall k vs, o_body o' = BVlist k vs -> well_keyed vs;
  et_tree : forall i v m t, o_body o' = BMrr i v m (Some t) -> exists ht d, s_heap s !! t = Some (Obj ht (BNode LMeta d));
  et_label : label_ok (label_of (o_body o'));
  et_parts : forall k x, dget (kids_of (o_body o')) k = Some x -> is_ktree k && hollow_at O (s_heap s) x = false ->
    forall lb, look O (s_heap s) x [] = Seen lb -> part_ok (label_of (o_body o')) k lb;
}.
Section Edits.
  Context (O : store) (r : pystr) (s : pst) (l y : loc) (p : list key) (o o' : obj) (new : option (key * loc)).
  Context (E : edits O r s l y p o o' new).
  Let HT : tidy O r s l := proj1 (et_able _ _ _ _ _ _ _ _ _ E).
  Let Hp := et_reach _ _ _ _ _ _ _ _ _ E.
  Let Ho := et_obj _ _ _ _ _ _ _ _ _ E.
  Let Hm := et_mapped _ _ _ _ _ _ _ _ _ E.
  Let Hm' : h_mapped (o_hdr o') = true.
  Proof. rewrite (et_hdr _ _ _ _ _ _ _ _ _ E). cbn. apply E. Qed.
  Let Hnew : forall k c, new = Some (k, c) -> tidy O r s c /\ apart (s_heap s) l c.
  Proof. intros k c Hn. destruct (et_new _ _ _ _ _ _ _ _ _ E k c Hn) as [[H1 _] H2]. done. Qed.
  Let Hkids := et_kids _ _ _ _ _ _ _ _ _ E.
  Let Hparts := et_parts _ _ _ _ _ _ _ _ _ E.
  Notation s' := (edited s y o').
  Notation h := (s_heap s).
  Notation h' := (s_heap (edited s y o')).
  Let Hsv : h_saved (o_hdr o') = ∅.
  Proof. by rewrite (et_hdr _ _ _ _ _ _ _ _ _ E). Qed.
  Let Hrf : h_ref (o_hdr o') = h_ref (o_hdr o).
  Proof. by rewrite (et_hdr _ _ _ _ _ _ _ _ _ E). Qed.

  Lemma et_able' : able O r s' l.
  Proof.
    split.
    - refine (ed_tidy O r s l y p o o' new HT Hp Ho Hm Hm' Hsv Hrf _ Hnew Hkids _ _ _ _ Hparts); apply E.
    - refine (ed_one O r s l y p o o' new HT Hp Ho Hm Hm' Hsv Hnew Hkids Hparts _ _); [apply E|]. intros k c Hn. apply (et_new _ _ _ _ _ _ _ _ _ E k c Hn).
  Qed.
  Lemma et_reach' : reach h' l p = Some y.
  Proof. rewrite <- (app_nil_r p). unfold edited. cbn [s_heap with_heap]. rewrite (up_reach_below h y o' p l [] Hp); [done|]. intros q Hq. by apply (td_unshared _ _ _ _ HT q p y). Qed.
  Lemma et_up q z : extends p q -> reach h l q = Some z -> reach h' l q = Some z.
  Proof.
    intros [q2 Eq] Hz. destruct q2 as [|k q2].
    - rewrite app_nil_r in Eq. subst q. rewrite Hp in Hz. injection Hz as <-. apply et_reach'.
    - rewrite <- Hz. unfold edited. cbn [s_heap with_heap]. apply (up_reach_off h y o' p l q Hp); [intros q3 Hq; by apply (td_unshared _ _ _ _ HT q3 p y)|].
      intros [q3 E3]. rewrite E3 in Eq. apply (f_equal length) in Eq. rewrite !app_length in Eq. cbn in Eq. lia.
  Qed.
  Lemma et_obj' : h' !! y = Some o'.
  Proof. unfold edited. cbn [s_heap with_heap]. by rewrite heap_insert, decide_True. Qed.
  Lemma et_off q : ~ extends q p -> look O h' l q = look O h l q.
  Proof. apply (ed_look_off O r s l y p o' HT Hp). Qed.
  Lemma et_top : look O h' y [] = Seen (label_of (o_body o')).
  Proof. apply (ed_look_nil O s y o' Hm'). Qed.
  Lemma et_below k q : look O h' y (k :: q) = match dget (kids_of (o_body o')) k with Some x => if is_ktree k && hollow_at O h x then Absent else look O h x q | None => Absent end.
  Proof. apply (ed_look_y O r s l y p o o' new HT Hp Ho Hm Hm' Hnew Hkids Hparts). Qed.
  Lemma et_same a : apart h l a -> same_below h h' a.
  Proof. intros Ha. apply up_same. intros q Hq. by apply (Ha p q y). Qed.
  Lemma et_apart a : apart h l a -> (forall k c, new = Some (k, c) -> apart h c a) -> apart h' l a.
  Proof.
    intros Ha Hc q1 q2 x Hx Hx2. rewrite (sb_reach_eq h h' a q2 (et_same a Ha)) in Hx2.
    destruct (ed_cases O r s l y p o o' new HT Hp Ho Hm Hm' Hnew Hkids Hparts q1 x Hx) as [(_ & E1 & _)|[[_ ->]|(k & z & q' & _ & Hz & Hx' & _)]].
    - by apply (Ha q1 q2 x).
    - by apply (Ha p q2 y).
    - destruct (Hkids _ _ Hz) as [Hz'|Hz'].
      + apply (Ha (p ++ k :: q') q2 x); [|done]. rewrite reach_app, Hp. cbn [reach]. by rewrite Ho, Hm, Hz'.
      + by apply (Hc _ _ Hz' q' q2 x).
  Qed.
  Lemma et_frames : frames O r s s' l (snd <$> new).
  Proof.
    assert (Hok : heap_ok s') by apply et_able'. split; [done|done| |].
    - intros a (H1 & H2 & H3) [Ha1 Ha2]. pose proof (et_same a H2) as Hs. split; [split; [|split]|split; [split|]].
      + destruct H1 as [oa Hoa]. exists oa. rewrite <- Hoa. apply (Hs [] a eq_refl).
      + apply et_apart; [done|]. intros k c Hn. apply H3. by rewrite Hn.
      + intros c Hc. pose proof Hc as Hc0. apply fmap_Some in Hc as ([k c'] & Hn & Ec). cbn in Ec. destruct (et_new _ _ _ _ _ _ _ _ _ E k c') as [_ Hlc]; [done|]. rewrite <- Ec in Hlc. apply (sb_apart h h' c a); [by apply et_same|done|by apply H3].
      + by eapply tidy_same.
      + by eapply sb_one.
      + intros q. apply fo_look. by apply sb_fo.
    - intros a b (H1 & H2 & H3) (H4 & H5 & H6) _ _. apply sb_apart; by apply et_same.
  Qed.
End Edits.
