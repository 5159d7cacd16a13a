(** Property theorems about initial sets of runs, lengths of paths and local
    realms: parts of C12, C02 and C31. *)
From Verif Require Import Base BaseFacts Path Spec_Path PathFacts Json Spec_Json Refs Meta Spec_Meta MetaFacts Spec_Unget Spec_Init InitFacts Props_Meta Props_Unget.

(** C12: [MetadataInstanceSet(initial)] always works; the configurations are
    those of the instances in the order of their first use, and the instance of
    a configuration is the last one given. *)
Theorem C12_initial_set : forall l : list minst, Forall inst_ok l -> exists s, mis_init l = Ok s /\
  first_uses conf_same (map mi_conf l) (configurations s) /\
  Forall2 (fun c i => get_instance_for_configuration s c = Ok i) (configurations s) (mis_iter s) /\
  forall c i, conf_ok c -> (get_instance_for_configuration s c = Ok i <-> last_instance l c i).
Proof. exact initial_lemma. Qed.
Print Assumptions C12_initial_set.
(** the third instance replaces the first one *)
Example C12_initial_case : Forall inst_ok (map run_inst [run1; run2; run3]) /\
  mis_init (map run_inst [run1; run2; run3]) = Ok (MIS [conf1; conf2] [(0%Z, run_inst run3); (1%Z, run_inst run2)]).
Proof.
  split; [|vm_compute; reflexivity]. pose proof runs_ok as H. rewrite List.Forall_forall in H |- *. intros i (r & <- & Hr)%in_map_iff.
  destruct (H r) as (H1 & H2 & H3 & H4 & H5 & H6 & H7); [|done]. cbn in Hr |- *. tauto.
Qed.

(** C02: the length of a path is the number of its parts. *)
Theorem C02_length : forall xs ys : list parg, let a := MetadataPath xs in let b := MetadataPath ys in
  mp_len (truediv a (APath b)) = (mp_len a + mp_len b)%nat /\ (mp_len a = 0%nat <-> mp_str a = []) /\
  (mp_str a <> [] -> mp_len a = S (count_slash (mp_str a))).
Proof. exact length_lemma. Qed.
Print Assumptions C02_length.
Example C02_length_case : mp_len (MetadataPath [AStr (ps "/a//b/./c")]) = 3%nat /\ mp_str (MetadataPath [AStr (ps "/a//b/./c")]) = ps "a/b/c".
Proof. split; reflexivity. Qed.

(** C31: every realm is either local or remote. *)
Theorem C31_local_realms : forall r : pystr, is_local r = true <-> ~ remote_realm r.
Proof. exact local_lemma. Qed.
Print Assumptions C31_local_realms.
Example C31_local_case : is_local (ps "/data/ssh:") = true /\ is_local (ps "git@h:x") = false.
Proof. split; reflexivity. Qed.
