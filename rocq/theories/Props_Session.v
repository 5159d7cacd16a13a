(** Property theorems about sessions and listings: C17, C28. *)
From Verif Require Import Base Path Spec_Path Json Spec_Json Refs Meta Spec_Meta GitText Git Spec_Store State BlobCache ObjRef Objects Spec_Objects Spec_Look Spec_Heap
  Spec_Write Spec_Content Spec_Session ListFacts SessionFacts ContentCase Props_Write Props_Findings Props_Content.

(** C17, in terms of content: a listing of a tree, loaded or not, yields every
    path at which something is seen ([inter]: tree nodes as well) once, with an
    object that shows what the tree shows there, and changes no content. *)
Theorem C17_contents : forall `{Env} (r : pystr), r <> [] -> is_remote r = false ->
  forall (inter : bool) (fuel : nat) (l : loc) (hx : hdr) (cl : leafcls) (d : pydict pystr loc) (s : pst) (g : gstate) (res : Base.res (list (ppath * loc))) (s' : pst) (g' : gstate),
  tidy (objs_of g r) r s l -> one_realm r (s_heap s) l -> s_heap s !! l = Some (Obj hx (BNode cl d)) -> (h_mapped hx = false -> r ∈ h_saved hx) ->
  let c := look (objs_of g r) (s_heap s) l in
  listable c -> exec (get_paths_recursive fuel inter l s) g = ((res, s'), g') ->
  g' = g /\ tidy (objs_of g r) r s' l /\ (forall q, look (objs_of g r) (s_heap s') l q = c q) /\
  match res with
  | Ok xs => NoDup (map fst xs) /\
      (forall p x, In (p, x) xs -> is_metadata_path p /\ forall q, look (objs_of g r) (s_heap s') x q = c (map KName (all_parts p) ++ q)) /\
      forall p, is_metadata_path p -> In p (map fst xs) <-> exists lb, c (map KName (all_parts p)) = Seen lb /\ (inter = true \/ forall cl, lb <> LbNode cl)
  | Err e => e = RecursionError /\ exists q lb, fuel <= S (length q) /\ c q = Seen lb
  end.
Proof. exact @C17_contents_lemma. Qed.
Print Assumptions C17_contents.

(** C28: all answers in a session that starts with a new file tree are those of a
    map that is empty at first; what a write returns leads to the map of that
    moment in all later states of the repository. *)
Theorem C28_session : forall `{Env} (r : pystr), is_remote r = false -> r <> [] -> forall (fuel : nat), (1 < fuel)%nat ->
  forall (cs : list call) (s : pst) (g : gstate) (aa : list (res answer)) (s' : pst) (g' : gstate),
  heap_ok s -> caches_ok s -> dget (s_caches s) r = None -> Forall (call_ok fuel) cs ->
  exec ((mlet l <- new_file_tree; session fuel r l cs) s) g = ((Ok aa, s'), g') ->
  exists f k, answers_all (objs_of g' r) cs ∅ false aa f k.
Proof. exact @session_new. Qed.
Print Assumptions C28_session.

(** A session that starts with a reference to what was written earlier continues
    with the map of that moment. *)
Theorem C28_reopened : forall `{Env} (r : pystr), is_remote r = false -> r <> [] -> forall (fuel : nat), (1 < fuel)%nat ->
  forall (cs : list call) (s : pst) (g : gstate) (O : store) (ref : reference) (f : gmap (list pystr) metadata) (aa : list (res answer)) (s' : pst) (g' : gstate),
  heap_ok s -> caches_ok s -> dget (s_caches s) r = None -> Forall (call_ok fuel) cs ->
  stored_as O ref f -> O ⊆ objs_of g r -> f <> ∅ -> (forall q m, f !! q = Some m -> Forall good_name q /\ (S (length q) < fuel)%nat) ->
  exec ((mlet l <- object_at (KdNode LMeta) r ref; session fuel r l cs) s) g = ((Ok aa, s'), g') ->
  exists f' k, answers_all (objs_of g' r) cs f true aa f' k.
Proof. exact @session_stored. Qed.
Print Assumptions C28_reopened.

Section Case.
  Local Existing Instance check_env.
  Definition p_ab : ppath := path (ps "a/b").
  Definition p_a : ppath := path (ps "a").
  Definition p_c : ppath := path (ps "c").
  Definition calls_a : list call :=
    [CAdd p_ab [run2 (ps "x")]; CAdd p_a []; CGet p_ab; CGet p_a; CPurge; CWrite false; CPurge; CAdd p_c [];
     CRun p_ab (run2 (ps "y")); CRun p_a (run2 (ps "y")); CRun (path (ps "z")) (run2 (ps "y")); CGet p_c; CList; CPurge; CWrite false; CGet (path (ps "z"))].
  (** A short form of the answers: values of the runs. *)
  Definition values (m : metadata) : list json := concat (map (fun e => map (fun i => mi_content (snd i)) (mis_inst (snd e))) m).
  Inductive short := SDone | SNone | SMeta (v : list json) | SList (xs : list (pystr * list json)) | SRef | SErr (e : exn).
  Definition short_answer (a : res answer) : short :=
    match a with
    | Ok ADone => SDone | Ok (AMeta None) => SNone | Ok (AMeta (Some m)) => SMeta (values m)
    | Ok (AList xs) => SList (map (fun x => (mp_as_posix (fst x), values (snd x))) xs)
    | Ok (ARef _) => SRef | Err e => SErr e
    end.
  Definition ses (cs : list call) : M pst (list (res answer)) := mlet l <- new_file_tree; session 9 W l cs.
  Definition X : json := JStr (ps "x").
  Definition Y : json := JStr (ps "y").
  Lemma run2_ok c : scalar_strb c = true -> run_ok (run2 c).
  Proof. intros Hc. apply scalar_strb_ok in Hc. split_and!; try by apply scalar_strb_ok. all: cbn; repeat split; try done; try by apply scalar_strb_ok. apply NoDup_nil_2. Qed.
  Lemma path_ok p : is_metadata_path (path p).
  Proof. by exists [AStr p]. Qed.
  Lemma add_ok p runs : forallb storable_nameb (all_parts (path p)) && (S (length (all_parts (path p))) <? 9)%nat = true -> Forall run_ok runs -> call_ok 9 (CAdd (path p) runs).
  Proof.
    intros [Hb Hl]%andb_true_iff Hrs. apply Nat.ltb_lt in Hl. rewrite forallb_forall in Hb. cbn [call_ok]. split; [apply path_ok|]. split; [|done].
    apply List.Forall_forall. intros n Hn. by apply storable_nameb_ok, Hb.
  Qed.
  Ltac calls_ok := repeat (apply List.Forall_cons; [first [exact I|apply path_ok|split; [apply path_ok|apply run2_ok; reflexivity]|
    apply add_ok; [vm_compute; reflexivity|repeat (apply List.Forall_cons; [apply run2_ok; reflexivity|]); apply List.Forall_nil]]|]); apply List.Forall_nil.
  Lemma calls_a_ok : Forall (call_ok 9) calls_a.
  Proof. unfold calls_a, p_ab, p_a, p_c. calls_ok. Qed.
  (** 15 calls; the tree is written and unloaded in between *)
  Example C28_case : exists aa s' g', exec (ses calls_a init_pst) gw = ((Ok aa, s'), g') /\ Forall (call_ok 9) calls_a /\
    map short_answer aa =
      [SDone; SErr ValueError; SMeta [X]; SErr AssertionError; SErr ValueError; SRef; SDone; SDone;
       SDone; SErr AssertionError; SErr AttributeError; SMeta []; SList [(ps "a/b", [Y]); (ps "c", [])]; SErr ValueError; SRef; SNone].
  Proof.
    pose proof calls_a_ok as HC.
    assert (HE : match exec (ses calls_a init_pst) gw with ((Ok aa, _), _) => Some (map short_answer aa) | _ => None end = Some
      [SDone; SErr ValueError; SMeta [X]; SErr AssertionError; SErr ValueError; SRef; SDone; SDone;
       SDone; SErr AssertionError; SErr AttributeError; SMeta []; SList [(ps "a/b", [Y]); (ps "c", [])]; SErr ValueError; SRef; SNone]) by (vm_compute; reflexivity).
    revert HE. destruct (exec (ses calls_a init_pst) gw) as [[[aa|e] s'] g'] eqn:E; [|done]. intros HE. exists aa, s', g'. split; [reflexivity|]. split; [exact HC|]. exact (f_equal (fun o => match o with Some v => v | None => [] end) HE).
  Qed.
  Definition reopened (g : gstate) (ref : reference) (cs : list call) : list short :=
    match exec ((mlet l <- object_at (KdNode LMeta) W ref; session 9 W l cs) init_pst) g with ((Ok aa, _), _) => map short_answer aa | _ => [] end.
  (** what was written is opened in a new process *)
  Definition calls_b : list call := [CAdd p_ab [run2 (ps "x")]; CWrite false].
  Example C28_reopened_case : exists aa ref s' g' f, exec (ses calls_b init_pst) gw = ((Ok aa, s'), g') /\ aa = [Ok ADone; Ok (ARef ref)] /\
    stored_as (objs_of g' W) ref f /\ f <> ∅ /\ (forall q m, f !! q = Some m -> Forall good_name q /\ (S (length q) < 9)%nat) /\
    reopened g' ref [CList; CPurge; CGet p_ab; CAdd p_c []; CPurge; CWrite false; CList] =
      [SList [(ps "a/b", [X])]; SDone; SMeta [X]; SDone; SErr ValueError; SRef; SList [(ps "a/b", [X]); (ps "c", [])]].
  Proof.
    assert (HE : match exec (ses calls_b init_pst) gw with
                 | ((Ok [Ok ADone; Ok (ARef ref)], _), g') => Some (reopened g' ref [CList; CPurge; CGet p_ab; CAdd p_c []; CPurge; CWrite false; CList])
                 | _ => None end = Some [SList [(ps "a/b", [X])]; SDone; SMeta [X]; SDone; SErr ValueError; SRef; SList [(ps "a/b", [X]); (ps "c", [])]]) by (vm_compute; reflexivity).
    revert HE. destruct (exec (ses calls_b init_pst) gw) as [[[aa|e] s'] g'] eqn:E; [|done]. intros HE.
    destruct aa as [|[[| | |]|] [|[[| | |ref]|] [|]]]; try discriminate HE.
    pose proof (f_equal (fun o => match o with Some v => v | None => [] end) HE) as HE2. cbv beta iota in HE2. clear HE.
    assert (HC : Forall (call_ok 9) calls_b) by (unfold calls_b, p_ab; calls_ok).
    assert (Hok : heap_ok init_pst) by (intros ? ? [=]).
    assert (Hcs : caches_ok init_pst) by (split; [apply NoDup_nil_2|by intros ? ? []]).
    destruct (C28_session W eq_refl ltac:(done) 9 ltac:(lia) calls_b init_pst gw _ s' g' Hok Hcs eq_refl HC E) as (f & k & HA).
    exists [Ok ADone; Ok (ARef ref)], ref, s', g', f. split; [reflexivity|]. split; [reflexivity|]. clear E Hok Hcs HC.
    inversion HA as [|c0 cs0 f0 k0 a0 f1 k1 aa0 f2 k2 H1 H2]; subst. inversion H2 as [|c1 cs1 g0 k3 a1 g1 k4 aa1 g3 k5 H3 H4]; subst. inversion H4; subst.
    destruct H3 as (-> & -> & ref' & Hr & Hst). assert (ref' = ref) as -> by congruence. split; [exact Hst|].
    destruct H1 as (m & _ & [(_ & ? & _)|[(_ & _ & ? & _)|(_ & _ & -> & _)]]); try discriminate.
    split; [|split; [|exact HE2]].
    - intros Hn. apply (f_equal (fun f => f !! all_parts p_ab)) in Hn. by rewrite lookup_insert in Hn.
    - intros q m' [[<- _]|[_ ?]]%lookup_insert_Some; [|done]. assert (all_parts p_ab = [ps "a"; ps "b"]) as -> by (vm_compute; reflexivity). split; [|cbn; lia].
      repeat apply List.Forall_cons; try apply List.Forall_nil; vm_compute; (split_and!; [done|done|]; intros Hin; repeat destruct Hin as [Hin|Hin]; done).
  Qed.

  (** a tree that is not loaded, in the same state of the repository *)
  Definition listed (g : gstate) (ref : reference) : option (list pystr) :=
    match exec ((mlet l <- object_at (KdNode LMeta) W ref; get_paths_recursive 9 false l) init_pst) g with ((Ok xs, _), _) => Some (map (fun x => mp_as_posix (fst x)) xs) | _ => None end.
  Example C17_contents_case : exists g s hx d res s', tidy (objs_of g W) W s 0%N /\ one_realm W (s_heap s) 0%N /\ s_heap s !! 0%N = Some (Obj hx (BNode LMeta d)) /\
    h_mapped hx = false /\ W ∈ h_saved hx /\ listable (look (objs_of g W) (s_heap s) 0%N) /\
    exec (get_paths_recursive 9 false 0%N s) g = ((Ok res, s'), g) /\ map (fun x => mp_as_posix (fst x)) res = [ps "a/b"].
  Proof.
    destruct C28_reopened_case as (aa & ref & s' & g' & f & E & Ha & Hst & Hne & Hf & _).
    assert (HL : match exec (ses calls_b init_pst) gw with ((Ok [Ok ADone; Ok (ARef ref)], _), g') => listed g' ref | _ => None end = Some [ps "a/b"]) by (vm_compute; reflexivity).
    rewrite E, Ha in HL. clear E Ha. assert (Hok : heap_ok init_pst) by (intros ? ? [=]). assert (Hcs : caches_ok init_pst) by (split; [apply NoDup_nil_2|by intros ? ? []]).
    destruct (start_stored W eq_refl ltac:(done) 9 ltac:(lia) init_pst g' ref f Hok Hcs eq_refl Hst Hne Hf) as (s1 & Hx & HH).
    unfold listed in HL. rewrite ExecFacts.x_bind, Hx in HL. cbn beta iota in HL. change (s_next init_pst) with 0%N in *.
    assert (HO : exists hx d, s_heap s1 !! 0%N = Some (Obj hx (BNode LMeta d)) /\ h_mapped hx = false).
    { unfold object_at in Hx. rewrite (ReadFacts.x_new W g' ltac:(done)) in Hx. injection Hx as <-. cbn [s_heap]. eexists _, _. split; [rewrite WriteFacts.heap_insert, decide_True by done; reflexivity|reflexivity]. }
    destruct HO as (hx & d & Ho & Hm). destruct (exec (get_paths_recursive 9 false 0%N s1) g') as [[[xs|e] s2] g2] eqn:E2; [|done].
    assert (Hhm0 : home_mark W (s_heap s1) 0%N) by exact (ho_home W eq_refl ltac:(done) 9 ltac:(lia) _ _ _ _ _ HH).
    pose proof (Hhm0 _ Ho Hm) as Hhm. cbn [o_hdr] in Hhm.
    assert (Hli : listable (look (objs_of g' W) (s_heap s1) 0%N)) by exact (ho_listable W eq_refl ltac:(done) 9 ltac:(lia) _ _ _ _ _ HH).
    destruct (C17_contents W ltac:(done) eq_refl false 9 0%N hx LMeta d s1 g' (Ok xs) s2 g2 (ho_tidy _ _ _ _ _ _ _ HH) (ho_one _ _ _ _ _ _ _ HH) Ho (fun _ => Hhm) Hli E2) as (-> & _).
    exists g', s1, hx, d, xs, s2. split; [apply HH|]. split; [apply HH|]. split; [exact Ho|]. split; [exact Hm|]. split; [exact Hhm|]. split; [exact Hli|].
    split; [exact E2|]. exact (f_equal (fun o => match o with Some v => v | None => [] end) HL).
  Qed.
  (** C17 does not hold as stated for trees that are not loaded: the object that
      is listed is not the one that is found later, *)
  Theorem C17_unloaded_refuted : exists g : gstate,
    script g (mlet t <- new_file_tree; mlet m <- some_metadata (ps "x"); add_metadata 9 t p_ab m ;;;
              mlet ref <- filetree_write_out 9 t (Some A) false; mlet t2 <- file_tree_at A ref;
              mlet xs <- get_paths_recursive 9 false t2; mlet y <- get_object_at_path 9 t2 p_ab;
              mret (map (fun px => (mp_as_posix (fst px), bool_decide (Some (snd px) = y))) xs)) = Ok [(ps "a/b", false)].
  Proof. exists gab. vm_compute. reflexivity. Qed.
  Print Assumptions C17_unloaded_refuted.
  (** and a run that is added to a listed object is not in the tree. *)
  Theorem C17_lost_refuted : exists g : gstate,
    script g (mlet t <- new_file_tree; mlet m <- some_metadata (ps "x"); add_metadata 9 t p_ab m ;;;
              mlet ref <- filetree_write_out 9 t (Some A) false; mlet t2 <- file_tree_at A ref;
              mlet xs <- get_paths_recursive 9 false t2; miter (fun px => metadata_add_run 9 (snd px) (run1 (ps "y"))) xs ;;;
              mlet y <- get_metadata 9 t2 p_ab; mlet m <- match y with Some y => read_metadata 9 y | None => mret [] end;
              mret (length xs, values m)) = Ok (1%nat, [X]).
  Proof. exists gab. vm_compute. reflexivity. Qed.
  Print Assumptions C17_lost_refuted.
End Case.
