(** * C68: PointGenPack behaves as HyperPack on everything both offer. *)
From Coq Require Import ZArith String List Bool Lia.
From Verif Require Import Py ProofsPy Arith Construct Spec LocalSearch Values ProofsVal Settings Instance SpecInstance
  PropertiesHistory PropertiesInstance Report Text PointGen SpecPointGen ProofsPointGen.
Import ListNotations.
Open Scope string_scope.
Open Scope list_scope.
Open Scope Z_scope.

Lemma play_leads {ar} l : forall (s s' : machine ar) rs, play run l s = (s', rs) -> leads_to s l s'.
Proof.
  induction l as [|o l IH]; intros s s' rs E; cbn [play] in E; [injection E as <- <-; constructor|].
  destruct (run o s) as [s1 r] eqn:R. destruct (play run l s1) as [s2 rs'] eqn:P. injection E as <- <-. econstructor; [exact R|eauto].
Qed.

Lemma alike_twin {ar} (p h : machine ar) : alike p h <-> h = twin p.
Proof. reflexivity. Qed.

(** ** C68 *)

(** The constructors accept and reject the same, with the same error, whatever settings for the
    searches PointGenPack is given; the objects are alike. *)
Theorem C68_same_constructor : forall ar env containers items settings width,
  snd (pg_create ar env containers items settings width (blank ar)) =
  snd (create ar env containers items (common_settings settings) width (blank ar)) /\
  (snd (pg_create ar env containers items settings width (blank ar)) = Ok tt ->
   alike (fst (pg_create ar env containers items settings width (blank ar)))
         (fst (create ar env containers items (common_settings settings) width (blank ar)))).
Proof.
  intros ar env containers items settings width. pose proof (create_twin (ar := ar) env containers items settings width) as H.
  destruct (pg_create ar env containers items settings width (blank ar)) as [p r].
  destruct (create ar env containers items (common_settings settings) width (blank ar)) as [h r'].
  unfold agree in H. cbn [fst snd] in *. destruct H as [-> H]. split; [reflexivity|]. intros E. apply (H E).
Qed.
Print Assumptions C68_same_constructor.

(** Any sequence of operations offered by both: each returns or raises the same, and the objects
    stay alike. *)
Theorem C68_same_calls : forall ar env containers items settings width (p0 p : machine ar) l outcomes,
  pg_create ar env containers items settings width (blank ar) = (p0, Ok tt) -> forallb offered l = true ->
  play (pg_run ar) l p0 = (p, outcomes) ->
  exists h0 h, created env containers items (common_settings settings) width h0 /\
    play run (map common_op l) h0 = (h, outcomes) /\ alike p h.
Proof.
  intros ar env containers items settings width p0 p l rs E Hl Hp.
  pose proof (create_twin (ar := ar) env containers items settings width) as H. rewrite E in H. unfold created.
  destruct (create ar env containers items (common_settings settings) width (blank ar)) as [h0 r'] eqn:C.
  unfold agree in H. cbn [fst snd] in H. destruct H as [-> H].
  destruct (H eq_refl) as [-> P]. exists (twin p0), (twin p). split; [reflexivity|]. rewrite (play_twin l p0 P Hl), Hp. split; reflexivity.
Qed.
Print Assumptions C68_same_calls.

(** The methods it lacks raise AttributeError and change nothing. *)
Theorem C68_missing_methods : forall ar (s : machine ar) o, offered o = false -> pg_run ar o s = (s, Err AttributeError).
Proof. intros ar s o H. destruct o; try discriminate H; reflexivity. Qed.
Print Assumptions C68_missing_methods.

(** Alike objects print and draw the same. *)
Lemma containers_lines_twin {ar} (p : machine ar) x l : containers_lines (twin p) x l = containers_lines p x l.
Proof. induction l as [|c l IH]; [reflexivity|]. cbn [containers_lines]. rewrite IH. reflexivity. Qed.
Lemma entry_strs_twin {ar} (p : machine ar) k d : entry_strs (twin p) k d = entry_strs p k d.
Proof. induction d as [|[[] []] d IH]; try reflexivity. cbn [entry_strs]. rewrite IH. reflexivity. Qed.

Theorem C68_same_reports : forall ar (p h : machine ar), alike p h ->
  (forall writes show, create_figure writes show h = create_figure writes show p) /\
  log_solution h = log_solution p /\ log_text h = log_text p /\ (forall n, struct_str h n = struct_str p n).
Proof.
  intros ar p h H. apply (proj1 (alike_twin _ _)) in H. subst h. split; [|split; [reflexivity|split]].
  - intros. apply figure_twin.
  - unfold log_text. rewrite view_twin. change (m_sol (twin p)) with (m_sol p). destruct (m_sol p); [reflexivity|].
    destruct (view p) as [x|]; [|reflexivity]. rewrite containers_lines_twin. reflexivity.
  - intros n. unfold struct_str. change (m_structs (twin p)) with (m_structs p). destruct (nth_error (m_structs p) n); [|reflexivity].
    rewrite entry_strs_twin. reflexivity.
Qed.
Print Assumptions C68_same_reports.

(** Hence every state of a PointGenPack, whatever was called, is that of a HyperPack: the theorems
    about histories hold of it. *)
Theorem C68_is_a_history : forall ar env containers items settings width l (p : machine ar),
  pg_history env containers items settings width l p ->
  exists h, history env containers items (common_settings settings) width (map common_op (filter offered l)) h /\ alike p h.
Proof.
  intros ar env containers items settings width l p [p0 [rs [E Hp]]].
  assert (F : forall l (p0 : machine ar), fst (play (pg_run ar) (filter offered l) p0) = fst (play (pg_run ar) l p0)).
  { clear. induction l as [|o l IH]; intros p0; [reflexivity|]. cbn [filter play]. destruct (offered o) eqn:O.
    - cbn [play]. destruct (pg_run ar o p0) as [p1 r]. specialize (IH p1).
      destruct (play (pg_run ar) (filter offered l) p1), (play (pg_run ar) l p1). exact IH.
    - rewrite (C68_missing_methods ar p0 o O). specialize (IH p0). destruct (play (pg_run ar) l p0). exact IH. }
  assert (A : forallb offered (filter offered l) = true).
  { apply forallb_forall. intros o Ho. apply filter_In in Ho. apply Ho. }
  destruct (play (pg_run ar) (filter offered l) p0) as [p' rs'] eqn:P'. pose proof (F l p0) as F0. rewrite P', Hp in F0. cbn [fst] in F0. subst p'.
  destruct (C68_same_calls ar env containers items settings width p0 p _ rs' E A P') as [h0 [h [H1 [H2 H3]]]].
  exists h. split; [|exact H3]. exists h0. split; [exact H1|]. eapply play_leads. exact H2.
Qed.
Print Assumptions C68_is_a_history.

(** For instance: containers and items stay well formed, the solution is a packing of them, the
    heights of a strip are in order ([|=] excepted: C32, C35, C37). *)
Lemma without_ior_common l : without_ior l -> without_ior (map common_op (filter offered l)).
Proof.
  intros H o Ho. apply in_map_iff in Ho. destruct Ho as [o' [<- Ho]]. apply filter_In in Ho. destruct Ho as [Ho _].
  specialize (H o' Ho). destruct o'; try reflexivity; exact H.
Qed.

Theorem C68_states : forall ar, arith_laws ar ->
  forall env containers items settings width l (p : machine ar),
  pg_history env containers items settings width l p -> without_ior l ->
  well_formed p /\ heights_ok p /\
  (m_sol p = [] \/
   exists cs is_, containers_of p = Some cs /\ items_of p = Some is_ /\ a_packing cs is_ (m_strip p) (m_sol p)).
Proof.
  intros ar laws env containers items settings width l p H Hl.
  destruct (C68_is_a_history ar _ _ _ _ _ _ _ H) as [h [Hh A]]. apply (proj1 (alike_twin _ _)) in A. subst h.
  pose proof (without_ior_common l Hl) as Hl'. split; [|split].
  - exact (C32_well_formed_partial ar laws _ _ _ _ _ _ _ Hh Hl').
  - exact (C37_heights_partial ar laws _ _ _ _ _ _ _ Hh Hl').
  - exact (C35_solution_fits_partial ar laws _ _ _ _ _ _ _ Hh Hl').
Qed.
Print Assumptions C68_states.

(** A PointGenPack and a HyperPack, each with its own history, that agree on what [solve] depends
    on, give the same solution. *)
Theorem C68_same_solution : forall ar, arith_laws ar ->
  forall env1 containers1 items1 settings1 width1 l1 env2 containers2 items2 settings2 width2 l2
         (p s p' s' : machine ar) sequence r1 r2,
  pg_history env1 containers1 items1 settings1 width1 l1 p -> without_ior l1 ->
  history env2 containers2 items2 settings2 width2 l2 s -> without_ior l2 ->
  same_input sequence p s ->
  pg_run ar (OpSolve sequence) p = (p', r1) -> run (OpSolve sequence) s = (s', r2) ->
  r1 = r2 /\ (r1 = Ok tt -> m_sol p' = m_sol s' /\ m_objs p' = m_objs s').
Proof.
  intros ar laws ? ? ? ? ? l1 ? ? ? ? ? l2 p s p' s' sq r1 r2 H1 Hl1 H2 Hl2 Hi E1 E2.
  destruct (C68_is_a_history ar _ _ _ _ _ _ _ H1) as [h [Hh A]]. apply (proj1 (alike_twin _ _)) in A. subst h.
  destruct (framed_run (ar := ar) (OpSolve sq) eq_refl eq_refl p (common_cfg (m_cfg p)) eq_refl) as [F _].
  change (set_cfg p (common_cfg (m_cfg p))) with (twin p) in F. cbn [pg_run] in E1. rewrite E1 in F. cbn [fst snd] in F.
  exact (C13_depends_only_on_input ar laws _ _ _ _ _ _ _ _ _ _ _ _ _ _ _ _ sq r1 r2 Hh (without_ior_common l1 Hl1) H2 Hl2 Hi F E2).
Qed.
Print Assumptions C68_same_solution.

(** The settings of the searches make no difference to a PointGenPack. *)
Theorem C68_search_settings_ignored : forall ar env containers items settings settings' width,
  common_settings settings = common_settings settings' ->
  snd (pg_create ar env containers items settings width (blank ar)) = snd (pg_create ar env containers items settings' width (blank ar)).
Proof.
  intros ar env containers items settings settings' width H.
  destruct (C68_same_constructor ar env containers items settings width) as [E1 _].
  destruct (C68_same_constructor ar env containers items settings' width) as [E2 _]. rewrite E1, E2, H. reflexivity.
Qed.
Print Assumptions C68_search_settings_ignored.

(** Settings HyperPack rejects are accepted; a change of rotation counts; the searches are missing. *)
Definition odd_settings : pyval := VDict [(VStr "workers_num", VInt (-1)); (VStr "rotation", VBool false); (VStr "max_time_in_seconds", VStr "x")].
Definition pg : machine qarith :=
  fst (pg_create qarith no_libraries two_containers three_items odd_settings VNone (blank qarith)).
Definition pg_work : list op :=
  [OpSolve None; OpSort (Some ("area", true)); OpSetSettings no_libraries (VDict [(VStr "workers_num", VNone)]);
   OpStructSet 1 (VStr "d") (py_dims KItems 1 2); OpSetSettings no_libraries (VDict [(VStr "rotation", VInt 1)]); OpSolve None].

Example C68_witness :
  snd (pg_create qarith no_libraries two_containers three_items odd_settings VNone (blank qarith)) = Ok tt /\
  snd (create qarith no_libraries two_containers three_items odd_settings VNone (blank qarith)) = Err (SettingsError S_MAX_TIME_TYPE) /\
  snd (play (pg_run qarith) pg_work pg) =
    [Ok tt; Err AttributeError; Ok tt; Ok tt; Err (SettingsError S_ROTATION_TYPE); Ok tt] /\
  m_sol (fst (play (pg_run qarith) pg_work pg)) <> [].
Proof. refine (conj _ (conj _ (conj _ _))); vm_compute; solve [reflexivity|discriminate]. Qed.

Example C68_history_witness :
  pg_history no_libraries two_containers three_items odd_settings VNone pg_work (fst (play (pg_run qarith) pg_work pg)).
Proof.
  exists pg, (snd (play (pg_run qarith) pg_work pg)). split; [|apply surjective_pairing].
  destruct (pg_create qarith no_libraries two_containers three_items odd_settings VNone (blank qarith)) as [p r] eqn:E.
  pose proof (proj1 C68_witness) as W. rewrite E in W. cbn [snd] in W. subst r. unfold pg. rewrite E. reflexivity.
Qed.
