(** * Concrete cases of the theorems about logging (C71). *)
From Coq Require Import ZArith String Ascii List Bool QArith Lia.
From Verif Require Import Py ProofsPy Arith Construct Spec LocalSearch HyperSearch MultiProcess ProofsMulti PropertiesMulti Values ProofsVal Settings Instance SpecInstance
  SpecSettings PropertiesStructures PropertiesHistory PropertiesInstance PropertiesSettings PropertiesPoints
  MultiHistory SpecMultiHistory Report Logging SpecLogging PropertiesLogging PropertiesRecords PropertiesMultiHistory.
Import ListNotations.
Open Scope string_scope.
Open Scope list_scope.
Open Scope Z_scope.

Definition linux : host := mkHost 4 false true "no such file".
Definition windows : host := mkHost 4 true true "no such file".
Definition logged h o (s : machine qarith) : list record := snd (run_l h o s).
Definition given (k : string) (v : pyval) : op := OpSetSettings no_libraries (VDict [(VStr k, v)]).

(** Settings: too many workers; Windows; a rejected number (twice) and a rejected string (once). *)
Example C71_settings_demo :
  logged linux (given "workers_num" (VInt 8)) bins = [(WARNING, "you are trying to set more workers than your cpu threads.")] /\
  logged linux (given "workers_num" (VInt 4)) bins = [] /\
  warnings (logged windows (given "workers_num" (VInt 8)) bins) = [cpu_warning; windows_warning] /\
  logged linux (given "workers_num" (VInt 0)) bins =
    [(ERROR, "settings-->'workers_num': value must be positive integer."); (ERROR, "settings-->'workers_num': value must be positive integer.")] /\
  logged linux (given "workers_num" (VStr "x")) bins = [(ERROR, "settings-->'workers_num': value must be positive integer.")] /\
  logged linux (given "rotation" (VInt 1)) bins = [(ERROR, "settings-->'rotation': value must be of type boolean.")] /\
  logged linux (OpSetSettings no_libraries (VDict [(VStr "workers_num", VInt 8); (VStr "figure", VInt 5)])) bins =
    [(WARNING, "you are trying to set more workers than your cpu threads."); (ERROR, "settings-->'figure': value must be of type dict.")].
Proof. refine (conj _ (conj _ (conj _ (conj _ (conj _ (conj _ _)))))); vm_compute; reflexivity. Qed.

(** Orientation, alone and in hypersearch; a built-in exception is not logged. *)
Definition stiff : machine qarith := after bins [given "rotation" (VBool false)].
Example C71_orientation_demo :
  logged linux (OpOrient (Some "tall")) bins = [(WARNING, "orientation parameter 'tall' not valid. Orientation skipped.")] /\
  logged linux (OpOrient (Some "wide")) bins = [] /\
  logged linux (OpOrient (Some "wide")) stiff = [(WARNING, "can't rotate items. Rotation is disabled")] /\
  logged linux (OpHypersearch (fun _ => 0) true (Some "tall") (Some ("area", true)) []) bins =
    [(WARNING, "orientation parameter 'tall' not valid. Orientation skipped.")] /\
  (logged linux (OpSort (Some ("volume", true))) bins = [] /\ outcome (OpSort (Some ("volume", true))) bins = Err NotImplementedError).
Proof. refine (conj _ (conj _ (conj _ (conj _ (conj _ _))))); vm_compute; reflexivity. Qed.

(** The constructor. *)
Example C71_constructor_demo :
  genuine two_containers /\ genuine three_items /\
  snd (create_l (ar:=qarith) linux no_libraries two_containers three_items (VDict [(VStr "workers_num", VInt 8)]) VNone (blank qarith)) =
    [(WARNING, "you are trying to set more workers than your cpu threads.")] /\
  snd (create_l (ar:=qarith) linux no_libraries two_containers VNone (VDict [(VStr "workers_num", VInt 8)]) VNone (blank qarith)) =
    [(ERROR, "items must be of type dict.")].
Proof.
  assert (G : forall l, distinct_keys l -> (forall id w, In (id, w) l -> genuine_dims w) -> genuine (VDict l)) by (intros l H1 H2 l' [= <-]; auto).
  split; [|split; [|split; vm_compute; reflexivity]].
  - apply G; [repeat constructor|]. intros id w [H|[H|[]]]; injection H as <- <-; intros d [= <-]; repeat constructor.
  - apply G; [repeat constructor|]. intros id w [H|[H|[H|[]]]]; injection H as <- <-; intros d [= <-]; repeat constructor.
Qed.

(** log_solution and create_figure. *)
Definition drawn : machine qarith := after bins [OpSetSettings (mkEnv (Some "5.15.0") None (fun _ => false) (fun _ => false)) (VDict [(VStr "rotation", VBool true)]); OpSolve None].
Example C71_report_demo :
  log_solution_l linux bins = (Ok None, [(WARNING, "No solving operation has been concluded.")]) /\
  snd (log_solution_l linux drawn) = [] /\ m_sol drawn <> [] /\
  snd (create_figure_l linux (fun _ _ => true) false drawn) = [(WARNING, "If not showing or exporting the figure makes the operation obsolete.")] /\
  snd (create_figure_l linux (fun _ _ => true) true drawn) = [] /\
  snd (create_figure_l linux (fun _ _ => true) true (after bins [OpSolve None])) = [(ERROR, "plotly library is not installed.")].
Proof. refine (conj _ (conj _ (conj _ (conj _ (conj _ _))))); vm_compute; try reflexivity; discriminate. Qed.

(** ** Two processes, the second of which fails *)
Lemma failing_run {ar} (u : setup ar) i s : (i < workers u)%nat -> s_phase s i = PhBegin -> su_forced u i = true ->
  (forall o, (su_size u o <= su_capacity u)%nat) ->
  exists s', steps u nobody nobody s s' /\ s_phase s' i = PhExit /\ s_queue s' i = Some failure_output /\
    s_array s' i = nm1 ar /\ s_parent s' = s_parent s /\
    (forall k, k <> i -> s_phase s' k = s_phase s k /\ s_queue s' k = s_queue s k /\ s_array s' k = s_array s k).
Proof.
  intros Hi HB HF Hcap. assert (St : forall a b, worker_step u nobody nobody i a b -> steps u nobody nobody a b).
  { intros c d Hs. apply steps_one. eapply St_worker; eassumption. }
  set (s1 := set_phase s i PhFail). assert (H1 : steps u nobody nobody s s1) by (apply St; apply W_forced; assumption).
  set (s2 := set_phase (set_slot s1 i (nm1 ar)) i PhFailPut).
  assert (H2 : steps u nobody nobody s1 s2) by (apply St; apply W_fail; apply upd_same).
  set (s3 := set_phase s2 i (PhFlush failure_output)).
  assert (H3 : steps u nobody nobody s2 s3) by (apply St; apply W_fail_put; apply upd_same).
  set (s4 := set_phase (set_queue s3 i failure_output) i PhExit).
  assert (H4 : steps u nobody nobody s3 s4) by (apply St; apply W_flush; [apply upd_same|left; apply Hcap]).
  exists s4. split; [eapply steps_trans; [exact H1|]; eapply steps_trans; [exact H2|]; eapply steps_trans; [exact H3|exact H4]|].
  split; [apply upd_same|]. split; [apply upd_same|]. split; [cbn; apply upd_same|]. split; [reflexivity|].
  intros k Hk. unfold s4, s3, s2, s1. cbn [set_phase set_slot set_queue s_phase s_queue s_array]. rewrite !upd_other by assumption. auto.
Qed.

Definition failing_call : call qarith :=
  mkCall no_libraries (Some "tall") (Some ("area", true)) strategy_pool true (fun _ _ => 0) 0 (fun i => Nat.eqb i 1) (fun _ => 0%nat) 0.

(** What a call gives if only the first of its two workers succeeds. *)
Definition first_result (c : call qarith) (s : machine qarith) : option (machine qarith) :=
  match presort c s with
  | (s1, Ok tt) =>
      match prepare c s1 with
      | Ok u => match su_chunks u with
                | [[g]; [g2]] => match one_strategy u 0 g with
                          | Ok (a, o) => match take u o, MultiProcess.decide [a; nm1 qarith], neqb qarith (nm1 qarith) a with
                                         | PReturned sol objs b, PGet 0, false => Some (assign_result s1 sol objs b)
                                         | _, _, _ => None
                                         end
                          | _ => None
                          end
                | _ => None
                end
      | Err _ => None
      end
  | _ => None
  end.

Lemma first_succeeds h l s1 c (s s' : machine qarith) : first_result c s = Some s' ->
  ca_forced c 0%nat = false -> ca_forced c 1%nat = true -> (forall o, (ca_size c o <= ca_capacity c)%nat) ->
  presort_l h c s = (s1, Ok tt, l) -> prepare_records h c s1 = [] ->
  multi_l h nobody nobody c s s' (Ok tt) (l ++ [(ERROR, "Some of the processes raised an exception. Please check logs.")]).
Proof.
  intros H Hf0 Hf1 Hs El Hq. assert (E1 : presort c s = (s1, Ok tt)) by (eapply presort_of_l; exact El).
  unfold first_result in H. rewrite E1 in H. destruct (prepare c s1) as [u|] eqn:E2; [|discriminate H].
  destruct (su_chunks u) as [|[|g [|]] [|[|g2 [|]] [|]]] eqn:Hch; try discriminate H.
  destruct (one_strategy u 0 g) as [[a o]|] eqn:E3; [|discriminate H].
  destruct (take u o) as [| | |sol objs b|] eqn:Et; try discriminate H.
  destruct (MultiProcess.decide [a; nm1 qarith]) as [| |[|]| |] eqn:Ed; try discriminate H.
  destruct (neqb qarith (nm1 qarith) a) eqn:Ea; [discriminate H|]. injection H as <-.
  assert (Hu : su_forced u = ca_forced c /\ su_size u = ca_size c /\ su_capacity u = ca_capacity c).
  { unfold prepare in E2. destruct (view s1); [|discriminate]. destruct (partition _ _); [|discriminate]. cbn [bind] in E2.
    destruct (child_machine _ _) as [y|]; [|discriminate]. cbn [bind] in E2. destruct (view y); [|discriminate]. injection E2 as <-. auto. }
  destruct Hu as [Hu1 [Hu2 Hu3]]. assert (Hcap : forall o, (su_size u o <= su_capacity u)%nat) by (intros; rewrite Hu2, Hu3; apply Hs).
  assert (Hn : workers u = 2%nat) by (unfold workers; rewrite Hch; reflexivity).
  assert (Pt : forall a b, parent_step u a b -> steps u nobody nobody a b).
  { intros a' b' Hs'. apply steps_one. apply St_parent. assumption. }
  set (t1 := set_parent (set_phase (start_state (ar := qarith)) 0 PhBegin) (PStart 1)).
  assert (T1 : steps u nobody nobody start_state t1) by (apply Pt; apply P_start; [reflexivity|lia]).
  set (t2 := set_parent (set_phase t1 1 PhBegin) (PStart 2)).
  assert (T2 : steps u nobody nobody t1 t2) by (apply Pt; apply P_start; [reflexivity|lia]).
  destruct (worker_whole_run u 0 t2 g a o) as [t3 [T3 [P3 [Q3 [A3 [R3 O3]]]]]];
    try assumption; try (unfold chunk; rewrite Hch; reflexivity); try lia; try reflexivity; [rewrite Hu1; exact Hf0|].
  destruct (O3 1%nat ltac:(lia)) as [P31 [Q31 A31]].
  destruct (failing_run u 1 t3) as [t4 [T4 [P4 [Q4 [A4 [R4 O4]]]]]]; [lia|rewrite P31; reflexivity|rewrite Hu1; exact Hf1|exact Hcap|].
  destruct (O4 0%nat ltac:(lia)) as [P40 [Q40 A40]].
  assert (R : s_parent t4 = PStart (workers u)) by (rewrite R4, R3, Hn; reflexivity).
  set (t5 := set_parent t4 (PJoin 0)).
  assert (T5 : steps u nobody nobody t4 t5) by (apply Pt; apply P_started; assumption).
  set (t6 := set_parent t5 (PJoin 1)).
  assert (T6 : steps u nobody nobody t5 t6).
  { apply Pt. apply P_join; [reflexivity|lia|]. left. cbn [t5 set_parent s_phase]. rewrite P40. exact P3. }
  set (t7 := set_parent t6 (PJoin 2)).
  assert (T7 : steps u nobody nobody t6 t7).
  { apply Pt. apply P_join; [reflexivity|lia|]. left. exact P4. }
  assert (AL : array_list u t7 = [a; nm1 qarith]).
  { unfold array_list. rewrite Hn. cbn [seq map]. cbn [t7 t6 t5 set_parent s_array]. rewrite A40, A3, A4. reflexivity. }
  set (t8 := set_parent t7 (PGet 0)).
  assert (T8 : steps u nobody nobody t7 t8).
  { apply Pt. unfold t8. rewrite <- Ed, <- AL. apply P_joined. cbn [t7 set_parent s_parent]. rewrite Hn. reflexivity. }
  set (t9 := set_parent t8 (PReturned sol objs b)).
  assert (T9 : steps u nobody nobody t8 t9).
  { apply Pt. unfold t9. rewrite <- Et. apply (P_get u t8 0%nat); [reflexivity|]. cbn [t8 t7 t6 t5 set_parent s_queue]. rewrite Q40. exact Q3. }
  assert (R7 : reachable u nobody nobody t7).
  { eapply steps_trans; [exact T1|]. eapply steps_trans; [exact T2|]. eapply steps_trans; [exact T3|].
    eapply steps_trans; [exact T4|]. eapply steps_trans; [exact T5|]. eapply steps_trans; [exact T6|exact T7]. }
  assert (J : joined_records h (array_list u t7) = [(ERROR, "Some of the processes raised an exception. Please check logs.")]).
  { rewrite AL. unfold joined_records. unfold MultiProcess.decide in Ed.
    destruct (neqb qarith (q_max [a; nm1 qarith]) (nm1 qarith)); [discriminate Ed|]. cbn [existsb]. rewrite Ea. reflexivity. }
  pose proof (multi_l_returned h nobody nobody c s s1 u t7 t9 sol objs b l El E2 R7) as K.
  rewrite Hq, J in K. apply K; [cbn; rewrite Hn; reflexivity|eapply steps_trans; [exact T8|exact T9]|reflexivity].
Qed.

(** The call of [failing_call] on the instance with two workers warns about the orientation,
    returns the first worker's packing and says that some processes failed. *)
Definition failing_end : machine qarith := match first_result failing_call (pair true) with Some s => s | None => pair true end.
Example C71_processes_demo :
  mhistory no_libraries two_containers three_items (two_workers_settings true) VNone [] (pair true) /\ in_force (pair true) /\
  figure_possible no_libraries (pair true) /\
  multi_l linux nobody nobody failing_call (pair true) failing_end (Ok tt)
    [(WARNING, "orientation parameter 'tall' not valid. Orientation skipped.");
     (ERROR, "Some of the processes raised an exception. Please check logs.")] /\
  m_sol failing_end <> [].
Proof.
  split; [exists (pair true); split; [apply pair_created|constructor]|].
  split; [eapply C61_created_in_force; apply pair_created|].
  split; [eexists; split; [vm_compute; reflexivity|left; reflexivity]|]. split; [|vm_compute; discriminate].
  assert (F : first_result failing_call (pair true) = Some failing_end).
  { unfold failing_end. assert (X : first_result failing_call (pair true) <> None) by (vm_compute; discriminate).
    destruct (first_result failing_call (pair true)); [reflexivity|congruence]. }
  refine (first_succeeds linux [(WARNING, "orientation parameter 'tall' not valid. Orientation skipped.")] (fst (presort failing_call (pair true))) failing_call _ _ F _ _ _ _ _);
    [reflexivity|reflexivity|intros; apply le_n|vm_compute; reflexivity|vm_compute; reflexivity].
Qed.
