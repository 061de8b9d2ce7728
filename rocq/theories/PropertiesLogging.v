(** * C71: what is written to the "hyperpack" logger. *)
From Coq Require Import ZArith String Ascii List Bool QArith Lia Lqa.
From Verif Require Import Py Arith Construct LocalSearch Values ProofsVal Settings Instance MultiProcess MultiHistory Report
  SpecInstance SpecSettings SpecLogging Logging ProofsSettings ProofsMultiHistory PropertiesHistory PropertiesSettings.
Import ListNotations.
Open Scope string_scope.
Open Scope list_scope.
Open Scope Z_scope.

(** ** The records change nothing *)
Definition erased {S A} (m : LM S A) (p : SM S A) : Prop := forall s, fst (m s) = p s.

Lemma erased_quiet {S A} why (p : SM S A) : erased (quiet why p) p.
Proof. intros s. unfold quiet. destruct (p s). reflexivity. Qed.

Lemma erased_bind {S A B} (m : LM S A) p (f : A -> LM S B) g : erased m p -> (forall a, erased (f a) (g a)) ->
  erased (lbind m f) (sbind p g).
Proof.
  intros H1 H2 s. unfold lbind, sbind. rewrite <- H1. destruct (m s) as [[s' [a|e]] l]; cbn [fst]; [|reflexivity].
  rewrite <- H2. destruct (f a s') as [[s'' r] l']. reflexivity.
Qed.

Lemma erased_log {S} l : erased (S:=S) (log l) (sret tt).
Proof. intros s. reflexivity. Qed.

Lemma erased_ext {S A} (m : LM S A) p q : erased m p -> (forall s, p s = q s) -> erased m q.
Proof. intros H E s. rewrite H. apply E. Qed.

Lemma erased_log_after {S} (p : SM S unit) why l : erased (lbind (quiet why p) (fun _ => log l)) p.
Proof. intros s. unfold lbind, quiet, log. destruct (p s) as [s' [[]|e]]; reflexivity. Qed.

Lemma erased_solver h : erased (validate_solver_l h) validate_solver.
Proof.
  unfold validate_solver_l, validate_solver. apply erased_bind; [apply erased_quiet|]. intros _.
  apply erased_bind; [apply erased_quiet|]. intros c. destruct (c_settings c) as [| | | | | | |d| | |]; try apply erased_quiet.
  destruct d as [|kv d0]; [apply erased_quiet|]. apply erased_bind.
  - destruct (as_int _); apply erased_quiet.
  - intros _. assert (G : forall w, w <> VNone ->
      erased (if negb (positive_number w) then fun c => (c, Err (serr S_WORKERS_VALUE), workers_rejected w)
              else lbind (quiet (h_why h) (smodify (fun c => with_workers c w))) (fun _ => log (workers_warnings h w)))
             (sbind (swhen (negb (positive_number w)) (serr S_WORKERS_VALUE)) (fun _ => smodify (fun c => with_workers c w)))).
    { intros w _ s. destruct (negb (positive_number w)); reflexivity. }
    destruct (vget_str (kv :: d0) "workers_num"); try (apply G; discriminate). apply erased_log_after.
Qed.

Lemma erased_validate h env : erased (validate_settings_l h env) (validate_settings env).
Proof. apply erased_bind; [apply erased_solver|]. intros _. apply erased_quiet. Qed.

Section Erased.
Context {ar : arith}.
Notation machine := (machine ar).

Lemma erased_cfg m p : erased m p -> erased (on_cfg_l (ar:=ar) m) (on_cfg ar p).
Proof. intros H s. unfold on_cfg_l, on_cfg. rewrite <- H. destruct (m (m_cfg s)) as [[c r] l]. reflexivity. Qed.

Lemma erased_orient h o : erased (do_orient_l (ar:=ar) h o) (do_orient ar o).
Proof.
  intros s. unfold do_orient_l, lbind, log, quiet. destruct (do_orient ar o s). reflexivity.
Qed.

Lemma erased_hypersearch h ck throttle o sb strategies :
  erased (do_hypersearch_l (ar:=ar) h ck throttle o sb strategies) (do_hypersearch ar ck throttle o sb strategies).
Proof.
  unfold do_hypersearch_l, do_hypersearch. apply erased_bind; [apply erased_quiet|]. intros _.
  apply erased_bind; [apply erased_orient|]. intros _. eapply erased_ext; [apply erased_quiet|]. intros s. reflexivity.
Qed.
End Erased.

Theorem C71_same_behaviour : forall ar h o (s : machine ar), fst (run_l h o s) = run o s.
Proof.
  intros ar h o s. destruct o; cbn [run_l run]; try apply erased_quiet.
  - apply erased_cfg. apply erased_bind; [apply erased_quiet|]. intros _. apply erased_validate.
  - apply erased_cfg. apply erased_validate.
  - apply erased_orient.
  - apply erased_bind; [apply erased_quiet|]. intros s0. destruct (one_worker _); [apply erased_hypersearch|apply erased_quiet].
Qed.
Print Assumptions C71_same_behaviour.

(** ** Settings *)
Lemma exceeds_spec v n : exceeds v n = true <-> more_than v n.
Proof.
  unfold exceeds, more_than. split.
  - destruct v as [|b|z|f|s|l|l|d|h|h|k]; cbn [as_number]; try discriminate.
    + intros H. left. exists (if b then 1 else 0). split; [unfold an_int; destruct b; auto|].
      apply negb_true_iff in H. destruct b; unfold Qle_bool, inject_Z in H; cbn in H; apply Z.leb_gt in H; lia.
    + intros H. left. exists z. split; [left; reflexivity|]. apply negb_true_iff in H. unfold Qle_bool, inject_Z in H. cbn in H. apply Z.leb_gt in H. lia.
    + destruct f as [|[]|q]; try discriminate; [auto|]. intros H. right. left. exists q. split; [reflexivity|].
      apply negb_true_iff in H. apply Qnot_le_lt. intros C. apply Qle_bool_iff in C. congruence.
  - intros [[z [[->|[[-> ->]|[-> ->]]] H]]|[[q [-> H]]| ->]]; cbn [as_number]; try reflexivity; apply negb_true_iff.
    + unfold Qle_bool, inject_Z. cbn. apply Z.leb_gt. lia.
    + unfold Qle_bool, inject_Z. cbn. apply Z.leb_gt. lia.
    + unfold Qle_bool, inject_Z. cbn. apply Z.leb_gt. lia.
    + destruct (Qle_bool q (inject_Z n)) eqn:E; [|reflexivity]. apply Qle_bool_iff in E. apply Qle_not_lt in E. contradiction.
Qed.

Lemma number_spec v : (exists f, as_number v = Some f) <-> a_number v.
Proof.
  unfold a_number, an_int. split.
  - intros [f H]. destruct v as [|b|z|g|s|l|l|d|h|h|k]; cbn in H; try discriminate; [left; exists (if b then 1 else 0); destruct b; auto|left; eauto|right; eauto].
  - intros [[z [->|[[-> ->]|[-> ->]]]]|[f ->]]; cbn; eauto.
Qed.

Lemma one_no_warning h : 1 <= h_cpus h -> workers_warnings h (VInt 1) = [].
Proof.
  intros H. unfold workers_warnings. assert (E1 : exceeds (VInt 1) (h_cpus h) = false).
  { destruct (exceeds (VInt 1) (h_cpus h)) eqn:E; [|reflexivity]. apply exceeds_spec in E.
    destruct E as [[z [[Z|[[Z _]|[Z _]]] Hz]]|[[q [Z _]]|Z]]; try discriminate Z. injection Z as <-. lia. }
  rewrite E1. reflexivity.
Qed.

Lemma raised_errors {A} why (r : result A) : raised why r = map (pair ERROR) (errors_of why false r).
Proof. destruct r as [a|e]; [reflexivity|]. cbn. destruct (message why e); reflexivity. Qed.

Definition rejected_number (v : pyval) : Prop := exists d w, v = VDict d /\ has d "workers_num" w /\ a_number w.

Definition solver_error (e : exn) : Prop :=
  match e with
  | SettingsError (S_TYPE | S_ROTATION_TYPE | S_MAX_TIME_TYPE | S_MAX_TIME_VALUE | S_WORKERS_VALUE) => True
  | _ => False
  end.

Lemma solver_records h c c1 r l : 1 <= h_cpus h -> validate_solver_l h c = (c1, r, l) ->
  match r with
  | Ok _ => l = map (pair WARNING) (map snd (workers_warnings h (c_workers c1)))
  | Err e => exists twice, l = map (pair ERROR) (errors_of (h_why h) twice r) /\
      (twice = true <-> e = SettingsError S_WORKERS_VALUE /\ rejected_number (c_settings c)) /\ solver_error e
  end.
Proof.
  intros Hc E.
  assert (W : forall w, workers_warnings h w = map (pair WARNING) (map snd (workers_warnings h w))).
  { intros w. unfold workers_warnings. destruct (exceeds w (h_cpus h)), (exceeds w 1 && h_windows h && h_main h); reflexivity. }
  assert (N : forall (e : exn), e <> SettingsError S_WORKERS_VALUE /\ solver_error e -> forall l', l' = raised (A:=unit) (h_why h) (Err e) ->
     exists twice, l' = map (pair ERROR) (errors_of (A:=unit) (h_why h) twice (Err e)) /\
      (twice = true <-> e = SettingsError S_WORKERS_VALUE /\ rejected_number (c_settings c)) /\ solver_error e).
  { intros e [He He'] l' ->. exists false. split; [apply raised_errors|]. split; [|exact He']. split; [discriminate|]. intros [X _]. congruence. }
  unfold validate_solver_l, lbind at 1 in E. unfold quiet at 1 in E.
  destruct (validate_rotation c) as [c0 r0] eqn:E0.
  assert (R0 : match r0 with Ok _ => c_settings c0 = c_settings c | Err e => e <> SettingsError S_WORKERS_VALUE /\ solver_error e end).
  { unfold validate_rotation, sbind, sget in E0. destruct (c_settings c) as [| | | | | | |d| | |] eqn:Ec; try (injection E0 as <- <-; split; [discriminate|exact I]).
    destruct d as [|kv d]; [injection E0 as <- <-; exact Ec|].
    destruct (vget_str (kv :: d) "rotation"); injection E0 as <- <-; try (split; [discriminate|exact I]); exact Ec. }
  destruct r0 as [[]|e]; [|injection E as <- <- <-; apply N; [exact R0|reflexivity]].
  cbn [raised app] in E. unfold lbind at 1, quiet at 1, sget in E. rewrite R0 in E.
  assert (K : forall (m : cfg * result unit * list record),
      (let '(s1, r1, l1) := (let '(s2, r2, l2) := m in (s2, r2, [] ++ l2)) in (s1, r1, [] ++ l1)) = m)
    by (intros [[? ?] ?]; reflexivity).
  cbn [raised] in E. rewrite K in E. clear K.
  destruct (c_settings c) as [| | | | | | |d| | |] eqn:Ec; try (injection E as <- <- <-; unfold validate_rotation, sbind, sget in E0; rewrite Ec in E0; discriminate E0).
  destruct d as [|kv d0].
  { injection E as <- <- <-. cbn [c_workers with_workers]. unfold workers_default. rewrite (one_no_warning h Hc). reflexivity. }
  set (d := kv :: d0) in *. unfold lbind at 1 in E.
  set (mt := match vget d (VStr "max_time_in_seconds") with Some v => v | None => VInt limit_default end) in E.
  destruct (as_int mt) as [z|]; [|injection E as <- <- <-; apply N; [split; [discriminate|exact I]|reflexivity]].
  unfold quiet at 1 in E. rewrite swhen_cases in E. destruct (z <? 1); [injection E as <- <- <-; apply N; [split; [discriminate|exact I]|reflexivity]|].
  cbn [smodify raised app] in E.
  destruct (any_workers_cases d) as [[w [W1 [-> W2]]]|[w [W1 [W2 W3]]]].
  { rewrite W1 in E. unfold smodify in E. unfold lbind, quiet, log, smodify in E. cbn [app raised] in E. injection E as <- <- <-. cbn [c_workers with_workers].
    apply W. }
  assert (E2 : (if negb (positive_number w) then fun c => (c, Err (serr S_WORKERS_VALUE), workers_rejected w)
              else lbind (quiet (h_why h) (smodify (fun c => with_workers c w))) (fun _ => log (workers_warnings h w))) (with_limit c0 z) = (c1, r, l)).
  { rewrite W1 in E. unfold smodify at 1 in E. cbn [app raised] in E. destruct w; try congruence;
      match type of E with (match ?m with _ => _ end) = _ => transitivity m; [reflexivity|]; destruct m as [[? ?] ?]; exact E end. }
  clear E. destruct (negb (positive_number w)) eqn:Ep.
  - injection E2 as <- <- <-. unfold workers_rejected. destruct (as_number w) as [f|] eqn:Ea.
    + exists true. split; [reflexivity|]. split; [|exact I]. split; [|reflexivity]. intros _. split; [reflexivity|]. exists d, w. split; [reflexivity|]. split; [exact W3|].
      apply number_spec. eauto.
    + exists false. split; [reflexivity|]. split; [|exact I]. split; [discriminate|]. intros [_ [d' [w' [X [G1 G2]]]]]. injection X as <-.
      unfold has in *. assert (w' = w) by congruence. subst w'. apply number_spec in G2. destruct G2 as [f G2]. congruence.
  - unfold lbind, quiet, log, smodify in E2. cbn [app raised] in E2. injection E2 as <- <- <-. cbn [c_workers with_workers]. apply W.
Qed.

Lemma settings_warning_iff h v d b z w t : v = VDict d -> rotation_is d b -> max_time_is d z -> any_workers_is d w ->
  (In t (map snd (workers_warnings h w)) <-> settings_warning h v t).
Proof.
  intros Ev Hr Hz Hw. assert (G : workers_given v w) by (exists d, b, z; auto).
  assert (U : forall w', workers_given v w' -> w' = w).
  { intros w' [d' [b' [z' [X [_ [_ Hw']]]]]]. assert (d' = d) by congruence. subst d'. eapply (C40_values_unique d b b z z); eassumption. }
  unfold workers_warnings. rewrite map_app, in_app_iff. split.
  - intros [H|H].
    + destruct (exceeds w (h_cpus h)) eqn:E; [|destruct H]. destruct H as [<-|[]]. apply (too_many_workers h v w G). apply exceeds_spec. exact E.
    + destruct (exceeds w 1 && h_windows h && h_main h) eqn:E; [|destruct H]. destruct H as [<-|[]].
      apply andb_true_iff in E. destruct E as [E E3]. apply andb_true_iff in E. destruct E as [E1 E2].
      apply (entry_point h v w G); [apply exceeds_spec; exact E1|exact E2|exact E3].
  - intros [w' G' M|w' G' M M2 M3]; apply U in G'; subst w'; apply exceeds_spec in M; rewrite M.
    + left. left. reflexivity.
    + right. rewrite M2, M3. left. reflexivity.
Qed.

Lemma workers_warnings_NoDup h w : NoDup (map snd (workers_warnings h w)).
Proof.
  unfold workers_warnings. destruct (exceeds w (h_cpus h)), (exceeds w 1 && h_windows h && h_main h); cbn [app map snd];
    repeat constructor; intros H; [destruct H as [H|[]]; discriminate H|destruct H..].
Qed.

(** The records [l] of a call: first the warnings [ws], then the errors for its result [r]. *)
Definition in_order {A} (why : string) (ws : list string) (twice : bool) (r : result A) (l : list record) : Prop :=
  l = map (pair WARNING) ws ++ map (pair ERROR) (errors_of why twice r).

Lemma validate_records h env v c c' r l : 1 <= h_cpus h -> c_settings c = v -> validate_settings_l h env c = (c', r, l) ->
  exists ws twice, in_order (h_why h) ws twice r l /\ NoDup ws /\ (forall t, In t ws <-> settings_warning h v t) /\
    (twice = true <-> r = Err (SettingsError S_WORKERS_VALUE) /\ rejected_number v).
Proof.
  intros Hc Es E. assert (V : validate_settings env c = (c', r)) by (rewrite <- (erased_validate h env c), E; reflexivity).
  unfold validate_settings_l, lbind in E. destruct (validate_solver_l h c) as [[c1 r1] l1] eqn:E1.
  pose proof (solver_records h c c1 r1 l1 Hc E1) as S1.
  assert (V1 : validate_solver c = (c1, r1)) by (rewrite <- (erased_solver h c), E1; reflexivity).
  assert (Ws : with_settings c v = c) by (subst v; destruct c; reflexivity).
  pose proof (validate_solver_tri env v c c (eq_sym Ws)) as T. rewrite V1 in T.
  destruct r1 as [[]|e].
  - destruct T as [d [Ev [T1 [T2 [T3 [T4 _]]]]]]. unfold quiet in E. destruct (validate_figure env c1) as [c2 r2] eqn:E2. injection E as <- <- <-.
    exists (map snd (workers_warnings h (c_workers c1))), false. split; [unfold in_order; rewrite S1, raised_errors; reflexivity|].
    split; [apply workers_warnings_NoDup|]. split; [intros t; eapply settings_warning_iff; eassumption|]. split; [discriminate|].
    intros [-> _]. pose proof (validate_settings_tri env v c c (eq_sym Ws)) as T'. rewrite V in T'. destruct T' as [_ [d' [w [X [G1 [G2 [G3 G4]]]]]]].
    exfalso. assert (d' = d) by congruence. subst d'. destruct T4 as [[[T4|T4] _]|[T4 T5]]; unfold absent, has in *; try congruence.
    assert (w = c_workers c1) by congruence. subst w. tauto.
  - injection E as <- <- <-. destruct S1 as [twice [-> [S1 S2]]]. exists [], twice. split; [reflexivity|]. split; [constructor|].
    split; [|rewrite Es in S1; rewrite S1; split; [intros [-> ?]; auto|intros [X ?]; split; [congruence|assumption]]].
    intros t. split; [intros []|]. intros H. exfalso.
    assert (G : exists w, workers_given v w) by (destruct H; eauto). destruct G as [w [d [b [z [Ev [G1 [G2 G3]]]]]]].
    destruct e; try contradiction. destruct T as [_ T].
    assert (Df : forall d', v = VDict d' -> d' = d) by (intros d' X; congruence).
    destruct m; try contradiction; cbn [reason] in T.
    + exact (T d Ev).
    + destruct T as [d' [w' [X [T1 T2]]]]. apply Df in X. subst d'. destruct G2 as [[G2 _]|[u [G2 G4]]]; unfold absent, has in *; [congruence|].
      assert (u = w') by congruence. subst u. apply positive_an_int in G4. exact (T2 z (proj1 G4)).
    + destruct T as [d' [w' [z' [X [T1 [T2 T3]]]]]]. apply Df in X. subst d'. destruct G2 as [[G2 _]|[u [G2 G4]]]; unfold absent, has in *; [congruence|].
      assert (u = w') by congruence. subst u. apply positive_an_int in G4. destruct G4 as [G4 G5]. pose proof (an_int_fun _ _ _ G4 T2). lia.
    + destruct T as [d' [w' [X [T1 [T2 [T3 T4]]]]]]. apply Df in X. subst d'. destruct G3 as [[[G3|G3] _]|[G3 G4]]; unfold absent, has in *; try congruence.
      assert (w = w') by congruence. subst w'. tauto.
    + destruct T as [d' [w' [X [T1 [T2 T3]]]]]. apply Df in X. subst d'. destruct G1 as [[[G1|G1] _]|G1]; unfold absent, has in *; try congruence.
Qed.

Section Runs.
Context {ar : arith}.
Notation machine := (machine ar).

Lemma validates_run_l h env v (s : machine) o s' r l : validates env v s o -> run_l h o s = (s', r, l) ->
  exists c, validate_settings_l h env (with_settings (m_cfg s) v) = (c, r, l).
Proof.
  intros H E. destruct H as [|Hv]; cbn [run_l] in E; unfold on_cfg_l in E.
  - unfold assign_settings_l, lbind, quiet, smodify in E. cbn [raised app] in E.
    destruct (validate_settings_l h env (with_settings (m_cfg s) v)) as [[c x] y]. injection E as <- <- <-. eauto.
  - assert (W : with_settings (m_cfg s) v = m_cfg s) by (subst v; unfold settings_of; destruct (m_cfg s); reflexivity).
    rewrite W. destruct (validate_settings_l h env (m_cfg s)) as [[c x] y]. injection E as <- <- <-. eauto.
Qed.

Lemma orient_warnings_iff o (s : machine) : exists ws, orient_warnings o s = map (pair WARNING) ws /\ NoDup ws /\
  forall t, In t ws <-> orient_warning (rotation_of s) o t.
Proof.
  unfold orient_warnings, rotation_of. destruct o as [o|].
  2:{ exists []. split; [reflexivity|]. split; [constructor|]. intros t. split; [intros []|intros H; inversion H]. }
  destruct (c_rotation (m_cfg s)) eqn:Er; cbn [negb].
  - destruct (String.eqb_spec o "wide") as [->|H1].
    { exists []. split; [reflexivity|]. split; [constructor|]. intros t. split; [intros []|intros H; inversion H; congruence]. }
    destruct (String.eqb_spec o "long") as [->|H2].
    { exists []. split; [reflexivity|]. split; [constructor|]. intros t. split; [intros []|intros H; inversion H; congruence]. }
    exists [orientation_warning o]. split; [reflexivity|]. split; [repeat constructor; intros []|]. intros t. split.
    + intros [<-|[]]. apply no_orientation; auto.
    + intros H; inversion H; subst; [congruence|]. left. reflexivity.
  - exists [rotation_warning]. split; [reflexivity|]. split; [repeat constructor; intros []|]. intros t. split.
    + intros [<-|[]]. apply no_rotation. reflexivity.
    + intros H; inversion H; subst; [left; reflexivity|congruence].
Qed.

Lemma quiet_eq {S A} why (m : SM S A) s s' r l : quiet why m s = (s', r, l) -> m s = (s', r) /\ l = map (pair ERROR) (errors_of why false r).
Proof. unfold quiet. destruct (m s) as [s1 r1]. intros E. injection E as <- <- <-. split; [reflexivity|]. apply raised_errors. Qed.

Lemma orient_records h o (s s' : machine) r l : do_orient_l h o s = (s', r, l) ->
  exists ws, in_order (h_why h) ws false r l /\ NoDup ws /\ forall t, In t ws <-> orient_warning (rotation_of s) o t.
Proof.
  unfold do_orient_l, lbind, log. intros E. destruct (quiet (h_why h) (do_orient ar o) s) as [[s1 r1] l1] eqn:E1.
  injection E as <- <- <-. destruct (quiet_eq _ _ _ _ _ _ E1) as [_ ->].
  destruct (orient_warnings_iff o s) as [ws [-> [N W]]]. exists ws. split; [reflexivity|]. auto.
Qed.
End Runs.

(** ** C71: the records of every call

    [l]: the records of the operation [o] on [s] with the result [r]. First the warnings, each once
    and exactly when due; then, if the call raises an exception of the library, its message with
    level ERROR: once, or twice in one case. Nothing else. *)
Theorem C71_records : forall ar h o (s s' : machine ar) r l,
  1 <= h_cpus h -> run_l h o s = (s', r, l) ->
  exists ws twice,
    l = map (pair WARNING) ws ++ map (pair ERROR) (errors_of (h_why h) twice r) /\
    NoDup ws /\ (forall t, In t ws <-> due h s o t) /\
    (twice = true <-> r = Err (SettingsError S_WORKERS_VALUE) /\
       exists env d w, validates env (VDict d) s o /\ has d "workers_num" w /\ a_number w).
Proof.
  intros ar h o s s' r l Hc E.
  assert (V : forall env v, validates env v s o -> exists ws twice,
    l = map (pair WARNING) ws ++ map (pair ERROR) (errors_of (h_why h) twice r) /\
    NoDup ws /\ (forall t, In t ws <-> due h s o t) /\
    (twice = true <-> r = Err (SettingsError S_WORKERS_VALUE) /\
       exists env d w, validates env (VDict d) s o /\ has d "workers_num" w /\ a_number w)).
  { intros env v H. destruct (validates_run_l h env v s o s' r l H E) as [c Ec].
    destruct (validate_records h env v (with_settings (m_cfg s) v) c r l Hc eq_refl Ec) as [ws [twice [G1 [G2 [G3 G4]]]]].
    assert (U : forall env' v', validates env' v' s o -> v' = v).
    { intros env' v' H'. destruct H as [|Hv]; inversion H'; subst; reflexivity. }
    exists ws, twice. split; [exact G1|]. split; [exact G2|]. split.
    - intros t. rewrite G3. split; [intros D; exact (due_settings h s env v o t H D)|].
      intros D. destruct D as [env' v' o' t H' D|o' t D|]; [|inversion H|inversion H]. apply U in H'. subst v'. exact D.
    - rewrite G4. split; intros [-> [d [w G5]]]; (split; [reflexivity|]).
      + destruct G5 as [-> [G5 G6]]. eauto 10.
      + destruct G5 as [w' [G5 [G6 G7]]]. apply U in G5. exists w, w'. auto. }
  assert (Q : (forall t, ~ due h s o t) -> (forall env v, ~ validates env v s o) -> l = raised (h_why h) r -> exists ws twice,
    l = map (pair WARNING) ws ++ map (pair ERROR) (errors_of (h_why h) twice r) /\
    NoDup ws /\ (forall t, In t ws <-> due h s o t) /\
    (twice = true <-> r = Err (SettingsError S_WORKERS_VALUE) /\
       exists env d w, validates env (VDict d) s o /\ has d "workers_num" w /\ a_number w)).
  { intros Hd Hv ->. exists [], false. split; [apply raised_errors|]. split; [constructor|]. split.
    - intros t. split; [intros []|intros D; destruct (Hd t D)].
    - split; [discriminate|]. intros [_ [env [d [w [G _]]]]]. destruct (Hv _ _ G). }
  assert (NV : match o with OpSetSettings _ _ | OpValidateSettings _ => True | _ => forall env v, ~ validates env v s o end)
    by (destruct o; try exact I; intros env0 v0 H; inversion H).
  assert (ND : match o with OpSetSettings _ _ | OpValidateSettings _ | OpOrient _ | OpHypersearch _ _ _ _ _ => True
               | _ => forall t, ~ due h s o t end)
    by (destruct o; try exact I; intros t H; inversion H as [env0 v0 ? ? H1|o' ? H1|]; inversion H1).
  destruct o; try (apply Q; [exact ND|exact NV|];
    match type of E with run_l h ?o s = _ => change (quiet (h_why h) (run o) s = (s', r, l)) in E end;
    destruct (quiet_eq _ _ _ _ _ _ E) as [_ ->]; symmetry; apply raised_errors).
  - apply (V env v). constructor.
  - apply (V env (settings_of s)). constructor. reflexivity.
  - cbn [run_l] in E. destruct (orient_records h orientation s s' r l E) as [ws [G1 [G2 G3]]]. exists ws, false.
    split; [exact G1|]. split; [exact G2|]. split; [|split; [discriminate|intros [_ [env [d [w [X _]]]]]; destruct (NV _ _ X)]].
    intros t. rewrite G3. split; [intros D; constructor; exact D|]. intros D. inversion D as [env0 v0 ? ? H1|o' ? H1|]; subst; [destruct (NV _ _ H1)|exact H1].
  - cbn [run_l] in E. unfold lbind at 1, quiet at 1, sget in E. cbn [raised] in E. unfold workers_of in *.
    destruct (one_worker (c_workers (m_cfg s))) eqn:Ew.
    2:{ apply Q; [|exact NV|].
        - intros t D. inversion D as [env0 v0 ? ? H1|o' ? H1|? ? ? ? ? ? ? ? ? H1]; subst; [destruct (NV _ _ H1)|unfold workers_of in H1; congruence].
        - destruct (quiet (h_why h) (sraise unusable) s) as [[s1 r1] l1] eqn:E1. injection E as <- <- <-.
          destruct (quiet_eq _ _ _ _ _ _ E1) as [_ ->]. symmetry. apply raised_errors. }
    destruct (do_hypersearch_l h ck throttle orientation sorting_by strategies s) as [[s1 r1] l1] eqn:E1. injection E as <- <- <-.
    unfold do_hypersearch_l, lbind at 1 in E1. destruct (quiet (h_why h) (do_sort ar sorting_by) s) as [[s2 r2] l2] eqn:E2.
    destruct (quiet_eq _ _ _ _ _ _ E2) as [Es ->]. destruct r2 as [[]|e].
    2:{ injection E1 as <- <- <-. apply Q; [|exact NV|symmetry; apply raised_errors].
        intros t D. inversion D as [env0 v0 ? ? H1|o' ? H1|? ? ? ? ? ? ? H0 ? H1]; subst; [destruct (NV _ _ H1)|].
        cbn [run] in H0. rewrite Es in H0. discriminate H0. }
    assert (Ec : m_cfg s2 = m_cfg s) by (apply (run_cfg (OpSort sorting_by) s s2 (Ok tt)); [intros X; exact X|exact Es]).
    cbn [errors_of map app] in E1. unfold lbind at 1 in E1. destruct (do_orient_l h orientation s2) as [[s3 r3] l3] eqn:E3.
    destruct (orient_records h orientation s2 s3 r3 l3 E3) as [ws [G1 [G2 G3]]].
    assert (DD : forall t, In t ws <-> due h s (OpHypersearch ck throttle orientation sorting_by strategies) t).
    { intros t. rewrite G3. unfold rotation_of. rewrite Ec. split.
      - intros D. eapply due_hypersearch; [exact Es|exact D|exact Ew].
      - intros D. inversion D as [env0 v0 ? ? H1|o' ? H1|? ? ? ? ? ? ? H0 H1 H2]; subst; [destruct (NV _ _ H1)|exact H1]. }
    exists ws, false. split; [|split; [exact G2|]; split; [exact DD|split; [discriminate|intros [_ [env [d [w [X _]]]]]; destruct (NV _ _ X)]]].
    unfold in_order in G1. destruct r3 as [[]|e]; [|injection E1 as <- <- <-; exact G1].
    destruct (quiet (h_why h) (do_hypersearch ar ck throttle None None strategies) s3) as [[s4 r4] l4] eqn:E4.
    destruct (quiet_eq _ _ _ _ _ _ E4) as [_ ->]. injection E1 as <- <- <-. rewrite G1. cbn [errors_of map]. rewrite app_nil_r. reflexivity.
Qed.
Print Assumptions C71_records.
