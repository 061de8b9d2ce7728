(** * Properties of the potential points and of the whole heuristic: C65, C66. *)
From Coq Require Import ZArith String List Bool QArith Lia Permutation.
From Verif Require Import Py Arith FloatArith Construct Spec Runs SpecPoints SpecFilling ProofsPy ProofsConstruct
  ProofsSolve ProofsPacking ProofsSolution ProofsValues ProofsPoints ProofsFilling PropertiesSolve PropertiesFloat.
Import ListNotations.
Open Scope string_scope.
Open Scope list_scope.
Open Scope Z_scope.

(** ** C65: the points of one iteration *)
Theorem C65_points_spawned : forall ar W L strip rotation strategy items s p s',
  0 < W -> 0 < L -> valid_items items -> exact_fifths ar W L ->
  steps ar W L strip rotation strategy (init_state ar W L items) s -> running ar s p ->
  loop_body ar W L strip rotation strategy s p = Ok s' ->
  (placed_entries ar s' = placed_entries ar s /\ forall c, st_pending s' c = st_pools s c) \/
  (exists e new, placed_entries ar s' = placed_entries ar s ++ [e] /\
     (forall c, st_pending s' c = st_pools s c ++ new c /\
        (forall q, In q (new c) <-> spawns W L (placed_entries ar s') e c q) /\
        ForallOrdPairs left_or_below (new c))).
Proof.
  intros ar W L strip rotation strategy items s p s' HW HL Hi He.
  exact (points_exact ar W L strip rotation strategy items HW HL Hi s p s' He).
Qed.
Print Assumptions C65_points_spawned.

(** ** C65: where the items of a solution sit *)
Section Origins.
Context (ar : arith) (W L : Z) (strip rotation : bool) (strategy : list pclass) (items0 : odict dims).
Hypothesis HW : 0 < W.
Hypothesis HL : 0 < L.
Hypothesis Hitems0 : valid_items items0.
Hypothesis Hex : exact_fifths ar W L.

Definition spawned_in (es : list entry) (c : pclass) (q : point) : Prop :=
  exists b f a, es = b ++ f :: a /\ spawns W L (b ++ [f]) f c q.

Record origins (s : cstate ar) : Prop := {
  o_start : placed_entries ar s = [] -> (forall c, st_pools s c = []) /\ forall p, st_cur s = Some p -> p = (0, 0);
  o_pool : forall c q, In q (st_pools s c) -> spawned_in (placed_entries ar s) c q;
  o_cur : forall p, st_cur s = Some p -> placed_entries ar s <> [] ->
          exists c, In c strategy /\ spawned_in (placed_entries ar s) c p;
  o_all : forall b e a, placed_entries ar s = b ++ e :: a ->
          (b = [] -> (e_x e, e_y e) = (0, 0)) /\
          (b <> [] -> exists c, In c strategy /\ spawned_in b c (e_x e, e_y e)) }.

Lemma spawned_more es e c q : spawned_in es c q -> spawned_in (es ++ [e]) c q.
Proof. intros [b [f [a [-> H]]]]. exists b, f, (a ++ [e]). rewrite <- app_assoc. auto. Qed.

Lemma origins_step s p s' : origins s ->
  steps ar W L strip rotation strategy (init_state ar W L items0) s -> running ar s p ->
  loop_body ar W L strip rotation strategy s p = Ok s' -> origins s'.
Proof.
  intros [O1 O2 O3 O4] Hst Hrun Hb.
  assert (Hs : inv ar W L strip rotation items0 s).
  { eapply steps_inv; [..|exact Hst|apply inv_init]; assumption. }
  pose proof Hrun as [Hcur _]. pose proof (i_cur _ _ _ _ _ _ _ Hs p Hcur) as Hp.
  destruct (loop_body_grid ar W L strip rotation strategy items0 Hitems0 s p s' Hs Hp Hb)
    as [Hdraw Hcase].
  apply get_current_point_exact in Hdraw.
  destruct (points_exact ar W L strip rotation strategy items0 HW HL Hitems0 s p s' Hex Hst Hrun Hb)
    as [[Ee Hsame]|[e [new [Ee Hnew]]]].
  - assert (Hpool : forall c q, In q (st_pools s' c) -> In q (st_pools s c)).
    { intros c q Hq. rewrite <- Hsame. destruct (st_cur s') as [p'|].
      - destruct Hdraw as [b [c' [a [_ [_ [H3 H4]]]]]]. destruct (pclass_eqb_spec c c') as [->|Hne].
        + rewrite H3. right. exact Hq.
        + rewrite <- H4 by exact Hne. exact Hq.
      - destruct Hdraw as [H _]. rewrite <- H. exact Hq. }
    split; rewrite ?Ee.
    + intros H0. destruct (O1 H0) as [Hz _].
      assert (Hz' : forall c, st_pools s' c = []).
      { intros c. destruct (st_pools s' c) as [|q t] eqn:E; [reflexivity|]. exfalso.
        specialize (Hpool c q). rewrite E, Hz in Hpool. apply Hpool. left. reflexivity. }
      split; [exact Hz'|]. intros p' Hp'. rewrite Hp' in Hdraw.
      destruct Hdraw as [b [c [a [_ [_ [H3 _]]]]]]. rewrite Hsame, Hz in H3. discriminate.
    + intros c q Hq. apply O2. apply Hpool. exact Hq.
    + intros p' Hp' _. rewrite Hp' in Hdraw. destruct Hdraw as [b [c [a [Hc [_ [H3 _]]]]]].
      exists c. split; [rewrite Hc; apply in_or_app; right; left; reflexivity|].
      apply O2. rewrite <- Hsame, H3. left. reflexivity.
    + exact O4.
  - assert (Hpos : (e_x e, e_y e) = p).
    { destruct Hcase as [[_ [E _]]|[w [l [ps [_ [_ [_ [_ [E _]]]]]]]]].
      - exfalso. rewrite E in Ee. apply (f_equal (@length _)) in Ee. rewrite app_length in Ee. simpl in Ee. lia.
      - rewrite E in Ee. apply app_inj_tail in Ee. destruct Ee as [_ <-]. destruct p. reflexivity. }
    assert (Hpend : forall c q, In q (st_pending s' c) -> spawned_in (placed_entries ar s') c q).
    { intros c q Hq. destruct (Hnew c) as [E [Hsp _]]. rewrite E in Hq. apply in_app_or in Hq. destruct Hq as [Hq|Hq].
      - rewrite Ee. apply spawned_more. apply O2. exact Hq.
      - exists (placed_entries ar s), e, []. split; [exact Ee|]. rewrite <- Ee. apply Hsp. exact Hq. }
    split.
    + intros H0. rewrite Ee in H0. destruct (placed_entries ar s); discriminate.
    + intros c q Hq. apply Hpend. destruct (st_cur s') as [p'|].
      * destruct Hdraw as [b [c' [a [_ [_ [H3 H4]]]]]]. destruct (pclass_eqb_spec c c') as [->|Hne].
        -- rewrite H3. right. exact Hq.
        -- rewrite <- H4 by exact Hne. exact Hq.
      * destruct Hdraw as [H _]. rewrite <- H. exact Hq.
    + intros p' Hp' _. rewrite Hp' in Hdraw. destruct Hdraw as [b [c [a [Hc [_ [H3 _]]]]]].
      exists c. split; [rewrite Hc; apply in_or_app; right; left; reflexivity|].
      apply Hpend. rewrite H3. left. reflexivity.
    + intros b e' a E. rewrite Ee in E. destruct a as [|z a] using rev_ind.
      * apply app_inj_tail in E. destruct E as [<- <-]. rewrite Hpos. split.
        -- intros H0. apply (O1 H0). exact Hcur.
        -- intros H0. apply O3; assumption.
      * clear IHa. rewrite app_comm_cons, app_assoc in E. apply app_inj_tail in E. destruct E as [E _].
        exact (O4 _ _ _ E).
Qed.

Lemma origins_run s : steps ar W L strip rotation strategy (init_state ar W L items0) s -> origins s.
Proof.
  intros Hst. assert (H0 : origins (init_state ar W L items0)).
  { split.
    - intros _. split; [reflexivity|]. intros p [= <-]. reflexivity.
    - intros c q [].
    - intros p _ H. exfalso. apply H. reflexivity.
    - intros b e a H. exfalso. destruct b; discriminate H. }
  cut (forall a, steps ar W L strip rotation strategy (init_state ar W L items0) a -> origins a ->
         steps ar W L strip rotation strategy a s -> origins s).
  { intros H. exact (H _ (steps_refl _ _ _ _ _ _ _) H0 Hst). }
  clear Hst H0. intros a Hfrom Ho Hst. induction Hst as [|s p s1 s2 Hrun Hb Hst IH]; [exact Ho|].
  apply IH.
  - eapply steps_trans; [exact Hfrom|]. econstructor; [exact Hrun|exact Hb|constructor].
  - exact (origins_step s p s1 Ho Hfrom Hrun Hb).
Qed.
End Origins.

(** The first item of a container is at the origin; every other one is at a point that an item
    stored earlier in the same container spawned, in a class the strategy names. *)
Theorem C65_where_items_sit : forall ar pb sequence sol objs,
  valid_problem pb -> known_sequence pb sequence ->
  (forall cid c, dget (pb_containers pb) cid = Some c -> exact_fifths ar (dw c) (available_height pb c)) ->
  solve ar pb sequence = Ok (sol, objs) ->
  forall cid csol before i e after, In (cid, csol) sol -> csol = before ++ (i, e) :: after ->
  exists ct, dget (pb_containers pb) cid = Some ct /\
  (before = [] -> e_x e = 0 /\ e_y e = 0) /\
  (before <> [] ->
     exists b j f a c, before = b ++ (j, f) :: a /\ In c (pb_strategy pb) /\
       spawns (dw ct) (available_height pb ct) (entries (b ++ [(j, f)])) f c (e_x e, e_y e)).
Proof.
  intros ar pb sequence sol objs Hv Hk Hex H cid csol before i e after Hin ->.
  destruct (container_built ar pb sequence Hv Hk sol objs cid _ H Hin)
    as [ct [its [its' [obj [Hc [_ [[Hw Hl] [Hi [_ Hb]]]]]]]]].
  exists ct. split; [exact Hc|].
  destruct Hb as [_ _ E _ | s Hne Hst Hstop Hinv _ E _]; [destruct before; discriminate|].
  pose proof (origins_run ar (dw ct) (container_length pb ct) (pb_strip pb) (pb_rotation pb) (pb_strategy pb)
    its Hw Hl Hi (Hex cid ct Hc) s Hst) as Ho.
  pose proof (entries_result ar s) as Ee. rewrite <- E in Ee.
  unfold entries in Ee. rewrite map_app in Ee. cbn [map snd] in Ee. symmetry in Ee.
  destruct (o_all _ _ _ _ _ Ho _ _ _ Ee) as [O1 O2]. split.
  - intros ->. specialize (O1 eq_refl). injection O1 as -> ->. auto.
  - intros Hnb. destruct O2 as [c [Hcs [b [f [a [Eb Hsp]]]]]].
    { intros E0. apply Hnb. destruct before; [reflexivity|discriminate]. }
    apply map_eq_app in Eb. destruct Eb as [b' [r [-> [<- Er]]]].
    destruct r as [|[j f'] a']; [discriminate|]. cbn [map snd] in Er. injection Er as -> <-.
    exists b', j, f, a', c. split; [reflexivity|]. split; [exact Hcs|].
    unfold entries. rewrite map_app. exact Hsp.
Qed.
Print Assumptions C65_where_items_sit.

(** ** C66: the points are drawn in strategy order, oldest first *)
Theorem C66_points_drawn : forall ar W L strip rotation strategy items s p s',
  0 < W -> 0 < L -> valid_items items ->
  steps ar W L strip rotation strategy (init_state ar W L items) s -> running ar s p ->
  loop_body ar W L strip rotation strategy s p = Ok s' ->
  draws strategy (st_pending s') (st_cur s') (st_pools s').
Proof.
  intros ar W L strip rotation strategy items s p s' HW HL Hi Hst Hrun Hb.
  assert (Hs : inv ar W L strip rotation items s).
  { eapply steps_inv; [..|exact Hst|apply inv_init]; assumption. }
  pose proof Hrun as [Hcur _]. pose proof (i_cur _ _ _ _ _ _ _ Hs p Hcur) as Hp.
  apply draws_of. apply (loop_body_grid ar W L strip rotation strategy items Hi s p s' Hs Hp Hb).
Qed.
Print Assumptions C66_points_drawn.

(** The next point is determined by the queues and the strategy. *)
Theorem C66_drawing_is_determined : forall strategy qs o1 o2 qs1 qs2,
  draws strategy qs o1 qs1 -> draws strategy qs o2 qs2 -> o1 = o2 /\ forall c, qs1 c = qs2 c.
Proof.
  intros strategy qs o1 o2 qs1 qs2 H1 H2. exact (draws_det _ _ _ _ _ _ _ (fun _ => eq_refl) H1 H2).
Qed.
Print Assumptions C66_drawing_is_determined.

(** The run starts at the origin with empty queues. *)
Theorem C66_start : forall ar W L items,
  st_cur (init_state ar W L items) = Some (0, 0) /\ forall c, st_pools (init_state ar W L items) c = [].
Proof. intros. split; reflexivity. Qed.
Print Assumptions C66_start.

(** ** C65, C66: [solve()] computes exactly what the heuristic of SpecFilling.v describes *)
Theorem C66_solve_is_the_heuristic : forall pb sequence sol,
  valid_problem pb -> known_sequence pb sequence ->
  ((exists objs, solve qarith pb sequence = Ok (sol, objs)) <->
   (exists items rest, in_sequence pb sequence items /\ packs pb (pb_containers pb) items sol rest)).
Proof.
  intros pb sequence sol Hv Hk.
  assert (Hto : forall sol objs, solve qarith pb sequence = Ok (sol, objs) ->
    exists items rest, in_sequence pb sequence items /\ packs pb (pb_containers pb) items sol rest).
  { intros sol' objs H. destruct (solve_run_of qarith pb sequence Hv Hk sol' objs H) as [items [rest [Hit [Hok [_ Hrun]]]]].
    exists items, rest. split; [apply items_for_in_sequence; assumption|].
    apply (solve_run_packs pb (pb_containers pb) items rest sol' objs); [apply rooms_ok; exact Hv|apply Hok|exact Hrun]. }
  split.
  - intros [objs H]. exact (Hto sol objs H).
  - intros [items [rest [Hi Hp]]]. destruct (solve_total qarith pb sequence Hv Hk) as [sol' [objs H]].
    destruct (Hto sol' objs H) as [items' [rest' [Hi' Hp']]].
    rewrite (in_sequence_det pb sequence items' items Hi' Hi) in Hp'.
    destruct (packs_det pb _ _ _ _ Hp' sol rest Hp) as [-> _]. exists objs. exact H.
Qed.
Print Assumptions C66_solve_is_the_heuristic.

(** In double precision, under the side conditions of C64. *)
Theorem C66_solve_is_the_heuristic_doubles : forall pb sequence sol objs,
  valid_problem pb -> known_sequence pb sequence ->
  (forall cid c, dget (pb_containers pb) cid = Some c ->
     dw c < 2 ^ 51 /\ available_height pb c < 2 ^ 51 /\
     (pb_strip pb = false -> zlen (pb_items pb) * (dw c * dl c) < 2 ^ 52)) ->
  solve farith pb sequence = Ok (sol, objs) ->
  (pb_strip pb = true \/ forall cid csol, dget sol cid = Some csol -> no_overlaps (entries csol)) ->
  exists items rest, in_sequence pb sequence items /\ packs pb (pb_containers pb) items sol rest.
Proof.
  intros pb sequence sol objs Hv Hk Hm H Hno.
  destruct (C64_same_placements pb sequence sol objs Hv Hk Hm H Hno) as [objs' H'].
  apply (C66_solve_is_the_heuristic pb sequence sol Hv Hk). exists objs'. exact H'.
Qed.
Print Assumptions C66_solve_is_the_heuristic_doubles.

(** ** The hypotheses are met *)
(** A run in a 5 x 5 bin: after four iterations four items are stored, points are queued in two
    classes and the loop goes on. *)
Definition run_items : odict dims :=
  [("a", mkDims 2 1); ("b", mkDims 2 3); ("c", mkDims 1 2); ("d", mkDims 1 1); ("e", mkDims 5 5)].
Definition next_state (s : cstate qarith) : cstate qarith :=
  match st_cur s with
  | Some p => match loop_body qarith 5 5 false false default_strategy s p with Ok s' => s' | Err _ => s end
  | None => s
  end.
Definition run_state (n : nat) : cstate qarith := Nat.iter n next_state (init_state qarith 5 5 run_items).

Definition can_go (s : cstate qarith) : bool :=
  match st_cur s with
  | Some p => match loop_body qarith 5 5 false false default_strategy s p with Ok _ => true | Err _ => false end
              && negb (match st_ids s with [] => true | _ => false end) && negb (ngeb qarith (st_obj s) 1%Q)
  | None => false
  end.

Lemma can_go_step s s0 : can_go s = true ->
  steps qarith 5 5 false false default_strategy s0 s ->
  (exists p, running qarith s p /\ loop_body qarith 5 5 false false default_strategy s p = Ok (next_state s)) /\
  steps qarith 5 5 false false default_strategy s0 (next_state s).
Proof.
  unfold can_go, next_state. intros H Hst. destruct (st_cur s) as [p|] eqn:Ec; [|discriminate].
  apply andb_true_iff in H. destruct H as [H H3]. apply andb_true_iff in H. destruct H as [H1 H2].
  destruct (loop_body qarith 5 5 false false default_strategy s p) as [s'|] eqn:Eb; [|discriminate].
  assert (Hr : running qarith s p).
  { split; [exact Ec|]. split; [destruct (st_ids s); [discriminate H2|discriminate]|].
    apply negb_true_iff. exact H3. }
  split; [exists p; auto|].
  eapply steps_trans; [exact Hst|]. econstructor; [exact Hr|exact Eb|constructor].
Qed.

Example C65_hypotheses_met :
  steps qarith 5 5 false false default_strategy (init_state qarith 5 5 run_items) (run_state 4) /\
  (exists p, running qarith (run_state 4) p /\
     loop_body qarith 5 5 false false default_strategy (run_state 4) p = Ok (run_state 5)) /\
  placed_entries qarith (run_state 4) =
    [mkEntry 0 0 2 1; mkEntry 0 1 2 3; mkEntry 0 4 1 1; mkEntry 2 0 1 2] /\
  st_cur (run_state 4) = Some (2, 2) /\
  map (st_pools (run_state 4)) [cB; cB__] = [[(1, 4); (3, 0)]; [(2, 1)]].
Proof.
  assert (H0 : steps qarith 5 5 false false default_strategy (init_state qarith 5 5 run_items) (run_state 0))
    by apply steps_refl.
  destruct (can_go_step (run_state 0) _ ltac:(vm_compute; reflexivity) H0) as [_ H1].
  destruct (can_go_step (run_state 1) _ ltac:(vm_compute; reflexivity) H1) as [_ H2].
  destruct (can_go_step (run_state 2) _ ltac:(vm_compute; reflexivity) H2) as [_ H3].
  destruct (can_go_step (run_state 3) _ ltac:(vm_compute; reflexivity) H3) as [_ H4].
  destruct (can_go_step (run_state 4) _ ltac:(vm_compute; reflexivity) H4) as [H5 _].
  split; [exact H4|]. split; [exact H5|]. vm_compute. auto.
Qed.

(** The heuristic on the overlapping problem of C02: the specification has the same bug, so it
    describes the code that exists. *)
Example C66_overlap : exists items rest, in_sequence overlap_problem None items /\
  packs overlap_problem (pb_containers overlap_problem) items
    [("bin", [("i0", mkEntry 0 0 2 2); ("i1", mkEntry 0 2 1 2);
              ("i2", mkEntry 2 0 1 4); ("i3", mkEntry 1 2 3 1)])] rest.
Proof.
  apply (C66_solve_is_the_heuristic overlap_problem None _ overlap_problem_valid I).
  exists [("bin", 13 # 16)]. vm_compute. reflexivity.
Qed.

Example C65_doubles_allowed : forall cid c, dget (pb_containers demo) cid = Some c ->
  exact_fifths farith (dw c) (available_height demo c).
Proof.
  intros cid c H. apply dget_In in H. right. split; [reflexivity|].
  destruct H as [[= <- <-]|[[= <- <-]|[]]]; vm_compute; auto.
Qed.
