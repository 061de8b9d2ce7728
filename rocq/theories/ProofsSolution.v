(** * Lemmas about the result of [solve]. *)
From Coq Require Import ZArith String List Bool Lia Permutation QArith Qreduction.
From Coq Require Import ZifyBool ZifyNat.
From Verif Require Import Py Arith Construct Spec Runs ProofsPy ProofsGrid ProofsConstruct ProofsSolve
  ProofsPacking.
Import ListNotations.
Open Scope Z_scope.

Section S.
Context (ar : arith) (pb : problem) (sequence : option (list string)).
Hypothesis Hv : valid_problem pb.
Hypothesis Hk : known_sequence pb sequence.

Lemma solve_total : exists sol objs, solve ar pb sequence = Ok (sol, objs).
Proof.
  destruct (solve_spec ar pb sequence Hv Hk) as [items [rest [sol [objs [_ [_ [_ [_ H]]]]]]]].
  eauto.
Qed.

Lemma solve_full_run rest sol objs :
  solve_full ar pb sequence = Ok (rest, sol, objs) ->
  exists items, items_for pb sequence = Ok items /\ items_ok pb items sequence /\
    solve_run ar pb (pb_containers pb) items rest sol objs.
Proof.
  intros H. destruct (solve_spec ar pb sequence Hv Hk)
    as [items [rest' [sol' [objs' [H1 [H2 [H3 [H4 _]]]]]]]].
  exists items. split; [exact H1|]. split; [exact H2|].
  rewrite H4 in H. injection H as <- <- <-. exact H3.
Qed.

Lemma solve_run_of sol objs :
  solve ar pb sequence = Ok (sol, objs) ->
  exists items rest, items_for pb sequence = Ok items /\ items_ok pb items sequence /\
    solve_full ar pb sequence = Ok (rest, sol, objs) /\
    solve_run ar pb (pb_containers pb) items rest sol objs.
Proof.
  intros H. destruct (solve_spec ar pb sequence Hv Hk)
    as [items [rest' [sol' [objs' [H1 [H2 [H3 [H4 H5]]]]]]]].
  rewrite H5 in H. injection H as <- <-. exists items, rest'. auto.
Qed.

Lemma container_built sol objs cid csol :
  solve ar pb sequence = Ok (sol, objs) -> In (cid, csol) sol ->
  exists c its its' obj, dget (pb_containers pb) cid = Some c /\ In (cid, obj) objs /\
    room_ok pb c /\ valid_items its /\
    (forall i d, In (i, d) its -> dget (pb_items pb) i = Some d /\ In i (wanted pb sequence)) /\
    built ar pb c its its' csol obj.
Proof.
  intros H Hin. destruct (solve_run_of _ _ H) as [items [rest [H1 [[H2 [H3 H4]] [_ Hr]]]]].
  destruct (run_containers _ _ _ _ _ _ _ Hr H2 cid csol Hin)
    as [c [its [its' [obj [Hc [Ho [Hi [Hsub Hb]]]]]]]].
  exists c, its, its', obj. split; [apply In_dget; [apply Hv|assumption]|].
  split; [assumption|]. split; [eapply rooms_ok; eassumption|]. split; [assumption|].
  split; [|assumption]. intros i d Hid. apply Hsub in Hid. split; [apply H4; assumption|].
  apply H3. apply in_map_iff. exists (i, d). auto.
Qed.

Lemma solve_inside sol objs :
  solve ar pb sequence = Ok (sol, objs) ->
  forall cid csol i e, In (cid, csol) sol -> In (i, e) csol ->
  exists c, dget (pb_containers pb) cid = Some c /\ inside (dw c) (available_height pb c) e.
Proof.
  intros H cid csol i e H1 H2.
  destruct (container_built _ _ _ _ H H1) as [c [its [its' [obj [Hc [Ho [Hr [Hi [_ Hb]]]]]]]]].
  exists c. split; [assumption|].
  destruct (built_facts _ _ _ _ _ _ _ Hr Hi Hb) as [Hin _]. eapply Hin. eassumption.
Qed.

Lemma solve_order sol objs :
  solve ar pb sequence = Ok (sol, objs) ->
  forall cid csol, In (cid, csol) sol -> placed_in_order (entries csol).
Proof.
  intros H cid csol H1.
  destruct (container_built _ _ _ _ H H1) as [c [its [its' [obj [Hc [Ho [Hr [Hi [_ Hb]]]]]]]]].
  apply (built_facts _ _ _ _ _ _ _ Hr Hi Hb).
Qed.

Lemma solve_ids rest sol objs :
  solve_full ar pb sequence = Ok (rest, sol, objs) ->
  dkeys sol = dkeys (pb_containers pb) /\ dkeys objs = dkeys (pb_containers pb) /\
  NoDup (stored_ids sol ++ dkeys rest) /\
  (forall i, In i (wanted pb sequence) <-> In i (stored_ids sol) \/ In i (dkeys rest)).
Proof.
  intros H. destruct (solve_full_run _ _ _ H) as [items [H1 [[[Hn Hp] [H3 H4]] Hr]]].
  destruct (run_keys _ _ _ _ _ _ _ Hr) as [Hk1 Hk2].
  split; [assumption|]. split; [assumption|].
  destruct (run_perm _ _ _ _ _ _ _ Hr) as [ds [Hperm [Hds _]]].
  assert (Hpk : Permutation (stored_ids sol ++ dkeys rest) (dkeys items)).
  { rewrite <- Hds. unfold dkeys. rewrite <- map_app. apply Permutation_map. assumption. }
  split.
  - eapply Permutation_NoDup; [apply Permutation_sym; exact Hpk|assumption].
  - intros i. rewrite <- H3. rewrite <- in_app_iff. split; intros Hi.
    + eapply Permutation_in; [apply Permutation_sym; exact Hpk|assumption].
    + eapply Permutation_in; [exact Hpk|assumption].
Qed.

Lemma solve_rest_dims rest sol objs :
  solve_full ar pb sequence = Ok (rest, sol, objs) ->
  forall i d, In (i, d) rest -> dget (pb_items pb) i = Some d.
Proof.
  intros H i d Hin. destruct (solve_full_run _ _ _ H) as [items [H1 [[[Hn Hp] [H3 H4]] Hr]]].
  destruct (run_perm _ _ _ _ _ _ _ Hr) as [ds [Hperm _]]. apply H4.
  eapply Permutation_in; [exact Hperm|]. apply in_or_app. auto.
Qed.

Lemma solve_stores sol objs :
  solve ar pb sequence = Ok (sol, objs) ->
  forall cid csol i e, In (cid, csol) sol -> In (i, e) csol ->
  exists d, dget (pb_items pb) i = Some d /\ stores (pb_rotation pb) d e.
Proof.
  intros H cid csol i e H1 H2.
  destruct (container_built _ _ _ _ H H1) as [c [its [its' [obj [Hc [Ho [Hr [Hi [Hw Hb]]]]]]]]].
  destruct (built_perm _ _ _ _ _ _ _ Hb) as [ds [Hp [Hkk HF]]].
  assert (Hx : exists kd, In kd ds /\ fst kd = i /\ stores (pb_rotation pb) (snd kd) e).
  { clear - HF H2. revert H2. induction HF as [|kd ke ds cs [Hf1 Hf2] _ IH]; intros [].
    - exists kd. subst ke. simpl in *. split; [left; reflexivity|]. auto.
    - destruct (IH H) as [kd' [Hin Hrest]]. exists kd'. split; [right; assumption|assumption]. }
  destruct Hx as [[j d] [Hin [Hj Hst]]]. simpl in *. subst j.
  exists d. split; [|assumption].
  apply (Hw i d). eapply Permutation_in; [exact Hp|]. apply in_or_app. auto.
Qed.

(** ** Widths at most 2 never overlap *)
Lemma narrow_no_overlap sol objs :
  solve ar pb sequence = Ok (sol, objs) ->
  (forall i d, In (i, d) (pb_items pb) -> dw d <= 2 /\ (pb_rotation pb = true -> dl d <= 2)) ->
  forall cid csol, In (cid, csol) sol -> no_overlaps (entries csol).
Proof.
  intros H Hnar cid csol Hin. pose proof (solve_order _ _ H _ _ Hin) as Hord.
  assert (Hw : forall e, In e (entries csol) -> e_w e <= 2).
  { intros e He. unfold entries in He. apply in_map_iff in He. destruct He as [[i e'] [<- He]].
    destruct (solve_stores _ _ H _ _ _ _ Hin He) as [d [Hd Hst]].
    apply dget_In in Hd. specialize (Hnar _ _ Hd). simpl.
    destruct Hst as [[-> _]|[Hr [-> _]]]; [lia|]. apply Hnar. assumption. }
  unfold placed_in_order in Hord. unfold no_overlaps. induction Hord as [|a l Hal Hl IH].
  - constructor.
  - constructor.
    + rewrite Forall_forall in *. intros b Hb [x [y [Hc1 Hc2]]].
      specialize (Hal b Hb x y Hc1 Hc2). unfold on_open_top_row in Hal.
      specialize (Hw b (or_intror Hb)). lia.
    + apply IH. intros e He. apply Hw. right. assumption.
Qed.

(** ** Empty containers *)
Lemma built_empty_none_fit (laws : arith_laws ar) c its its' obj :
  room_ok pb c -> valid_items its -> built ar pb c its its' [] obj ->
  its' = its /\
  forall i d, In (i, d) its ->
    ~ (dw d <= dw c /\ dl d <= available_height pb c) /\
    (pb_rotation pb = true -> ~ (dl d <= dw c /\ dw d <= available_height pb c)).
Proof.
  intros [Hw Hl] Hvi [-> -> _ _ | s Hne Hst Hstop Hi Hrest Hcs _].
  { split; [reflexivity|]. intros i d []. }
  assert (Hsol : st_sol s = []).
  { unfold result_entries in Hcs. destruct (st_sol s); [reflexivity|discriminate]. }
  (* the first iteration already decides *)
  inversion Hst as [s0 Heq|s0 p s1 s2 Hrun Hb Hst' Heq]; subst.
  - exfalso. apply (Hstop (0, 0)). split; [reflexivity|]. split.
    + simpl. destruct its; [congruence|discriminate].
    + simpl. apply (law_0_lt_1 ar laws).
  - destruct (first_fit_in_sequence ar (dw c) (container_length pb c) (pb_strip pb)
                (pb_rotation pb) (pb_strategy pb) its Hw Hl Hvi _ p (steps_refl _ _ _ _ _ _ _) Hrun)
      as [s1' [Hb' [[i [d [pre [post [w [l [_ [_ [_ [_ [_ [Hpe _]]]]]]]]]]]]|[Hnone _]]]].
    + (* something was placed: then it is still there at the end *)
      exfalso. assert (s1' = s1) by congruence. subst s1'.
      assert (Hmono : forall u v, steps ar (dw c) (container_length pb c) (pb_strip pb)
                (pb_rotation pb) (pb_strategy pb) u v ->
                inv ar (dw c) (container_length pb c) (pb_strip pb) (pb_rotation pb) its u ->
                placed_entries ar u <> [] -> st_sol v <> []).
      { clear - Hvi Hw Hl. induction 1 as [u|u q u1 u2 [Hq _] Hbu _ IH]; intros Hu Hnn.
        - unfold placed_entries in Hnn. destruct (st_sol u); [exfalso; apply Hnn; reflexivity|discriminate].
        - pose proof (i_cur _ _ _ _ _ _ _ Hu q Hq) as Hqb.
          destruct (loop_body_spec ar _ _ _ _ (pb_strategy pb) _ Hvi u q Hu Hqb)
            as [u1' [? [? [Hb'' [Hi' [Hout' _]]]]]].
          assert (u1' = u1) by congruence. subst u1'. apply IH; [assumption|].
          unfold placed_entries in *.
          destruct Hout' as [? ? ? ? ? _ _ _ _ Hs' _ | _ Hs' _]; rewrite Hs'; [|assumption].
          rewrite map_app. destruct (map _ (st_sol u)); discriminate. }
      apply (Hmono _ _ Hst'); [|rewrite Hpe; discriminate |assumption].
      eapply steps_inv with (a := init_state ar (dw c) (container_length pb c) its);
        [exact Hvi| |apply inv_init; assumption].
      econstructor; [exact Hrun|exact Hb|constructor].
    + pose proof Hrun as [Hc _]. simpl in Hc. injection Hc as <-.
      split.
      { pose proof (i_perm _ _ _ _ _ _ _ Hi) as Hp. rewrite Hsol in Hp. simpl in Hp.
        (* nothing was ever removed *)
        assert (Hkeep : forall u v, steps ar (dw c) (container_length pb c) (pb_strip pb)
                (pb_rotation pb) (pb_strategy pb) u v ->
                inv ar (dw c) (container_length pb c) (pb_strip pb) (pb_rotation pb) its u ->
                st_sol v = [] -> st_items v = st_items u).
        { clear - Hvi Hw Hl. induction 1 as [u|u q u1 u2 [Hq _] Hbu Hst IH]; intros Hu Hnn.
          - reflexivity.
          - pose proof (i_cur _ _ _ _ _ _ _ Hu q Hq) as Hqb.
            destruct (loop_body_spec ar _ _ _ _ (pb_strategy pb) _ Hvi u q Hu Hqb)
              as [u1' [? [? [Hb'' [Hi' [Hout' _]]]]]].
            assert (u1' = u1) by congruence. subst u1'. rewrite (IH Hi' Hnn).
            destruct Hout' as [? ? ? ? ? _ _ _ _ Hs' _ | _ Hs' Hit]; [|assumption].
            exfalso. pose proof (steps_inv _ _ _ _ _ _ _ Hvi _ _ Hst Hi') as Hi2.
            pose proof (i_perm _ _ _ _ _ _ _ Hi2) as Hp2. rewrite Hnn in Hp2. simpl in Hp2.
            assert (Hlen : forall a b, steps ar (dw c) (container_length pb c) (pb_strip pb)
                (pb_rotation pb) (pb_strategy pb) a b ->
                inv ar (dw c) (container_length pb c) (pb_strip pb) (pb_rotation pb) its a ->
                (length (st_sol a) <= length (st_sol b))%nat).
            { clear - Hvi Hw Hl. induction 1 as [a|a q a1 a2 [Hq _] Hba Hst IH]; intros Ha; [auto|].
              pose proof (i_cur _ _ _ _ _ _ _ Ha q Hq) as Hqb.
              destruct (loop_body_spec ar _ _ _ _ (pb_strategy pb) _ Hvi a q Ha Hqb)
                as [a1' [? [? [Hb'' [Hi' [Hout' _]]]]]].
              assert (a1' = a1) by congruence. subst a1'. specialize (IH Hi').
              destruct Hout' as [? ? ? ? ? _ _ _ _ Hs' _ | _ Hs' _]; rewrite Hs' in IH;
                [rewrite app_length in IH; lia|assumption]. }
            specialize (Hlen _ _ Hst Hi'). rewrite Hs', Hnn, app_length in Hlen.
            simpl in Hlen. lia. }
        rewrite (Hkeep _ _ Hst (inv_init _ _ _ _ _ _ Hw Hl) Hsol). reflexivity. }
      intros i d Hin.
      assert (Hd : dget its i = Some d) by (apply In_dget; [apply Hvi|assumption]).
      destruct (Hnone i d) as [Hn1 Hn2]; [|assumption|].
      { simpl. apply in_map_iff. exists (i, d). auto. }
      unfold available_height. fold (container_length pb c).
      split; [|intros Hr; specialize (Hn2 Hr)].
      * intros [H1 H2]. apply Hn1. unfold pfit, passes_fit_test. simpl.
        split; [lia|]. split; [lia|]. intros x y _ _ e [].
      * intros [H1 H2]. apply Hn2. unfold pfit, passes_fit_test. simpl.
        split; [lia|]. split; [lia|]. intros x y _ _ e [].
Qed.

(** ** Why each entry is where it is *)
Lemma solve_explained sol objs :
  solve ar pb sequence = Ok (sol, objs) ->
  forall cid csol pre i e post, In (cid, csol) sol -> csol = pre ++ (i, e) :: post ->
  exists c d, dget (pb_containers pb) cid = Some c /\ dget (pb_items pb) i = Some d /\
    stores (pb_rotation pb) d e /\
    passes_fit_test (dw c) (available_height pb c) (entries pre) (e_x e) (e_y e) (e_w e) (e_l e) /\
    ((e_w e, e_l e) <> (dw d, dl d) ->
     pb_rotation pb = true /\
     ~ passes_fit_test (dw c) (available_height pb c) (entries pre) (e_x e) (e_y e) (dw d) (dl d)).
Proof.
  intros H cid csol pre i e post H1 H2.
  destruct (container_built _ _ _ _ H H1) as [c [its [its' [obj [Hc [Ho [Hr [Hi [Hw Hb]]]]]]]]].
  exists c. destruct Hb as [-> -> -> _ | s Hne Hst Hstop Hinv _ Hcs _].
  { destruct pre; discriminate. }
  rewrite Hcs in H2. unfold result_entries in H2.
  apply map_eq_app in H2. destruct H2 as [spre [sr [Hsol [Hpre Hsr]]]].
  apply map_eq_cons in Hsr. destruct Hsr as [[j p] [spost [-> [Hjp Hpost]]]].
  simpl in Hjp. injection Hjp as -> <-.
  exists (p_item p). split; [assumption|].
  assert (Hin : In (i, p_item p) its).
  { eapply Permutation_in; [apply (i_perm _ _ _ _ _ _ _ Hinv)|]. apply in_or_app. left.
    apply in_map_iff. exists (i, p). split; [reflexivity|]. rewrite Hsol. apply in_or_app.
    right. left. reflexivity. }
  split; [apply (Hw i); assumption|].
  destruct Hr as [Hrw Hrl].
  pose proof (placement_explained ar _ _ _ _ _ its Hrw Hrl Hi s spre i p spost Hst Hsol) as [Hf Hrot].
  replace (entries pre) with (map (fun kp => export (snd kp)) spre).
  2:{ rewrite <- Hpre. unfold entries. rewrite map_map. reflexivity. }
  split; [|split; [exact Hf|]].
  - unfold stores, export. simpl. destruct (p_rot p) eqn:E; [right|left; auto].
    destruct (Hrot eq_refl). auto.
  - intros Hne2. unfold export in Hne2. simpl in Hne2. destruct (p_rot p) eqn:E.
    + destruct (Hrot eq_refl) as [Hr Hn]. split; [assumption|]. exact Hn.
    + congruence.
Qed.

Lemma solve_first_at_origin sol objs :
  solve ar pb sequence = Ok (sol, objs) ->
  forall cid i e post, In (cid, (i, e) :: post) sol -> e_x e = 0 /\ e_y e = 0.
Proof.
  intros H cid i e post H1.
  destruct (container_built _ _ _ _ H H1) as [c [its [its' [obj [Hc [Ho [Hr [Hi [Hw Hb]]]]]]]]].
  destruct Hr as [Hrw Hrl].
  destruct Hb as [_ _ Hcs _ | s Hne Hst Hstop Hinv _ Hcs _]; [discriminate|].
  pose proof (first_at_origin ar _ _ _ _ _ its Hrw Hrl Hi s Hst) as Hf.
  unfold result_entries in Hcs. destruct (st_sol s) as [|[j p] t]; [discriminate|].
  simpl in Hcs. injection Hcs as -> -> _. exact Hf.
Qed.
End S.
