(** * Consequences for packings: the lemmas behind the property theorems on [solve]. *)
From Coq Require Import ZArith String List Bool Lia Permutation QArith Qreduction.
From Coq Require Import ZifyBool ZifyNat.
From Verif Require Import Py Arith Construct Spec Runs ProofsPy ProofsGrid ProofsConstruct ProofsSolve.
Import ListNotations.
Open Scope Z_scope.

(** ** First fit and leftover items *)
Section Loop.
Context (ar : arith) (W L : Z) (strip rotation : bool) (strategy : list pclass).
Context (items0 : odict dims).
Hypothesis HW : 0 < W.
Hypothesis HL : 0 < L.
Hypothesis Hitems0 : valid_items items0.

Notation inv := (inv ar W L strip rotation items0).
Notation steps := (steps ar W L strip rotation strategy).
Notation body := (loop_body ar W L strip rotation strategy).

Notation pfit := (Runs.pfit W L).
Notation fits_nowhere := (Runs.fits_nowhere W L rotation).

Lemma fits_at_pfit s p w l :
  inv s -> in_bounds W L p -> 0 < w -> 0 < l ->
  fits_at W L (st_grid s) p w l <-> pfit (placed_entries ar s) p w l.
Proof.
  intros Hs [Hpx Hpy] Hw Hl. unfold fits_at, pfit, passes_fit_test.
  split; intros [H1 [H2 H3]]; (split; [assumption|split; [assumption|]]).
  - intros x y Hc Hno e He Hce. unfold covers in Hc. simpl in Hc.
    unfold on_open_top_row in Hno. simpl in Hno.
    apply (proj2 (i_cells _ _ _ _ _ _ _ Hs y x ltac:(lia) ltac:(lia))).
    + exists e. auto.
    + apply H3; lia.
  - intros y x Hx Hy Hc.
    destruct (Z.eq_dec (cell (st_grid s) y x) 0) as [|Hne]; [assumption|]. exfalso.
    apply (i_cells _ _ _ _ _ _ _ Hs y x ltac:(lia) ltac:(lia)) in Hne.
    destruct Hne as [e [He Hce]]. apply (H3 x y) with e; auto.
    + unfold covers. simpl. lia.
    + unfold on_open_top_row. simpl. lia.
Qed.

Lemma no_fit_pfit s p d :
  inv s -> in_bounds W L p -> pos_dims d ->
  no_fit W L rotation (st_grid s) p d <-> fits_nowhere (placed_entries ar s) p d.
Proof.
  intros Hs Hp [Hdw Hdl]. unfold no_fit, fits_nowhere.
  rewrite !fits_at_pfit by assumption. tauto.
Qed.

(** One iteration, described through the placed rectangles only. *)
Lemma first_fit_in_sequence s p :
  steps (init_state ar W L items0) s -> running ar s p ->
  exists s', body s p = Ok s' /\
  ( (exists i d pre post w l,
       st_ids s = pre ++ i :: post /\ dget items0 i = Some d /\
       (forall j dj, In j pre -> dget items0 j = Some dj ->
                     fits_nowhere (placed_entries ar s) p dj) /\
       ((w = dw d /\ l = dl d) \/
        (rotation = true /\ w = dl d /\ l = dw d /\
         ~ pfit (placed_entries ar s) p (dw d) (dl d))) /\
       pfit (placed_entries ar s) p w l /\
       placed_entries ar s' = placed_entries ar s ++ [mkEntry (fst p) (snd p) w l] /\
       dkeys (st_sol s') = dkeys (st_sol s) ++ [i])
    \/
    ((forall i d, In i (st_ids s) -> dget items0 i = Some d ->
                  fits_nowhere (placed_entries ar s) p d) /\
     st_sol s' = st_sol s) ).
Proof.
  intros Hst Hrun.
  assert (Hs : inv s).
  { eapply steps_inv; [..|exact Hst|apply inv_init]; assumption. }
  destruct Hrun as [Hcur _]. pose proof (i_cur _ _ _ _ _ _ _ Hs p Hcur) as Hp.
  destruct (loop_body_spec ar W L strip rotation strategy items0 Hitems0 s p Hs Hp)
    as [s' [bf [ps [Hb [Hi [Hout _]]]]]].
  exists s'. split; [exact Hb|].
  assert (Hget : forall i d, In i (st_ids s) -> dget items0 i = Some d ->
                             dget (st_items s) i = Some d).
  { intros i d Hin Hd. rewrite (i_ids _ _ _ _ _ _ _ Hs) in Hin.
    apply dget_Some_In in Hin. destruct Hin as [d' Hd']. rewrite Hd'. f_equal.
    apply dget_In in Hd'. assert (In (i, d') items0).
    { eapply Permutation_in; [apply (i_perm _ _ _ _ _ _ _ Hs)|]. apply in_or_app. auto. }
    apply In_dget in H; [congruence|]. apply Hitems0. }
  assert (Hget' : forall i d, dget (st_items s) i = Some d -> dget items0 i = Some d).
  { intros i d Hd. apply In_dget; [apply Hitems0|].
    eapply Permutation_in; [apply (i_perm _ _ _ _ _ _ _ Hs)|]. apply in_or_app. right.
    apply dget_In. assumption. }
  destruct Hout as [i d rot pre post Hids Hd Hpre Hfit Hsol Hitems | Hnone Hsol Hitems].
  - left. pose proof (inv_items_pos _ _ _ _ _ _ Hitems0 s i d Hs Hd) as [Hdw Hdl].
    exists i, d, pre, post, (if rot then dl d else dw d), (if rot then dw d else dl d).
    split; [assumption|]. split; [auto|]. split; [|split; [|split; [|split]]].
    + intros j dj Hj Hdj. apply no_fit_pfit; auto.
      * apply (proj2 Hitems0 j). apply dget_In. assumption.
      * apply Hpre with j; auto. apply Hget; auto. rewrite Hids. apply in_or_app. auto.
    + destruct rot; [right|left; auto]. destruct Hfit as [H1 [H2 H3]].
      split; [assumption|]. split; [reflexivity|]. split; [reflexivity|].
      rewrite <- fits_at_pfit by assumption. assumption.
    + rewrite <- fits_at_pfit by (auto; destruct rot; assumption).
      destruct rot; [apply Hfit|assumption].
    + unfold placed_entries. rewrite Hsol, map_app. simpl. unfold export. simpl.
      destruct rot; reflexivity.
    + rewrite Hsol. unfold dkeys. rewrite map_app. reflexivity.
  - right. split; [|assumption]. intros i d Hin Hd. apply no_fit_pfit; auto.
    + apply (proj2 Hitems0 i). apply dget_In. assumption.
    + apply Hnone with i; auto.
Qed.

(** Generated points. *)
Lemma points_on_free_cells s p s' :
  steps (init_state ar W L items0) s -> running ar s p -> body s p = Ok s' ->
  forall c q, In q (st_pending s' c) ->
    (0 <= fst q < W /\ 0 <= snd q < L) /\
    (~ In q (st_pools s c) ->
     match c with cA | cB | cC | cD | cA__ | cB__ => True | _ => False end ->
     forall e, In e (placed_entries ar s') -> ~ covers e (fst q) (snd q)).
Proof.
  intros Hst Hrun Hb c q Hq.
  assert (Hs : inv s).
  { eapply steps_inv; [..|exact Hst|apply inv_init]; assumption. }
  destruct Hrun as [Hcur _]. pose proof (i_cur _ _ _ _ _ _ _ Hs p Hcur) as Hp.
  destruct (loop_body_spec ar W L strip rotation strategy items0 Hitems0 s p Hs Hp)
    as [s1 [bf [ps [Hb1 [Hi [Hout [_ [Hbf [_ [Hpend [Hgood _]]]]]]]]]]].
  assert (s1 = s') by congruence. subst s1.
  rewrite Hpend, Hbf in Hq. apply in_pools_extend in Hq.
  assert (Hbounds : in_bounds W L q).
  { destruct Hq as [Hq|Hq]; [apply (i_pools _ _ _ _ _ _ _ Hs _ _ Hq)|].
    apply (Forall_In _ _ _ Hgood Hq). }
  split; [exact Hbounds|]. intros Hnew Hc e He Hcov.
  destruct Hq as [Hq|Hq]; [contradiction|].
  destruct (Forall_In _ _ _ Hgood Hq) as [_ Hfree]. simpl in Hfree.
  destruct Hbounds as [Hx Hy].
  apply (proj2 (i_cells _ _ _ _ _ _ _ Hi (snd q) (fst q) Hy Hx)).
  - exists e. auto.
  - apply Hfree. destruct c; simpl in *; (reflexivity || contradiction).
Qed.

(** Leftover items fit at no point that was processed or generated for the strategy. *)
Definition pools_drained (s : cstate ar) : Prop :=
  st_cur s = None -> forall c, In c strategy -> st_pools s c = [].

Lemma leftovers_do_not_fit a b :
  steps a b -> inv a -> pools_drained a ->
  st_cur b = None ->
  forall c p, (st_cur a = Some p \/ (In c strategy /\ In p (st_pools a c))) ->
  forall i d, dget (st_items b) i = Some d -> fits_nowhere (placed_entries ar b) p d.
Proof.
  induction 1 as [s | s p0 s1 s2 Hrun Hb Hst IH]; intros Hs Hdr Hend c p Hp i d Hd.
  - destruct Hp as [Hp|[Hc Hp]]; [congruence|]. rewrite (Hdr Hend c Hc) in Hp. destruct Hp.
  - destruct Hrun as [Hcur Hrun]. pose proof (i_cur _ _ _ _ _ _ _ Hs p0 Hcur) as Hp0.
    destruct (loop_body_spec ar W L strip rotation strategy items0 Hitems0 s p0 Hs Hp0)
      as [s1' [bf [ps [Hb' [Hi [Hout [Hnext [Hbf [_ [_ [_ [_ Hmono]]]]]]]]]]]].
    assert (s1' = s1) by congruence. subst s1'.
    assert (Hdr1 : pools_drained s1).
    { intros Hn k Hk. unfold next_point in Hnext. rewrite Hn in Hnext.
      destruct Hnext as [-> Hemp]. auto. }
    assert (Hs2 : inv s2) by (eapply steps_inv; eassumption).
    pose proof (inv_items_pos _ _ _ _ _ _ Hitems0 s2 i d Hs2 Hd) as Hpos.
    (* items only disappear, cells only fill *)
    assert (Hsub : forall u v, steps u v -> inv u ->
              (forall k e, dget (st_items v) k = Some e -> dget (st_items u) k = Some e) /\
              (forall y x, 0 <= y < L -> 0 <= x < W -> cell (st_grid v) y x = 0 ->
                           cell (st_grid u) y x = 0)).
    { clear - Hitems0. induction 1 as [|u q u1 u2 [Hq _] Hbu _ IHu]; intros Hu; [auto|].
      pose proof (i_cur _ _ _ _ _ _ _ Hu q Hq) as Hqb.
      destruct (loop_body_spec ar W L strip rotation strategy items0 Hitems0 u q Hu Hqb)
        as [u1' [bf' [ps' [Hb'' [Hi' [Hout' [_ [_ [_ [_ [_ [_ Hmono']]]]]]]]]]]].
      assert (u1' = u1) by congruence. subst u1'.
      destruct (IHu Hi') as [IH1 IH2]. split.
      - intros k e He. apply IH1 in He.
        destruct Hout' as [j dj rot pre post _ _ _ _ _ Hit | _ _ Hit]; rewrite Hit in He; [|assumption].
        destruct (string_dec j k) as [->|Hne].
        + rewrite dget_ddel_same in He; [discriminate|].
          apply (inv_nodup _ _ _ _ _ _ Hitems0 u Hu).
        + rewrite dget_ddel_other in He; assumption.
      - intros y x Hy Hx Hz. apply Hmono'; auto. }
    destruct (Hsub s1 s2 Hst Hi) as [Hsub1 Hsub2].
    destruct Hp as [Hp|[Hc Hp]].
    + (* the point processed now *)
      assert (p = p0) by congruence. subst p0.
      apply no_fit_pfit; auto.
      assert (Hnf1 : no_fit W L rotation (st_grid s1) p d).
      { pose proof (Hsub1 i d Hd) as Hd1.
        destruct Hout as [j dj rot pre post Hids Hdj Hpre Hfit Hsol Hit | Hnone Hsol Hit].
        - (* the cell of the point is now taken *)
          assert (Htaken : cell (st_grid s1) (snd p) (fst p) <> 0).
          { destruct Hp0 as [Hx Hy]. apply (i_cells _ _ _ _ _ _ _ Hi); try lia.
            exists (export (mkPlaced dj (fst p) (snd p) rot)). split.
            - unfold placed_entries. rewrite Hsol, map_app. apply in_or_app. right. left.
              reflexivity.
            - pose proof (inv_items_pos _ _ _ _ _ _ Hitems0 s j dj Hs Hdj) as [Hw Hl].
              unfold covers, export. simpl. destruct rot; lia. }
          destruct Hpos as [Hdw Hdl].
          split; [|intros _]; intros [_ [_ Hf]]; apply Htaken; apply Hf; lia.
        - assert (Hdi : dget (st_items s) i = Some d) by (rewrite <- Hit; assumption).
          assert (Hno : no_fit W L rotation (st_grid s) p d).
          { apply Hnone with i; [|assumption]. rewrite (i_ids _ _ _ _ _ _ _ Hs).
            apply dget_Some_In. eauto. }
          destruct Hpos as [Hdw Hdl], Hp0 as [Hx Hy], Hno as [Hn1 Hn2].
          split; [|intros Hr; specialize (Hn2 Hr)].
          + intros [H1 [H2 H3]]. apply Hn1. split; [assumption|]. split; [assumption|].
            intros y x Hxx Hyy Hcc. apply Hmono; auto; lia.
          + intros [H1 [H2 H3]]. apply Hn2. split; [assumption|]. split; [assumption|].
            intros y x Hxx Hyy Hcc. apply Hmono; auto; lia. }
      destruct Hpos as [Hdw Hdl], Hp0 as [Hx Hy], Hnf1 as [Hn1 Hn2].
      split; [|intros Hr; specialize (Hn2 Hr)].
      * intros [H1 [H2 H3]]. apply Hn1. split; [assumption|]. split; [assumption|].
        intros y x Hxx Hyy Hcc. apply Hsub2; auto; lia.
      * intros [H1 [H2 H3]]. apply Hn2. split; [assumption|]. split; [assumption|].
        intros y x Hxx Hyy Hcc. apply Hsub2; auto; lia.
    + (* a point still queued: processed later *)
      assert (Hin : In p (bf c)).
      { rewrite Hbf. apply in_pools_extend. auto. }
      unfold next_point in Hnext. destruct (st_cur s1) as [q|] eqn:Hcur1.
      * destruct Hnext as [c0 [Hc0 [Hpop Hother]]].
        destruct (pclass_eqb_spec c c0) as [->|Hne].
        -- rewrite Hpop in Hin. destruct Hin as [->|Hin].
           ++ apply (IH Hi Hdr1 Hend c0 p (or_introl eq_refl) i d Hd).
           ++ apply (IH Hi Hdr1 Hend c0 p (or_intror (conj Hc Hin)) i d Hd).
        -- rewrite <- (Hother c Hne) in Hin.
           apply (IH Hi Hdr1 Hend c p (or_intror (conj Hc Hin)) i d Hd).
      * destruct Hnext as [_ Hemp]. rewrite (Hemp c Hc) in Hin. destruct Hin.
Qed.

Lemma drained_init s : steps (init_state ar W L items0) s -> pools_drained s.
Proof.
  assert (H : forall a b, steps a b -> inv a -> pools_drained a -> pools_drained b).
  { induction 1 as [|a p a1 b [Hc _] Hb _ IH]; intros Ha Hd; [assumption|].
    pose proof (i_cur _ _ _ _ _ _ _ Ha p Hc) as Hp.
    destruct (loop_body_spec ar W L strip rotation strategy items0 Hitems0 a p Ha Hp)
      as [a1' [bf [ps [Hb' [Hi [_ [Hnext [_ [_ _]]]]]]]]].
    assert (a1' = a1) by congruence. subst a1'. apply IH; [assumption|].
    intros Hn k Hk. unfold next_point in Hnext. rewrite Hn in Hnext.
    destruct Hnext as [-> Hemp]. auto. }
  intros Hst. apply (H _ _ Hst); [apply inv_init; assumption|].
  intros Hn. discriminate.
Qed.

(** The first placed item is at the origin. *)
Lemma first_at_origin s :
  steps (init_state ar W L items0) s ->
  match st_sol s with
  | [] => True
  | (_, p) :: _ => p_x p = 0 /\ p_y p = 0
  end.
Proof.
  assert (H : forall a b, steps a b -> inv a ->
            match st_sol a with
            | [] => (forall c, st_pools a c = []) /\ (st_cur a = Some (0, 0) \/ st_cur a = None)
            | (_, p) :: _ => p_x p = 0 /\ p_y p = 0
            end ->
            match st_sol b with
            | [] => True
            | (_, p) :: _ => p_x p = 0 /\ p_y p = 0
            end).
  { intros a b Hst. induction Hst as [a|a p a1 b [Hc _] Hb _ IH]; intros Ha Hcl.
    - destruct (st_sol a) as [|[k q] t]; auto.
    - pose proof (i_cur _ _ _ _ _ _ _ Ha p Hc) as Hp.
      destruct (loop_body_spec ar W L strip rotation strategy items0 Hitems0 a p Ha Hp)
        as [a1' [bf [ps [Hb' [Hi [Hout [Hnext [Hbf [Hps _]]]]]]]]].
      assert (a1' = a1) by congruence. subst a1'. apply IH; [assumption|].
      destruct Hout as [j dj rot pre post _ _ _ _ Hsol _ | _ Hsol _]; rewrite Hsol.
      + destruct (st_sol a) as [|[k q] t] eqn:E; simpl; [|assumption].
        destruct Hcl as [_ [Hcl|Hcl]]; [|congruence].
        rewrite Hcl in Hc. injection Hc as <-. auto.
      + destruct (st_sol a) as [|[k q] t] eqn:E; [|assumption].
        destruct Hcl as [Hemp _]. rewrite (Hps Hsol) in Hbf. simpl in Hbf.
        unfold next_point in Hnext. destruct (st_cur a1) as [q|].
        * destruct Hnext as [c [_ [Hpop _]]]. rewrite Hbf in Hpop. unfold pools_extend in Hpop.
          simpl in Hpop. rewrite Hemp in Hpop. discriminate.
        * destruct Hnext as [-> _]. rewrite Hbf. split; [exact Hemp|auto]. }
  intros Hst. apply (H _ _ Hst); [apply inv_init; assumption|]. simpl. auto.
Qed.
End Loop.

(** ** Why each item is where it is *)
Section Explain.
Context (ar : arith) (W L : Z) (strip rotation : bool) (strategy : list pclass).
Context (items0 : odict dims).
Hypothesis HW : 0 < W.
Hypothesis HL : 0 < L.
Hypothesis Hitems0 : valid_items items0.

Lemma steps_preserve (P : cstate ar -> Prop) a b :
  (forall s p s', inv ar W L strip rotation items0 s -> inv ar W L strip rotation items0 s' ->
     P s -> in_bounds W L p -> running ar s p ->
     step_outcome ar W L rotation s p s' -> P s') ->
  steps ar W L strip rotation strategy a b -> inv ar W L strip rotation items0 a -> P a -> P b.
Proof.
  intros Hstep. induction 1 as [|s p s1 s2 Hrun Hb _ IH]; intros Ha HP; [assumption|].
  pose proof Hrun as [Hc _]. pose proof (i_cur _ _ _ _ _ _ _ Ha p Hc) as Hp.
  destruct (loop_body_spec ar W L strip rotation strategy items0 Hitems0 s p Ha Hp)
    as [s1' [bf [ps [Hb' [Hi [Hout _]]]]]].
  assert (s1' = s1) by congruence. subst s1'. apply IH; [assumption|].
  exact (Hstep s p s1 Ha Hi HP Hp Hrun Hout).
Qed.

Lemma placement_explained s pre i p post :
  steps ar W L strip rotation strategy (init_state ar W L items0) s ->
  st_sol s = pre ++ (i, p) :: post ->
  let before := map (fun kp => export (snd kp)) pre in
  let e := export p in
  pfit W L before (p_x p, p_y p) (e_w e) (e_l e) /\
  (p_rot p = true -> rotation = true /\
                     ~ pfit W L before (p_x p, p_y p) (dw (p_item p)) (dl (p_item p))).
Proof.
  intros Hst. revert pre i p post.
  apply (steps_preserve (fun s => forall pre i p post, st_sol s = pre ++ (i, p) :: post ->
    let before := map (fun kp => export (snd kp)) pre in
    let e := export p in
    pfit W L before (p_x p, p_y p) (e_w e) (e_l e) /\
    (p_rot p = true -> rotation = true /\
       ~ pfit W L before (p_x p, p_y p) (dw (p_item p)) (dl (p_item p)))) _ _) with (2 := Hst).
  2: apply inv_init; assumption.
  2:{ intros pre i p post H. simpl in H. destruct pre; discriminate. }
  clear s Hst. intros s q s' Hs Hs' IH Hq _ Hout pre i p post Heq.
  destruct Hout as [j d rot ipre ipost Hids Hd _ Hfit Hsol _ | _ Hsol _].
  2:{ apply (IH pre i p post). congruence. }
  rewrite Hsol in Heq.
  destruct post as [|z post] using rev_ind.
  - apply app_inj_tail in Heq. destruct Heq as [<- [= <- <-]]. simpl.
    pose proof (inv_items_pos _ _ _ _ _ _ Hitems0 s j d Hs Hd) as [Hdw Hdl].
    fold (placed_entries ar s). destruct q as [qx qy]. simpl in *. destruct rot.
    + destruct Hfit as [Hr [Hn Hf]].
      rewrite (fits_at_pfit ar W L strip rotation items0) in Hf by assumption.
      rewrite (fits_at_pfit ar W L strip rotation items0) in Hn by assumption. auto.
    + rewrite (fits_at_pfit ar W L strip rotation items0) in Hfit by assumption.
      split; [assumption|discriminate].
  - clear IHpost. rewrite app_comm_cons, app_assoc in Heq. apply app_inj_tail in Heq.
    destruct Heq as [Heq _]. apply (IH pre i p post). assumption.
Qed.
End Explain.
