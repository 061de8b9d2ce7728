(** * Leaving out an item that was left over changes nothing (C83). *)
From Coq Require Import ZArith String List Bool Lia Permutation.
From Coq Require Import ZifyBool ZifyNat.
From Verif Require Import Py Arith Construct Spec Runs ProofsPy ProofsGrid ProofsConstruct ProofsSolve ProofsOversize.
Import ListNotations.
Open Scope Z_scope.

Section Loop.
Context (ar : arith) (W L : Z) (strip rotation : bool) (strategy : list pclass) (items0 : odict dims).
Hypothesis HW : 0 < W.
Hypothesis HL : 0 < L.
Hypothesis Hv0 : valid_items items0.
Context (i : string) (d : dims).

Notation inv s := (inv ar W L strip rotation items0 s).

(** The item found at a point is another one: the search finds the same without [i]. *)
Lemma first_fit_skip Xo Yo g (items : odict dims) :
  forall ids r, NoDup ids -> first_fit W L Xo Yo rotation g items ids = Ok r ->
  (forall it rot, r <> Some (i, it, rot)) ->
  first_fit W L Xo Yo rotation g (ddel items i) (lremove ids i) = Ok r.
Proof.
  assert (D : forall j, i <> j -> dget_r (ddel items i) j = dget_r items j).
  { intros j N. unfold dget_r. rewrite dget_ddel_other by exact N. reflexivity. }
  assert (A : forall ids, ~ In i ids ->
    first_fit W L Xo Yo rotation g (ddel items i) ids = first_fit W L Xo Yo rotation g items ids).
  { induction ids as [|j ids IH]; intros H; [reflexivity|]. cbn [first_fit].
    rewrite D by (intros ->; apply H; left; reflexivity). rewrite IH by (intros C; apply H; right; exact C). reflexivity. }
  induction ids as [|j ids IH]; intros r N H Hr; [exact H|]. inversion N as [|? ? N1 N2]; subst.
  cbn [lremove first_fit] in *. destruct (String.eqb_spec i j) as [<-|E].
  - rewrite A by exact N1. destruct (dget_r items i) as [it|]; [|discriminate]. cbn [bind] in H.
    destruct (check_fitting W L Xo Yo (dw it) (dl it) g) as [[]|]; [|cbn [bind] in H|discriminate].
    { injection H as <-. exfalso. exact (Hr _ _ eq_refl). }
    destruct rotation; [|exact H].
    destruct (check_fitting W L Xo Yo (dl it) (dw it) g) as [[]|]; cbn [bind] in H; [|exact H|discriminate].
    injection H as <-. exfalso. exact (Hr _ _ eq_refl).
  - cbn [first_fit]. rewrite D by exact E.
    destruct (dget_r items j) as [it|]; [|discriminate]. cbn [bind] in *.
    destruct (check_fitting W L Xo Yo (dw it) (dl it) g) as [[]|]; [exact H|cbn [bind] in *|discriminate].
    destruct rotation; [|exact (IH r N2 H Hr)].
    destruct (check_fitting W L Xo Yo (dl it) (dw it) g) as [[]|]; cbn [bind] in *; [exact H|exact (IH r N2 H Hr)|discriminate].
Qed.

Notation without := (without ar i).

(** What is left after a step was there before it. *)
Lemma body_kept s p s1 : inv s -> loop_body ar W L strip rotation strategy s p = Ok s1 ->
  dget (st_items s1) i = Some d -> dget (st_items s) i = Some d.
Proof.
  intros Hs H Hd. pose proof (proj1 (inv_nodup _ _ _ _ _ _ Hv0 _ Hs)) as N. destruct p as [Xo Yo]. unfold loop_body in H.
  destruct (first_fit W L Xo Yo rotation (st_grid s) (st_items s) (st_ids s)) as [[[[j it] rot]|]|]; [|cbn [bind] in H|discriminate].
  - cbn [bind] in H. unfold place_item in H. cbv zeta in H.
    destruct (paint (st_grid s) Xo Yo (if rot then dl it else dw it) (if rot then dw it else dl it)) as [g'|]; [|discriminate].
    cbn [bind] in H.
    destruct (generate_points ar g' W L Xo Yo (if rot then dl it else dw it) (if rot then dw it else dl it)) as [ps|]; [|discriminate].
    cbn [bind st_pools st_items st_ids st_obj st_grid st_sol] in H.
    destruct (get_current_point strategy (pools_extend (st_pools s) ps)) as [cur pp].
    injection H as <-. cbn [st_items] in Hd. destruct (string_dec j i) as [->|E].
    + rewrite dget_ddel_same in Hd by exact N. discriminate.
    + rewrite dget_ddel_other in Hd by exact E. exact Hd.
  - destruct (get_current_point strategy (st_pools s)) as [cur pp]. injection H as <-. exact Hd.
Qed.

Lemma loop_kept : forall fuel s s1, inv s -> construct_loop ar fuel W L strip rotation strategy s = Ok s1 ->
  dget (st_items s1) i = Some d -> dget (st_items s) i = Some d.
Proof.
  induction fuel as [|n IH]; intros s s1 Hs H Hd; cbn [construct_loop] in H.
  - destruct (st_cur s); [|injection H as <-; exact Hd]. destruct (st_ids s); [injection H as <-; exact Hd|].
    destruct (ngeb ar (st_obj s) (num1 ar)); [injection H as <-; exact Hd|discriminate].
  - destruct (st_cur s) as [p|] eqn:Ec; [|injection H as <-; exact Hd]. destruct (st_ids s); [injection H as <-; exact Hd|].
    destruct (ngeb ar (st_obj s) (num1 ar)); [injection H as <-; exact Hd|].
    pose proof (i_cur _ _ _ _ _ _ _ Hs p Ec) as Hp.
    destruct (loop_body_spec ar W L strip rotation strategy items0 Hv0 s p Hs Hp) as [s' [? [? [Hs' [Hi' _]]]]].
    rewrite Hs' in H. cbn [bind] in H. apply (body_kept s p s' Hs Hs'). exact (IH s' s1 Hi' H Hd).
Qed.

Lemma body_skip s t p s1 : inv s -> without s t ->
  loop_body ar W L strip rotation strategy s p = Ok s1 -> dget (st_items s1) i = Some d ->
  (st_ids t = [] /\ without s1 t) \/
  (exists t1, loop_body ar W L strip rotation strategy t p = Ok t1 /\ without s1 t1).
Proof.
  intros Hs [E1 [E2 [E3 [E4 [E5 E6]]]]] H Hd.
  pose proof (proj1 (inv_nodup _ _ _ _ _ _ Hv0 _ Hs)) as Nk.
  assert (Nd : NoDup (st_ids s)) by (rewrite (i_ids _ _ _ _ _ _ _ Hs); exact Nk).
  destruct p as [Xo Yo]. unfold loop_body in *.
  pose proof (first_fit_skip Xo Yo (st_grid s) (st_items s) (st_ids s)) as F.
  destruct (first_fit W L Xo Yo rotation (st_grid s) (st_items s) (st_ids s)) as [found|] eqn:Ef; [|discriminate].
  specialize (F found Nd eq_refl). cbn [bind] in H. rewrite E1, E2, E4.
  destruct found as [[[j it] rot]|].
  - unfold place_item in H. cbv zeta in H.
    destruct (paint (st_grid s) Xo Yo (if rot then dl it else dw it) (if rot then dw it else dl it)) as [g'|] eqn:Eg; [|discriminate].
    cbn [bind] in H.
    destruct (generate_points ar g' W L Xo Yo (if rot then dl it else dw it) (if rot then dw it else dl it)) as [ps|] eqn:Ep; [|discriminate].
    cbn [bind st_pools st_items st_ids st_obj st_grid st_sol] in H.
    destruct (get_current_point strategy (pools_extend (st_pools s) ps)) as [cur pp] eqn:Ec.
    injection H as <-. cbn [st_items] in Hd.
    assert (N : i <> j).
    { intros <-. rewrite dget_ddel_same in Hd by exact Nk. discriminate. }
    rewrite F by (intros ? ? [= ? _ _]; congruence). cbn [bind].
    right. destruct E6 as [E6|[E6 E7]].
    { rewrite <- E2, E6 in F. specialize (F ltac:(intros ? ? [= ? _ _]; congruence)). discriminate F. }
    unfold place_item. cbv zeta. rewrite E4, Eg. cbn [bind]. rewrite Ep. cbn [bind st_pools]. rewrite E6, Ec.
    eexists. split; [reflexivity|]. unfold ProofsOversize.without. cbn [st_items st_ids st_obj st_grid st_sol st_pools st_cur].
    rewrite E1, E2, E3, E5. split; [apply ddel_comm; exact N|]. split; [apply lremove_comm|].
    split; [reflexivity|]. split; [reflexivity|]. split; [reflexivity|]. right. split; reflexivity.
  - rewrite F by discriminate. cbn [bind st_pools st_items st_ids st_obj st_grid st_sol] in H |- *.
    destruct (get_current_point strategy (st_pools s)) as [cur pp] eqn:Ec. injection H as <-.
    destruct E6 as [E6|[E6 E7]].
    + left. split; [congruence|]. unfold ProofsOversize.without. cbn [st_items st_ids st_obj st_grid st_sol st_pools st_cur]. auto 10.
    + right. rewrite E6, Ec. eexists. split; [reflexivity|]. unfold ProofsOversize.without.
      cbn [st_items st_ids st_obj st_grid st_sol st_pools st_cur]. auto 10.
Qed.

Lemma loop_skip : forall fuel s t s1, inv s -> without s t ->
  construct_loop ar fuel W L strip rotation strategy s = Ok s1 -> dget (st_items s1) i = Some d ->
  exists t1, construct_loop ar fuel W L strip rotation strategy t = Ok t1 /\ without s1 t1.
Proof.
  induction fuel as [|n IH]; intros s t s1 Hs R H Hd; pose proof R as [E1 [E2 [E3 [E4 [E5 E6]]]]];
    cbn [construct_loop] in H |- *.
  - destruct (st_cur s) as [p|] eqn:Ec.
    2:{ injection H as <-. exists t. split; [|exact R]. destruct (st_cur t) as [q|] eqn:Eq; [|reflexivity].
        destruct E6 as [->|[_ E6]]; [reflexivity|congruence]. }
    destruct (st_ids s) as [|k ks] eqn:Ek.
    { injection H as <-. exists t. split; [|exact R]. destruct (st_cur t); [|reflexivity]. rewrite E2. reflexivity. }
    rewrite E3. destruct (ngeb ar (st_obj s) (num1 ar)); [|discriminate]. injection H as <-. exists t.
    split; [|exact R]. destruct (st_cur t); [|reflexivity]. destruct (st_ids t); reflexivity.
  - destruct (st_cur s) as [p|] eqn:Ec.
    2:{ injection H as <-. exists t. split; [|exact R]. destruct (st_cur t) as [q|] eqn:Eq; [|reflexivity].
        destruct E6 as [->|[_ E6]]; [reflexivity|congruence]. }
    destruct (st_ids s) as [|k ks] eqn:Ek.
    { injection H as <-. exists t. split; [|exact R]. destruct (st_cur t); [|reflexivity]. rewrite E2. reflexivity. }
    rewrite E3. destruct (ngeb ar (st_obj s) (num1 ar)) eqn:Eo.
    { injection H as <-. exists t. split; [|exact R]. destruct (st_cur t); [|reflexivity]. destruct (st_ids t); reflexivity. }
    pose proof (i_cur _ _ _ _ _ _ _ Hs p Ec) as Hp.
    destruct (loop_body_spec ar W L strip rotation strategy items0 Hv0 s p Hs Hp)
      as [s' [? [? [Hs' [Hi' _]]]]].
    rewrite Hs' in H. cbn [bind] in H.
    pose proof (loop_kept n s' s1 Hi' H Hd) as Hd'.
    destruct (body_skip s t p s' Hs R Hs' Hd') as [[Et R']|[t' [Ht' R']]].
    + destruct (IH s' t s1 Hi' R' H Hd) as [t1 [Ht1 R1]]. exists t1. split; [|exact R1].
      assert (X : construct_loop ar n W L strip rotation strategy t = Ok t).
      { destruct n; cbn [construct_loop]; destruct (st_cur t); rewrite ?Et; reflexivity. }
      rewrite X in Ht1. injection Ht1 as <-. destruct (st_cur t); [rewrite Et|]; reflexivity.
    + destruct (IH s' t' s1 Hi' R' H Hd) as [t1 [Ht1 R1]].
      destruct (st_ids t) as [|m ms] eqn:Em.
      * (* stops at once: its body changes nothing that counts *)
        assert (R2 : without s' t).
        { clear IH Ht1 R1. unfold ProofsOversize.without in R'.
          unfold loop_body in Ht'. destruct p as [Xo Yo]. rewrite Em in Ht'. cbn [first_fit bind] in Ht'.
          destruct (get_current_point strategy (st_pools t)) as [cur pp]. injection Ht' as <-.
          cbn [st_items st_ids st_obj st_grid st_sol st_pools st_cur] in R'. unfold ProofsOversize.without. rewrite Em in R' |- *.
          destruct R' as [A1 [A2 [A3 [A4 [A5 _]]]]]. auto 10. }
        destruct (IH s' t s1 Hi' R2 H Hd) as [t2 [Ht2 R3]]. exists t. split; [destruct (st_cur t); reflexivity|].
        assert (X : construct_loop ar n W L strip rotation strategy t = Ok t).
        { destruct n; cbn [construct_loop]; destruct (st_cur t); rewrite ?Em; reflexivity. }
        rewrite X in Ht2. injection Ht2 as <-. exact R3.
      * destruct E6 as [E6|[E6 E7]]; [discriminate|]. rewrite E7, Ht'. cbn [bind]. exists t1. split; assumption.
Qed.

Lemma construct_skip : forall rest v csol pp,
  construct_solution ar W L strip rotation strategy items0 = Ok (rest, v, csol, pp) -> dget rest i = Some d ->
  dget items0 i = Some d /\
  exists pp', construct_solution ar W L strip rotation strategy (ddel items0 i) = Ok (ddel rest i, v, csol, pp').
Proof.
  intros rest v csol pp H Hd. unfold construct_solution in *.
  destruct (construct_loop ar (construct_fuel items0) W L strip rotation strategy (init_state ar W L items0))
    as [s|] eqn:E; [|discriminate]. cbn [bind] in H.
  assert (R0 : without (init_state ar W L items0) (init_state ar W L (ddel items0 i))).
  { unfold ProofsOversize.without, init_state. cbn [st_items st_ids st_obj st_grid st_sol st_pools st_cur]. rewrite dkeys_ddel. auto 10. }
  pose proof (inv_init ar W L strip rotation items0 HW HL) as I0.
  assert (Hd1 : dget (st_items s) i = Some d).
  { match type of H with (bind ?o _) = _ => destruct o as [obj|]; [|discriminate] end. cbn [bind] in H. injection H as <- _ _ _. exact Hd. }
  pose proof (loop_kept _ _ _ I0 E Hd1) as Hd0. split; [exact Hd0|].
  destruct (loop_skip _ _ _ s I0 R0 E Hd1) as [t [Et R]].
  assert (Hv1 : valid_items (ddel items0 i)).
  { destruct Hv0 as [N P]. split; [apply NoDup_ddel; exact N|]. intros k e Hk. apply (P k). apply ddel_incl in Hk. exact Hk. }
  destruct (construct_loop_result ar W L strip rotation strategy (ddel items0 i) HW HL Hv1) as [t' [Et' _]].
  assert (t' = t).
  { pose proof (construct_loop_fuel ar W L strip rotation strategy _ _ _ (construct_fuel items0) Et') as A.
    pose proof (construct_loop_fuel ar W L strip rotation strategy _ _ _ (construct_fuel (ddel items0 i)) Et) as B.
    rewrite Nat.add_comm in B. congruence. }
  subst t'. rewrite Et'. cbn [bind]. destruct R as [E1 [E2 [E3 [E4 [E5 _]]]]]. rewrite E1, E3, E4, E5.
  match type of H with (bind ?o _) = _ => destruct o as [obj|]; [|discriminate] end. cbn [bind] in H.
  injection H as <- <- <- <-. exists (st_pending t). reflexivity.
Qed.
End Loop.

Section Solve.
Context (ar : arith) (pb : problem).

Lemma solve_step_skip i d c items sol objs cid rest sol' objs' :
  valid_items items -> room_ok pb c ->
  (pb_strip pb = true -> ddel items i <> []) ->
  solve_step ar pb (items, sol, objs) (cid, c) = Ok (rest, sol', objs') -> dget rest i = Some d ->
  dget items i = Some d /\
  solve_step ar pb (ddel items i, sol, objs) (cid, c) = Ok (ddel rest i, sol', objs').
Proof.
  intros Hv [HW HL] Hst H Hd. unfold solve_step in *.
  destruct items as [|kv t] eqn:Ei; [injection H as <- _ _; discriminate Hd|]. rewrite <- Ei in *. clear Ei kv t.
  destruct (construct_solution ar (dw c) (container_length pb c) (pb_strip pb) (pb_rotation pb) (pb_strategy pb) items)
    as [[[[r v] csol] pp]|] eqn:E; [|discriminate]. cbn [bind] in H. injection H as <- <- <-.
  destruct (construct_skip ar _ _ _ _ _ items HW HL Hv i d _ _ _ _ E Hd) as [Hr [pp' E']].
  split; [exact Hr|]. destruct (ddel items i) as [|kv t] eqn:Ed.
  - destruct (pb_strip pb) eqn:Es; [exfalso; exact (Hst eq_refl eq_refl)|].
    unfold construct_solution in E'. cbn [construct_fuel fold_right construct_loop init_state st_cur st_ids dkeys map bind
      st_items st_obj st_sol st_pending] in E'.
    injection E' as E1 E2 E3 _. rewrite <- E1, <- E2, <- E3. reflexivity.
  - rewrite E'. reflexivity.
Qed.

Lemma rfold_skip i d cs : forall items sol objs rest sol' objs',
  valid_items items ->
  (forall cid c, In (cid, c) cs -> room_ok pb c) ->
  (pb_strip pb = true -> cs = [] \/ (length cs = 1%nat /\ ddel items i <> [])) ->
  rfold (solve_step ar pb) cs (items, sol, objs) = Ok (rest, sol', objs') -> dget rest i = Some d ->
  dget items i = Some d /\ rfold (solve_step ar pb) cs (ddel items i, sol, objs) = Ok (ddel rest i, sol', objs').
Proof.
  induction cs as [|[cid c] cs IH]; intros items sol objs rest sol' objs' Hv Hc Hst H Hd.
  - injection H as <- <- <-. split; [exact Hd|reflexivity].
  - cbn [rfold] in *. destruct (solve_step ar pb (items, sol, objs) (cid, c)) as [[[mid s1] o1]|] eqn:E; [|discriminate].
    cbn [bind] in H. pose proof (Hc cid c (or_introl eq_refl)) as Hr.
    assert (Hvm : valid_items mid).
    { unfold solve_step in E. destruct items as [|kv t] eqn:Ei; [injection E as <- _ _; exact Hv|]. rewrite <- Ei in *.
      destruct Hr as [HW HL].
      destruct (construct_solution_spec ar (dw c) (container_length pb c) (pb_strip pb) (pb_rotation pb) (pb_strategy pb)
                  items HW HL Hv) as [s [Es [K1 [K2 K3]]]].
      rewrite Es in E. cbn [bind] in E. injection E as <- _ _.
      eapply built_valid; [exact Hv|]. eapply (built_run ar pb c items); eauto. congruence. }
    destruct (IH mid s1 o1 rest sol' objs' Hvm) as [Hm E']; [| |exact H|exact Hd|].
    + intros k e Hk. apply (Hc k e). right. exact Hk.
    + intros Es. destruct (Hst Es) as [C|[C _]]; [discriminate|]. left. destruct cs; [reflexivity|discriminate].
    + destruct (solve_step_skip i d c items sol objs cid mid s1 o1 Hv Hr) as [Hi Ei]; [|exact E|exact Hm|].
      { intros Es. destruct (Hst Es) as [C|[_ C]]; [discriminate|exact C]. }
      split; [exact Hi|]. rewrite Ei. cbn [bind]. exact E'.
Qed.
End Solve.
