(** * An item that fits in no container does not disturb the others; later containers do not
    disturb earlier ones (C78, C79). *)
From Coq Require Import ZArith String List Bool Lia Permutation.
From Coq Require Import ZifyBool ZifyNat.
From Verif Require Import Py Arith Construct Spec Runs ProofsPy ProofsGrid ProofsConstruct ProofsSolve.
Import ListNotations.
Open Scope Z_scope.

(** In no permitted orientation does the item have room in an empty W x L rectangle. *)
Definition too_big (W L : Z) (rotation : bool) (d : dims) : Prop :=
  (W < dw d \/ L < dl d) /\ (rotation = true -> W < dl d \/ L < dw d).

Lemma check_too_big W L Xo Yo w l g : 0 <= Xo -> 0 <= Yo -> W < w \/ L < l ->
  check_fitting W L Xo Yo w l g = Ok false.
Proof.
  intros HX HY H. unfold check_fitting. cbn [ror_ bind].
  destruct (Xo + w >? W) eqn:E1; [reflexivity|]. cbn [ror_ bind].
  destruct (Yo + l >? L) eqn:E2; [reflexivity|]. lia.
Qed.

Lemma ddel_comm {A} (d : odict A) i j : i <> j -> ddel (ddel d i) j = ddel (ddel d j) i.
Proof.
  intros N. induction d as [|[k v] t IH]; simpl; [reflexivity|].
  destruct (String.eqb_spec i k) as [->|H]; destruct (String.eqb_spec j k) as [->|H']; simpl;
    try congruence.
  - rewrite String.eqb_refl. reflexivity.
  - rewrite String.eqb_refl. reflexivity.
  - destruct (String.eqb_spec i k); [congruence|]. destruct (String.eqb_spec j k); [congruence|].
    rewrite IH. reflexivity.
Qed.

Lemma lremove_comm l i j : lremove (lremove l i) j = lremove (lremove l j) i.
Proof.
  induction l as [|k t IH]; simpl; [reflexivity|].
  destruct (String.eqb_spec i k) as [->|H]; destruct (String.eqb_spec j k) as [->|H']; simpl;
    rewrite ?String.eqb_refl; try reflexivity.
  destruct (String.eqb_spec i k); [congruence|]. destruct (String.eqb_spec j k); [congruence|].
  rewrite IH. reflexivity.
Qed.

Lemma ddel_absent {A} (d : odict A) i : ~ In i (dkeys d) -> ddel d i = d.
Proof.
  induction d as [|[k v] t IH]; simpl; intros H; [reflexivity|].
  destruct (String.eqb_spec i k) as [->|]; [tauto|]. rewrite IH by tauto. reflexivity.
Qed.

Section Loop.
Context (ar : arith) (W L : Z) (strip rotation : bool) (strategy : list pclass) (items0 : odict dims).
Hypothesis HW : 0 < W.
Hypothesis HL : 0 < L.
Hypothesis Hv0 : valid_items items0.
Context (i : string) (d : dims) (Hbig : too_big W L rotation d).

Notation inv s := (inv ar W L strip rotation items0 s).

Lemma first_fit_without Xo Yo g (items : odict dims) : 0 <= Xo -> 0 <= Yo -> dget items i = Some d ->
  forall ids, NoDup ids ->
  first_fit W L Xo Yo rotation g (ddel items i) (lremove ids i) = first_fit W L Xo Yo rotation g items ids.
Proof.
  intros HX HY Hd. assert (D : forall j, i <> j -> dget_r (ddel items i) j = dget_r items j).
  { intros j N. unfold dget_r. rewrite dget_ddel_other by exact N. reflexivity. }
  assert (A : forall ids, ~ In i ids ->
    first_fit W L Xo Yo rotation g (ddel items i) ids = first_fit W L Xo Yo rotation g items ids).
  { induction ids as [|j ids IH]; intros H; [reflexivity|]. cbn [first_fit].
    rewrite D by (intros ->; apply H; left; reflexivity). rewrite IH by (intros C; apply H; right; exact C). reflexivity. }
  induction ids as [|j ids IH]; intros N; [reflexivity|]. inversion N as [|? ? N1 N2]; subst.
  cbn [lremove]. destruct (String.eqb_spec i j) as [<-|E].
  - rewrite A by exact N1. cbn [first_fit]. unfold dget_r at 1. rewrite Hd. cbn [bind].
    rewrite (check_too_big W L Xo Yo (dw d) (dl d) g HX HY (proj1 Hbig)). cbn [bind].
    destruct rotation eqn:R; [|reflexivity].
    rewrite (check_too_big W L Xo Yo (dl d) (dw d) g HX HY (proj2 Hbig eq_refl)). reflexivity.
  - cbn [first_fit]. rewrite D by exact E. rewrite IH by exact N2. reflexivity.
Qed.

(** The item found is another one. *)
Lemma first_fit_other Xo Yo g (items : odict dims) : 0 <= Xo -> 0 <= Yo -> dget items i = Some d ->
  forall ids j it rot, first_fit W L Xo Yo rotation g items ids = Ok (Some (j, it, rot)) -> i <> j.
Proof.
  intros HX HY Hd. induction ids as [|k ids IH]; intros j it rot; cbn [first_fit]; [discriminate|].
  destruct (String.eqb_spec i k) as [<-|E].
  - unfold dget_r at 1. rewrite Hd. cbn [bind].
    rewrite (check_too_big W L Xo Yo (dw d) (dl d) g HX HY (proj1 Hbig)). cbn [bind].
    destruct rotation eqn:R; [|apply IH].
    rewrite (check_too_big W L Xo Yo (dl d) (dw d) g HX HY (proj2 Hbig eq_refl)). cbn [bind]. apply IH.
  - destruct (dget_r items k) as [itk|]; [|discriminate]. cbn [bind].
    destruct (check_fitting W L Xo Yo (dw itk) (dl itk) g) as [[]|]; [|cbn [bind]|discriminate].
    + cbn [bind]. intros [= <- _ _]. exact E.
    + destruct rotation; [|apply IH].
      destruct (check_fitting W L Xo Yo (dl itk) (dw itk) g) as [[]|]; cbn [bind]; [|apply IH|discriminate].
      intros [= <- _ _]. exact E.
Qed.

(** [t]: the same run without the item. *)
Definition without (s t : cstate ar) : Prop :=
  st_items t = ddel (st_items s) i /\ st_ids t = lremove (st_ids s) i /\ st_obj t = st_obj s /\
  st_grid t = st_grid s /\ st_sol t = st_sol s /\
  (st_ids t = [] \/ (st_pools t = st_pools s /\ st_cur t = st_cur s)).

Lemma body_without s t p s1 : inv s -> dget (st_items s) i = Some d -> in_bounds W L p -> without s t ->
  loop_body ar W L strip rotation strategy s p = Ok s1 ->
  dget (st_items s1) i = Some d /\
  ((st_ids t = [] /\ without s1 t) \/
   (exists t1, loop_body ar W L strip rotation strategy t p = Ok t1 /\ without s1 t1)).
Proof.
  intros Hs Hd [HX HY] [E1 [E2 [E3 [E4 [E5 E6]]]]] H.
  assert (Nd : NoDup (st_ids s)).
  { rewrite (i_ids _ _ _ _ _ _ _ Hs). apply (inv_nodup _ _ _ _ _ _ Hv0 _ Hs). }
  destruct p as [Xo Yo]. cbn [fst snd] in HX, HY. unfold loop_body in *.
  pose proof (first_fit_without Xo Yo (st_grid s) (st_items s) ltac:(lia) ltac:(lia) Hd (st_ids s) Nd) as F.
  destruct (first_fit W L Xo Yo rotation (st_grid s) (st_items s) (st_ids s)) as [found|] eqn:Ef; [|discriminate].
  cbn [bind] in H.
  rewrite E1, E2, E4, F. cbn [bind].
  destruct found as [[[j it] rot]|].
  - pose proof (first_fit_other Xo Yo (st_grid s) (st_items s) ltac:(lia) ltac:(lia) Hd _ _ _ _ Ef) as N.
    unfold place_item in H. cbv zeta in H.
    destruct (paint (st_grid s) Xo Yo (if rot then dl it else dw it) (if rot then dw it else dl it)) as [g'|] eqn:Eg; [|discriminate].
    cbn [bind] in H.
    destruct (generate_points ar g' W L Xo Yo (if rot then dl it else dw it) (if rot then dw it else dl it)) as [ps|] eqn:Ep; [|discriminate].
    cbn [bind st_pools st_items st_ids st_obj st_grid st_sol] in H.
    destruct (get_current_point strategy (pools_extend (st_pools s) ps)) as [cur pp] eqn:Ec.
    injection H as <-. cbn [st_items]. split; [rewrite dget_ddel_other by congruence; exact Hd|].
    right. destruct E6 as [E6|[E6 E7]].
    { rewrite <- E2, E6 in F. discriminate F. }
    unfold place_item. cbv zeta. rewrite E4, Eg. cbn [bind]. rewrite Ep. cbn [bind st_pools]. rewrite E6, Ec.
    eexists. split; [reflexivity|]. unfold without. cbn [st_items st_ids st_obj st_grid st_sol st_pools st_cur].
    rewrite E1, E2, E3, E5. split; [apply ddel_comm; exact N|]. split; [apply lremove_comm|].
    split; [reflexivity|]. split; [reflexivity|]. split; [reflexivity|]. right. split; reflexivity.
  - cbn [bind st_pools st_items st_ids st_obj st_grid st_sol] in H.
    destruct (get_current_point strategy (st_pools s)) as [cur pp] eqn:Ec. injection H as <-.
    cbn [st_items]. split; [exact Hd|]. destruct E6 as [E6|[E6 E7]].
    + left. split; [congruence|]. unfold without. cbn [st_items st_ids st_obj st_grid st_sol st_pools st_cur]. auto 10.
    + right. cbn [bind st_pools]. rewrite E6, Ec. eexists. split; [reflexivity|]. unfold without.
      cbn [st_items st_ids st_obj st_grid st_sol st_pools st_cur]. auto 10.
Qed.

Lemma loop_without : forall fuel s t s1, inv s -> dget (st_items s) i = Some d -> without s t ->
  construct_loop ar fuel W L strip rotation strategy s = Ok s1 ->
  exists t1, construct_loop ar fuel W L strip rotation strategy t = Ok t1 /\ without s1 t1.
Proof.
  induction fuel as [|n IH]; intros s t s1 Hs Hd R H; pose proof R as [E1 [E2 [E3 [E4 [E5 E6]]]]];
    cbn [construct_loop] in H |- *.
  - destruct (st_cur s) as [p|] eqn:Ec.
    2:{ injection H as <-. exists t. split; [|exact R]. destruct (st_cur t) as [q|] eqn:Eq; [|reflexivity].
        destruct E6 as [->|[_ E6]]; [reflexivity|congruence]. }
    destruct (st_ids s) as [|k ks] eqn:Ek.
    { injection H as <-. exists t. split; [|exact R]. destruct (st_cur t); [|reflexivity]. rewrite E2. reflexivity. }
    rewrite E3. destruct (ngeb ar (st_obj s) (num1 ar)); [|discriminate]. injection H as <-. exists t.
    split; [|exact R]. destruct (st_cur t); [|reflexivity]. destruct (st_ids t); reflexivity.
  - destruct (st_cur s) as [p|] eqn:Ec.
    2:{ injection H as <-. exists t. split; [|exact R]. destruct (st_cur t) as [q|] eqn:Eq; [|reflexivity].
        destruct E6 as [->|[_ E6]]; [reflexivity|congruence]. }
    destruct (st_ids s) as [|k ks] eqn:Ek.
    { injection H as <-. exists t. split; [|exact R]. destruct (st_cur t); [|reflexivity]. rewrite E2. reflexivity. }
    rewrite E3. destruct (ngeb ar (st_obj s) (num1 ar)) eqn:Eo.
    { injection H as <-. exists t. split; [|exact R]. destruct (st_cur t); [|reflexivity]. destruct (st_ids t); reflexivity. }
    pose proof (i_cur _ _ _ _ _ _ _ Hs p Ec) as Hp.
    destruct (loop_body_spec ar W L strip rotation strategy items0 Hv0 s p Hs Hp)
      as [s' [? [? [Hs' [Hi' _]]]]].
    rewrite Hs' in H. cbn [bind] in H.
    destruct (body_without s t p s' Hs Hd Hp R Hs') as [Hd' [[Et R']|[t' [Ht' R']]]].
    + destruct (IH s' t s1 Hi' Hd' R' H) as [t1 [Ht1 R1]]. exists t1. split; [|exact R1].
      assert (X : construct_loop ar n W L strip rotation strategy t = Ok t).
      { destruct n; cbn [construct_loop]; destruct (st_cur t); rewrite ?Et; reflexivity. }
      rewrite X in Ht1. injection Ht1 as <-. destruct (st_cur t); [rewrite Et|]; reflexivity.
    + destruct (IH s' t' s1 Hi' Hd' R' H) as [t1 [Ht1 R1]].
      destruct (st_ids t) as [|m ms] eqn:Em.
      * (* stops at once: its body changes nothing that counts *)
        assert (R2 : without s' t).
        { clear IH Ht1 R1. unfold without in R'.
          unfold loop_body in Ht'. destruct p as [Xo Yo]. rewrite Em in Ht'. cbn [first_fit bind] in Ht'.
          destruct (get_current_point strategy (st_pools t)) as [cur pp]. injection Ht' as <-.
          cbn [st_items st_ids st_obj st_grid st_sol st_pools st_cur] in R'. unfold without. rewrite Em in R' |- *.
          destruct R' as [A1 [A2 [A3 [A4 [A5 _]]]]]. auto 10. }
        destruct (IH s' t s1 Hi' Hd' R2 H) as [t2 [Ht2 R3]]. exists t. split; [destruct (st_cur t); reflexivity|].
        assert (X : construct_loop ar n W L strip rotation strategy t = Ok t).
        { destruct n; cbn [construct_loop]; destruct (st_cur t); rewrite ?Em; reflexivity. }
        rewrite X in Ht2. injection Ht2 as <-. exact R3.
      * destruct E6 as [E6|[E6 E7]]; [discriminate|]. rewrite E7, Ht'. cbn [bind]. exists t1. split; assumption.
Qed.

Lemma construct_without : dget items0 i = Some d ->
  forall rest v csol pp,
  construct_solution ar W L strip rotation strategy items0 = Ok (rest, v, csol, pp) ->
  dget rest i = Some d /\
  exists pp', construct_solution ar W L strip rotation strategy (ddel items0 i) = Ok (ddel rest i, v, csol, pp').
Proof.
  intros Hd rest v csol pp H. unfold construct_solution in *.
  destruct (construct_loop ar (construct_fuel items0) W L strip rotation strategy (init_state ar W L items0))
    as [s|] eqn:E; [|discriminate]. cbn [bind] in H.
  assert (R0 : without (init_state ar W L items0) (init_state ar W L (ddel items0 i))).
  { unfold without, init_state. cbn [st_items st_ids st_obj st_grid st_sol st_pools st_cur]. rewrite dkeys_ddel. auto 10. }
  destruct (loop_without _ _ _ s (inv_init ar W L strip rotation items0 HW HL) Hd R0 E) as [t [Et R]].
  assert (Hv1 : valid_items (ddel items0 i)).
  { destruct Hv0 as [N P]. split; [apply NoDup_ddel; exact N|]. intros k e Hk. apply (P k). apply ddel_incl in Hk. exact Hk. }
  destruct (construct_loop_result ar W L strip rotation strategy (ddel items0 i) HW HL Hv1) as [t' [Et' _]].
  assert (t' = t).
  { pose proof (construct_loop_fuel ar W L strip rotation strategy _ _ _ (construct_fuel items0) Et') as A.
    pose proof (construct_loop_fuel ar W L strip rotation strategy _ _ _ (construct_fuel (ddel items0 i)) Et) as B.
    rewrite Nat.add_comm in B. congruence. }
  subst t'. rewrite Et'. cbn [bind]. destruct R as [E1 [E2 [E3 [E4 [E5 _]]]]]. rewrite E1, E3, E4, E5.
  assert (Hd1 : dget (st_items s) i = Some d).
  { clear -E Hd Hv0 HW HL Hbig.
    pose proof (inv_init ar W L strip rotation items0 HW HL) as I0.
    assert (G : forall fuel s0, inv s0 -> dget (st_items s0) i = Some d ->
      construct_loop ar fuel W L strip rotation strategy s0 = Ok s -> dget (st_items s) i = Some d).
    { induction fuel as [|n IH]; intros s0 Hs Hd0 H; cbn [construct_loop] in H.
      - destruct (st_cur s0); [|injection H as <-; exact Hd0]. destruct (st_ids s0); [injection H as <-; exact Hd0|].
        destruct (ngeb ar (st_obj s0) (num1 ar)); [injection H as <-; exact Hd0|discriminate].
      - destruct (st_cur s0) as [p|] eqn:Ec; [|injection H as <-; exact Hd0]. destruct (st_ids s0); [injection H as <-; exact Hd0|].
        destruct (ngeb ar (st_obj s0) (num1 ar)); [injection H as <-; exact Hd0|].
        pose proof (i_cur _ _ _ _ _ _ _ Hs p Ec) as Hp.
        destruct (loop_body_spec ar W L strip rotation strategy items0 Hv0 s0 p Hs Hp) as [s' [? [? [Hs' [Hi' _]]]]].
        rewrite Hs' in H. cbn [bind] in H. apply (IH s' Hi'); [|exact H].
        assert (R : without s0 (mkState (ddel (st_items s0) i) (lremove (st_ids s0) i) (st_obj s0) (st_grid s0)
                      (st_pools s0) (st_cur s0) (st_sol s0) (st_pending s0))).
        { unfold without. cbn [st_items st_ids st_obj st_grid st_sol st_pools st_cur]. auto 10. }
        exact (proj1 (body_without _ _ _ _ Hs Hd0 Hp R Hs')). }
    exact (G _ _ I0 Hd E). }
  match type of H with bind ?o _ = _ => destruct o as [obj|]; [|discriminate] end. cbn [bind] in H.
  injection H as <- <- <- <-. split; [exact Hd1|]. exists (st_pending t). reflexivity.
Qed.
End Loop.

(** ** The whole of [solve] *)
Section Solve.
Context (ar : arith) (pb : problem).

Lemma solve_step_without i d c items sol objs cid rest sol' objs' :
  valid_items items -> dget items i = Some d -> room_ok pb c ->
  too_big (dw c) (container_length pb c) (pb_rotation pb) d ->
  (pb_strip pb = true -> ddel items i <> []) ->
  solve_step ar pb (items, sol, objs) (cid, c) = Ok (rest, sol', objs') ->
  dget rest i = Some d /\
  solve_step ar pb (ddel items i, sol, objs) (cid, c) = Ok (ddel rest i, sol', objs').
Proof.
  intros Hv Hd [HW HL] Hb Hst H. unfold solve_step in *.
  destruct items as [|kv t] eqn:Ei; [discriminate|]. rewrite <- Ei in *. clear Ei kv t.
  destruct (construct_solution ar (dw c) (container_length pb c) (pb_strip pb) (pb_rotation pb) (pb_strategy pb) items)
    as [[[[r v] csol] pp]|] eqn:E; [|discriminate]. cbn [bind] in H. injection H as <- <- <-.
  destruct (construct_without ar _ _ _ _ _ items HW HL Hv i d Hb Hd _ _ _ _ E) as [Hr [pp' E']].
  split; [exact Hr|]. destruct (ddel items i) as [|kv t] eqn:Ed.
  - destruct (pb_strip pb) eqn:Es; [exfalso; exact (Hst eq_refl eq_refl)|].
    unfold construct_solution in E'. cbn [construct_fuel fold_right construct_loop init_state st_cur st_ids dkeys map bind
      st_items st_obj st_sol st_pending] in E'.
    injection E' as E1 E2 E3 _. rewrite <- E1, <- E2, <- E3. reflexivity.
  - rewrite E'. reflexivity.
Qed.

Lemma rfold_without i d cs : forall items sol objs rest sol' objs',
  valid_items items -> dget items i = Some d ->
  (forall cid c, In (cid, c) cs -> room_ok pb c /\ too_big (dw c) (container_length pb c) (pb_rotation pb) d) ->
  (pb_strip pb = true -> cs = [] \/ (length cs = 1%nat /\ ddel items i <> [])) ->
  rfold (solve_step ar pb) cs (items, sol, objs) = Ok (rest, sol', objs') ->
  rfold (solve_step ar pb) cs (ddel items i, sol, objs) = Ok (ddel rest i, sol', objs').
Proof.
  induction cs as [|[cid c] cs IH]; intros items sol objs rest sol' objs' Hv Hd Hc Hst H.
  - injection H as <- <- <-. reflexivity.
  - cbn [rfold] in *. destruct (solve_step ar pb (items, sol, objs) (cid, c)) as [[[mid s1] o1]|] eqn:E; [|discriminate].
    cbn [bind] in H. destruct (Hc cid c (or_introl eq_refl)) as [Hr Hb].
    destruct (solve_step_without i d c items sol objs cid mid s1 o1 Hv Hd Hr Hb) as [Hm E']; [|exact E|].
    { intros Es. destruct (Hst Es) as [C|[_ C]]; [discriminate|exact C]. }
    rewrite E'. cbn [bind]. apply IH.
    + unfold solve_step in E. destruct items as [|kv t] eqn:Ei; [discriminate|]. rewrite <- Ei in *.
      destruct Hr as [HW HL].
      destruct (construct_solution_spec ar (dw c) (container_length pb c) (pb_strip pb) (pb_rotation pb) (pb_strategy pb)
                  items HW HL Hv) as [s [Es [K1 [K2 K3]]]].
      rewrite Es in E. cbn [bind] in E. injection E as <- _ _.
      eapply built_valid; [exact Hv|]. eapply (built_run ar pb c items); eauto. congruence.
    + exact Hm.
    + intros k e Hk. apply (Hc k e). right. exact Hk.
    + intros Es. destruct (Hst Es) as [C|[C _]]; [discriminate|]. left. destruct cs; [reflexivity|discriminate].
    + exact H.
Qed.

Lemma dset_ddel {A} (d : odict A) i j v : i <> j -> dset (ddel d i) j v = ddel (dset d j v) i.
Proof.
  intros N. induction d as [|[k u] t IH]; simpl.
  - destruct (String.eqb_spec i j); [congruence|reflexivity].
  - destruct (String.eqb_spec i k) as [->|H]; destruct (String.eqb_spec j k) as [->|H']; simpl; try congruence.
    + rewrite String.eqb_refl. reflexivity.
    + rewrite String.eqb_refl. destruct (String.eqb_spec i k); [congruence|reflexivity].
    + destruct (String.eqb_spec j k); [congruence|]. destruct (String.eqb_spec i k); [congruence|]. rewrite IH. reflexivity.
Qed.

Lemma ddel_dset_same {A} (d : odict A) i v : NoDup (dkeys d) -> ddel (dset d i v) i = ddel d i.
Proof.
  induction d as [|[k u] t IH]; simpl; intros N.
  - rewrite String.eqb_refl. reflexivity.
  - inversion N; subst. destruct (String.eqb_spec i k) as [->|H]; simpl.
    + rewrite String.eqb_refl. reflexivity.
    + destruct (String.eqb_spec i k); [congruence|]. rewrite IH by assumption. reflexivity.
Qed.

Lemma deepcopy_without (items : odict dims) i ids : forall acc r, NoDup (dkeys acc) ->
  rfold (fun d i => bind (dget_r items i) (fun it => Ok (dset d i it))) ids acc = Ok r ->
  rfold (fun d i => bind (dget_r items i) (fun it => Ok (dset d i it))) (remove string_dec i ids) (ddel acc i) = Ok (ddel r i).
Proof.
  induction ids as [|j ids IH]; intros acc r N H; cbn [rfold remove] in *.
  - injection H as <-. reflexivity.
  - destruct (dget_r items j) as [v|] eqn:E; [|discriminate]. cbn [bind] in H.
    destruct (string_dec i j) as [<-|Hne].
    + rewrite <- (ddel_dset_same acc i v N). apply IH; [apply NoDup_dset; exact N|exact H].
    + cbn [rfold]. rewrite E. cbn [bind]. rewrite dset_ddel by exact Hne. apply IH; [apply NoDup_dset; exact N|exact H].
Qed.

(** What the first containers hold, whatever comes after. *)
Lemma run_valid cs items rest sol objs : solve_run ar pb cs items rest sol objs -> valid_items items -> valid_items rest.
Proof. induction 1 as [|cid c cs items mid rest csol obj sol objs Hb Hr IH]; intros Hv; [exact Hv|]. apply IH. eapply built_valid; eassumption. Qed.

Lemma rfold_more cs more items rest sol objs : valid_items items -> valid_items (cs ++ more) ->
  (forall cid c, In (cid, c) (cs ++ more) -> room_ok pb c) ->
  rfold (solve_step ar pb) (cs ++ more) (items, [], []) = Ok (rest, sol, objs) ->
  exists mid sol1 objs1 sol2 objs2,
    rfold (solve_step ar pb) cs (items, [], []) = Ok (mid, sol1, objs1) /\ sol = sol1 ++ sol2 /\ objs = objs1 ++ objs2 /\
    dkeys sol2 = dkeys more /\ dkeys objs2 = dkeys more /\ dkeys sol1 = dkeys cs /\ dkeys objs1 = dkeys cs.
Proof.
  intros Hv [Hn _] Hr H. unfold dkeys in Hn. rewrite map_app in Hn. apply NoDup_app_iff in Hn. destruct Hn as [N1 [N2 N3]].
  destruct (rfold_solve ar pb cs items [] [] Hv) as [mid [sol1 [objs1 [R1 E1]]]]; [|exact N1|auto|].
  { intros k c Hk. apply (Hr k). apply in_or_app. left. exact Hk. }
  cbn [app] in E1. rewrite rfold_app in H.
  match type of H with bind ?r ?k = _ => assert (X : bind r k = k (mid, sol1, objs1)) by (replace r with (@Ok (odict dims * solution * objvals ar) (mid, sol1, objs1)) by (symmetry; exact E1); reflexivity) end.
  rewrite X in H. clear X.
  destruct (run_keys _ _ _ _ _ _ _ R1) as [K1 K2].
  destruct (rfold_solve ar pb more mid sol1 objs1 (run_valid _ _ _ _ _ R1 Hv)) as [r2 [sol2 [objs2 [R2 E2]]]]; [|exact N2| |].
  { intros k c Hk. apply (Hr k). apply in_or_app. right. exact Hk. }
  { intros k Hk. split; apply dget_None; rewrite ?K1, ?K2; intros C; exact (N3 k C Hk). }
  pose proof (eq_trans (eq_sym H) E2) as X. injection X as -> -> ->. clear H. destruct (run_keys _ _ _ _ _ _ _ R2) as [K3 K4].
  exists mid, sol1, objs1, sol2, objs2. auto 10.
Qed.
End Solve.
