(** * What a hypersearch on bins reaches: the best of the initial construction and of one local
    search per strategy, with one process or several. *)
From Coq Require Import ZArith String List Bool QArith Lia Permutation.
From Verif Require Import Py ProofsPy Arith Construct Spec ProofsSolve ProofsSolution ProofsValues LocalSearch SpecSearch ItemsManip HyperSearch
  ProofsHyper MultiProcess ProofsLoose ProofsMulti PropertiesSearch PropertiesHyper PropertiesMulti ProofsAgain.
Import ListNotations.
Open Scope Z_scope.

Section Best.
Context {ar : arith} (ord : orderly ar).

(** The value a local search with strategy [g] reaches when it is never stopped by the clock. *)
Definition reaches (x : inst ar) (throttle : bool) (g : list pclass) (v : num ar) : Prop :=
  exists y clk log, local_search ar (fun _ => 0) 1 throttle (Some 0) (set_strategy x g) 0 = Ok (y, clk, log) /\
    calculate_obj_value ar y = Ok v.
(** The value of the construction with the default strategy. *)
Definition inits (x : inst ar) (v : num ar) : Prop :=
  exists sol objs, solve ar (pb_with_strategy (in_pb x) default_strategy) None = Ok (sol, objs) /\ obj_value ar (in_cnum x) (dvals objs) = Ok v.
Definition best_of (x : inst ar) (throttle : bool) (strategies : list (list pclass)) (v : num ar) : Prop :=
  (inits x v \/ exists g, In g strategies /\ reaches x throttle g v) /\
  (forall w, inits x w -> at_most ar w v) /\
  (forall g w, In g strategies -> reaches x throttle g w -> at_most ar w v).

Lemma reaches_one x throttle g v w : reaches x throttle g v -> reaches x throttle g w -> v = w.
Proof. intros [y [c [l [E1 E2]]]] [y' [c' [l' [F1 F2]]]]. congruence. Qed.

Lemma best_of_unique x throttle strategies v w : best_of x throttle strategies v -> best_of x throttle strategies w ->
  at_most ar v w /\ at_most ar w v.
Proof.
  intros [A1 [A2 A3]] [B1 [B2 B3]]. split.
  - destruct A1 as [A1|[g [A1 A1']]]; [apply B2; exact A1|eapply B3; eassumption].
  - destruct B1 as [B1|[g [B1 B1']]]; [apply A2; exact B1|eapply A3; eassumption].
Qed.

Lemma same_late ck start limit c : (forall n, ck n - start < limit) ->
  same_answers (out_of_time ck start limit) (out_of_time (fun _ => 0) 0 1) c 0.
Proof.
  intros H n. unfold out_of_time. specialize (H (c + n)%nat).
  destruct (Z.geb_spec (ck (c + n)%nat - start) limit), (Z.geb_spec (0 - 0) 1); lia || reflexivity.
Qed.

(** Any local search that is never late. *)
Lemma any_reaches x z ck start limit throttle clk z' clk' log fuel g v : valid_inst ar z -> like z (set_strategy x g) ->
  (forall n, ck n - start < limit) ->
  local_search_fuel ar fuel ck limit throttle (Some start) z clk = Ok (z', clk', log) -> calculate_obj_value ar z' = Ok v ->
  reaches x throttle g v.
Proof.
  intros Hv L Hl E Ev. destruct ord as [laws _].
  destruct (search_step ar laws z Hv ck limit throttle (Some start) clk) as [x1 [clk1 [lg [_ [_ [E' _]]]]]].
  pose proof (local_search_fuels _ _ _ _ _ _ _ _ _ _ _ E E') as Eq. injection Eq as -> -> ->.
  pose proof (local_search_again ck (fun _ => 0) limit 1 throttle (Some start) (Some 0) z (set_strategy x g) clk 0 L) as A.
  cbn [begun fst snd] in A. specialize (A (same_late ck start limit clk Hl)). rewrite E' in A.
  destruct (local_search ar (fun _ => 0) 1 throttle (Some 0) (set_strategy x g) 0) as [[[y c] l]|] eqn:Er; [|contradiction].
  cbn [agree fst snd] in A. exists y, c, l. split; [exact Er|]. rewrite <- Ev. symmetry. apply value_alike. apply A.
Qed.

Lemma valid_strategy (x : inst ar) g : valid_inst ar x -> valid_inst ar (set_strategy x g).
Proof. intros H. exact H. Qed.

Lemma value_nonneg pb sq sol objs n v : valid_problem pb -> known_sequence pb sq -> solve ar pb sq = Ok (sol, objs) ->
  obj_value ar n (dvals objs) = Ok v -> nonneg ar v.
Proof.
  intros Hv Hk Hs Ev. destruct ord as [_ V]. eapply (obj_value_nonneg ar V); [|exact Ev]. intros q Hq. unfold dvals in Hq. apply in_map_iff in Hq.
  destruct Hq as [[cid oo] [<- Hq]]. eapply (objs_nonneg ar V); eassumption.
Qed.

Lemma reaches_made (x : inst ar) throttle g v : valid_inst ar x -> pb_strip (in_pb x) = false -> reaches x throttle g v ->
  exists sq sol objs, known_sequence (pb_with_strategy (in_pb x) g) (Some sq) /\
    solve ar (pb_with_strategy (in_pb x) g) (Some sq) = Ok (sol, objs) /\ obj_value ar (in_cnum x) (dvals objs) = Ok v.
Proof.
  intros Hv Es [y [clk [log [E Ev]]]]. destruct ord as [laws _].
  destruct (C15_genuine_construction ar laws _ (valid_strategy x g Hv) _ _ _ _ _ _ _ _ E) as [sq [h [sol [P [S [_ Hh]]]]]].
  destruct (C15_configuration_kept ar laws _ (valid_strategy x g Hv) _ _ _ _ _ _ _ _ E) as [_ [_ [_ [_ [_ [_ [K _]]]]]]].
  cbn [in_pb set_strategy] in *. change (pb_strip (pb_with_strategy (in_pb x) g)) with (pb_strip (in_pb x)) in Hh. rewrite Es in Hh.
  exists sq, sol, (in_objs y). split; [intros k Hk; eapply Permutation_in; [exact P|exact Hk]|].
  split; [rewrite <- S; subst h; destruct (in_pb x); reflexivity|]. unfold calculate_obj_value in Ev.
  change (in_cnum (set_strategy x g)) with (in_cnum x) in K. rewrite <- K. exact Ev.
Qed.

Lemma reaches_nonneg (x : inst ar) throttle g v : valid_inst ar x -> pb_strip (in_pb x) = false -> reaches x throttle g v -> nonneg ar v.
Proof.
  intros Hv Es H. destruct (reaches_made _ _ _ _ Hv Es H) as [sq [sol [objs [Hk [Hs Ev]]]]].
  eapply value_nonneg; [|exact Hk|exact Hs|exact Ev]. exact (proj1 (valid_strategy x g Hv)).
Qed.

Lemma not_greater v w : nonneg ar v -> nonneg ar w -> ngtb ar w v = false -> at_most ar w v.
Proof.
  intros N1 N2 H. destruct ord as [_ V]. unfold nonneg in *. pose proof (vl_num ar V _ _ N1) as [_ R1]. pose proof (vl_num ar V _ _ N2) as [_ R2].
  rewrite (vl_total ar V w v R2 R1) in H. unfold at_most. destruct (ngeb ar v w); [reflexivity|discriminate H].
Qed.

(** No value met counts as infinite. *)
Definition never_infinite (x : inst ar) (throttle : bool) : Prop :=
  forall g w, reaches x throttle g w -> nge_inf ar w = false.

(** ** One process *)
Lemma one_best (x : inst ar) ck limit throttle orientation sorting strategies clk r :
  valid_inst ar x -> pb_strip (in_pb x) = false -> pb_strategy (in_pb x) = default_strategy ->
  (forall n, ck n - ck clk < limit) ->
  hypersearch ar ck limit throttle orientation sorting strategies x clk = Ok r ->
  exists x2, prepared ar orientation sorting x x2 /\
    (never_infinite x2 throttle -> exists v, calculate_obj_value ar (hr_inst r) = Ok v /\ best_of x2 throttle strategies v).
Proof.
  intros Hv Es Eg Hl H. pose proof ord as [laws V].
  destruct (C24_best_value_returned ar laws x Hv _ _ _ _ _ _ _ _ H) as [x2 [sol0 [objs0 [v0 [v [Hp [S0 [V0 [Ev [G1 [G2 [G3 [_ G4]]]]]]]]]]]]].
  destruct (C25_partial ar laws x Hv _ _ _ _ _ _ _ _ H) as [rest [Er Hr]].
  exists x2. split; [exact Hp|]. intros Hinf.
  destruct (prepared_kept _ _ _ _ _ Hp) as [K1 [K2 [K3 [K4 [K5 [K6 K7]]]]]].
  assert (Hv2 : valid_inst ar x2).
  { destruct (hypersearch_run ar laws x Hv _ _ _ _ _ _ _ _ H) as [x2' [Hp' [Hv2 _]]].
    destruct Hp as [a [A1 ->]], Hp' as [b [B1 ->]]. rewrite A1 in B1. injection B1 as <-. exact Hv2. }
  assert (Es2 : pb_strip (in_pb x2) = false) by congruence.
  assert (Hre : forall g w, In (g, w) (hr_log r) -> reaches x2 throttle g w).
  { intros g w Hin. destruct (G3 g w Hin) as [z [c [z' [c' [lg [Z1 [Z2 [Z3 [Z4 [Z5 Z6]]]]]]]]]]. rewrite Es2 in Z2.
    eapply (any_reaches x2 z); [| |exact Hl|exact Z5|exact Z6].
    - assert (E0 : in_pb z = in_pb (set_strategy x2 g)) by (rewrite Z1, Z2; cbn [in_pb set_strategy]; destruct (in_pb x2); reflexivity).
      unfold valid_inst in *. rewrite E0, Z3. exact (valid_strategy x2 g Hv2).
    - split; [|split; [intros _; exact Z3|exact Z4]]. rewrite Z1. unfold like_pb. cbn. rewrite Es2.
      repeat (split; [reflexivity|]). discriminate. }
  assert (Hi : inits x2 v0).
  { exists sol0, objs0. split; [|exact V0]. rewrite <- S0. f_equal. rewrite <- Eg, <- K7. destruct (in_pb x2); reflexivity. }
  assert (N0 : nonneg ar v0) by (eapply (value_nonneg (in_pb x2) None); [apply Hv2|exact Logic.I|exact S0|exact V0]).
  assert (Nlog : forall g w, In (g, w) (hr_log r) -> nonneg ar w) by (intros g w Hin; eapply reaches_nonneg; [exact Hv2|exact Es2|apply Hre; exact Hin]).
  assert (Nv : nonneg ar v) by (destruct G4 as [[-> _]|G4]; [exact N0|eapply Nlog; exact G4]).
  assert (Hall : map fst (hr_log r) = strategies).
  { destruct Hr as [->|[pre [g [w [El [Hw|[n [Hn _]]]]]]]].
    - rewrite Er, app_nil_r. reflexivity.
    - assert (Hin : In (g, w) (hr_log r)) by (rewrite El; apply in_or_app; right; left; reflexivity).
      rewrite (Hinf g w (Hre g w Hin)) in Hw. discriminate.
    - specialize (Hl n). lia. }
  exists v. split; [exact Ev|]. split; [|split].
  - destruct G4 as [[-> _]|G4]; [left; exact Hi|]. right. exists (hr_best_strategy r). split; [|apply Hre; exact G4].
    rewrite <- Hall. apply (in_map fst _ _ G4).
  - intros w [sol [objs [W1 W2]]]. destruct Hi as [sol' [objs' [W3 W4]]]. rewrite W1 in W3. injection W3 as <- <-. rewrite W2 in W4. injection W4 as <-.
    destruct G1 as [G1|G1]; [rewrite <- G1; eapply (vl_num ar V); exact Nv|apply (vl_below ar V); exact G1].
  - intros g w Hin Hw. rewrite <- Hall in Hin. apply in_map_iff in Hin. destruct Hin as [[g' w'] [Eg' Hin]]. cbn [fst] in Eg'. subst g'.
    rewrite (reaches_one _ _ _ _ _ Hw (Hre g w' Hin)). apply not_greater; [exact Nv|eapply Nlog; exact Hin|eapply G2; exact Hin].
Qed.

(** ** Several processes *)
Lemma several_best (x : inst ar) strategies workers_num u :
  valid_inst ar x -> counted ar x -> pb_strip (in_pb x) = false -> strategies <> [] -> (0 < workers_num)%Q -> runs x strategies workers_num u ->
  none_forced u -> (forall i n, su_clock u i n - su_start u < su_limit u) ->
  never_infinite (su_parent u) (su_throttle u) ->
  forall t sol objs g, reachable u nobody nobody t -> s_parent t = PReturned sol objs g ->
  exists v, calculate_obj_value ar (problem_now u t) = Ok v /\ best_of (su_parent u) (su_throttle u) strategies v.
Proof.
  intros Hv Hc Es Hne Hn Hr Hnf Hl Hinf t sol objs bs R Ht. pose proof ord as [laws V].
  destruct (runs_facts x Hv _ _ Hn u Hr) as [[o1 [sb Hp]] [Hvp [F [_ _]]]].
  destruct (prepared_kept _ _ _ _ _ Hp) as [K1 [K2 [K3 [K4 [K5 [K6 K7]]]]]].
  assert (Hcp : counted ar (su_parent u)) by (unfold counted in *; congruence).
  assert (Esp : pb_strip (in_pb (su_parent u)) = false) by congruence.
  destruct (C27_workers_problem ar ord x Hv _ _ u Hne Hn Hr) as [W1 [W2 [W3 [W4 [W5 [W6 [_ W8]]]]]]].
  assert (Hvc : valid_inst ar (su_child u)) by (apply W8; rewrite Es; discriminate).
  assert (Lc : forall g, like (set_strategy (su_child u) g) (set_strategy (su_parent u) g)).
  { intros g. split; [|split; [intros _; exact (ch_min _ _ F)|exact (ch_same_cnum _ _ F Hcp)]].
    unfold like_pb. cbn. split; [rewrite W6 by exact Es; congruence|]. split; [exact W1|]. split; [congruence|]. split; [reflexivity|].
    split; [congruence|]. rewrite W4, Es. discriminate. }
  assert (Hre : forall i g w, worker_value u i g w -> reaches (su_parent u) (su_throttle u) g w).
  { intros i g w [z [clk [z' [clk' [Z1 [Z2 [Z3 [Z4 [[fuel [log Z5]] Z6]]]]]]]]]. rewrite W4, Es in Z4.
    assert (E0 : in_pb z = in_pb (set_strategy (su_child u) g)) by (rewrite Z1, Z4; cbn [in_pb set_strategy]; destruct (in_pb (su_child u)); reflexivity).
    eapply (any_reaches (su_parent u) z); [| |exact (Hl i)|exact Z5|exact Z6].
    - unfold valid_inst in *. rewrite E0, Z2. exact (valid_strategy (su_child u) g Hvc).
    - pose proof (Lc g) as [L1 [L2 L3]]. split; [rewrite E0; exact L1|]. split; [intros _; rewrite Z2; exact (ch_min _ _ F)|rewrite Z3; exact L3]. }
  assert (Hini : forall w, initial_value u w <-> inits (su_parent u) w).
  { intros w. unfold initial_value, inits. rewrite (ch_same_cnum _ _ F Hcp).
    replace (solve ar (pb_with_strategy (in_pb (su_parent u)) default_strategy) None) with (solve ar (in_pb (su_child u)) None); [reflexivity|].
    apply solve_like. destruct (Lc default_strategy) as [L1 _]. cbn [in_pb set_strategy] in L1. rewrite <- W3 in L1 at 1.
    replace (in_pb (su_child u)) with (pb_with_strategy (in_pb (su_child u)) (pb_strategy (in_pb (su_child u)))) by (destruct (in_pb (su_child u)); reflexivity). exact L1. }
  destruct (C27_winner_is_best ar ord x Hv Hc _ _ u Hne Hn Hr nobody nobody t sol objs bs R Ht)
    as [v [v0 [Ev [Hi [G0 [_ [_ [j [oj [Hj [Hq [Hf [Eo [_ [_ [_ Gw]]]]]]]]]]]]]]]].
  destruct (C27_logs ar ord x Hv _ _ u Hne Hn Hr) as [chunks [Hch [Hnw Hlogs]]]. specialize (Hlogs nobody nobody t R).
  assert (Hlogr : forall i g w, (i < workers u)%nat -> In (g, w) (s_log t i) -> reaches (su_parent u) (su_throttle u) g w).
  { intros i g w Hi' Hin. destruct (Hlogs i Hi') as [_ [B _]]. eapply Hre. apply B. exact Hin. }
  assert (Hlogs' : forall i g w, (i < workers u)%nat -> In (g, w) (s_log t i) -> In g strategies).
  { intros i g w Hi' Hin. destruct (Hlogs i Hi') as [[rest B] _].
    rewrite <- (chunks_concat strategies workers_num chunks Hn Hch). apply in_concat. exists (nth i chunks []).
    split; [apply nth_In; rewrite <- Hnw; exact Hi'|]. rewrite B. apply in_or_app. left. apply (in_map fst _ _ Hin). }
  destruct (C27_all_strategies_searched ar ord x Hv Hc _ _ u Hne Hn Hr Hnf) with (s := t) (sol := sol) (objs := objs) (best_strategy := bs)
    as [v' [Ev' [Hall Hmax]]]; [intros i n; specialize (Hl i n); lia| |exact R|exact Ht|].
  { intros i g w Hw. apply (Hinf g w). eapply Hre. exact Hw. }
  rewrite Ev in Ev'. injection Ev' as <-. cbv zeta in Hall, Hmax.
  exists v. split; [exact Ev|]. split; [|split].
  - destruct bs as [g|].
    + destruct Gw as [_ Gw]. right. exists g. split; [eapply Hlogs'; eassumption|eapply Hlogr; eassumption].
    + destruct Gw as [-> _]. left. apply Hini. exact Hi.
  - intros w Hw. apply Hini in Hw. destruct Hw as [s1 [o1' [A1 A2]]]. destruct Hi as [s2 [o2 [B1 B2]]]. rewrite A1 in B1. injection B1 as <- <-.
    rewrite A2 in B2. injection B2 as <-. exact G0.
  - intros g w Hin Hw. rewrite <- Hall in Hin. apply in_map_iff in Hin. destruct Hin as [[g' w'] [Eg' Hin]]. cbn [fst] in Eg'. subst g'.
    assert (Hr' : reaches (su_parent u) (su_throttle u) g w').
    { apply in_concat in Hin. destruct Hin as [l [Hl' Hin]]. apply in_map_iff in Hl'. destruct Hl' as [i [<- Hi']]. apply in_seq in Hi'.
      eapply (Hlogr i); [lia|exact Hin]. }
    rewrite (reaches_one _ _ _ _ _ Hw Hr'). eapply Hmax. exact Hin.
Qed.

(** ** The best depends only on the problem. *)
Lemma reaches_like (x y : inst ar) throttle g v : valid_inst ar x -> like (set_strategy x g) (set_strategy y g) -> reaches x throttle g v -> reaches y throttle g v.
Proof.
  intros Hv L [z [c [l [E Ev]]]]. eapply (any_reaches y (set_strategy x g)); [exact (valid_strategy x g Hv)|exact L| |exact E|exact Ev].
  intros n. reflexivity.
Qed.

Lemma best_of_like (x y : inst ar) throttle l l' v : valid_inst ar x -> valid_inst ar y -> (forall g, like (set_strategy x g) (set_strategy y g)) ->
  (forall g, like (set_strategy y g) (set_strategy x g)) ->
  (forall g, In g l <-> In g l') -> best_of x throttle l v -> best_of y throttle l' v.
Proof.
  intros Hx Hy L L' P [A1 [A2 A3]].
  assert (Hi : forall w, inits x w <-> inits y w).
  { intros w. unfold inits. destruct (L default_strategy) as [L1 [_ L3]]. cbn [in_pb set_strategy in_cnum] in L1, L3.
    rewrite (solve_like _ _ None L1), L3. reflexivity. }
  split; [|split].
  - destruct A1 as [A1|[g [A1 A1']]]; [left; apply Hi; exact A1|]. right. exists g. split; [apply P; exact A1|eapply reaches_like; [exact Hx|apply L|exact A1']].
  - intros w Hw. apply A2. apply Hi. exact Hw.
  - intros g w Hg Hw. apply (A3 g); [apply P; exact Hg|]. eapply reaches_like; [exact Hy|apply L'|exact Hw].
Qed.

Lemma prepared_like orientation sorting (x y x2 y2 : inst ar) : (forall g, like (set_strategy x g) (set_strategy y g)) ->
  prepared ar orientation sorting x x2 -> prepared ar orientation sorting y y2 -> forall g, like (set_strategy x2 g) (set_strategy y2 g).
Proof.
  intros L [a [A1 ->]] [b [B1 ->]] g.
  assert (Hs : forall z z1, sort_items ar sorting z = Ok z1 -> sort_items ar sorting (set_strategy z g) = Ok (set_strategy z1 g)).
  { intros z z1 E. unfold sort_items in *. destruct sorting as [[by_ rv]|]; [|injection E as <-; reflexivity].
    destruct (key_lt ar by_); [|discriminate]. injection E as <-. reflexivity. }
  assert (Ho : forall z, orient_items ar orientation (set_strategy z g) = set_strategy (orient_items ar orientation z) g).
  { intros z. assert (G : forall f t, orient_all ar f t (set_strategy z g) = set_strategy (orient_all ar f t z) g)
      by (intros f t; unfold orient_all; cbn [in_pb set_strategy pb_items pb_with_strategy]; destruct (existsb _ _); reflexivity).
    unfold orient_items. destruct orientation as [o1|]; [|reflexivity]. cbn [in_pb set_strategy pb_rotation pb_with_strategy].
    destruct (negb _); [reflexivity|]. destruct (String.eqb o1 "wide"); [apply G|]. destruct (String.eqb o1 "long"); [apply G|reflexivity]. }
  pose proof (sort_agree sorting _ _ (L g)) as A. rewrite (Hs _ _ A1), (Hs _ _ B1) in A. cbn [agree] in A.
  rewrite <- !Ho. apply orient_like. exact A.
Qed.
End Best.
