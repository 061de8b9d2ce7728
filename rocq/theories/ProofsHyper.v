(** * Runs of hypersearch in one process. *)
From Coq Require Import ZArith String List Bool Lia Permutation Sorted.
From Coq Require Import ZifyBool ZifyNat.
From Verif Require Import Py Arith Construct Spec Runs LocalSearch SpecSearch Perms ItemsManip
  HyperSearch ProofsPy ProofsConstruct ProofsSolve ProofsPacking ProofsSolution ProofsValues
  ProofsLocalSearch ProofsSearchRun PropertiesSolve PropertiesSearch PropertiesItems.
Import ListNotations.
Open Scope Z_scope.

(** ** Sorting and orienting keep an instance valid *)
Lemma valid_items_perm a b : Permutation a b -> valid_items b -> valid_items a.
Proof.
  intros Hp [Hn Hd]. split.
  - unfold dkeys in *. eapply Permutation_NoDup; [|exact Hn]. apply Permutation_map. symmetry. assumption.
  - intros i d Hi. apply (Hd i). eapply Permutation_in; eassumption.
Qed.

Lemma set_items_valid ar (x : inst ar) items :
  valid_inst ar x -> valid_items items -> items <> [] -> valid_inst ar (set_items x items).
Proof.
  intros [[H1 [H2 [H3 [H4 H5]]]] H7] Hi Hne. split; [|assumption].
  split; [exact Hi|]. split; [exact H2|]. split; [exact Hne|]. split; [exact H4|exact H5].
Qed.

Lemma sort_items_valid ar (x y : inst ar) sorting :
  valid_inst ar x -> sort_items ar sorting x = Ok y -> valid_inst ar y.
Proof.
  intros Hv H. destruct sorting as [[by_ reverse]|]; [|injection H as <-; assumption].
  unfold sort_items in H. destruct (key_lt ar by_) as [lt|]; [|discriminate]. injection H as <-.
  assert (Hp : Permutation (py_sort_rev (elem_lt lt) reverse (pb_items (in_pb x))) (pb_items (in_pb x)))
    by (unfold py_sort_rev; destruct reverse; apply py_sort_perm).
  apply set_items_valid; [assumption| |].
  - eapply valid_items_perm; [exact Hp|]. apply Hv.
  - intros C. rewrite C in Hp. apply Permutation_nil in Hp. apply Hv in Hp. assumption.
Qed.

Lemma orient_items_valid ar (x : inst ar) o : valid_inst ar x -> valid_inst ar (orient_items ar o x).
Proof.
  intros Hv.
  assert (G : forall f turn, (forall d, pos_dims d -> pos_dims (f d)) -> valid_inst ar (orient_all ar f turn x)).
  { intros f turn Hf. unfold orient_all. destruct (existsb _ _); [|assumption].
    destruct Hv as [[[Hn Hd] [H2 [H3 H4]]] H5] eqn:E. clear E. apply set_items_valid; [assumption| |].
    - split.
      + unfold dkeys. rewrite map_map. exact Hn.
      + intros i d Hi. apply in_map_iff in Hi. destruct Hi as [[k d0] [[= <- <-] Hi]]. apply Hf.
        apply (Hd k). assumption.
    - intros C. apply map_eq_nil in C. contradiction. }
  unfold orient_items. destruct o as [o|]; [|assumption]. destruct (negb _); [assumption|].
  destruct (String.eqb o "wide").
  { apply G. intros d [A B]. unfold orient_wide. destruct (dl d >? dw d); split; assumption. }
  destruct (String.eqb o "long"); [|assumption].
  apply G. intros d [A B]. unfold orient_long. destruct (dl d <? dw d); split; assumption.
Qed.

(** ** One local search inside hypersearch *)

(** [ret] is a copy of the output of [solve] on the problem [pb] for some permutation of the
    items, at height [h]. *)
Definition made_by {ar} (pb : problem) (h : Z) (ret : solution * objvals ar) : Prop :=
  exists seq sol, Permutation seq (dkeys (pb_items pb)) /\
    solve ar (pb_with_height pb h) (Some seq) = Ok (sol, snd ret) /\
    same_placements sol (fst ret).

Lemma same_placements_trans a b c : same_placements a b -> same_placements b c -> same_placements a c.
Proof.
  intros [H1 [H2 _]] [H3 [H4 H5]]. split; [congruence|]. split; [|exact H5]. intros cid ca cc Ha Hc i.
  assert (Hin : In cid (dkeys b)) by (rewrite <- H1; apply dget_Some_In; eauto).
  apply dget_Some_In in Hin. destruct Hin as [cb Hb].
  rewrite (H2 cid ca cb Ha Hb i). apply (H4 cid cb cc Hb Hc i).
Qed.

Section Step.
Context (ar : arith) (laws : arith_laws ar) (y : inst ar) (Hv : valid_inst ar y).
Context (ck : clock) (limit : Z) (throttle : bool) (start : option Z) (clk : nat).

Lemma search_step :
  exists x1 clk1 log v sol',
    local_search ar ck limit throttle start y clk = Ok (x1, clk1, log) /\
    valid_inst ar x1 /\ same_config ar y x1 /\
    (if pb_strip (in_pb y) then 1 <= pb_height (in_pb x1) <= pb_height (in_pb y)
     else pb_height (in_pb x1) = pb_height (in_pb y)) /\
    calculate_obj_value ar x1 = Ok v /\
    get_solution ar x1 = Ok (sol', in_objs x1) /\ same_placements (in_sol x1) sol' /\
    exists h, (if pb_strip (in_pb y) then 1 <= h <= pb_height (in_pb y) else h = pb_height (in_pb y)) /\
      made_by (in_pb y) h (sol', in_objs x1).
Proof.
  destruct (C16_terminates ar laws y Hv ck limit throttle start clk) as [x1 [clk1 [log [H _]]]].
  destruct (C14_never_worse_than_initial ar laws y Hv _ _ _ _ _ _ _ _ H) as [_ [_ [_ [v [_ [_ [Hval _]]]]]]].
  destruct (C15_genuine_construction ar laws y Hv _ _ _ _ _ _ _ _ H) as [seq [h [sol [G1 [G2 [G3 G4]]]]]].
  destruct (C15_placements ar laws y Hv _ _ _ _ _ _ _ _ H) as [Hkeys Hpl].
  destruct (C15_configuration_kept ar laws y Hv _ _ _ _ _ _ _ _ H) as [K1 [K2 [K3 [K4 [K5 [K6 [K7 K8]]]]]]].
  assert (Hh : if pb_strip (in_pb y) then 1 <= pb_height (in_pb x1) <= pb_height (in_pb y)
               else pb_height (in_pb x1) = pb_height (in_pb y)).
  { destruct (pb_strip (in_pb y)) eqn:Es; [|apply K8; reflexivity].
    apply (C22_strip_height ar laws y Hv Es _ _ _ _ _ _ _ _ H). }
  assert (Hc : same_config ar y x1).
  { split; [|split; assumption]. destruct (in_pb x1), (in_pb y). cbn in *. subst. reflexivity. }
  assert (Hv1 : valid_inst ar x1).
  { destruct Hv as [[V1 [V2 [V3 [V4 V5]]]] V7]. split.
    - unfold valid_problem. rewrite K1, K2, K5. repeat (split; [assumption|]). intros Es.
      rewrite Es in Hh. lia.
    - rewrite K5, K2, K6. intros Es. destruct (V7 Es) as [V8 V9]. split; [assumption|].
      intros m Hm. specialize (V9 m Hm). split; [lia|].
      destruct (C22_strip_height ar laws y Hv Es _ _ _ _ _ _ _ _ H) as [_ [J _]]. apply J. assumption. }
  assert (Hsub : forall cid csol i, dget (in_sol x1) cid = Some csol -> In i (dkeys csol) ->
            In i (dkeys (pb_items (in_pb x1)))).
  { intros cid csol i H1 H2. apply dget_Some_In in H2. destruct H2 as [e H2].
    destruct (Hpl cid csol i e H1 H2) as [_ [d [_ [Hd _]]]]. rewrite K1. apply dget_Some_In. eauto. }
  assert (Hk1 : dkeys (in_sol x1) = dkeys (pb_containers (in_pb x1))) by (rewrite K2; assumption).
  pose proof (deepcopy_solution_ok (in_pb x1) (in_sol x1) Hk1) as Hcopy.
  assert (Hnd : NoDup (dkeys (pb_items (in_pb x1)))) by apply Hv1.
  pose proof (deepcopy_same (in_pb x1) (in_sol x1) _ Hnd Hk1 Hsub Hcopy) as Hsame.
  eexists x1, clk1, log, v, _. split; [exact H|]. split; [exact Hv1|]. split; [exact Hc|].
  split; [exact Hh|]. split; [exact Hval|]. split.
  { unfold get_solution. rewrite Hcopy. cbn [bind]. unfold copy_objs. rewrite map_id. reflexivity. }
  split; [exact Hsame|]. exists h. split.
  - destruct (pb_strip (in_pb y)); [lia|assumption].
  - exists seq, sol. split; [assumption|]. split; [exact G2|]. eapply same_placements_trans; eassumption.
Qed.
End Step.

Lemma set_strategy_valid ar (x : inst ar) g : valid_inst ar x -> valid_inst ar (set_strategy x g).
Proof. intros H. exact H. Qed.

(** ** The loop over strategies *)
Section Loop.
Context (ar : arith) (laws : arith_laws ar) (x : inst ar) (Hv : valid_inst ar x).
Context (ck : clock) (limit : Z) (throttle : bool) (start : Z).

(** [y] is [x] with another strategy, height and solution. *)
Definition same_but_strategy (y : inst ar) : Prop :=
  in_pb y = pb_with_height (pb_with_strategy (in_pb x) (pb_strategy (in_pb y))) (pb_height (in_pb y)) /\
  in_min y = in_min x /\ in_cnum y = in_cnum x.

Definition height_within (h : Z) : Prop :=
  if pb_strip (in_pb x) then 1 <= h <= pb_height (in_pb x) else h = pb_height (in_pb x).

(** What [best_strategy] means. *)
Definition strategy_of (s : hs ar) (g : list pclass) (improved : bool) : Prop :=
  if improved then hs_strategy s = g
  else hs_strategy s = default_strategy /\ g = pb_strategy (in_pb x).

Record hinv (s : hs ar) (improved : bool) : Prop := {
  hi_valid : valid_inst ar (hs_st s);
  hi_config : same_but_strategy (hs_st s);
  hi_height : height_within (pb_height (in_pb (hs_st s)));
  hi_value : obj_value ar (in_cnum x) (dvals (snd (hs_ret s))) = Ok (hs_best s);
  hi_made : exists g h, strategy_of s g improved /\ height_within h /\
              made_by (pb_with_strategy (in_pb x) g) h (hs_ret s)
}.

(** The value [w] was reached by a local search with strategy [g]. *)
Definition searched (g : list pclass) (w : num ar) : Prop :=
  exists y clk y' clk' log, same_but_strategy y /\ height_within (pb_height (in_pb y)) /\
    pb_strategy (in_pb y) = g /\
    local_search ar ck limit throttle (Some start) y clk = Ok (y', clk', log) /\
    calculate_obj_value ar y' = Ok w.

Record hrun (strategies : list (list pclass)) (s s' : hs ar) (improved : bool)
       (log : list (list pclass * num ar)) : Prop := {
  hrun_prefix : exists rest, strategies = map fst log ++ rest /\
      (rest = [] \/ exists g w pre n, log = pre ++ [(g, w)] /\
         (global_check ar w = true \/ (over_time ck start limit n = true /\ hs_clk s' = S n)));
  hrun_searched : forall g w, In (g, w) log -> searched g w;
  hrun_value : hs_best s' = hs_best s \/ ngtb ar (hs_best s') (hs_best s) = true;
  hrun_max : forall g w, In (g, w) log -> ngtb ar w (hs_best s') = false;
  hrun_which : (improved = false /\ hs_best s' = hs_best s /\ hs_ret s' = hs_ret s /\
                hs_strategy s' = hs_strategy s) \/
               (improved = true /\ In (hs_strategy s', hs_best s') log);
  hrun_last : forall pre g w, log = pre ++ [(g, w)] -> pb_strategy (in_pb (hs_st s')) = g;
  hrun_none : log = [] -> hs_st s' = hs_st s;
  hrun_height : pb_height (in_pb (hs_st s')) <= pb_height (in_pb (hs_st s))
}.

Lemma hs_loop_run strategies : forall s improved, hinv s improved ->
  exists s' imp log, hs_loop ar ck limit throttle start strategies s = Ok (s', log) /\
    hinv s' (improved || imp) /\ hrun strategies s s' imp log.
Proof.
  induction strategies as [|g rest IH]; intros s improved Hi.
  { exists s, false, []. split; [reflexivity|]. split; [rewrite orb_false_r; assumption|].
    constructor.
    - exists []. auto.
    - intros g w [].
    - left. reflexivity.
    - intros g w [].
    - left. auto.
    - intros pre g w C. destruct pre; discriminate.
    - reflexivity.
    - lia. }
  cbn [hs_loop].
  pose proof (set_strategy_valid ar (hs_st s) g (hi_valid _ _ Hi)) as Hvg.
  destruct (search_step ar laws (set_strategy (hs_st s) g) Hvg ck limit throttle (Some start) (hs_clk s))
    as [x1 [clk1 [nl [v [sol' [Hls [Hv1 [Hc1 [Hh1 [Hval [Hget [Hsame [h [Hh Hmade]]]]]]]]]]]]]].
  rewrite Hls. cbn [bind]. rewrite Hval. cbn [bind].
  destruct (hi_config _ _ Hi) as [C1 [C2 C3]].
  cbn [in_pb set_strategy pb_strip pb_height pb_with_strategy pb_items] in Hh1, Hh, Hmade.
  assert (Hstrip : pb_strip (in_pb (hs_st s)) = pb_strip (in_pb x)) by (rewrite C1; reflexivity).
  rewrite Hstrip in *.
  pose proof (hi_height _ _ Hi) as Hhs. unfold height_within in Hhs.
  assert (Hcy : same_but_strategy (set_strategy (hs_st s) g)).
  { split; [|split; assumption]. cbn [in_pb set_strategy pb_strategy pb_height pb_with_strategy].
    rewrite C1. reflexivity. }
  assert (Hx1pb : in_pb x1 = pb_with_height (pb_with_strategy (in_pb x) g) (pb_height (in_pb x1))).
  { destruct Hc1 as [D1 _]. rewrite D1. cbn [in_pb set_strategy]. rewrite C1. reflexivity. }
  assert (Hcfg1 : same_but_strategy x1).
  { destruct Hc1 as [D1 [D2 D3]]. split; [|split].
    - rewrite Hx1pb at 2. cbn [pb_strategy pb_with_height pb_with_strategy]. assumption.
    - rewrite D2. exact C2.
    - rewrite D3. exact C3. }
  assert (Hhw1 : height_within (pb_height (in_pb x1))).
  { unfold height_within. destruct (pb_strip (in_pb x)); lia. }
  assert (Hle1 : pb_height (in_pb x1) <= pb_height (in_pb (hs_st s)))
    by (destruct (pb_strip (in_pb x)); lia).
  assert (Hhw : height_within h).
  { unfold height_within. destruct (pb_strip (in_pb x)); lia. }
  assert (Hsearched : searched g v).
  { exists (set_strategy (hs_st s) g), (hs_clk s), x1, clk1, nl.
    split; [assumption|]. split; [exact (hi_height _ _ Hi)|]. split; [reflexivity|]. split; assumption. }
  assert (Hvalx : obj_value ar (in_cnum x) (dvals (in_objs x1)) = Ok v).
  { unfold calculate_obj_value in Hval. destruct Hcfg1 as [_ [_ E]]. rewrite E in Hval. assumption. }
  assert (Hmade' : made_by (pb_with_strategy (in_pb x) g) h (sol', in_objs x1)).
  { destruct Hmade as [sq [sl [M1 [M2 M3]]]]. exists sq, sl. cbn [fst snd] in *.
    assert (Hpbe : pb_with_strategy (in_pb (hs_st s)) g =
                   pb_with_height (pb_with_strategy (in_pb x) g) (pb_height (in_pb (hs_st s))))
      by (rewrite C1 at 1; reflexivity).
    cbn [in_pb set_strategy] in M1, M2. rewrite Hpbe in M1, M2. split; [exact M1|]. split; [exact M2|assumption]. }
  unfold check_solution in *. destruct (ngtb ar v (hs_best s)) eqn:Eb.
  - (* improved *)
    rewrite Hget. cbn [bind andb].
    set (s1 := mkHs x1 v (sol', in_objs x1) g clk1).
    assert (Hi1 : forall n, hinv (mkHs x1 v (sol', in_objs x1) g n) true).
    { intros n. constructor; cbn [hs_st hs_best hs_ret hs_strategy]; try assumption.
      exists g, h. split; [reflexivity|]. split; assumption. }
    destruct (global_check ar v) eqn:Eg.
    { exists s1, true, [(g, v)]. split; [reflexivity|]. rewrite orb_true_r. split; [apply Hi1|].
      constructor; cbn [s1 hs_best hs_ret hs_strategy hs_st].
      - exists rest. split; [reflexivity|]. right. exists g, v, [], 0%nat. auto.
      - intros g' w [[= <- <-]|[]]. assumption.
      - right. assumption.
      - intros g' w [[= <- <-]|[]]. apply (law_gt_irrefl _ laws).
      - right. split; [reflexivity|left; reflexivity].
      - intros pre g' w E. destruct pre as [|? [|]]; try discriminate. injection E as <- <-.
        rewrite Hx1pb. reflexivity.
      - discriminate.
      - assumption. }
    destruct (over_time ck start limit clk1) eqn:Eo.
    { eexists _, true, [(g, v)]. split; [reflexivity|]. rewrite orb_true_r. split; [apply Hi1|].
      constructor; cbn [s1 hs_best hs_ret hs_strategy hs_st hs_clk].
      - exists rest. split; [reflexivity|]. right. exists g, v, [], clk1. auto.
      - intros g' w [[= <- <-]|[]]. assumption.
      - right. assumption.
      - intros g' w [[= <- <-]|[]]. apply (law_gt_irrefl _ laws).
      - right. split; [reflexivity|left; reflexivity].
      - intros pre g' w E. destruct pre as [|? [|]]; try discriminate. injection E as <- <-.
        rewrite Hx1pb. reflexivity.
      - discriminate.
      - assumption. }
    destruct (IH _ true (Hi1 (S clk1))) as [s' [imp [log [Hl [Hi' Hr]]]]].
    cbn [s1 hs_st hs_best hs_ret hs_strategy]. rewrite Hl. cbn [bind].
    exists s', true, ((g, v) :: log). split; [reflexivity|]. rewrite orb_true_r in *. cbn [orb] in Hi'.
    split; [assumption|]. destruct Hr as [R1 R2 R3 R4 R5 R6 R7 R8]. cbn [hs_best hs_ret hs_strategy hs_st] in *.
    constructor.
    + destruct R1 as [rst [E1 E2]]. exists rst. split; [cbn [map fst app]; congruence|].
      destruct E2 as [E2|[g' [w' [pre [n [E2 E3]]]]]]; [left; assumption|]. right.
      exists g', w', ((g, v) :: pre), n. split; [rewrite E2; reflexivity|assumption].
    + intros g' w [[= <- <-]|Hin]; [assumption|apply R2; assumption].
    + right. destruct R3 as [->|R3]; [assumption|]. eapply (law_gt_trans _ laws); eassumption.
    + intros g' w [[= <- <-]|Hin]; [|eapply R4; eassumption].
      destruct R3 as [->|R3]; [apply (law_gt_irrefl _ laws)|].
      destruct (ngtb ar v (hs_best s')) eqn:E; [|reflexivity].
      pose proof (law_gt_trans _ laws _ _ _ E R3) as C. rewrite (law_gt_irrefl _ laws) in C. discriminate.
    + right. split; [reflexivity|]. destruct R5 as [[_ [-> [_ ->]]]|[_ R5]]; [left; reflexivity|right; assumption].
    + intros pre g' w E. destruct pre as [|a pre].
      * injection E as -> -> ->. rewrite R7 by reflexivity. rewrite Hx1pb. reflexivity.
      * injection E as _ E. eapply R6; eassumption.
    + discriminate.
    + lia.
  - (* not improved *)
    cbn [bind andb].
    assert (Hi1 : forall n, hinv (mkHs x1 (hs_best s) (hs_ret s) (hs_strategy s) n) improved).
    { intros n. constructor; cbn [hs_st hs_best hs_ret hs_strategy]; try assumption.
      - apply (hi_value _ _ Hi).
      - exact (hi_made _ _ Hi). }
    destruct (over_time ck start limit clk1) eqn:Eo.
    { eexists _, false, [(g, v)]. split; [reflexivity|]. rewrite orb_false_r. split; [apply Hi1|].
      constructor; cbn [hs_best hs_ret hs_strategy hs_st hs_clk].
      - exists rest. split; [reflexivity|]. right. exists g, v, [], clk1. auto.
      - intros g' w [[= <- <-]|[]]. assumption.
      - left. reflexivity.
      - intros g' w [[= <- <-]|[]]. assumption.
      - left. auto.
      - intros pre g' w E. destruct pre as [|? [|]]; try discriminate. injection E as <- <-.
        rewrite Hx1pb. reflexivity.
      - discriminate.
      - assumption. }
    destruct (IH _ improved (Hi1 (S clk1))) as [s' [imp [log [Hl [Hi' Hr]]]]].
    cbn [hs_st hs_best hs_ret hs_strategy]. rewrite Hl. cbn [bind].
    exists s', imp, ((g, v) :: log). split; [reflexivity|]. split; [assumption|].
    destruct Hr as [R1 R2 R3 R4 R5 R6 R7 R8]. cbn [hs_best hs_ret hs_strategy hs_st] in *.
    constructor.
    + destruct R1 as [rst [E1 E2]]. exists rst. split; [cbn [map fst app]; congruence|].
      destruct E2 as [E2|[g' [w' [pre [n [E2 E3]]]]]]; [left; assumption|]. right.
      exists g', w', ((g, v) :: pre), n. split; [rewrite E2; reflexivity|assumption].
    + intros g' w [[= <- <-]|Hin]; [assumption|apply R2; assumption].
    + assumption.
    + intros g' w [[= <- <-]|Hin]; [|eapply R4; eassumption].
      destruct R3 as [->|R3]; [assumption|].
      destruct (ngtb ar v (hs_best s')) eqn:E; [|reflexivity].
      pose proof (law_gt_trans _ laws _ _ _ E R3) as C. congruence.
    + destruct R5 as [R5|[R5 R5']]; [left; assumption|]. right. split; [assumption|right; assumption].
    + intros pre g' w E. destruct pre as [|a pre].
      * injection E as -> -> ->. rewrite R7 by reflexivity. rewrite Hx1pb. reflexivity.
      * injection E as _ E. eapply R6; eassumption.
    + discriminate.
    + lia.
Qed.

(** The state before the first strategy. *)
Record hstart (s0 : hs ar) (clk : nat) : Prop := {
  hst_inv : hinv s0 false;
  hst_clk : hs_clk s0 = clk;
  hst_strategy : pb_strategy (in_pb (hs_st s0)) = pb_strategy (in_pb x);
  hst_height : pb_height (in_pb (hs_st s0)) = pb_height (in_pb x);
  hst_sol : exists sol objs, solve ar (in_pb x) None = Ok (sol, objs) /\
      obj_value ar (in_cnum x) (dvals objs) = Ok (hs_best s0) /\
      snd (hs_ret s0) = objs /\ same_placements sol (fst (hs_ret s0))
}.

Lemma single_process_run strategies clk :
  exists s0 s imp log, hstart s0 clk /\
    single_process ar ck limit throttle start strategies x clk = Ok (s, log) /\
    hinv s imp /\ hrun strategies s0 s imp log.
Proof.
  assert (Hg : good ar x x).
  { split; [|apply hok_start; assumption]. split; [symmetry; apply pb_height_same|]. split; reflexivity. }
  assert (Hn : NoDup (dkeys (pb_items (in_pb x)))) by apply Hv.
  destruct (evaluate_ok ar x Hv x (dkeys (pb_items (in_pb x))) Hg (Permutation_refl _))
    as [sol [objs [v [Hc [Hval [He Hcalc]]]]]].
  assert (Hsolve : solve ar (in_pb x) None = Ok (sol, objs)).
  { unfold constructed in Hc. rewrite pb_height_same in Hc.
    rewrite solve_default_sequence by assumption. exact Hc. }
  pose proof (get_solution_ok ar x Hv x _ sol objs Hg (Permutation_refl _) Hc) as Hget.
  pose proof (copied_same ar x Hv _ _ _ _ (hok_start ar x Hv) (Permutation_refl _) Hc) as Hsame.
  set (s0 := mkHs (set_solution x sol objs) v (copied ar x sol, objs) default_strategy clk).
  assert (Hi : hinv s0 false).
  { constructor; cbn [s0 hs_st hs_best hs_ret hs_strategy snd fst].
    - exact Hv.
    - split; [|split; reflexivity]. cbn [in_pb set_solution]. destruct (in_pb x); reflexivity.
    - unfold height_within. cbn [in_pb set_solution]. destruct Hv as [[_ [_ [_ [_ H5]]]] _].
      destruct (pb_strip (in_pb x)); [|reflexivity]. specialize (H5 eq_refl). lia.
    - exact Hval.
    - exists (pb_strategy (in_pb x)), (pb_height (in_pb x)). split; [split; reflexivity|]. split.
      + unfold height_within. destruct Hv as [[_ [_ [_ [_ H5]]]] _].
        destruct (pb_strip (in_pb x)); [|reflexivity]. specialize (H5 eq_refl). lia.
      + exists (dkeys (pb_items (in_pb x))), sol. cbn [fst snd].
        split; [apply Permutation_refl|]. split; [|exact Hsame].
        unfold constructed in Hc. replace (pb_with_height (pb_with_strategy (in_pb x) (pb_strategy (in_pb x))) (pb_height (in_pb x))) with (pb_with_height (in_pb x) (pb_height (in_pb x))); [exact Hc|].
        destruct (in_pb x); reflexivity. }
  destruct (hs_loop_run strategies s0 false Hi) as [s [imp [log [Hl [Hi' Hr]]]]].
  exists s0, s, imp, log. split; [|split; [|split; assumption]].
  - constructor; try reflexivity; [exact Hi|]. exists sol, objs. cbn [s0 hs_best hs_ret fst snd]. auto.
  - unfold single_process, get_init_solution, inst_solve. rewrite Hsolve. cbn [bind]. rewrite Hget.
    cbn [bind]. rewrite Hcalc. cbn [bind]. exact Hl.
Qed.
End Loop.
