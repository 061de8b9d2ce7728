(** * Runs of local search: one evaluation, one node, the whole loop. *)
From Coq Require Import ZArith String List Bool Lia Permutation Factorial Sorted.
From Coq Require Import ZifyBool ZifyNat.
From Verif Require Import Py Arith Construct Spec Runs LocalSearch SpecSearch Perms
  ProofsPy ProofsGrid ProofsConstruct ProofsSolve ProofsPacking ProofsSolution ProofsValues
  ProofsLocalSearch.
Import ListNotations.
Open Scope Z_scope.

Lemma stack_height_le es h : 0 <= h -> (forall e, In e es -> e_y e + e_l e <= h) -> stack_height es <= h.
Proof.
  intros Hh H. induction es as [|e es IH]; simpl; [assumption|].
  specialize (IH (fun e' H' => H e' (or_intror H'))). specialize (H e (or_introl eq_refl)). lia.
Qed.

Lemma stack_height_ge es e : In e es -> e_y e + e_l e <= stack_height es.
Proof. induction es as [|a es IH]; simpl; [tauto|]. intros [->|H]; [lia|]. specialize (IH H). lia. Qed.

Section Run.
Context (ar : arith) (x0 : inst ar) (Hv : valid_inst ar x0).

Let pb0 := in_pb x0.
Let keys := dkeys (pb_items pb0).

(** Heights the search can be at. *)
Definition hok (h : Z) : Prop :=
  if pb_strip pb0 then 1 <= h <= pb_height pb0 /\ (forall m, in_min x0 = Some m -> m <= h)
  else h = pb_height pb0.

Lemma hok_start : hok (pb_height pb0).
Proof.
  destruct Hv as [[_ [_ [_ [_ Hh]]]] Hs]. unfold hok, pb0 in *.
  destruct (pb_strip (in_pb x0)); [|reflexivity]. specialize (Hh eq_refl).
  destruct (Hs eq_refl) as [_ Hm]. split; [lia|]. intros m E. apply Hm in E. lia.
Qed.

Lemma valid_at h : hok h -> valid_problem (pb_with_height pb0 h).
Proof.
  intros Hh. destruct Hv as [[Hi [Hc [H1 [H2 H3]]]] _]. unfold hok, pb0 in *.
  repeat (split; [assumption|]). intros Hs. cbn [pb_strip pb_height pb_with_height] in *.
  rewrite Hs in Hh. lia.
Qed.

Lemma known_at h seq : Permutation seq keys -> known_sequence (pb_with_height pb0 h) (Some seq).
Proof. intros Hp i Hi. cbn. eapply Permutation_in; eassumption. Qed.

Lemma constructed_total h seq : hok h -> Permutation seq keys ->
  exists sol objs, constructed ar x0 h seq sol objs.
Proof. intros Hh Hp. exact (solve_total ar _ _ (valid_at h Hh) (known_at h seq Hp)). Qed.

Lemma constructed_keys h seq sol objs : hok h -> Permutation seq keys ->
  constructed ar x0 h seq sol objs ->
  dkeys sol = dkeys (pb_containers pb0) /\ dkeys objs = dkeys (pb_containers pb0) /\
  NoDup (stored_ids sol) /\ (forall i, In i (stored_ids sol) -> In i keys).
Proof.
  intros Hh Hp H.
  destruct (solve_run_of ar _ _ (valid_at h Hh) (known_at h seq Hp) _ _ H)
    as [items [rest [_ [_ [Hf _]]]]].
  destruct (solve_ids ar _ _ (valid_at h Hh) (known_at h seq Hp) _ _ _ Hf) as [K1 [K2 [K3 K4]]].
  split; [assumption|]. split; [assumption|]. apply NoDup_app_iff in K3.
  split; [apply K3|]. intros i Hi. eapply Permutation_in; [exact Hp|].
  apply K4. left. assumption.
Qed.

Lemma in_stored sol cid csol i : dget sol cid = Some csol -> In i (dkeys csol) -> In i (stored_ids sol).
Proof.
  intros H1 H2. unfold stored_ids. apply in_concat. exists (dkeys csol). split; [|assumption].
  apply in_map_iff. exists (cid, csol). split; [reflexivity|]. apply dget_In. assumption.
Qed.

Lemma NoDup_concat_in {A} (ls : list (list A)) l : NoDup (concat ls) -> In l ls -> NoDup l.
Proof.
  induction ls as [|a ls IH]; simpl; [tauto|]. intros H [->|Hin].
  - apply NoDup_app_iff in H. apply H.
  - apply IH; [|assumption]. apply NoDup_app_iff in H. apply H.
Qed.

(** The copy kept by the search. *)
Definition copied (sol : solution) : solution :=
  map (fun cid => (cid, deepcopy_container (pb_items pb0)
                          match dget sol cid with Some c => c | None => [] end))
      (dkeys (pb_containers pb0)).

Lemma copied_same h seq sol objs : hok h -> Permutation seq keys ->
  constructed ar x0 h seq sol objs -> same_placements sol (copied sol).
Proof.
  intros Hh Hp H. destruct (constructed_keys _ _ _ _ Hh Hp H) as [K1 [_ [_ K4]]].
  destruct Hv as [[[Hn _] _] _].
  apply (deepcopy_same pb0); [assumption|assumption| |apply deepcopy_solution_ok; assumption].
  intros cid csol i Hc Hi. apply K4. eapply in_stored; eassumption.
Qed.

(** ** One evaluation *)
Definition good (st : inst ar) : Prop := same_config ar x0 st /\ hok (pb_height (in_pb st)).

Lemma objs_value h seq sol objs : hok h -> Permutation seq keys ->
  constructed ar x0 h seq sol objs -> exists v, value_is ar x0 objs v.
Proof.
  intros Hh Hp H. destruct (constructed_keys _ _ _ _ Hh Hp H) as [_ [K2 _]].
  destruct Hv as [[_ [_ [_ [Hne _]]]] _]. unfold value_is, obj_value.
  destruct (in_cnum x0 =? 1); [eauto|].
  assert (Hl : length (dvals objs) = length (pb_containers pb0)).
  { unfold dvals. rewrite map_length. transitivity (length (dkeys objs)).
    - unfold dkeys. rewrite map_length. reflexivity.
    - rewrite K2. unfold dkeys. rewrite map_length. reflexivity. }
  destruct (py_get_ok (dvals objs) (-1)) as [a [Ha _]].
  - unfold zlen. rewrite Hl. fold pb0 in Hne. destruct (pb_containers pb0); [congruence|]. simpl. lia.
  - rewrite Ha. cbn [bind]. eauto.
Qed.

Lemma evaluate_ok st seq : good st -> Permutation seq keys ->
  exists sol objs v, constructed ar x0 (pb_height (in_pb st)) seq sol objs /\
    value_is ar x0 objs v /\
    evaluate_node ar st seq = Ok (set_solution st sol objs) /\
    calculate_obj_value ar (set_solution st sol objs) = Ok v.
Proof.
  intros [[Hpb [Hm Hn]] Hh] Hp. destruct (constructed_total _ _ Hh Hp) as [sol [objs H]].
  destruct (objs_value _ _ _ _ Hh Hp H) as [v Hval]. exists sol, objs, v.
  split; [assumption|]. split; [assumption|]. split.
  - unfold evaluate_node, inst_solve. rewrite Hpb. unfold constructed in H. unfold pb0 in *.
    rewrite H. reflexivity.
  - unfold calculate_obj_value. cbn. rewrite Hn. exact Hval.
Qed.

Lemma strip_csol h seq sol objs : pb_strip pb0 = true -> hok h -> Permutation seq keys ->
  constructed ar x0 h seq sol objs ->
  exists csol W, dkeys (pb_containers pb0) = [strip_id] /\
    sol = [(strip_id, csol)] /\ NoDup (dkeys csol) /\
    (forall i, In i (dkeys csol) -> In i keys) /\
    (forall i e, In (i, e) csol -> inside W h e) /\
    (exists c, dget (pb_containers pb0) strip_id = Some c /\ dw c = W).
Proof.
  intros Hs Hh Hp H. destruct (constructed_keys _ _ _ _ Hh Hp H) as [K1 [_ [K3 K4]]].
  destruct Hv as [_ Hst]. destruct (Hst Hs) as [Hk _]. fold pb0 in Hk.
  rewrite Hk in K1. destruct sol as [|[cid csol] [|]]; try discriminate.
  injection K1 as ->.
  destruct (dget (pb_containers pb0) strip_id) as [c|] eqn:Ec.
  2:{ apply dget_None in Ec. rewrite Hk in Ec. exfalso. apply Ec. left. reflexivity. }
  exists csol, (dw c). split; [assumption|]. split; [reflexivity|].
  unfold stored_ids in K3, K4. simpl in K3, K4. rewrite app_nil_r in K3, K4.
  split; [assumption|]. split; [assumption|]. split; [|eauto].
  intros i e Hin.
  destruct (solve_inside ar _ _ (valid_at h Hh) (known_at h seq Hp) _ _ H strip_id csol i e)
    as [c' [Hc' Hi]]; [left; reflexivity|assumption|].
  cbn [pb_containers pb_with_height] in Hc'. rewrite Ec in Hc'. injection Hc' as <-.
  unfold available_height in Hi. cbn [pb_strip pb_height pb_with_height] in Hi.
  rewrite Hs in Hi. exact Hi.
Qed.

(** Counting the stored items is checking that all are stored. *)
Lemma count_full (csol : odict entry) :
  NoDup (dkeys csol) -> (forall i, In i (dkeys csol) -> In i keys) ->
  (zlen csol =? zlen (pb_items pb0)) = true <-> (forall i, In i keys -> In i (dkeys csol)).
Proof.
  intros Hn Hsub. destruct Hv as [[[Hnk _] _] _]. fold pb0 in Hnk. fold keys in Hnk.
  assert (L1 : length csol = length (dkeys csol)) by (unfold dkeys; rewrite map_length; reflexivity).
  assert (L2 : length (pb_items pb0) = length keys)
    by (unfold keys, dkeys; rewrite map_length; reflexivity).
  unfold zlen. rewrite L1, L2. split.
  - intros E. apply (NoDup_length_incl Hn); [lia|exact Hsub].
  - intros H. pose proof (NoDup_incl_length Hn Hsub). pose proof (NoDup_incl_length Hnk H). lia.
Qed.

Lemma compare_ok st seq sol objs v best : good st -> Permutation seq keys ->
  constructed ar x0 (pb_height (in_pb st)) seq sol objs ->
  exists b, compare_node ar (set_solution st sol objs) v best = Ok b /\
    (b = true <-> acceptable ar x0 sol v best).
Proof.
  intros [[Hpb [Hm Hn]] Hh] Hp H. unfold compare_node, acceptable. cbn [in_pb in_min in_sol set_solution].
  rewrite Hm, Hpb. cbn [pb_strip pb_items pb_with_height]. fold pb0.
  destruct (pb_strip pb0) eqn:Es; cbn [negb].
  - destruct (in_min x0) as [m|] eqn:Em.
    + exists (ngtb ar v best). split; [reflexivity|]. split; [intros Hb; split; [assumption|discriminate]|tauto].
    + destruct (strip_csol _ _ _ _ Es Hh Hp H) as [csol [W [_ [-> [Hnd [Hsub _]]]]]].
      unfold dget_r. simpl dget. cbn [bind].
      exists ((zlen csol =? zlen (pb_items pb0)) && ngtb ar v best). split; [reflexivity|].
      rewrite andb_true_iff, count_full by assumption. unfold strip_full. split.
      * intros [Hf Hb]. split; [assumption|]. intros _ _. exists csol. split; [reflexivity|assumption].
      * intros [Hb Hf]. split; [|assumption]. destruct (Hf eq_refl eq_refl) as [c [[= <-] Hc]]. exact Hc.
  - exists (ngtb ar v best). split; [reflexivity|]. split; [intros Hb; split; [assumption|discriminate]|tauto].
Qed.

Lemma get_solution_ok st seq sol objs : good st -> Permutation seq keys ->
  constructed ar x0 (pb_height (in_pb st)) seq sol objs ->
  get_solution ar (set_solution st sol objs) = Ok (copied sol, objs).
Proof.
  intros [[Hpb _] Hh] Hp H. destruct (constructed_keys _ _ _ _ Hh Hp H) as [K1 _].
  unfold get_solution. cbn [in_pb in_sol in_objs set_solution]. rewrite Hpb.
  change (deepcopy_solution (pb_with_height (in_pb x0) (pb_height (in_pb st))) sol)
    with (deepcopy_solution pb0 sol).
  rewrite deepcopy_solution_ok by assumption. cbn [bind]. unfold copy_objs. rewrite map_id. reflexivity.
Qed.

(** The entries of a solution are below height [h] (strip mode). *)
Definition under (h : Z) (sol : solution) : Prop :=
  pb_strip pb0 = true -> forall cid csol i e, In (cid, csol) sol -> In (i, e) csol -> e_y e + e_l e <= h.

(** [extra_node_operations] after an accepted evaluation. *)
Lemma extra_ok st seq sol objs v best : good st -> Permutation seq keys ->
  constructed ar x0 (pb_height (in_pb st)) seq sol objs -> acceptable ar x0 sol v best ->
  exists st', extra_node_operations ar (set_solution st sol objs) = Ok st' /\
    good st' /\ pb_height (in_pb st') <= pb_height (in_pb st) /\
    under (pb_height (in_pb st')) sol /\
    in_hist st' = (if pb_strip pb0 then in_hist st ++ [pb_height (in_pb st')] else in_hist st) /\
    (pb_strip pb0 = false -> pb_height (in_pb st') = pb_height (in_pb st)).
Proof.
  intros Hg Hp H Ha. destruct Hg as [[Hpb [Hm Hn]] Hh] eqn:Eg. clear Eg.
  unfold extra_node_operations. cbn [in_pb set_solution]. rewrite Hpb. cbn [pb_strip pb_with_height].
  fold pb0. destruct (pb_strip pb0) eqn:Es.
  - destruct (strip_csol _ _ _ _ Es Hh Hp H) as [csol [W [Hk [-> [Hnd [Hsub [Hin _]]]]]]].
    unfold new_height. cbn [in_sol set_solution in_min]. unfold dget_r. simpl dget. cbn [bind].
    eexists. split; [reflexivity|].
    assert (Hsh : solution_height csol = stack_height (entries csol)).
    { apply solution_height_eq. intros e He. unfold entries in He. apply in_map_iff in He.
      destruct He as [[i e'] [<- He]]. apply Hin in He. unfold inside in He. simpl. lia. }
    unfold hok in Hh. rewrite Es in Hh. destruct Hh as [Hr Hmin].
    assert (Hle : solution_height csol <= pb_height (in_pb st)).
    { rewrite Hsh. apply stack_height_le; [lia|]. intros e He. unfold entries in He.
      apply in_map_iff in He. destruct He as [[i e'] [<- He]]. apply Hin in He.
      unfold inside in He. simpl. lia. }
    assert (Hge : forall i e, In (i, e) csol -> e_y e + e_l e <= solution_height csol).
    { intros i e He. rewrite Hsh. apply stack_height_ge. unfold entries. apply in_map_iff.
      exists (i, e). auto. }
    set (nh := min_height_max (in_min st) (solution_height csol)).
    assert (Hnh : nh <= pb_height (in_pb st) /\ solution_height csol <= nh /\
                  (forall m, in_min x0 = Some m -> m <= nh) /\ 1 <= nh).
    { unfold nh. rewrite Hm. unfold min_height_max.
      destruct (in_min x0) as [m|] eqn:Em.
      - specialize (Hmin m eq_refl). destruct Hv as [_ Hst].
        destruct (Hst Es) as [_ Hmm]. specialize (Hmm m Em).
        split; [lia|]. split; [lia|]. split; [intros m' [= <-]; lia|lia].
      - split; [assumption|]. split; [lia|]. split; [discriminate|].
        destruct Ha as [_ Hf]. destruct (Hf Es Em) as [c [Hc Hall]].
        simpl in Hc. injection Hc as <-.
        destruct Hv as [[_ [_ [Hne _]]] _]. fold pb0 in Hne.
        destruct (pb_items pb0) as [|[k d] t] eqn:Ei; [congruence|].
        assert (Hik : In k (dkeys csol)) by (apply Hall; fold pb0; rewrite Ei; left; reflexivity).
        apply in_map_iff in Hik. destruct Hik as [[k' e] [Ek He]].
        pose proof (Hge _ _ He). apply Hin in He. unfold inside in He. lia. }
    destruct Hnh as [N1 [N2 [N3 N4]]]. cbn [in_pb set_height_to set_hist pb_height pb_with_height in_hist set_solution].
    split; [|split; [assumption|split; [|split; [reflexivity|discriminate]]]].
    + split.
      * unfold same_config. cbn [in_pb set_height_to set_hist pb_height pb_with_height in_min in_cnum].
        split; [|split; assumption].
        cbn [in_pb set_solution]. rewrite Hpb. reflexivity.
      * unfold hok. rewrite Es. cbn [in_pb set_height_to set_hist pb_height pb_with_height].
        split; [lia|assumption].
    + intros _ cid cs i e [[= <- <-]|[]] He. apply Hge in He. lia.
  - exists (set_solution st sol objs). split; [reflexivity|]. cbn [in_pb in_hist set_solution].
    split; [|split; [apply Z.le_refl|split; [|split; reflexivity]]].
    + split; [|assumption]. split; [|split]; assumption.
    + intros C. congruence.
Qed.
(** The keys that determine an evaluation. *)
Definition evals : list (Z * list string) :=
  list_prod (if pb_strip pb0 then zrange 1 (pb_height pb0 + 1) else [pb_height pb0])
            (permutations keys).

Lemma evals_length :
  length evals = ((if pb_strip pb0 then Z.to_nat (pb_height pb0) else 1) *
                  fact (length (pb_items pb0)))%nat.
Proof.
  unfold evals. rewrite prod_length, permutations_length.
  unfold keys at 1, dkeys. rewrite map_length. f_equal.
  destruct (pb_strip pb0); [|reflexivity]. rewrite zrange_length. f_equal. lia.
Qed.

Lemma in_evals h seq : hok h -> Permutation seq keys -> In (h, seq) evals.
Proof.
  intros Hh Hp. unfold evals. apply in_prod.
  - unfold hok in Hh. destruct (pb_strip pb0).
    + apply in_zrange. lia.
    + left. symmetry. assumption.
  - apply in_permutations. assumption.
Qed.

(** [v] is the value of the evaluation [k]. *)
Definition eval_value (k : Z * list string) (v : num ar) : Prop :=
  exists sol objs, constructed ar x0 (fst k) (snd k) sol objs /\ value_is ar x0 objs v.

Lemma eval_value_det k v v' : eval_value k v -> eval_value k v' -> v = v'.
Proof.
  intros [sol [objs [H1 H2]]] [sol' [objs' [H3 H4]]]. unfold constructed, value_is in *.
  rewrite H1 in H3. injection H3 as <- <-. congruence.
Qed.

Lemma sorted_snoc l a : StronglySorted Z.ge l -> (forall h, In h l -> h >= a) -> StronglySorted Z.ge (l ++ [a]).
Proof.
  induction 1 as [|b l Hs IH Hf]; intros H; simpl.
  - repeat constructor.
  - constructor.
    + apply IH. intros; apply H; right; assumption.
    + apply Forall_app. split; [assumption|]. constructor; [apply H; left; reflexivity|constructor].
Qed.

Lemma good_set_solution st sol objs : good st -> good (set_solution st sol objs).
Proof. intros [[H1 [H2 H3]] H4]. split; [split; [|split]|]; assumption. Qed.

(** ** One node *)
Section Node.
Context (oot : nat -> bool) (maxn : Z).

Let node_fn := search_node (evaluate_node ar) (calculate_obj_value ar) (get_solution ar)
  (compare_node ar) (extra_node_operations ar) (global_check ar) oot.

Definition rejected (h : Z) (node : list string) (best : num ar) (ij : nat * nat) : Prop :=
  forall sol objs v, constructed ar x0 h (swap_at node (fst ij) (snd ij)) sol objs ->
    value_is ar x0 objs v -> ~ acceptable ar x0 sol v best.

Definition height (st : inst ar) : Z := pb_height (in_pb st).

(** What one call of the inner loop did; [done] are the exchanges it evaluated. *)
Record node_run (processed : Z) (swaps done rest : list (nat * nat))
       (s s' : ls (num := num ar)) (nl : node_log) : Prop := {
  nr_split : swaps = done ++ rest;
  nr_processed : nl_processed nl = processed + zlen done;
  nr_clk : ls_clk s' = (ls_clk s + length done)%nat;
  nr_best : nl_best nl = ls_best s';
  nr_before : forall k, (ls_clk s <= k)%nat -> (S k < ls_clk s')%nat -> oot k = false;
  nr_oot : nl_oot nl = match done with [] => false | _ :: _ => oot (pred (ls_clk s')) end;
  nr_max : done <> [] -> processed + zlen done <= Z.max maxn (processed + 1);
  nr_global : nl_global nl = nl_found nl && global_check ar (ls_best s');
  nr_found : nl_found nl = true ->
    exists pre i j sol objs, done = pre ++ [(i, j)] /\
      ls_node s' = swap_at (ls_node s) i j /\
      constructed ar x0 (height (ls_st s)) (ls_node s') sol objs /\
      value_is ar x0 objs (ls_best s') /\
      acceptable ar x0 sol (ls_best s') (ls_best s) /\
      ls_ret s' = (copied sol, objs) /\
      good (ls_st s') /\ height (ls_st s') <= height (ls_st s) /\
      under (height (ls_st s')) sol /\
      in_hist (ls_st s') =
        (if pb_strip pb0 then in_hist (ls_st s) ++ [height (ls_st s')] else in_hist (ls_st s));
  nr_not_found : nl_found nl = false ->
      ls_node s' = ls_node s /\ ls_best s' = ls_best s /\ ls_ret s' = ls_ret s /\
      good (ls_st s') /\ height (ls_st s') = height (ls_st s) /\
      in_hist (ls_st s') = in_hist (ls_st s) /\
      (forall ij, In ij done -> rejected (height (ls_st s)) (ls_node s) (ls_best s) ij) /\
      (rest = [] \/ nl_oot nl = true \/ maxn <= nl_processed nl)
}.

Lemma search_node_ok : forall swaps processed s,
  good (ls_st s) -> Permutation (ls_node s) keys ->
  (forall i j, In (i, j) swaps -> (i < j)%nat) ->
  exists s' nl done rest, node_fn swaps maxn processed s = Ok (s', nl) /\
    node_run processed swaps done rest s s' nl.
Proof.
  induction swaps as [|[i j] swaps IH]; intros processed s Hg Hp Hsw.
  - exists s, (mkLog (ls_best s) processed false false false), [], []. split; [reflexivity|].
    constructor; cbn [ls_best ls_clk ls_st ls_node ls_ret nl_best nl_processed nl_oot nl_global nl_found].
    + reflexivity.
    + unfold zlen; simpl; lia.
    + simpl. lia.
    + reflexivity.
    + lia.
    + reflexivity.
    + congruence.
    + reflexivity.
    + discriminate.
    + intros _. do 3 (split; [reflexivity|]). split; [assumption|]. do 2 (split; [reflexivity|]).
      split; [intros ? []|left; reflexivity].
  - assert (Hij : (i < j)%nat) by (apply Hsw; left; reflexivity).
    pose (cur := swap_at (ls_node s) i j).
    assert (Hcur : Permutation cur keys) by (unfold cur; rewrite swap_at_perm by assumption; exact Hp).
    destruct (evaluate_ok (ls_st s) cur Hg Hcur) as [sol [objs [v [Hc [Hval [He Hcalc]]]]]].
    destruct (compare_ok (ls_st s) cur sol objs v (ls_best s) Hg Hcur Hc) as [b [Hb Hacc]].
    assert (Huniq : forall sol' objs' v', constructed ar x0 (height (ls_st s)) cur sol' objs' ->
              value_is ar x0 objs' v' -> sol' = sol /\ objs' = objs /\ v' = v).
    { intros sol' objs' v' H1 H2. unfold constructed, height in *. rewrite Hc in H1.
      injection H1 as <- <-. unfold value_is in *. rewrite Hval in H2. injection H2 as <-. auto. }
    unfold node_fn. cbn [search_node]. fold cur. rewrite He. cbn [bind]. rewrite Hcalc. cbn [bind].
    rewrite Hb. cbn [bind].
    destruct b.
    + assert (Ha : acceptable ar x0 sol v (ls_best s)) by (apply Hacc; reflexivity).
      destruct (extra_ok (ls_st s) cur sol objs v (ls_best s) Hg Hcur Hc Ha)
        as [st' [Hx [Hg' [Hle [Hun [Hh Hbin]]]]]].
      rewrite (get_solution_ok (ls_st s) cur sol objs Hg Hcur Hc). cbn [bind]. rewrite Hx. cbn [bind].
      cbn [ls_best ls_clk ls_st ls_node ls_ret].
      rewrite !orb_true_r. cbn [orb].
      eexists _, _, [(i, j)], swaps. split; [reflexivity|].
      constructor; cbn [ls_best ls_clk ls_st ls_node ls_ret nl_best nl_processed nl_oot nl_global nl_found].
      * reflexivity.
      * reflexivity.
      * simpl. lia.
      * reflexivity.
      * lia.
      * reflexivity.
      * intros _. unfold zlen. simpl. lia.
      * reflexivity.
      * intros _. exists [], i, j, sol, objs. repeat (split; [solve [auto]|]). exact Hh.
      * discriminate.
    + assert (Hna : ~ acceptable ar x0 sol v (ls_best s)) by (intros C; apply Hacc in C; discriminate).
      cbn [bind]. cbn [ls_best ls_clk ls_st ls_node ls_ret andb]. rewrite !orb_false_r.
      assert (Hrej : rejected (height (ls_st s)) (ls_node s) (ls_best s) (i, j)).
      { intros sol' objs' v' H1 H2. cbn [fst snd] in H1. fold cur in H1.
        destruct (Huniq _ _ _ H1 H2) as [-> [-> ->]]. exact Hna. }
      destruct (oot (ls_clk s) || (processed + 1 >=? maxn)) eqn:Estop.
      * eexists _, _, [(i, j)], swaps. split; [reflexivity|].
        constructor; cbn [ls_best ls_clk ls_st ls_node ls_ret nl_best nl_processed nl_oot nl_global nl_found].
        -- reflexivity.
        -- reflexivity.
        -- simpl. lia.
        -- reflexivity.
        -- lia.
        -- reflexivity.
        -- intros _. unfold zlen. simpl. lia.
        -- reflexivity.
        -- discriminate.
        -- intros _. do 3 (split; [reflexivity|]). split; [apply good_set_solution; assumption|].
           split; [reflexivity|]. split; [reflexivity|].
           split; [intros ij [<-|[]]; exact Hrej|].
           apply orb_true_iff in Estop. destruct Estop as [E|E]; [auto|]. right. right. lia.
      * apply orb_false_iff in Estop. destruct Estop as [Eo Em].
        set (s1 := mkLs (set_solution (ls_st s) sol objs) (ls_node s) (ls_best s) (ls_ret s)
                        (S (ls_clk s))).
        destruct (IH (processed + 1) s1) as [s' [nl [done [rest [Hrun R]]]]].
        { apply good_set_solution. assumption. }
        { assumption. }
        { intros; apply Hsw; right; assumption. }
        exists s', nl, ((i, j) :: done), rest. split; [exact Hrun|].
        destruct R as [R1 R2 R3 R4 R5 R6 R7 R8 R9 R10]. cbn [ls_clk s1] in R3, R5.
        constructor.
        -- rewrite R1. reflexivity.
        -- rewrite R2. unfold zlen. simpl length. lia.
        -- rewrite R3. simpl. lia.
        -- assumption.
        -- intros k Hk1 Hk2. destruct (Nat.eq_dec k (ls_clk s)) as [->|Hne]; [assumption|].
           apply R5; lia.
        -- rewrite R6. destruct done as [|d ds]; [|reflexivity].
           simpl in R3. rewrite R3. rewrite Nat.add_0_r. cbn [pred]. auto.
        -- intros _. destruct done as [|d ds].
           ++ unfold zlen. simpl. lia.
           ++ assert (Hz : d :: ds <> []) by discriminate. specialize (R7 Hz). unfold zlen in *.
              cbn [length] in *. lia.
        -- assumption.
        -- intros Hf. destruct (R9 Hf) as [pre [i' [j' [sol' [objs' [D1 D2]]]]]].
           exists ((i, j) :: pre), i', j', sol', objs'. split; [rewrite D1; reflexivity|exact D2].
        -- intros Hf. destruct (R10 Hf) as [D1 [D2 [D3 [D4 [D5 [D6 [D7 D8]]]]]]].
           do 3 (split; [assumption|]). split; [assumption|].
           split; [rewrite D5; reflexivity|]. split; [assumption|].
           split; [|assumption]. intros ij [<-|Hin]; [exact Hrej|]. apply D7. assumption.
Qed.

(** ** The loop over nodes *)
Let loop_fn := search_loop (evaluate_node ar) (calculate_obj_value ar) (get_solution ar)
  (compare_node ar) (extra_node_operations ar) (global_check ar) oot.

Definition hist_ok (st : inst ar) : Prop :=
  pb_strip pb0 = true ->
  StronglySorted Z.ge (in_hist st) /\
  (forall h, In h (in_hist st) -> height st <= h) /\
  last (in_hist st) 0 = height st /\ exists t, in_hist st = pb_height pb0 :: t.

Record inv (s : ls (num := num ar)) : Prop := {
  iv_good : good (ls_st s);
  iv_perm : Permutation (ls_node s) keys;
  iv_ret : exists h sol objs, hok h /\ height (ls_st s) <= h /\
             constructed ar x0 h (ls_node s) sol objs /\
             value_is ar x0 objs (ls_best s) /\
             ls_ret s = (copied sol, objs) /\ under (height (ls_st s)) sol;
  iv_hist : hist_ok (ls_st s)
}.

Lemma node_run_inv p swaps done rest s s' nl :
  node_run p swaps done rest s s' nl -> (forall i j, In (i, j) swaps -> (i < j)%nat) ->
  inv s -> inv s'.
Proof.
  intros R Hsw [I1 I2 I3 I4]. destruct (nl_found nl) eqn:Ef.
  - destruct (nr_found _ _ _ _ _ _ _ R Ef) as [pre [i [j [sol [objs [D1 [D2 [D3 [D4 [D5 [D6 [D7 [D8 [D9 D10]]]]]]]]]]]]]].
    constructor.
    + assumption.
    + rewrite D2. rewrite swap_at_perm; [assumption|]. apply Hsw.
      rewrite (nr_split _ _ _ _ _ _ _ R), D1. apply in_or_app. left. apply in_or_app. right. left. reflexivity.
    + exists (height (ls_st s)), sol, objs. split; [apply I1|]. tauto.
    + intros Hs. rewrite D10, Hs. destruct (I4 Hs) as [J1 [J2 [J3 [t J4]]]]. split; [|split; [|split]].
      * apply sorted_snoc; [assumption|]. intros h Hh. apply J2 in Hh. lia.
      * intros h Hh. apply in_app_or in Hh. destruct Hh as [Hh|[<-|[]]]; [apply J2 in Hh; lia|lia].
      * rewrite last_last. reflexivity.
      * exists (t ++ [height (ls_st s')]). rewrite J4. reflexivity.
  - destruct (nr_not_found _ _ _ _ _ _ _ R Ef) as [D1 [D2 [D3 [D4 [D5 [D6 _]]]]]].
    constructor.
    + assumption.
    + rewrite D1. assumption.
    + rewrite D1, D2, D3, D5. exact I3.
    + unfold hist_ok. rewrite D5, D6. exact I4.
Qed.

Definition not_worse (v best : num ar) : Prop := v = best \/ ngtb ar best v = true.

Definition full_if_required (sol : solution) : Prop :=
  pb_strip pb0 = true -> in_min x0 = None -> strip_full ar x0 sol.

(** What a run of the loop did. *)
Record loop_run (swaps : list (nat * nat)) (s s' : ls (num := num ar)) (log : list node_log) : Prop := {
  lr_inv : inv s';
  lr_value : not_worse (ls_best s) (ls_best s');
  lr_height : height (ls_st s') <= height (ls_st s);
  lr_oot : forall pre (nl : node_log (num := num ar)) post, log = pre ++ nl :: post -> post <> [] -> nl_oot nl = false;
  lr_before : forall k, (ls_clk s <= k)%nat -> (S k < ls_clk s')%nat -> oot k = false;
  lr_clk : Z.of_nat (ls_clk s') =
           Z.of_nat (ls_clk s) + fold_right (fun nl n => nl_processed nl + n) 0 log;
  lr_processed : forall nl, In nl log -> 0 <= nl_processed nl <= Z.min maxn (zlen swaps);
  lr_full : (ls_ret s' = ls_ret s /\ height (ls_st s') = height (ls_st s)) \/
            exists sol objs, ls_ret s' = (copied sol, objs) /\ full_if_required sol;
  lr_opt : (forall nl, In nl log -> nl_oot nl = false) -> zlen swaps <= maxn ->
           forall ij, In ij swaps -> rejected (height (ls_st s')) (ls_node s') (ls_best s') ij
}.
Context (laws : arith_laws ar).

Lemma not_worse_trans a b c : not_worse a b -> ngtb ar c b = true -> ngtb ar c a = true.
Proof. intros [->|H] Hc; [assumption|]. eapply (law_gt_trans _ laws); eassumption. Qed.

Lemma search_loop_ok swaps (Hsw : forall i j, In (i, j) swaps -> (i < j)%nat)
      (Hmax : swaps <> [] -> 1 <= maxn) (Hmax0 : 0 <= maxn) :
  forall fuel visited s, inv s ->
  NoDup visited -> incl visited evals ->
  (exists h, hok h /\ In (h, ls_node s) visited /\ eval_value (h, ls_node s) (ls_best s)) ->
  (forall k v, In k visited -> eval_value k v -> not_worse v (ls_best s)) ->
  (length evals - length visited < fuel)%nat ->
  exists s' log, loop_fn fuel swaps maxn s = Ok (s', log) /\ loop_run swaps s s' log /\
    (length log + length visited <= S (length evals))%nat.
Proof.
  induction fuel as [|fuel IH]; intros visited s Hi Hnd Hincl Hcur Hvis Hfuel; [lia|].
  destruct (search_node_ok swaps 0 s (iv_good _ Hi) (iv_perm _ Hi) Hsw)
    as [s1 [nl [done [rest [Hrun R]]]]].
  pose proof (node_run_inv _ _ _ _ _ _ _ R Hsw Hi) as Hi1.
  pose proof (NoDup_incl_length Hnd Hincl) as Hlen.
  unfold loop_fn. cbn [search_loop].
  unfold loop_fn in IH. unfold node_fn in Hrun. rewrite Hrun. cbn [bind].
  assert (Hproc : 0 <= nl_processed nl <= Z.min maxn (zlen swaps)).
  { rewrite (nr_processed _ _ _ _ _ _ _ R). pose proof (nr_split _ _ _ _ _ _ _ R) as Hs.
    pose proof (nr_max _ _ _ _ _ _ _ R) as Hm. pose proof (zlen_nonneg done).
    assert (zlen done <= zlen swaps) by (rewrite Hs, zlen_app; pose proof (zlen_nonneg rest); lia).
    destruct done as [|d ds]; [unfold zlen in *; simpl in *; lia|].
    assert (swaps <> []) by (rewrite Hs; discriminate).
    assert (d :: ds <> []) by discriminate. specialize (Hmax H1). specialize (Hm H2). lia. }
  pose proof (nr_clk _ _ _ _ _ _ _ R) as Hclk.
  assert (Hclk1 : Z.of_nat (ls_clk s1) = Z.of_nat (ls_clk s) + nl_processed nl).
  { rewrite Hclk, (nr_processed _ _ _ _ _ _ _ R). unfold zlen. lia. }
  destruct (nl_found nl && negb (nl_oot nl) && negb (nl_global nl)) eqn:Econt.
  - (* found, continue *)
    apply andb_true_iff in Econt. destruct Econt as [Econt Eg].
    apply andb_true_iff in Econt. destruct Econt as [Ef Eo].
    apply negb_true_iff in Eo. apply negb_true_iff in Eg.
    destruct (nr_found _ _ _ _ _ _ _ R Ef)
      as [pre [i [j [sol [objs [D1 [D2 [D3 [D4 [D5 [D6 [D7 [D8 [D9 D10]]]]]]]]]]]]]].
    pose (k := (height (ls_st s), ls_node s1)).
    assert (Hkv : eval_value k (ls_best s1)) by (exists sol, objs; split; assumption).
    assert (Hh : hok (height (ls_st s))) by apply (iv_good _ Hi).
    destruct D5 as [Hgt Hfull].
    assert (Hnew : ~ In k visited).
    { intros C. pose proof (Hvis _ _ C Hkv) as Hw. destruct Hw as [Hw|Hw].
      - rewrite Hw in Hgt. rewrite (law_gt_irrefl _ laws) in Hgt. discriminate.
      - pose proof (law_gt_trans _ laws _ _ _ Hgt Hw) as C2.
        rewrite (law_gt_irrefl _ laws) in C2. discriminate. }
    destruct (IH (k :: visited) s1) as [s' [log [Hl [LR Hlog]]]].
    + assumption.
    + constructor; assumption.
    + intros z [<-|Hz]; [|apply Hincl; assumption]. apply in_evals; [assumption|apply (iv_perm _ Hi1)].
    + exists (height (ls_st s)). split; [assumption|]. split; [left; reflexivity|assumption].
    + intros z v [<-|Hz] Hev.
      * left. eapply eval_value_det; eassumption.
      * right. eapply not_worse_trans; [|exact Hgt]. apply Hvis with (k := z); assumption.
    + assert (Hl2 : incl (k :: visited) evals).
      { intros z [<-|Hz]; [|apply Hincl; assumption]. apply in_evals; [assumption|apply (iv_perm _ Hi1)]. }
      assert (NoDup (k :: visited)) as Hnd2 by (constructor; assumption).
      pose proof (NoDup_incl_length Hnd2 Hl2). simpl in *. lia.
    + exists s', (nl :: log). rewrite Hl. cbn [bind]. split; [reflexivity|]. split; [|simpl in *; lia].
      destruct LR as [L1 L2 L3 L4 L5 L6 L7 L8 L9]. constructor.
      * assumption.
      * right. destruct L2 as [<-|L2]; [assumption|]. eapply (law_gt_trans _ laws); eassumption.
      * lia.
      * intros pre' nl' post E Hpost. destruct pre' as [|a pre'].
        -- injection E as <- <-. assumption.
        -- injection E as <- E. eapply L4; eassumption.
      * intros k' Hk1 Hk2. destruct (Nat.le_gt_cases (ls_clk s1) k') as [Hc|Hc].
        -- apply L5; assumption.
        -- destruct (Nat.le_gt_cases (ls_clk s1) (S k')) as [Hc2|Hc2].
           ++ assert (k' = pred (ls_clk s1)) as -> by lia.
              rewrite (nr_oot _ _ _ _ _ _ _ R) in Eo. rewrite D1 in Eo.
              destruct pre; exact Eo.
           ++ apply (nr_before _ _ _ _ _ _ _ R); lia.
      * cbn [fold_right]. lia.
      * intros nl' [<-|Hin]; [assumption|]. apply L7. assumption.
      * right. destruct L8 as [[L8 _]|L8]; [|assumption].
        exists sol, objs. split; [congruence|assumption].
      * intros Hno Hle. apply L9; [|assumption]. intros nl' Hin. apply Hno. right. assumption.
  - (* stop *)
    exists s1, [nl]. split; [reflexivity|].
    assert (Hpos : (1 <= length visited)%nat).
    { destruct Hcur as [h [_ [Hin _]]]. destruct visited; [destruct Hin|simpl; lia]. }
    split; [|simpl; lia].
    assert (Hval : not_worse (ls_best s) (ls_best s1) /\ height (ls_st s1) <= height (ls_st s) /\
                   ((ls_ret s1 = ls_ret s /\ height (ls_st s1) = height (ls_st s)) \/
                    exists sol objs, ls_ret s1 = (copied sol, objs) /\ full_if_required sol)).
    { destruct (nl_found nl) eqn:Ef.
      - destruct (nr_found _ _ _ _ _ _ _ R Ef)
          as [pre [i [j [sol [objs [D1 [D2 [D3 [D4 [[D5 D5'] [D6 [D7 [D8 [D9 D10]]]]]]]]]]]]]].
        split; [right; assumption|]. split; [assumption|]. right. exists sol, objs. auto.
      - destruct (nr_not_found _ _ _ _ _ _ _ R Ef) as [D1 [D2 [D3 [D4 [D5 [D6 D7]]]]]].
        split; [left; auto|]. split; [lia|]. left. auto. }
    destruct Hval as [V1 [V2 V3]]. constructor.
    + assumption.
    + assumption.
    + assumption.
    + intros pre nl' post E Hpost. destruct pre as [|a [|]]; try discriminate.
      injection E as <- <-. congruence.
    + apply (nr_before _ _ _ _ _ _ _ R).
    + cbn [fold_right]. lia.
    + intros nl' [<-|[]]. assumption.
    + assumption.
    + intros Hno Hle ij Hij. specialize (Hno nl (or_introl eq_refl)).
      destruct (nl_found nl) eqn:Ef.
      * rewrite Hno in Econt. cbn [negb andb] in Econt.
        rewrite (nr_global _ _ _ _ _ _ _ R), Ef in Econt. cbn [andb] in Econt.
        apply negb_false_iff in Econt. unfold global_check in Econt.
        intros sol' objs' v' _ _ [C _]. rewrite (law_ge_inf _ laws _ v' Econt) in C. discriminate.
      * destruct (nr_not_found _ _ _ _ _ _ _ R Ef) as [D1 [D2 [D3 [D4 [D5 [D6 [D7 D8]]]]]]].
        rewrite D5, D1, D2. apply D7.
        destruct D8 as [D8|[D8|D8]]; [|congruence|].
        -- pose proof (nr_split _ _ _ _ _ _ _ R) as Hs. rewrite D8, app_nil_r in Hs. rewrite <- Hs. assumption.
        -- rewrite (nr_processed _ _ _ _ _ _ _ R) in D8.
           pose proof (nr_split _ _ _ _ _ _ _ R) as Hs.
           assert (rest = []) as ->.
           { destruct rest; [reflexivity|]. rewrite Hs in Hle. rewrite zlen_app in Hle.
             unfold zlen in *. cbn [length] in *. lia. }
           rewrite app_nil_r in Hs. rewrite <- Hs. assumption.
Qed.
End Node.

End Run.

(** ** The whole search *)
Section Whole.
Context (ar : arith) (laws : arith_laws ar) (x : inst ar) (Hv : valid_inst ar x).
Context (ck : clock) (limit : Z) (throttle : bool) (start : option Z) (clk : nat).

Definition search_start : Z := match start with None => ck clk | Some t => t end.
Definition first_reading : nat := match start with None => S clk | Some _ => clk end.
Definition neighbours : Z := zlen (pb_items (in_pb x)) * (zlen (pb_items (in_pb x)) - 1) / 2.

(** The state before the first node. *)
Record initial (s0 : ls (num := num ar) (St := inst ar)) : Prop := {
  in0_node : ls_node s0 = dkeys (pb_items (in_pb x));
  in0_clk : ls_clk s0 = first_reading;
  in0_height : height ar (ls_st s0) = pb_height (in_pb x);
  in0_sol : exists sol objs, solve ar (in_pb x) None = Ok (sol, objs) /\
      value_is ar x objs (ls_best s0) /\ ls_ret s0 = (copied ar x sol, objs);
  in0_hist : in_hist (ls_st s0) = if pb_strip (in_pb x) then [pb_height (in_pb x)] else in_hist x
}.

Lemma pb_height_same (pb : problem) : pb_with_height pb (pb_height pb) = pb.
Proof. destruct pb; reflexivity. Qed.

Lemma local_search_run :
  exists s0 s log,
    local_search ar ck limit throttle start x clk =
      Ok (set_solution (ls_st s) (fst (ls_ret s)) (snd (ls_ret s)), ls_clk s, log) /\
    initial s0 /\ inv ar x s0 /\
    loop_run ar x (out_of_time ck search_start limit)
             (get_max_neighbors_num throttle (zlen (pb_items (in_pb x))))
             (index_swaps (length (pb_items (in_pb x)))) s0 s log /\
    (length log <= length (evals ar x))%nat.
Proof.
  set (x1 := if pb_strip (in_pb x) then set_hist x [pb_height (in_pb x)] else x).
  assert (Hpb1 : in_pb x1 = in_pb x) by (unfold x1; destruct (pb_strip (in_pb x)); reflexivity).
  assert (Hg1 : good ar x x1).
  { split.
    - unfold same_config. rewrite Hpb1. split; [symmetry; apply pb_height_same|].
      unfold x1; destruct (pb_strip (in_pb x)); auto.
    - rewrite Hpb1. apply hok_start. assumption. }
  assert (Hn : NoDup (dkeys (pb_items (in_pb x)))) by apply Hv.
  destruct (evaluate_ok ar x Hv x1 (dkeys (pb_items (in_pb x))) Hg1 (Permutation_refl _))
    as [sol [objs [v [Hc [Hval [He Hcalc]]]]]].
  assert (Hsolve : solve ar (in_pb x) None = Ok (sol, objs)).
  { unfold constructed in Hc. rewrite Hpb1, pb_height_same in Hc.
    rewrite solve_default_sequence by assumption. exact Hc. }
  pose proof (get_solution_ok ar x Hv x1 _ sol objs Hg1 (Permutation_refl _) Hc) as Hget.
  set (st0 := set_solution x1 sol objs) in *.
  set (s0 := mkLs st0 (dkeys (pb_items (in_pb x))) v (copied ar x sol, objs) first_reading).
  set (n := length (pb_items (in_pb x))).
  assert (Hklen : length (dkeys (pb_items (in_pb x))) = n) by (unfold dkeys; apply map_length).
  assert (Hgst0 : good ar x st0) by (apply good_set_solution; assumption).
  assert (Hh0 : height ar st0 = pb_height (in_pb x)) by (unfold height, st0; cbn; rewrite Hpb1; reflexivity).
  assert (Hhist0 : in_hist st0 = if pb_strip (in_pb x) then [pb_height (in_pb x)] else in_hist x)
    by (unfold st0, x1; cbn; destruct (pb_strip (in_pb x)); reflexivity).
  assert (Hinv : inv ar x s0).
  { constructor; cbn [ls_st ls_node ls_best ls_ret s0].
    - assumption.
    - apply Permutation_refl.
    - exists (pb_height (in_pb x)), sol, objs. split; [apply hok_start; assumption|].
      split; [lia|]. rewrite Hpb1 in Hc. split; [assumption|]. split; [assumption|].
      split; [reflexivity|]. intros Hs cid csol i e H1 H2. rewrite Hh0.
      destruct (solve_inside ar (in_pb x) None (proj1 Hv) I _ _ Hsolve cid csol i e H1 H2)
        as [c [_ Hin]]. unfold inside, available_height in Hin. rewrite Hs in Hin. lia.
    - intros Hs. rewrite Hhist0, Hs. split; [repeat constructor|]. split.
      + intros h [<-|[]]. lia.
      + split; [cbn; rewrite Hh0; reflexivity|eexists; reflexivity]. }
  assert (Hmaxn : forall k : nat, get_max_neighbors_num throttle (Z.of_nat k) =
                    (if throttle && (zlen (index_swaps k) >? max_neighbors_throttle)
                     then max_neighbors_throttle else zlen (index_swaps k))).
  { intros k. unfold get_max_neighbors_num, zlen. rewrite index_swaps_length. reflexivity. }
  destruct (search_loop_ok ar x Hv (out_of_time ck search_start limit)
              (get_max_neighbors_num throttle (zlen (pb_items (in_pb x)))) laws
              (index_swaps n)) with (fuel := ls_fuel ar x1)
      (visited := [(pb_height (in_pb x), dkeys (pb_items (in_pb x)))]) (s := s0)
    as [s [log [Hl [LR Hlog]]]].
  - intros i j Hin. apply in_index_swaps in Hin. lia.
  - intros Hne. unfold zlen at 1. rewrite Hmaxn. fold n.
    assert (1 <= zlen (index_swaps n)).
    { destruct (index_swaps n); [congruence|]. unfold zlen. cbn [length]. lia. }
    destruct throttle; cbn [andb]; [|assumption].
    unfold max_neighbors_throttle. destruct (zlen (index_swaps n) >? 2500); lia.
  - unfold zlen at 1. rewrite Hmaxn. unfold max_neighbors_throttle.
    pose proof (zlen_nonneg (index_swaps (length (pb_items (in_pb x))))).
    destruct (throttle && _); lia.
  - assumption.
  - repeat constructor. intros [].
  - intros k [<-|[]]. apply in_evals; [apply hok_start; assumption|apply Permutation_refl].
  - exists (pb_height (in_pb x)). split; [apply hok_start; assumption|].
    split; [left; reflexivity|]. exists sol, objs. rewrite Hpb1 in Hc. split; assumption.
  - intros k v' [<-|[]] Hev. left. eapply eval_value_det; [exact Hev|].
    exists sol, objs. rewrite Hpb1 in Hc. split; assumption.
  - rewrite evals_length. unfold ls_fuel. rewrite Hpb1. cbn [length]. fold n.
    rewrite (Nat.mul_comm (fact n)). lia.
  - exists s0, s, log. split; [|split; [|split; [|split]]].
    + unfold local_search, local_search_fuel.
      replace (match start with None => (ck clk, S clk) | Some t => (t, clk) end)
        with (search_start, first_reading) by (unfold search_start, first_reading; destruct start; reflexivity).
      fold x1. unfold abstract_local_search.
      unfold get_init_solution, inst_solve. rewrite Hpb1, Hsolve. cbn [bind]. fold st0.
      rewrite Hget. cbn [bind]. rewrite Hcalc. cbn [bind]. rewrite Hklen.
      change (Z.of_nat n) with (zlen (pb_items (in_pb x))).
      fold s0. rewrite Hl. cbn [bind]. destruct (ls_ret s). reflexivity.
    + constructor; cbn [s0 ls_node ls_clk ls_st ls_best ls_ret]; auto. exists sol, objs. auto.
    + assumption.
    + assumption.
    + cbn [length] in Hlog. lia.
Qed.
End Whole.
