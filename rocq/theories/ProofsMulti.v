(** * Lemmas about the multi-process hypersearch. *)
From Coq Require Import ZArith String List Bool QArith SpecFloat Floats Lia Permutation.
From Coq Require Import ZifyBool ZifyNat.
From Verif Require Import Py Arith FloatArith Construct Spec Runs LocalSearch SpecSearch Perms ItemsManip
  HyperSearch MultiProcess ProofsPy ProofsConstruct ProofsSolve ProofsPacking ProofsSolution ProofsValues
  ProofsLocalSearch ProofsSearchRun PropertiesSolve PropertiesSearch ProofsHyper ProofsLoose.
Import ListNotations.
Open Scope Z_scope.

(** ** Chunks *)
Lemma py_slice_from {A} (l : list A) a p : 0 <= a <= zlen l -> 0 <= p ->
  py_slice l a (a + p) = firstn (Z.to_nat p) (skipn (Z.to_nat a) l).
Proof.
  intros Ha Hp. unfold py_slice. rewrite (slice_bound_in (zlen l) a) by lia.
  destruct (Z_le_gt_dec (a + p) (zlen l)) as [H|H].
  - rewrite slice_bound_in by lia. f_equal. lia.
  - unfold slice_bound. replace (a + p <? 0) with false by lia.
    unfold zlen in *. rewrite (firstn_all2 (n := Z.to_nat p)) by (rewrite skipn_length; lia).
    apply firstn_all2. rewrite skipn_length. lia.
Qed.

Lemma concat_pieces {A} (l : list A) p m :
  concat (map (fun k => firstn p (skipn (k * p) l)) (seq 0 m)) = firstn (m * p) l.
Proof.
  induction m as [|m IH]; [reflexivity|].
  rewrite seq_S, map_app, concat_app, IH. cbn [map concat]. rewrite app_nil_r, Nat.add_0_l.
  replace (S m * p)%nat with (m * p + p)%nat by lia.
  rewrite <- (firstn_skipn (m * p) l) at 3. rewrite firstn_app.
  rewrite (firstn_all2 (n := m * p + p)) by (rewrite firstn_length; lia).
  f_equal. rewrite firstn_length.
  destruct (Nat.le_gt_cases (m * p) (length l)) as [H|H].
  - f_equal. lia.
  - rewrite (skipn_all2 (n := m * p)) by lia. rewrite !firstn_nil. reflexivity.
Qed.

Lemma ceil_spec n k : 0 < k -> k * ((n + k - 1) / k) >= n /\ k * ((n + k - 1) / k) < n + k.
Proof. intros Hk. pose proof (Z.div_mod (n + k - 1) k). pose proof (Z.mod_pos_bound (n + k - 1) k). lia. Qed.

Section Pieces.
Context {A : Type} (l : list A) (p : Z) (Hl : l <> []) (Hp : 1 <= p).
Let n := zlen l.
Let m := (n + p - 1) / p.

Lemma piece_sizes : 1 <= n /\ 1 <= m /\ m * p >= n /\ m * p < n + p.
Proof.
  assert (Hn : 1 <= n) by (unfold n, zlen; destruct l; [contradiction|simpl; lia]).
  unfold m. clearbody n. pose proof (ceil_spec n p ltac:(lia)) as [H1 H2]. nia.
Qed.

Lemma pieces_eq : chunks_of l p = map (fun k => firstn (Z.to_nat p) (skipn (k * Z.to_nat p) l)) (seq 0 (Z.to_nat m)).
Proof.
  destruct piece_sizes as [H1 [H2 [H3 H4]]].
  unfold chunks_of. fold n. unfold range_step. fold m. unfold zrange.
  rewrite !map_map, Z.sub_0_r. apply map_ext_in. intros k Hk. apply in_seq in Hk.
  replace (0 + Z.of_nat k) with (Z.of_nat k) by lia.
  assert (Hb : Z.of_nat k * p <= n) by nia.
  rewrite py_slice_from; [|fold n; nia|lia]. f_equal. f_equal. lia.
Qed.

Lemma pieces_concat : concat (chunks_of l p) = l.
Proof.
  rewrite pieces_eq, concat_pieces. apply firstn_all2. destruct piece_sizes as [H1 [H2 [H3 H4]]].
  unfold n, zlen in H3. nia.
Qed.

Lemma pieces_nonempty c : In c (chunks_of l p) -> c <> [].
Proof.
  destruct piece_sizes as [H1 [H2 [H3 H4]]].
  rewrite pieces_eq, in_map_iff. intros [k [<- Hk]]. apply in_seq in Hk. intros C.
  apply (f_equal (@length A)) in C. rewrite firstn_length, skipn_length in C. simpl in C.
  assert (Z.of_nat k * p < n) by nia. unfold n, zlen in *. nia.
Qed.

Lemma pieces_count : zlen (chunks_of l p) = m.
Proof.
  destruct piece_sizes as [H1 [H2 [H3 H4]]].
  rewrite pieces_eq. unfold zlen. rewrite map_length, seq_length. lia.
Qed.

Lemma pieces_size c : In c (chunks_of l p) -> zlen c <= p.
Proof.
  rewrite pieces_eq, in_map_iff. intros [k [<- Hk]].
  unfold zlen. rewrite firstn_length. lia.
Qed.
End Pieces.

(** The sign of a quotient. *)
Lemma round_aux_sign m e l : match binary_round_aux prec emax false m e l with
  | S754_finite true _ _ | S754_infinity true => False | _ => True end.
Proof.
  unfold binary_round_aux. destruct (shr_fexp prec emax m e l) as [mrs' e'].
  destruct (shr_fexp prec emax _ e' loc_Exact) as [mrs'' e''].
  destruct (shr_m mrs'') as [|p|p]; try exact I. destruct (e'' <=? emax - prec); exact I.
Qed.

Lemma ceil_sign n q p : 0 <= n -> (0 < q)%Q -> strategies_per_process n q = Ok p -> 0 <= p.
Proof.
  intros Hn Hq. unfold strategies_per_process, Qlt in *. destruct q as [[|a|a] b]; cbn in Hq; try lia. cbn [Qnum Qden].
  destruct (n * Zpos b) as [|m|m] eqn:E; [|clear E|nia].
  - intros [= <-]. lia.
  - cbn [sf_of_Z]. unfold SFdiv.
    destruct (SFdiv_core_binary prec emax (Zpos m) 0 (Zpos a) 0) as [[mz ez] lz].
    change (xorb false false) with false. pose proof (round_aux_sign mz ez lz) as S.
    destruct (binary_round_aux prec emax false mz ez lz) as [s|s| |s m' e']; try discriminate.
    + intros [= <-]. lia.
    + destruct s; [contradiction|]. unfold sf_ceil. assert (Hv : 0 < Zpos m') by lia. set (v := Zpos m') in *. clearbody v.
      intros H. injection H as <-. destruct (Z.leb_spec 0 e').
      * apply Z.mul_nonneg_nonneg; [lia|]. apply Z.pow_nonneg. lia.
      * assert (P : 0 < 2 ^ (- e')) by (apply Z.pow_pos_nonneg; lia).
        pose proof (Z.mul_div_le (- v) (2 ^ - e') P) as D. nia.
Qed.

Lemma chunks_cut {A} (l : list A) q chunks : (0 < q)%Q -> strategies_chunks l q = Ok chunks ->
  l <> [] /\ exists p, strategies_per_process (zlen l) q = Ok p /\ 1 <= p /\ chunks = chunks_of l p.
Proof.
  unfold strategies_chunks. intros Hq H.
  destruct (strategies_per_process (zlen l) q) as [p|] eqn:E; [|discriminate]. cbn [bind] in H.
  assert (S : 0 <= p) by (eapply ceil_sign; [|exact Hq|exact E]; unfold zlen; lia).
  destruct (Z.eqb_spec p 0) as [|Hz]; [discriminate|]. destruct (Z.ltb_spec p 0); [lia|]. injection H as <-. split.
  - intros ->. unfold strategies_per_process, zlen in E. cbn [length Z.of_nat Z.mul sf_of_Z] in E.
    unfold Qlt in Hq. destruct q as [[|a|a] b]; cbn in Hq; try lia. cbn in E. injection E as <-. lia.
  - exists p. split; [reflexivity|]. split; [lia|reflexivity].
Qed.

Lemma chunks_concat {A} (l : list A) q chunks : (0 < q)%Q -> strategies_chunks l q = Ok chunks -> concat chunks = l.
Proof. intros Hq H. destruct (chunks_cut _ _ _ Hq H) as [Hl [p [_ [Hp ->]]]]. apply pieces_concat; assumption. Qed.

Lemma chunks_some {A} (l : list A) q chunks : (0 < q)%Q -> strategies_chunks l q = Ok chunks -> 1 <= zlen chunks.
Proof.
  intros Hq H. destruct (chunks_cut _ _ _ Hq H) as [Hl [p [_ [Hp ->]]]]. rewrite pieces_count by assumption.
  apply (piece_sizes l p Hl Hp).
Qed.

(** ** Local search keeps the configuration, whatever the instance. *)
Section Config.
Context (ar : arith).

Lemma same_config_refl (x : inst ar) : same_config ar x x.
Proof. split; [destruct x as [[] ? ? ? ? ?]; reflexivity|]. split; reflexivity. Qed.

Lemma same_config_trans (x y z : inst ar) : same_config ar x y -> same_config ar y z -> same_config ar x z.
Proof.
  intros [H1 [H2 H3]] [H4 [H5 H6]]. split; [|split; congruence].
  rewrite H4 at 1. rewrite H1. destruct (in_pb x). reflexivity.
Qed.

Lemma set_solution_config (x : inst ar) sol objs : same_config ar x (set_solution x sol objs).
Proof. exact (same_config_refl x). Qed.

Lemma evaluate_config (x y : inst ar) seq : evaluate_node ar x seq = Ok y -> same_config ar x y.
Proof.
  unfold evaluate_node, inst_solve. destruct (solve ar (in_pb x) (Some seq)) as [[sol objs]|]; [|discriminate].
  cbn [bind]. intros [= <-]. apply set_solution_config.
Qed.

Lemma extra_config (x y : inst ar) : extra_node_operations ar x = Ok y -> same_config ar x y.
Proof.
  unfold extra_node_operations. destruct (pb_strip (in_pb x)).
  - destruct (new_height ar x) as [h|]; [|discriminate]. cbn [bind]. intros [= <-].
    split; [reflexivity|]. split; reflexivity.
  - intros [= <-]. apply same_config_refl.
Qed.

Context (oot : nat -> bool).
Notation node := (search_node (evaluate_node ar) (calculate_obj_value ar) (get_solution ar)
                    (compare_node ar) (extra_node_operations ar) (global_check ar) oot).
Notation loop := (search_loop (evaluate_node ar) (calculate_obj_value ar) (get_solution ar)
                    (compare_node ar) (extra_node_operations ar) (global_check ar) oot).

Lemma search_node_config swaps maxn : forall processed s s' nl,
  node swaps maxn processed s = Ok (s', nl) -> same_config ar (ls_st s) (ls_st s').
Proof.
  induction swaps as [|[i j] rest IH]; intros processed s s' nl H; cbn [search_node] in H.
  { injection H as <- _. apply same_config_refl. }
  destruct (evaluate_node ar (ls_st s) _) as [st1|] eqn:E1; [|discriminate]. cbn [bind] in H.
  destruct (calculate_obj_value ar st1) as [v|]; [|discriminate]. cbn [bind] in H.
  destruct (compare_node ar st1 v (ls_best s)) as [b|]; [|discriminate]. cbn [bind] in H.
  apply evaluate_config in E1. destruct b.
  - destruct (get_solution ar st1) as [ret|]; [|discriminate]. cbn [bind] in H.
    destruct (extra_node_operations ar st1) as [st2|] eqn:E2; [|discriminate]. cbn [bind ls_clk] in H.
    apply extra_config in E2. rewrite orb_true_r, orb_true_l in H. cbn [orb] in H.
    injection H as <- _. cbn [ls_st]. eapply same_config_trans; eassumption.
  - cbn [bind andb ls_clk ls_best] in H. destruct (oot (ls_clk s) || false || false || _).
    + injection H as <- _. exact E1.
    + apply IH in H. eapply same_config_trans; [exact E1|]. exact H.
Qed.

Lemma search_loop_config fuel swaps maxn : forall s s' log,
  loop fuel swaps maxn s = Ok (s', log) -> same_config ar (ls_st s) (ls_st s').
Proof.
  induction fuel as [|fuel IH]; intros s s' log H; [discriminate|]. cbn [search_loop] in H.
  destruct (node swaps maxn 0 s) as [[s1 nl]|] eqn:E; [|discriminate]. cbn [bind] in H.
  apply search_node_config in E. destruct (nl_found nl && _ && _).
  - destruct (loop fuel swaps maxn s1) as [[s2 nls]|] eqn:E2; [|discriminate]. cbn [bind] in H.
    injection H as <- _. eapply same_config_trans; [exact E|]. eapply IH. exact E2.
  - injection H as <- _. exact E.
Qed.
End Config.

Lemma get_init_config ar (x y : inst ar) ret : get_init_solution ar x = Ok (y, ret) -> same_config ar x y.
Proof.
  unfold get_init_solution, inst_solve. destruct (solve ar (in_pb x) None) as [[sol objs]|]; [|discriminate].
  cbn [bind]. destruct (get_solution ar _) as [r|]; [|discriminate]. cbn [bind]. intros [= <- <-].
  apply set_solution_config.
Qed.

Lemma local_search_fuel_config ar fuel ck limit throttle start x clk y clk' log :
  local_search_fuel ar fuel ck limit throttle start x clk = Ok (y, clk', log) -> same_config ar x y.
Proof.
  unfold local_search_fuel.
  destruct (match start with None => _ | Some t => _ end) as [st clk1]. intros H.
  set (x1 := if pb_strip (in_pb x) then set_hist x [pb_height (in_pb x)] else x) in *.
  assert (H0 : same_config ar x x1).
  { unfold x1. destruct (pb_strip (in_pb x)); exact (same_config_refl ar x). }
  unfold abstract_local_search in H.
  destruct (get_init_solution ar x1) as [[x2 ret]|] eqn:Ei; [|discriminate]. cbn [bind] in H.
  apply get_init_config in Ei.
  destruct (calculate_obj_value ar x2) as [best|]; [|discriminate]. cbn [bind] in H.
  match type of H with bind ?e _ = _ => destruct e as [[s nl]|] eqn:El; [|discriminate] end.
  cbn [bind] in H. apply search_loop_config in El. destruct (ls_ret s) as [sol objs].
  injection H as <- _ _. cbn [ls_st] in El.
  eapply same_config_trans; [exact H0|]. eapply same_config_trans; [exact Ei|].
  eapply same_config_trans; [exact El|]. apply set_solution_config.
Qed.

(** With enough nodes allowed, the search is [local_search]. *)
Lemma local_search_fuel_any ar fuel ck limit throttle start x clk y clk' log r :
  local_search_fuel ar fuel ck limit throttle start x clk = Ok (y, clk', log) ->
  local_search ar ck limit throttle start x clk = Ok r -> r = (y, clk', log).
Proof.
  unfold local_search, local_search_fuel.
  destruct (match start with None => _ | Some t => _ end) as [st clk1].
  set (x1 := if pb_strip (in_pb x) then set_hist x [pb_height (in_pb x)] else x).
  unfold abstract_local_search.
  destruct (get_init_solution ar x1) as [[x2 ret]|]; [|discriminate]. cbn [bind].
  destruct (calculate_obj_value ar x2) as [best|]; [|discriminate]. cbn [bind].
  match goal with |- bind ?e _ = _ -> bind ?e' _ = _ -> _ =>
    destruct e as [[s nl]|] eqn:E1; [|discriminate]; destruct e' as [[s' nl']|] eqn:E2; [|discriminate] end.
  cbn [bind]. apply (search_loop_more _ _ _ _ _ _ _ _ _ _ (ls_fuel ar x1)) in E1.
  apply (search_loop_more _ _ _ _ _ _ _ _ _ _ (fuel x1)) in E2.
  rewrite Nat.add_comm in E2. rewrite E1 in E2. injection E2 as <- <-.
  destruct (ls_ret s) as [sol objs]. intros [= <- <- <-] [= <-]. reflexivity.
Qed.

(** ** Objective values are not negative. *)
Lemma total_area_nonneg es : (forall e, In e es -> 0 < e_w e /\ 0 < e_l e) -> 0 <= total_area es.
Proof.
  induction es as [|e es IH]; intros H; [simpl; lia|]. cbn [total_area fold_right].
  fold (total_area es). assert (0 <= total_area es) by (apply IH; intros; apply H; right; assumption).
  destruct (H e (or_introl eq_refl)). unfold entry_area. nia.
Qed.

Section Nonneg.
Context (ar : arith) (V : value_laws ar).

Lemma objs_nonneg pb sequence sol objs cid obj :
  valid_problem pb -> known_sequence pb sequence -> solve ar pb sequence = Ok (sol, objs) ->
  In (cid, obj) objs -> nonneg ar obj.
Proof.
  intros Hv Hk H Hin.
  destruct (solve_run_of _ _ _ Hv Hk _ _ H) as [items [rest [_ [_ [_ Hrun]]]]].
  destruct (run_keys _ _ _ _ _ _ _ Hrun) as [Hk1 Hk2].
  assert (Hnd : NoDup (dkeys (pb_containers pb))) by apply Hv.
  assert (Ho : dget objs cid = Some obj) by (apply In_dget; [rewrite Hk2; assumption|assumption]).
  assert (Hcid : In cid (dkeys sol)).
  { rewrite Hk1, <- Hk2. apply dget_Some_In. eauto. }
  apply dget_Some_In in Hcid. destruct Hcid as [csol Hs].
  assert (Hpos : forall e, In e (entries csol) -> 0 < e_w e /\ 0 < e_l e).
  { intros e He. unfold entries in He. apply in_map_iff in He.
    destruct He as [[i e'] [<- He]].
    destruct (solve_inside ar pb sequence Hv Hk sol objs H cid csol i e' (dget_In _ _ _ Hs) He)
      as [c [_ Hi]]. unfold inside in Hi. cbn [snd]. lia. }
  destruct (container_obj _ _ Hv Hk _ _ _ _ _ _ H Hs Ho) as [c [its [its' [Hc [[Hw Hl] [Hi [_ Hb]]]]]]].
  destruct Hb as [-> -> -> -> | s Hne Hst Hstop Hinv -> Hcs ->]; [exact (vl_0 ar V)|].
  assert (Hes : placed_entries ar s = entries csol) by (rewrite Hcs; symmetry; apply entries_result).
  unfold final_obj. rewrite Hes. destruct (pb_strip pb).
  - apply (vl_div ar V); [apply total_area_nonneg; exact Hpos|nia].
  - assert (G : forall es (o : num ar), (forall e, In e es -> 0 < e_w e /\ 0 < e_l e) -> nonneg ar o ->
      nonneg ar (fold_left (fun o e => nadd ar o (ndiv ar (entry_area e) (dw c * container_length pb c))) es o)).
    { induction es as [|e es IH]; intros o He Hoo; [exact Hoo|]. cbn [fold_left]. apply IH.
      - intros e' He'. apply He. right. exact He'.
      - apply (vl_add ar V); [exact Hoo|]. apply (vl_div ar V); [|nia].
        destruct (He e (or_introl eq_refl)). unfold entry_area. nia. }
    apply G; [exact Hpos|exact (vl_0 ar V)].
Qed.

Lemma obj_value_nonneg cnum (l : list (num ar)) (v : num ar) : (forall q, In q l -> nonneg ar q) ->
  obj_value ar cnum l = Ok v -> nonneg ar v.
Proof.
  intros H. unfold obj_value. destruct (cnum =? 1).
  - intros [= <-]. apply (vl_sum ar V). assumption.
  - intros Hv. destruct (py_get l (-1)) as [a|e] eqn:E; [|discriminate Hv]. cbn [bind] in Hv.
    injection Hv as <-.
    assert (Ha : nonneg ar a).
    { apply H. unfold py_get in E. destruct (py_index (zlen l) (-1)) as [i|]; [|discriminate].
      destruct (nth_error l i) eqn:En; [|discriminate]. injection E as <-.
      eapply nth_error_In. exact En. }
    apply (vl_add ar V); [|apply (vl_07 ar V); exact Ha].
    apply (vl_sum ar V). intros q Hq. apply H. unfold py_slice in Hq.
    rewrite <- (firstn_skipn (slice_bound (zlen l) 0) l). apply in_or_app. right.
    rewrite <- (firstn_skipn (slice_bound (zlen l) (-1) - slice_bound (zlen l) 0)).
    apply in_or_app. left. exact Hq.
Qed.
End Nonneg.

(** ** The array *)
Section Array.
Context (ar : arith) (V : value_laws ar).

(** A value: not NaN. *)
Definition number (q : num ar) : Prop := at_most ar q q.

Lemma fold_max_spec (l : list (num ar)) : forall a, (forall q, In q (a :: l) -> number q) ->
  let m := fold_left (fun m q => if ngtb ar q m then q else m) l a in
  In m (a :: l) /\ (forall q, In q (a :: l) -> at_most ar q m).
Proof.
  induction l as [|b l IH]; intros a Hn; cbn [fold_left].
  - split; [left; reflexivity|]. intros q [<-|[]]. apply Hn. left. reflexivity.
  - assert (Na : number a) by (apply Hn; left; reflexivity).
    assert (Nb : number b) by (apply Hn; right; left; reflexivity).
    destruct (IH (if ngtb ar b a then b else a)) as [H1 H2].
    { intros q [<-|Hq]; [destruct (ngtb ar b a); assumption|]. apply Hn. right. right. exact Hq. }
    cbn zeta. split.
    + destruct H1 as [H1|H1]; [|right; right; assumption]. rewrite <- H1.
      destruct (ngtb ar b a); [right; left; reflexivity|left; reflexivity].
    + intros q [<-|[<-|Hq]].
      * eapply (vl_trans ar V); [|apply H2; left; reflexivity].
        destruct (ngtb ar b a) eqn:E; [apply (vl_below ar V); exact E|exact Na].
      * eapply (vl_trans ar V); [|apply H2; left; reflexivity].
        destruct (ngtb ar b a) eqn:E; [exact Nb|apply (not_below V); assumption].
      * apply H2. right. assumption.
Qed.

Lemma q_max_spec l : l <> [] -> (forall q, In q l -> number q) ->
  In (q_max l) l /\ forall q, In q l -> at_most ar q (q_max l).
Proof. destruct l as [|a t]; [contradiction|]. intros _ H. apply (fold_max_spec t a H). Qed.

Lemma q_index_spec l v : In v l -> number v -> (q_index l v < length l)%nat /\
  neqb ar (nth (q_index l v) l (num0 ar)) v = true /\
  forall k, (k < q_index l v)%nat -> neqb ar (nth k l (num0 ar)) v = false.
Proof.
  intros Hin Nv. induction l as [|a t IH]; [contradiction|]. cbn [q_index length].
  destruct (neqb ar a v) eqn:E.
  - split; [lia|]. split; [exact E|]. intros k Hk. lia.
  - destruct Hin as [->|H].
    { exfalso. assert (X : neqb ar v v = true) by (apply (vl_eq ar V); split; exact Nv). congruence. }
    destruct (IH H) as [I1 [I2 I3]]. split; [lia|]. split; [exact I2|].
    intros [|k] Hk; [exact E|]. apply I3. lia.
Qed.
End Array.
Arguments number {ar}.

Lemma upd_same {A} (f : nat -> A) i v : upd f i v i = v.
Proof. unfold upd. rewrite Nat.eqb_refl. reflexivity. Qed.
Lemma upd_other {A} (f : nat -> A) i v k : k <> i -> upd f i v k = f k.
Proof. intros H. unfold upd. destruct (Nat.eqb_spec k i); [contradiction|reflexivity]. Qed.

Lemma rmap_keys {A} (f : string -> result A) ks :
  forall l, rmap (fun k => bind (f k) (fun a => Ok (k, a))) ks = Ok l -> dkeys l = ks.
Proof.
  induction ks as [|k ks IH]; intros l H; cbn [rmap] in H; [injection H as <-; reflexivity|].
  destruct (f k) as [a|]; [|discriminate]. cbn [bind] in H.
  destruct (rmap _ ks) as [l'|] eqn:E; [|discriminate]. cbn [bind] in H. injection H as <-.
  cbn [dkeys map fst]. f_equal. apply IH. reflexivity.
Qed.

Lemma deepcopy_solution_keys pb sol sol' : deepcopy_solution pb sol = Ok sol' ->
  dkeys sol' = dkeys (pb_containers pb).
Proof.
  intros H. unfold deepcopy_solution in H.
  refine (rmap_keys (fun cid => bind (dget_r sol cid) (fun csol => Ok (deepcopy_container (pb_items pb) csol))) _ sol' _).
  etransitivity; [|exact H]. clear H. induction (dkeys (pb_containers pb)) as [|k ks IH]; [reflexivity|].
  cbn [rmap]. rewrite IH. destruct (dget_r sol k); reflexivity.
Qed.

Lemma get_solution_facts ar (x : inst ar) ret : get_solution ar x = Ok ret ->
  dkeys (fst ret) = dkeys (pb_containers (in_pb x)) /\ snd ret = in_objs x.
Proof.
  unfold get_solution. destruct (deepcopy_solution (in_pb x) (in_sol x)) as [sol|] eqn:E; [|discriminate].
  cbn [bind]. intros [= <-]. cbn [fst snd]. split; [eapply deepcopy_solution_keys; exact E|].
  unfold copy_objs. apply map_id.
Qed.

Section Arithmetic.
Context {ar : arith} (laws : arith_laws ar) (V : value_laws ar).

(** ** The workers' instance *)
Record child_ok (x y : inst ar) : Prop := {
  ch_valid : valid_problem (in_pb y);
  ch_cnum : in_cnum y = zlen (pb_containers (in_pb y));
  ch_keys : dkeys (pb_containers (in_pb y)) = dkeys (pb_containers (in_pb x));
  ch_items : pb_items (in_pb y) = pb_items (in_pb x);
  ch_strategy : pb_strategy (in_pb y) = default_strategy;
  ch_strip : pb_strip (in_pb y) = pb_strip (in_pb x);
  ch_min : in_min y = in_min x;
  ch_same_cnum : counted ar x -> in_cnum y = in_cnum x;
  ch_widths : forall cid c c', dget (pb_containers (in_pb x)) cid = Some c ->
     dget (pb_containers (in_pb y)) cid = Some c' -> dw c' = dw c;
  ch_containers : pb_strip (in_pb x) = false -> pb_containers (in_pb y) = pb_containers (in_pb x);
  ch_height : pb_strip (in_pb x) = true -> forall c, dget (pb_containers (in_pb x)) strip_id = Some c ->
     pb_height (in_pb y) = 10 * dw c;
  ch_strip_keys : pb_strip (in_pb x) = true -> dkeys (pb_containers (in_pb y)) = [strip_id]
}.

Lemma child_facts x y : valid_inst ar x -> child_inst x = Ok y -> child_ok x y.
Proof.
  intros Hv Hc. destruct Hv as [[V1 [V2 [V3 [V4 V5]]]] V7]. unfold child_inst in Hc.
  destruct (pb_strip (in_pb x)) eqn:Es.
  - destruct (V7 eq_refl) as [V8 V9].
    destruct (dget (pb_containers (in_pb x)) strip_id) as [c|] eqn:Ec;
      [|unfold dget_r in Hc; rewrite Ec in Hc; discriminate].
    unfold dget_r in Hc. rewrite Ec in Hc. cbn [bind] in Hc. injection Hc as <-.
    assert (Hw : 0 < dw c) by (apply dget_In in Ec; destruct V2 as [_ V2]; apply (V2 _ _ Ec)).
    constructor; cbn [in_pb in_cnum in_min pb_containers pb_items pb_rotation pb_strategy pb_strip pb_height];
      try reflexivity; try assumption; try (rewrite Es; reflexivity).
    + split; [exact V1|]. split; [|split; [exact V3|split; [discriminate|]]].
      * split; [repeat constructor; intros []|]. intros i d [[= <- <-]|[]]. cbn [dw dl].
        split; [assumption|reflexivity].
      * intros _. change (0 < 10 * dw c). lia.
    + rewrite V8. reflexivity.
    + intros V6. red in V6. rewrite V6. unfold zlen. apply (f_equal (@length _)) in V8. unfold dkeys in V8. rewrite map_length in V8.
      rewrite V8. reflexivity.
    + intros cid c0 c' H1 H2. apply dget_In in H2. destruct H2 as [[= E Ed]|[]]. subst cid c'.
      rewrite Ec in H1. injection H1 as <-. reflexivity.
    + congruence.
    + intros _ c' Hc'. rewrite Ec in Hc'. injection Hc' as <-. reflexivity.
  - injection Hc as <-.
    constructor; cbn [in_pb in_cnum in_min pb_containers pb_items pb_rotation pb_strategy pb_strip pb_height];
      try reflexivity; try congruence.
    + split; [exact V1|]. split; [exact V2|]. split; [exact V3|]. split; [exact V4|]. discriminate.
Qed.

Lemma child_rotation (x y : inst ar) : child_inst x = Ok y -> pb_rotation (in_pb y) = pb_rotation (in_pb x).
Proof.
  unfold child_inst. destruct (pb_strip (in_pb x)); [|intros [= <-]; reflexivity].
  destruct (dget_r _ _) as [c|]; [|discriminate]. cbn [bind]. intros [= <-]. reflexivity.
Qed.

Section Child.
Context (x y : inst ar) (Hv : valid_inst ar x) (F : child_ok x y).

Lemma child_loose : loose ar y.
Proof.
  split; [exact (ch_valid _ _ F)|]. rewrite (ch_strip _ _ F). intros Es. split; [apply (ch_strip_keys _ _ F Es)|].
  intros m Hm. rewrite (ch_min _ _ F) in Hm. destruct Hv as [_ VV]. destruct (VV Es) as [_ V9]. apply V9 in Hm. lia.
Qed.

Lemma child_valid : (pb_strip (in_pb x) = true -> forall m c, in_min x = Some m ->
    dget (pb_containers (in_pb x)) strip_id = Some c -> m <= 10 * dw c) -> valid_inst ar y.
Proof.
  intros H. split; [exact (ch_valid _ _ F)|].
  rewrite (ch_strip _ _ F). intros Es. split; [apply (ch_strip_keys _ _ F Es)|]. intros m Hm.
  rewrite (ch_min _ _ F) in Hm. destruct Hv as [_ VV]. destruct (VV Es) as [V8 V9].
  destruct (dget (pb_containers (in_pb x)) strip_id) as [c|] eqn:Ec.
  - rewrite (ch_height _ _ F Es c Ec). specialize (H Es m c Hm eq_refl). specialize (V9 m Hm). lia.
  - apply dget_None in Ec. rewrite V8 in Ec. exfalso. apply Ec. left. reflexivity.
Qed.

(** The initial construction of a worker. *)
Record child_start (x0 : inst ar) (ret0 : solution * objvals ar) (v0 : num ar) : Prop := {
  cs_init : get_init_solution ar y = Ok (x0, ret0);
  cs_calc : calculate_obj_value ar x0 = Ok v0;
  cs_nonneg : (nonneg ar (v0));
  cs_value : obj_value ar (in_cnum y) (dvals (snd ret0)) = Ok v0;
  cs_keys : dkeys (fst ret0) = dkeys (pb_containers (in_pb y));
  cs_made : made_by (in_pb y) (pb_height (in_pb y)) ret0
}.

Lemma child_start_exists : exists x0 ret0 v0, child_start x0 ret0 v0.
Proof.
  pose (z := mkInst (in_pb y) None (in_cnum y) (in_sol y) (in_objs y) (in_hist y)).
  assert (Hvz : valid_inst ar z).
  { split; [exact (ch_valid _ _ F)|]. cbn [z in_pb in_min]. rewrite (ch_strip _ _ F).
    intros Es. split; [apply (ch_strip_keys _ _ F Es)|discriminate]. }
  assert (Hg : good ar z z).
  { split; [|apply hok_start; assumption]. split; [symmetry; apply pb_height_same|]. split; reflexivity. }
  destruct (evaluate_ok ar z Hvz z _ Hg (Permutation_refl _)) as [sol [objs [v [Hcs [Hval [He Hcalc]]]]]].
  pose proof (get_solution_ok ar z Hvz z _ sol objs Hg (Permutation_refl _) Hcs) as Hget.
  pose proof (copied_same ar z Hvz _ _ _ _ (hok_start ar z Hvz) (Permutation_refl _) Hcs) as Hsame.
  assert (Hsolve : solve ar (in_pb y) (Some (dkeys (pb_items (in_pb y)))) = Ok (sol, objs)).
  { unfold constructed in Hcs. cbn [z in_pb] in Hcs. rewrite pb_height_same in Hcs. exact Hcs. }
  assert (Hnd : NoDup (dkeys (pb_items (in_pb y)))) by apply (ch_valid _ _ F).
  assert (Hsn : solve ar (in_pb y) None = Ok (sol, objs)) by (rewrite solve_default_sequence; assumption).
  exists (set_solution y sol objs), (copied ar z sol, objs), v. constructor.
  - unfold get_init_solution, inst_solve. rewrite Hsn. cbn [bind].
    change (get_solution ar (set_solution y sol objs)) with (get_solution ar (set_solution z sol objs)).
    rewrite Hget. reflexivity.
  - exact Hval.
  - eapply (obj_value_nonneg ar V); [|exact Hval]. intros q Hq. unfold dvals in Hq. apply in_map_iff in Hq.
    destruct Hq as [[cid o] [<- Hq]]. cbn [snd].
    eapply (objs_nonneg ar V); [exact (ch_valid _ _ F)| |exact Hsn|exact Hq]. exact I.
  - exact Hval.
  - unfold copied. cbn [z in_pb fst]. unfold dkeys at 1. rewrite map_map, map_id. reflexivity.
  - exists (dkeys (pb_items (in_pb y))), sol. split; [apply Permutation_refl|].
    rewrite pb_height_same. split; [exact Hsolve|exact Hsame].
Qed.
End Child.

(** ** What holds of a worker at every moment *)
Section Workers.
Context (u : setup ar) (may_raise may_die : nat -> Prop).
Let x := su_parent u.
Let y := su_child u.
Context (Hv : valid_inst ar x) (Hok : child_ok x y).
Context (x0 : inst ar) (ret0 : solution * objvals ar) (v0 : num ar) (Hs0 : child_start y x0 ret0 v0).

(** The local search that found [v] with the strategy [g]. *)
Definition found_by (i : nat) (g : list pclass) (v : num ar) : Prop :=
  exists z clk z' clk', same_but_strategy ar y z /\ pb_strategy (in_pb z) = g /\
    hloose y (pb_height (in_pb z)) /\
    worker_search u i z clk z' clk' /\ calculate_obj_value ar z' = Ok v.

(** [w] after the strategies logged in [l]. *)
Record wgood (l : list (list pclass * num ar)) (w : wst ar) : Prop := {
  wg_config : same_but_strategy ar y (w_inst w);
  wg_keys : dkeys (fst (w_ret w)) = dkeys (pb_containers (in_pb y));
  wg_value : obj_value ar (in_cnum y) (dvals (snd (w_ret w))) = Ok (w_best w);
  wg_which : match w_strategy w with
             | None => w_best w = v0 /\ w_ret w = ret0
             | Some g => In (g, w_best w) l /\ (below ar (v0) (w_best w))
             end;
  wg_max : forall g v, In (g, v) l -> (at_most ar (v) (w_best w));
  wg_loose : loose ar (w_inst w) /\ hloose y (pb_height (in_pb (w_inst w))) /\
     exists h, hloose y h /\
       made_by (pb_with_strategy (in_pb y)
                  (match w_strategy w with None => default_strategy | Some g => g end)) h (w_ret w)
}.

(** [w]'s instance holds the result [v] of a search with [g]. *)
Definition holds_result (w : wst ar) (g : list pclass) (v : num ar) : Prop :=
  calculate_obj_value ar (w_inst w) = Ok v /\
  exists sol' h, get_solution ar (w_inst w) = Ok (sol', in_objs (w_inst w)) /\
     hloose y h /\
     made_by (pb_with_strategy (in_pb y) g) h (sol', in_objs (w_inst w)).

Definition slot_ok (a : num ar) (w : wst ar) : Prop :=
  match w_strategy w with None => a = num0 ar | Some _ => a = w_best w end.

(** What a slot of the array can hold. *)
Definition slot_value (q : num ar) : Prop :=
  q = num0 ar \/ q = nm1 ar \/ ((exists k g, found_by k g q) /\ nonneg ar q).

(** A result delivered without failing: all the strategies of the chunk were searched, unless
    time ran out or some search reached infinity. *)
Definition good_out (i : nat) (a : num ar) (l : list (list pclass * num ar)) (o : output ar) : Prop :=
  exists w, o = output_of w /\ wgood l w /\ slot_ok a w /\
    (map fst l = chunk u i \/ (exists n, over_time (su_clock u i) (su_start u) (su_limit u) n = true) \/
     exists k g v, found_by k g v /\ nge_inf ar v = true).

Definition may_fail (i : nat) : Prop := may_raise i \/ su_forced u i = true.
Definition failed_out (i : nat) (a : num ar) (o : output ar) : Prop :=
  may_fail i /\ a = nm1 ar /\ o = failure_output.

Definition pinv (i : nat) (a : num ar) (p : phase ar) (q : option (output ar)) (l : list (list pclass * num ar)) : Prop :=
  (forall g v, In (g, v) l -> found_by i g v) /\ (exists rest, chunk u i = map fst l ++ rest) /\
  match p with
  | PhIdle | PhBegin => a = num0 ar /\ q = None /\ l = []
  | PhLoop w rest =>
      wgood l w /\ slot_ok a w /\ q = None /\ chunk u i = map fst l ++ rest
  | PhCheck w rest opt =>
      wgood l w /\ slot_ok a w /\ q = None /\ chunk u i = map fst l ++ rest /\ slot_value opt
  | PhRead w g v rest seen =>
      (exists l0, l = l0 ++ [(g, v)] /\ wgood l0 w) /\ holds_result w g v /\ slot_ok a w /\
      q = None /\ chunk u i = map fst l ++ rest /\ (length seen <= workers u)%nat /\
      forall q, In q seen -> slot_value q
  | PhWrite w g v rest opt =>
      (exists l0, l = l0 ++ [(g, v)] /\ wgood l0 w) /\ holds_result w g v /\ slot_ok a w /\
      q = None /\ chunk u i = map fst l ++ rest /\ (below ar (w_best w) (v)) /\ slot_value opt
  | PhKeep w g v rest opt =>
      (exists l0, l = l0 ++ [(g, v)] /\ wgood l0 w) /\ holds_result w g v /\ a = v /\
      q = None /\ chunk u i = map fst l ++ rest /\ (below ar (w_best w) (v)) /\ slot_value opt
  | PhPut o => good_out i a l o /\ q = None
  | PhFail => may_fail i /\ q = None /\ nonneg ar a /\ slot_value a
  | PhFailPut => may_fail i /\ a = nm1 ar /\ q = None
  | PhFlush o => (good_out i a l o \/ failed_out i a o) /\ q = None
  | PhExit => exists o, q = Some o /\ (good_out i a l o \/ failed_out i a o)
  | PhKilled => may_die i /\ q = None /\ ((nonneg ar a /\ slot_value a) \/ (a = nm1 ar /\ may_fail i))
  end.

Lemma v0_nonneg : (nonneg ar (v0)).
Proof. exact (cs_nonneg _ _ _ _ Hs0). Qed.

Lemma wgood_best l w : wgood l w -> (at_most ar (v0) (w_best w)).
Proof.
  intros H. pose proof (wg_which _ _ H) as W. destruct (w_strategy w).
  - apply (vl_below ar V). apply W.
  - destruct W as [-> _]. apply (nonneg_refl V). exact v0_nonneg.
Qed.

Lemma slot_nonneg l w a : wgood l w -> slot_ok a w -> (nonneg ar (a)).
Proof.
  intros H. unfold slot_ok. pose proof (wgood_best _ _ H) as W. destruct (w_strategy w); intros ->.
  - exact (nonneg_trans V _ _ v0_nonneg W).
  - exact (vl_0 ar V).
Qed.

Lemma wgood_clk l w n : wgood l w -> wgood l (mkW (w_inst w) (w_best w) (w_ret w) (w_strategy w) n).
Proof. intros [H1 H2 H3 H4 H5 H6]. constructor; assumption. Qed.

Lemma wgood_more l w g v : wgood l w -> (at_most ar (v) (w_best w)) -> wgood (l ++ [(g, v)]) w.
Proof.
  intros [H1 H2 H3 H4 H5 H6] Hle. constructor; try assumption.
  - destruct (w_strategy w); [|assumption]. destruct H4 as [H4 H4']. split; [|assumption].
    apply in_or_app. left. assumption.
  - intros g' v' Hi. apply in_app_or in Hi. destruct Hi as [Hi|[[= <- <-]|[]]]; [eauto|assumption].
Qed.

Lemma wgood_improved l w g v ret n : wgood l w -> (below ar (w_best w) (v)) -> holds_result w g v ->
  get_solution ar (w_inst w) = Ok ret ->
  wgood (l ++ [(g, v)]) (mkW (w_inst w) v ret (Some g) n).
Proof.
  intros H Hlt [Hcalc Hval] Hget. pose proof (wgood_best _ _ H) as Hb. destruct H as [H1 H2 H3 H4 H5 H6].
  destruct H1 as [C1 [C2 C3]].
  assert (Hpbc : pb_containers (in_pb (w_inst w)) = pb_containers (in_pb y)) by (rewrite C1; reflexivity).
  destruct (get_solution_facts _ _ _ Hget) as [G1 G2].
  constructor; cbn [w_inst w_best w_ret w_strategy].
  - split; [assumption|]. split; assumption.
  - rewrite G1, Hpbc. reflexivity.
  - rewrite G2, <- C3. exact Hcalc.
  - split; [apply in_or_app; right; left; reflexivity|]. eapply (at_most_below V); eassumption.
  - intros g' v' Hi. apply in_app_or in Hi. destruct Hi as [Hi|[[= <- <-]|[]]]; [|apply (below_num V _ _ Hlt)].
    apply (vl_below ar V). eapply (at_most_below V); [|exact Hlt]. eauto.
  - destruct H6 as [V1 [V2 _]]. split; [assumption|]. split; [assumption|].
    destruct Hval as [sol' [h [G3 [G4 G5]]]]. rewrite Hget in G3. injection G3 as ->. eauto.
Qed.

Lemma wgood_start : wgood [] (mkW x0 v0 ret0 None 0).
Proof.
  pose proof (get_init_config _ _ _ _ (cs_init _ _ _ _ Hs0)) as C.
  assert (Hpb : in_pb x0 = in_pb y).
  { pose proof (cs_init _ _ _ _ Hs0) as Hi. unfold get_init_solution, inst_solve in Hi.
    destruct (solve ar (in_pb y) None) as [[sol objs]|]; [|discriminate Hi]. cbn [bind] in Hi.
    destruct (get_solution ar _) as [r|]; [|discriminate Hi]. cbn [bind] in Hi. injection Hi as <- _.
    reflexivity. }
  pose proof (child_loose x y Hv Hok) as Ly.
  pose proof (hloose_start ar y Ly) as Hhw.
  assert (Hds : pb_with_strategy (in_pb y) default_strategy = in_pb y).
  { rewrite <- (ch_strategy _ _ Hok). destruct (in_pb y); reflexivity. }
  destruct C as [C1 [C2 C3]].
  constructor; cbn [w_inst w_best w_ret w_strategy].
  - split; [|split; assumption]. rewrite Hpb. destruct (in_pb y); reflexivity.
  - exact (cs_keys _ _ _ _ Hs0).
  - exact (cs_value _ _ _ _ Hs0).
  - split; reflexivity.
  - intros g v [].
  - split.
    + destruct Ly as [V1 V3]. split; [rewrite Hpb; exact V1|].
      rewrite Hpb, C2. exact V3.
    + split; [rewrite Hpb; auto|]. exists (pb_height (in_pb y)). split; [auto|]. rewrite Hds.
      exact (cs_made _ _ _ _ Hs0).
Qed.

Lemma searched_config w g z clk' n : same_but_strategy ar y (w_inst w) ->
  forall i, worker_search u i (set_strategy (w_inst w) g) n z clk' ->
  same_but_strategy ar y (set_strategy (w_inst w) g) /\ same_but_strategy ar y z.
Proof.
  intros [C1 [C2 C3]] i [fuel [log H]]. apply local_search_fuel_config in H. destruct H as [D1 [D2 D3]].
  assert (Hcy : same_but_strategy ar y (set_strategy (w_inst w) g)).
  { split; [|split; assumption]. cbn [in_pb set_strategy pb_strategy pb_height pb_with_strategy].
    rewrite C1. reflexivity. }
  split; [exact Hcy|]. destruct Hcy as [E1 [E2 E3]]. split; [|split; congruence].
  rewrite D1 at 1. rewrite E1.
  assert (Hstr : pb_strategy (in_pb z) = g) by (rewrite D1; reflexivity).
  rewrite Hstr. reflexivity.
Qed.

(** One search step of a worker. *)
Lemma wgood_search i l w g z clk' v : wgood l w ->
  worker_search u i (set_strategy (w_inst w) g) (w_clk w) z clk' -> calculate_obj_value ar z = Ok v ->
  let w' := mkW z (w_best w) (w_ret w) (w_strategy w) clk' in
  wgood l w' /\ holds_result w' g v /\ found_by i g v.
Proof.
  intros H Hw Hcalc w'. destruct (searched_config w g z clk' _ (wg_config _ _ H) i Hw) as [Hcy Hcz].
  pose proof (wg_loose _ _ H) as [V1 [V2 V3]].
  pose proof (wg_config _ _ H) as [D1 [D2 _]].
  assert (Hstrip : pb_strip (in_pb (w_inst w)) = pb_strip (in_pb y)) by (rewrite D1; reflexivity).
  assert (Hin : forall h, hloose (set_strategy (w_inst w) g) h -> hloose y h).
  { intros h. unfold hloose, top in *. cbn [in_pb in_min set_strategy pb_strip pb_height pb_with_strategy].
    rewrite Hstrip, D2. destruct (pb_strip (in_pb y)); [|congruence].
    unfold min_height_max in *. destruct (in_min y); lia. }
  pose proof Hw as [fuel [log Hrun]].
  assert (Hls : loose ar (set_strategy (w_inst w) g)) by exact V1.
  destruct (loose_search_run ar laws _ _ _ _ _ _ _ _ _ _ Hls Hrun) as [L1 [_ [L3 [sol' [Hget [h [Hh Hmade]]]]]]].
  assert (Hres : exists sol' h, get_solution ar z = Ok (sol', in_objs z) /\ hloose y h /\
      made_by (pb_with_strategy (in_pb y) g) h (sol', in_objs z)).
  { exists sol', h. split; [exact Hget|]. split; [apply Hin; exact Hh|].
    destruct Hmade as [sq [sl [M1 [M2 M3]]]]. exists sq, sl. cbn [fst snd] in *.
    cbn [in_pb set_strategy] in M1, M2. rewrite D1 in M1, M2.
    split; [exact M1|]. split; [exact M2|assumption]. }
  split; [|split].
  - destruct H as [H1 H2 H3 H4 H5 H6]. constructor; try assumption. split; [exact L1|].
    split; [apply Hin; exact L3|]. exact V3.
  - split; [exact Hcalc|]. exact Hres.
  - exists (set_strategy (w_inst w) g), (w_clk w), z, clk'. split; [exact Hcy|]. split; [reflexivity|].
    split; [exact V2|]. split; [exact Hw|exact Hcalc].
Qed.

Lemma in_try_slot i a p q l : pinv i a p q l -> in_try p = true -> q = None /\ (nonneg ar (a)).
Proof.
  intros [_ [_ Hw]] P. destruct p; try discriminate P.
  - destruct Hw as [-> [W2 W3]]. split; [assumption|]. exact (vl_0 ar V).
  - destruct Hw as [W1 [W2 [W3 W4]]]. split; [assumption|]. eapply slot_nonneg; eassumption.
  - destruct Hw as [[l0 [_ W1]] [W2 [W3 [W4 W5]]]]. split; [assumption|]. eapply slot_nonneg; eassumption.
  - destruct Hw as [[l0 [_ W1]] [W2 [W3 [W4 W5]]]]. split; [assumption|]. eapply slot_nonneg; eassumption.
  - destruct Hw as [[l0 [_ W1]] [W2 [W3 [W4 [_ [W5 _]]]]]]. split; [assumption|].
    rewrite W3. eapply (nonneg_trans V); [exact v0_nonneg|].
    apply (vl_below ar V). eapply (at_most_below V); [exact (wgood_best _ _ W1)|exact W5].
  - destruct Hw as [W1 [W2 [W3 W4]]]. split; [assumption|]. eapply slot_nonneg; eassumption.
  - destruct Hw as [[w [_ [W1 [W2 _]]]] W3]. split; [assumption|]. eapply slot_nonneg; eassumption.
Qed.

(** The value of a search is a number. *)
Lemma holds_nonneg w g v : holds_result w g v -> nonneg ar v.
Proof.
  intros [Hc [sol' [h [_ [Hh [sq [sl [M1 [M2 _]]]]]]]]]. cbn [snd in_pb pb_items pb_with_strategy pb_with_height] in M1, M2.
  eapply (obj_value_nonneg ar V); [|exact Hc]. intros q Hq. unfold dvals in Hq. apply in_map_iff in Hq.
  destruct Hq as [[cid o] [<- Hq]]. cbn [snd].
  eapply (objs_nonneg ar V); [| |exact M2|exact Hq].
  - destruct (ch_valid _ _ Hok) as [V1 [V2 [V3 [V4 V5]]]]. repeat (split; [assumption|]).
    cbn [pb_strip pb_height pb_with_height pb_with_strategy]. intros E. unfold hloose in Hh. rewrite E in Hh. lia.
  - intros k Hk. cbn [pb_items pb_with_height pb_with_strategy]. eapply Permutation_in; [exact M1|exact Hk].
Qed.

Lemma slot_value_inf q : slot_value q -> nge_inf ar q = true -> exists k g v, found_by k g v /\ nge_inf ar v = true.
Proof.
  intros [->|[->|[[k [g H]] _]]] Hq.
  - rewrite (vl_0_inf ar V) in Hq. discriminate Hq.
  - pose proof (law_ge_inf ar laws _ (num0 ar) Hq) as C. pose proof (vl_m1 ar V) as M. unfold below in M. congruence.
  - eauto.
Qed.

Lemma slot_value_number q : slot_value q -> number q.
Proof.
  intros [->|[->|[_ H]]].
  - apply (nonneg_refl V). exact (vl_0 ar V).
  - exact (m1_num V).
  - exact (nonneg_refl V _ H).
Qed.

Lemma slot_value_max l : (forall q, In q l -> slot_value q) -> slot_value (q_max l).
Proof.
  intros H. destruct l as [|a t]; [left; reflexivity|]. apply H. apply (q_max_spec ar V); [discriminate|].
  intros q Hq. apply slot_value_number. apply H. exact Hq.
Qed.

Lemma slot_ok_value i l w a : (forall g v, In (g, v) l -> found_by i g v) -> wgood l w -> slot_ok a w -> slot_value a.
Proof.
  intros Hl Hw Ha. pose proof (slot_nonneg _ _ _ Hw Ha) as Hn. pose proof (wg_which _ _ Hw) as W. unfold slot_ok in Ha.
  destruct (w_strategy w) as [g|]; rewrite Ha in *; [|left; reflexivity]. right. right. split; [|exact Hn].
  exists i, g. apply Hl. apply W.
Qed.

Definition winv (s : sys ar) (i : nat) : Prop := pinv i (s_array s i) (s_phase s i) (s_queue s i) (s_log s i).

Lemma worker_step_self i s s' : (forall k, (k < workers u)%nat -> slot_value (s_array s k)) ->
  slot_value (s_array s i) ->
  worker_step u may_raise may_die i s s' -> winv s i -> winv s' i.
Proof.
  intros Hsv Hsvi H Hw. unfold winv in *. destruct Hw as [Hlog [Hpre Hw]].
  destruct H as [s a r v P F E1 E2|s P F|s w g rest z clk v P S E|s w g v rest seen P L|s w g v rest seen P L
    |s w g v rest opt P|s w g v rest opt ret P E|s w rest opt P|s w P|s o P|s M P|s P|s P|s o P L|s M P];
    cbn [set_phase set_slot set_queue add_log s_array s_phase s_queue s_log];
    rewrite ?upd_same; try rewrite P in Hw.
  - (* begin *)
    destruct Hw as [W1 [W2 W3]]. split; [assumption|]. split; [assumption|].
    pose proof (cs_init _ _ _ _ Hs0) as I1. fold y in E1. rewrite E1 in I1. injection I1 as -> ->.
    pose proof (cs_calc _ _ _ _ Hs0) as I2. rewrite E2 in I2. injection I2 as ->.
    rewrite W3. split; [apply wgood_start|]. split; [exact W1|]. split; [assumption|reflexivity].
  - destruct Hw as [W1 [W2 W3]]. split; [assumption|]. split; [assumption|]. split; [right; assumption|].
    split; [assumption|]. split; [rewrite W1; exact (vl_0 ar V)|exact Hsvi].
  - (* search *)
    destruct Hw as [W1 [W2 [W3 W4]]]. destruct (wgood_search i _ _ _ _ _ _ W1 S E) as [G1 [G2 G3]].
    assert (Hch : chunk u i = map fst (s_log s i ++ [(g, v)]) ++ rest).
    { rewrite map_app, <- app_assoc. exact W4. }
    split; [|split; [eauto|]].
    { intros g' v' Hi. apply in_app_or in Hi. destruct Hi as [Hi|[[= <- <-]|[]]]; [auto|assumption]. }
    split; [eauto|]. split; [exact G2|]. split; [exact W2|]. split; [assumption|]. split; [assumption|].
    split; [simpl; lia|]. intros q [].
  - destruct Hw as [W1 [W2 [W3 [W4 [W5 [W6 W7]]]]]]. split; [assumption|]. split; [assumption|].
    split; [assumption|]. split; [assumption|]. split; [assumption|]. split; [assumption|]. split; [assumption|].
    split; [rewrite app_length; simpl; lia|]. intros q Hq. apply in_app_or in Hq.
    destruct Hq as [Hq|[<-|[]]]; [auto|]. apply Hsv. exact L.
  - (* compare *)
    destruct Hw as [W1 [W2 [W3 [W4 [W5 [W6 W7]]]]]]. split; [assumption|]. split; [assumption|].
    pose proof (slot_value_max seen W7) as Hopt.
    unfold check_solution. destruct (ngtb ar v (w_best w)) eqn:Eb.
    + auto 10.
    + destruct W1 as [l0 [El W1]]. rewrite El in *.
      assert (Hle : at_most ar v (w_best w)).
      { apply (not_below V); [|apply (nonneg_refl V); eapply holds_nonneg; exact W2|exact Eb].
        apply (nonneg_refl V). eapply (nonneg_trans V); [exact v0_nonneg|]. exact (wgood_best _ _ W1). }
      split; [apply wgood_more; assumption|]. auto.
  - destruct Hw as [W1 [W2 [W3 [W4 [W5 W6]]]]]. split; [assumption|]. split; [assumption|]. auto 10.
  - (* keep *)
    destruct Hw as [W1 [W2 [W3 [W4 [W5 W6]]]]]. split; [assumption|]. split; [assumption|].
    destruct W6 as [W6 W7]. destruct W1 as [l0 [El W1]].
    assert (Hfound : found_by i g v) by (apply Hlog; rewrite El; apply in_or_app; right; left; reflexivity).
    assert (Hg : wgood (s_log s i) (mkW (w_inst w) v ret (Some g) (w_clk w))) by (rewrite El; apply wgood_improved; assumption).
    unfold global_check. destruct (nge_inf ar v) eqn:Einf.
    + split; [|assumption]. eexists. split; [reflexivity|]. split; [exact Hg|]. split; [exact W3|]. right. right. eauto.
    + split; [exact Hg|]. split; [exact W3|]. auto.
  - (* check *)
    destruct Hw as [W1 [W2 [W3 [W4 W5]]]]. split; [assumption|]. split; [assumption|].
    unfold global_check.
    destruct (over_time (su_clock u i) (su_start u) (su_limit u) (w_clk w) || nge_inf ar opt) eqn:Eo.
    + split; [|assumption]. eexists. split; [reflexivity|]. split; [apply wgood_clk; exact W1|]. split; [exact W2|].
      right. apply orb_true_iff in Eo. destruct Eo as [Eo|Eo]; [left; eauto|right]. eapply slot_value_inf; eassumption.
    + split; [apply wgood_clk; exact W1|]. split; [exact W2|]. auto.
  - destruct Hw as [W1 [W2 [W3 W4]]]. split; [assumption|]. split; [assumption|]. split; [|assumption].
    exists w. split; [reflexivity|]. split; [assumption|]. split; [assumption|]. left. rewrite app_nil_r in W4. congruence.
  - destruct Hw as [W1 W2]. split; [assumption|]. split; [assumption|]. auto.
  - (* raise *)
    split; [assumption|]. split; [assumption|]. split; [left; assumption|].
    destruct (in_try_slot i (s_array s i) (s_phase s i) (s_queue s i) (s_log s i)) as [N1 N2]; [|exact P|auto].
    split; [exact Hlog|]. split; [exact Hpre|]. exact Hw.
  - destruct Hw as [W1 [W2 _]]. split; [assumption|]. split; [assumption|]. split; [assumption|]. split; [reflexivity|assumption].
  - destruct Hw as [W1 [W2 W3]]. split; [assumption|]. split; [assumption|]. split; [|assumption]. right.
    split; [assumption|]. auto.
  - destruct Hw as [W1 W2]. split; [assumption|]. split; [assumption|]. eauto.
  - (* die *)
    split; [assumption|]. split; [assumption|]. split; [assumption|].
    assert (HN : forall p, in_try p = true -> s_phase s i = p -> s_queue s i = None /\ (nonneg ar (s_array s i))).
    { intros p Hp Ep. eapply in_try_slot; [|exact Hp]. split; [exact Hlog|]. split; [exact Hpre|].
      rewrite <- Ep. exact Hw. }
    destruct (s_phase s i); try discriminate P;
      try (edestruct HN as [N1 N2]; [|reflexivity|split; [exact N1|left; split; [exact N2|exact Hsvi]]]; reflexivity).
    + destruct Hw as [W1 [W2 W3]]. auto.
    + destruct Hw as [W1 [W2 W3]]. auto.
    + destruct Hw as [[G|[W1 [W2 _]]] W3]; (split; [assumption|]); [left; split; [|exact Hsvi]|right; auto].
      destruct G as [w [_ [G1 [G2 _]]]]. eapply slot_nonneg; eassumption.
Qed.

Lemma worker_step_other i s s' k : worker_step u may_raise may_die i s s' -> k <> i ->
  s_array s' k = s_array s k /\ s_phase s' k = s_phase s k /\ s_queue s' k = s_queue s k /\
  s_log s' k = s_log s k.
Proof.
  intros H Hk. destruct H; cbn [set_phase set_slot set_queue add_log s_array s_phase s_queue s_log];
    rewrite ?upd_other by assumption; auto.
Qed.

Lemma worker_step_parent i s s' : worker_step u may_raise may_die i s s' -> s_parent s' = s_parent s.
Proof. intros H. destruct H; reflexivity. Qed.

Definition ended (p : phase ar) : Prop := p = PhExit \/ p = PhKilled.

Lemma worker_step_live i s s' : worker_step u may_raise may_die i s s' ->
  s_phase s i <> PhIdle /\ ~ ended (s_phase s i) /\ s_phase s' i <> PhIdle.
Proof.
  assert (G : forall s p, s_phase s i = p -> p <> PhIdle -> ~ ended p -> s_phase s i <> PhIdle /\ ~ ended (s_phase s i)).
  { intros ? p ->. auto. }
  assert (N : forall p, p <> PhExit -> p <> PhKilled -> ~ ended p) by (intros p A B [C|C]; contradiction).
  intros H; destruct H; cbn [set_phase set_slot set_queue add_log s_array s_phase s_queue s_log] in *;
    rewrite ?upd_same;
    try (match goal with P : s_phase _ i = _ |- _ =>
      rewrite P; split; [discriminate|]; split; [apply N; discriminate|] end;
      repeat match goal with |- context [if ?b then _ else _] => destruct b end; discriminate).
  - match goal with P : in_try _ = true |- _ => destruct (s_phase s i); try discriminate P end;
      (split; [discriminate|]; split; [apply N; discriminate|discriminate]).
  - match goal with P : alive _ = true |- _ => destruct (s_phase s i); try discriminate P end;
      (split; [discriminate|]; split; [apply N; discriminate|discriminate]).
Qed.

Definition parent_inv (s : sys ar) : Prop :=
  match s_parent s with
  | PStart i => (i <= workers u)%nat /\ (forall k, (i <= k < workers u)%nat -> s_phase s k = PhIdle) /\
                (forall k, (k < i)%nat -> s_phase s k <> PhIdle)
  | PJoin i => (i <= workers u)%nat /\ (forall k, (k < workers u)%nat -> s_phase s k <> PhIdle) /\
               (forall k, (k < i)%nat -> ended (s_phase s k))
  | PGet j => (forall k, (k < workers u)%nat -> ended (s_phase s k)) /\ decide (array_list u s) = PGet j
  | p => (forall k, (k < workers u)%nat -> ended (s_phase s k)) /\
         (decide (array_list u s) = p \/
          exists j o, decide (array_list u s) = PGet j /\ s_queue s j = Some o /\ take u o = p)
  end.

Definition sinv (s : sys ar) : Prop :=
  (forall i, (i < workers u)%nat -> winv s i) /\ parent_inv s.

Lemma winv_slot s i : winv s i -> slot_value (s_array s i).
Proof.
  intros [Hl [_ Hw]].
  assert (G : forall o, good_out i (s_array s i) (s_log s i) o -> slot_value (s_array s i)).
  { intros o [w [_ [G1 [G2 _]]]]. eapply slot_ok_value; eassumption. }
  assert (N : forall l0 g v, s_log s i = l0 ++ [(g, v)] -> forall g' v', In (g', v') l0 -> found_by i g' v').
  { intros l0 g v E g' v' Hin. apply Hl. rewrite E. apply in_or_app. left. exact Hin. }
  destruct (s_phase s i) as [| |w rest|w g v rest seen|w g v rest opt|w g v rest opt|w rest opt|o| | |o| |].
  - left. apply Hw.
  - left. apply Hw.
  - destruct Hw as [W1 [W2 _]]. eapply slot_ok_value; eassumption.
  - destruct Hw as [[l0 [E W1]] [_ [W2 _]]]. eapply slot_ok_value; [|exact W1|exact W2]. eapply N. exact E.
  - destruct Hw as [[l0 [E W1]] [_ [W2 _]]]. eapply slot_ok_value; [|exact W1|exact W2]. eapply N. exact E.
  - destruct Hw as [[l0 [E W1]] [W2 [W3 _]]]. rewrite W3. right. right. split; [|eapply holds_nonneg; exact W2].
    exists i, g. apply Hl. rewrite E. apply in_or_app. right. left. reflexivity.
  - destruct Hw as [W1 [W2 _]]. eapply slot_ok_value; eassumption.
  - destruct Hw as [W1 _]. eapply G. exact W1.
  - destruct Hw as [_ [_ [_ W]]]. exact W.
  - right. left. apply Hw.
  - destruct Hw as [[W1|[_ [W1 _]]] _]; [eapply G; exact W1|right; left; exact W1].
  - destruct Hw as [o [_ [W1|[_ [W1 _]]]]]; [eapply G; exact W1|right; left; exact W1].
  - destruct Hw as [_ [_ [[_ W1]|[W1 _]]]]; [exact W1|right; left; exact W1].
Qed.

Lemma sinv_start : sinv start_state.
Proof.
  split.
  - intros i _. split; [intros g v []|]. split; [exists (chunk u i); reflexivity|].
    split; [reflexivity|]. split; reflexivity.
  - split; [lia|]. split; [reflexivity|]. intros k Hk. lia.
Qed.

Lemma sinv_worker i s s' : (i < workers u)%nat -> worker_step u may_raise may_die i s s' -> sinv s -> sinv s'.
Proof.
  intros Hi H [H1 H2]. split.
  - intros k Hk. destruct (Nat.eq_dec k i) as [->|Hne].
    + eapply worker_step_self; [|apply winv_slot; auto|exact H|auto]. intros j Hj. apply winv_slot. auto.
    + destruct (worker_step_other _ _ _ k H Hne) as [E1 [E2 [E3 E4]]]. unfold winv. rewrite E1, E2, E3, E4. apply H1. assumption.
  - pose proof (worker_step_live _ _ _ H) as [L1 [L2 L3]]. pose proof (worker_step_parent _ _ _ H) as Ep.
    assert (Hoth : forall k, k <> i -> s_phase s' k = s_phase s k) by (intros k Hk; apply (worker_step_other _ _ _ k H Hk)).
    unfold parent_inv in *. rewrite Ep. destruct (s_parent s) as [j|j|j| |].
    + destruct H2 as [A [B C]]. split; [assumption|]. split.
      * intros k Hk. destruct (Nat.eq_dec k i) as [->|Hne]; [exfalso; apply L1; auto|]. rewrite Hoth by assumption. auto.
      * intros k Hk. destruct (Nat.eq_dec k i) as [->|Hne]; [assumption|]. rewrite Hoth by assumption. auto.
    + destruct H2 as [A [B C]]. split; [assumption|]. split.
      * intros k Hk. destruct (Nat.eq_dec k i) as [->|Hne]; [assumption|]. rewrite Hoth by assumption. auto.
      * intros k Hk. destruct (Nat.eq_dec k i) as [->|Hne]; [exfalso; auto|]. rewrite Hoth by assumption. auto.
    + exfalso. apply L2. apply H2. assumption.
    + exfalso. apply L2. apply H2. assumption.
    + exfalso. apply L2. apply H2. assumption.
Qed.

Lemma decide_cases (l : list (num ar)) : decide l = PRaised MultiProcessError \/ exists j, decide l = PGet j.
Proof. unfold decide. destruct (neqb _ _ _); eauto. Qed.

Lemma take_cases (o : output ar) : (exists a b c, take u o = PReturned a b c) \/ exists e, take u o = PRaised e.
Proof. unfold take. destruct (deepcopy_solution _ _); eauto. Qed.

Lemma sinv_parent s s' : parent_step u s s' -> sinv s -> sinv s'.
Proof.
  intros H [H1 H2]. destruct H as [s i P L|s P|s i P L E|s P|s j o P Q]; unfold parent_inv in H2; rewrite P in H2.
  - destruct H2 as [A [B C]]. split.
    + intros k Hk. unfold winv. cbn [set_parent set_phase s_array s_phase s_queue s_log].
      destruct (Nat.eq_dec k i) as [->|Hne].
      * rewrite upd_same. specialize (H1 i Hk). unfold winv in H1. rewrite B in H1 by lia. exact H1.
      * rewrite upd_other by assumption. apply H1. assumption.
    + unfold parent_inv. cbn [set_parent set_phase s_parent s_phase]. split; [lia|]. split.
      * intros k Hk. rewrite upd_other by lia. apply B. lia.
      * intros k Hk. destruct (Nat.eq_dec k i) as [->|Hne]; [rewrite upd_same; discriminate|].
        rewrite upd_other by assumption. apply C. lia.
  - destruct H2 as [A [B C]]. split; [exact H1|]. unfold parent_inv. cbn [set_parent s_parent s_phase].
    split; [lia|]. split; [exact C|]. intros k Hk. lia.
  - destruct H2 as [A [B C]]. split; [exact H1|]. unfold parent_inv. cbn [set_parent s_parent s_phase].
    split; [lia|]. split; [assumption|]. intros k Hk. destruct (Nat.eq_dec k i) as [->|]; [exact E|]. apply C. lia.
  - destruct H2 as [A [B C]]. split; [exact H1|]. unfold parent_inv. cbn [set_parent s_parent s_phase].
    assert (Ea : array_list u (set_parent s (decide (array_list u s))) = array_list u s) by reflexivity.
    destruct (decide_cases (array_list u s)) as [E|[j E]]; rewrite E in *; (split; [exact C|]); auto.
  - destruct H2 as [A B]. split; [exact H1|]. unfold parent_inv. cbn [set_parent s_parent s_phase].
    assert (Ea : array_list u (set_parent s (take u o)) = array_list u s) by reflexivity.
    destruct (take_cases o) as [[a [b [c E]]]|[e E]]; rewrite E in *; (split; [exact A|]); right; exists j, o; auto.
Qed.

Lemma sinv_reachable s : reachable u may_raise may_die s -> sinv s.
Proof.
  intros H. induction H as [|s s' H IH Hst]; [apply sinv_start|].
  destruct Hst as [Hp|i Hi Hp]; [eapply sinv_parent|eapply sinv_worker]; eassumption.
Qed.

(** ** The winner *)
Lemma array_list_length s : length (array_list u s) = workers u.
Proof. unfold array_list. rewrite map_length, seq_length. reflexivity. Qed.

Lemma array_list_nth s k d : (k < workers u)%nat -> nth k (array_list u s) d = s_array s k.
Proof.
  intros Hk. unfold array_list. rewrite (nth_indep _ d (s_array s O)) by (rewrite map_length, seq_length; assumption).
  rewrite map_nth, seq_nth by assumption. reflexivity.
Qed.

Lemma array_list_In s k : (k < workers u)%nat -> In (s_array s k) (array_list u s).
Proof. intros Hk. apply in_map. apply in_seq. lia. Qed.

Lemma slots_numbers s : (forall i, (i < workers u)%nat -> winv s i) ->
  forall q, In q (array_list u s) -> number q.
Proof.
  intros H q Hq. unfold array_list in Hq. apply in_map_iff in Hq. destruct Hq as [k [<- Hk]]. apply in_seq in Hk.
  apply slot_value_number. apply winv_slot. apply H. lia.
Qed.

Lemma decide_get s j : (0 < workers u)%nat -> (forall i, (i < workers u)%nat -> winv s i) ->
  decide (array_list u s) = PGet j ->
  (j < workers u)%nat /\ s_array s j <> nm1 ar /\
  forall k, (k < workers u)%nat -> at_most ar (s_array s k) (s_array s j).
Proof.
  intros Hn Hw H. unfold decide in H. destruct (neqb ar (q_max (array_list u s)) (nm1 ar)) eqn:E; [discriminate|].
  injection H as <-. pose proof (slots_numbers s Hw) as Hnum.
  assert (Hne : array_list u s <> []).
  { intros C. apply (f_equal (@length (num ar))) in C. rewrite array_list_length in C. simpl in C. lia. }
  destruct (q_max_spec ar V _ Hne Hnum) as [Hin Hmax].
  destruct (q_index_spec ar V _ _ Hin (Hnum _ Hin)) as [Q1 [Q2 _]].
  rewrite array_list_length in Q1. rewrite array_list_nth in Q2 by assumption.
  apply (vl_eq ar V) in Q2. destruct Q2 as [Q2 Q3].
  split; [exact Q1|]. split.
  - intros C. rewrite C in Q2, Q3.
    assert (X : neqb ar (q_max (array_list u s)) (nm1 ar) = true) by (apply (vl_eq ar V); split; assumption).
    congruence.
  - intros k Hk. eapply (vl_trans ar V); [|exact Q3]. apply Hmax. apply array_list_In. assumption.
Qed.

Lemma decide_raise s e : (0 < workers u)%nat -> (forall i, (i < workers u)%nat -> winv s i) ->
  decide (array_list u s) = PRaised e ->
  e = MultiProcessError /\ forall k, (k < workers u)%nat -> at_most ar (s_array s k) (nm1 ar).
Proof.
  intros Hn Hw H. unfold decide in H. destruct (neqb ar (q_max (array_list u s)) (nm1 ar)) eqn:E; [|discriminate].
  injection H as <-. split; [reflexivity|]. intros k Hk. apply (vl_eq ar V) in E. destruct E as [E _].
  eapply (vl_trans ar V); [|exact E].
  assert (Hne : array_list u s <> []).
  { intros C. apply (f_equal (@length (num ar))) in C. rewrite array_list_length in C. simpl in C. lia. }
  apply (q_max_spec ar V _ Hne (slots_numbers s Hw)). apply array_list_In. assumption.
Qed.

Lemma delivered s i o : winv s i -> s_queue s i = Some o ->
  good_out i (s_array s i) (s_log s i) o \/ failed_out i (s_array s i) o.
Proof.
  intros [_ [_ H]] Hq. destruct (s_phase s i); try (rewrite Hq in H; intuition discriminate).
  destruct H as [o' [E H]]. rewrite Hq in E. injection E as <-. exact H.
Qed.

Lemma good_slot_nonneg i a l o : good_out i a l o -> (nonneg ar (a)).
Proof. intros [w [_ [H1 [H2 _]]]]. eapply slot_nonneg; eassumption. Qed.

Lemma good_not_failure i a l o : good_out i a l o -> o <> failure_output /\ (nonneg ar (o_value o)).
Proof.
  intros [w [E [H1 _]]]. assert (H : (nonneg ar (o_value o))).
  { rewrite E. cbn [output_of o_value]. eapply (nonneg_trans V); [exact v0_nonneg|]. eapply wgood_best. exact H1. }
  split; [|exact H]. intros C. rewrite C in H. exact (m1_not_nonneg V H).
Qed.

Lemma better_slot a b l l' w w' : wgood l w -> slot_ok a w -> wgood l' w' -> slot_ok b w' ->
  (at_most ar (b) (a)) -> (at_most ar (w_best w') (w_best w)).
Proof.
  intros H1 H2 H3 H4 Hle. unfold slot_ok in *.
  pose proof (wgood_best _ _ H1) as B1. pose proof (wg_which _ _ H1) as W1. pose proof (wg_which _ _ H3) as W3.
  destruct (w_strategy w'); destruct (w_strategy w); subst a b.
  - exact Hle.
  - exfalso. destruct W3 as [_ W3]. eapply (below_not V); [|exact v0_nonneg].
    eapply (below_at_most V); [exact W3|exact Hle].
  - destruct W3 as [-> _]. exact B1.
  - destruct W3 as [-> _]. exact B1.
Qed.

Record winner (s : sys ar) (j : nat) (o : output ar) (w : wst ar) : Prop := {
  wn_index : (j < workers u)%nat;
  wn_queue : s_queue s j = Some o;
  wn_out : o = output_of w;
  wn_good : wgood (s_log s j) w;
  wn_best : forall i o', (i < workers u)%nat -> s_queue s i = Some o' -> (at_most ar (o_value o') (o_value o));
  wn_logs : forall i o' g v, (i < workers u)%nat -> s_queue s i = Some o' -> o' <> failure_output ->
    In (g, v) (s_log s i) -> (at_most ar (v) (o_value o))
}.

Lemma get_winner s j o : (0 < workers u)%nat -> sinv s -> decide (array_list u s) = PGet j ->
  s_queue s j = Some o -> exists w, winner s j o w.
Proof.
  intros Hn [Hw _] Hd Hq. destruct (decide_get s j Hn Hw Hd) as [D1 [D2 D3]].
  destruct (delivered s j o (Hw j D1) Hq) as [G|[_ [C _]]]; [|exfalso; apply D2; exact C].
  pose proof (good_not_failure _ _ _ _ G) as [_ Gn].
  destruct G as [w [Eo [G1 [G2 _]]]]. exists w.
  assert (B : forall i o', (i < workers u)%nat -> s_queue s i = Some o' ->
     (at_most ar (o_value o') (o_value o)) /\
     (o' <> failure_output -> forall g v, In (g, v) (s_log s i) -> (at_most ar (v) (o_value o)))).
  { intros i o' Hi Hq'. destruct (delivered s i o' (Hw i Hi) Hq') as [G'|[_ [_ ->]]].
    - destruct G' as [w' [E' [G1' [G2' _]]]].
      pose proof (better_slot _ _ _ _ _ _ G1 G2 G1' G2' (D3 i Hi)) as B.
      rewrite Eo, E'. cbn [output_of o_value]. split; [exact B|]. intros _ g v Hin.
      eapply (vl_trans ar V); [|exact B]. eapply (wg_max _ _ G1'). exact Hin.
    - split; [|congruence]. cbn [failure_output o_value]. exact (m1_at_most V _ Gn). }
  constructor; try assumption.
  - intros i o' Hi Hq'. apply (B i o' Hi Hq').
  - intros i o' g v Hi Hq' Hne Hin. eapply (B i o' Hi Hq'); eassumption.
Qed.

(** ** Copying the winner's output *)
Lemma take_winner s j o w : winner s j o w ->
  exists sol, take u o = PReturned sol (o_objs o) (o_strategy o) /\
    deepcopy_solution (in_pb x) (o_solution o) = Ok sol /\ dkeys (o_solution o) = dkeys (pb_containers (in_pb x)).
Proof.
  intros H.
  assert (Hk : dkeys (o_solution o) = dkeys (pb_containers (in_pb x))).
  { rewrite (wn_out _ _ _ _ H). cbn [output_of o_solution]. rewrite (wg_keys _ _ (wn_good _ _ _ _ H)).
    apply (ch_keys _ _ Hok). }
  pose proof (deepcopy_solution_ok (in_pb x) (o_solution o) Hk) as E.
  eexists. split; [|split; [exact E|exact Hk]]. unfold take. unfold x in E. rewrite E. unfold copy_objs. rewrite map_id. reflexivity.
Qed.

(** ** Every run is finite *)
Definition phase_measure (i : nat) (p : phase ar) : nat :=
  let n := workers u in
  let k := (n + 10)%nat in
  match p with
  | PhIdle => k * length (chunk u i) + 8
  | PhBegin => k * length (chunk u i) + 7
  | PhLoop _ rest => k * length rest + 6
  | PhRead _ _ _ rest seen => k * length rest + 10 + (n - length seen)
  | PhWrite _ _ _ rest _ => k * length rest + 9
  | PhKeep _ _ _ rest _ => k * length rest + 8
  | PhCheck _ rest _ => k * length rest + 7
  | PhPut _ => 5
  | PhFail => 4
  | PhFailPut => 3
  | PhFlush _ => 2
  | PhExit | PhKilled => 0
  end%nat.

Definition parent_measure (p : pphase ar) : nat :=
  match p with
  | PStart i => (workers u - i) + workers u + 4
  | PJoin i => (workers u - i) + 2
  | PGet _ => 1
  | _ => 0
  end%nat.

Definition sys_measure (s : sys ar) : nat :=
  (parent_measure (s_parent s) +
   list_sum (map (fun i => phase_measure i (s_phase s i)) (seq 0 (workers u))))%nat.

Lemma sum_one_lower (f g : nat -> nat) i n : (i < n)%nat -> (g i < f i)%nat ->
  (forall k, k <> i -> g k = f k) -> (list_sum (map g (seq 0 n)) < list_sum (map f (seq 0 n)))%nat.
Proof.
  intros Hi Hlt Heq.
  assert (G : forall m a, (forall k, (a <= k < a + m)%nat -> k <> i) ->
            list_sum (map g (seq a m)) = list_sum (map f (seq a m))).
  { intros m. induction m as [|m IH]; intros a H; [reflexivity|]. cbn [seq map list_sum fold_right].
    fold (list_sum (map g (seq (S a) m))). fold (list_sum (map f (seq (S a) m))).
    rewrite IH; [|intros k Hk; apply H; lia]. rewrite Heq; [reflexivity|]. apply H. lia. }
  replace n with (i + (1 + (n - i - 1)))%nat by lia. rewrite !seq_app, !map_app, !list_sum_app. cbn [seq map].
  unfold list_sum at 2 5. cbn [fold_right].
  rewrite !(G i 0%nat) by (intros; lia). rewrite !(G (n - i - 1)%nat) by (intros; lia). simpl. lia.
Qed.

Lemma worker_step_measure i s s' : winv s i -> worker_step u may_raise may_die i s s' ->
  (phase_measure i (s_phase s' i) < phase_measure i (s_phase s i))%nat.
Proof.
  intros Hw H. destruct Hw as [_ [_ Hw]].
  destruct H as [s a r v P F E1 E2|s P F|s w g rest z clk v P S E|s w g v rest seen P L|s w g v rest seen P L
    |s w g v rest opt P|s w g v rest opt ret P E|s w rest opt P|s w P|s o P|s M P|s P|s P|s o P L|s M P];
    cbn [set_phase set_slot set_queue add_log s_array s_phase s_queue s_log];
    rewrite ?upd_same; try rewrite P in Hw |- *; unfold phase_measure.
  - lia.
  - lia.
  - cbn [length]. nia.
  - rewrite app_length. cbn [length]. lia.
  - destruct (check_solution ar v (w_best w)); lia.
  - lia.
  - destruct (global_check ar v); lia.
  - destruct (_ || _); lia.
  - lia.
  - lia.
  - destruct (s_phase s i); try discriminate P; lia.
  - lia.
  - lia.
  - lia.
  - destruct (s_phase s i); try discriminate P; lia.
Qed.

Lemma step_measure s s' : sinv s -> step u may_raise may_die s s' -> (sys_measure s' < sys_measure s)%nat.
Proof.
  intros [Hw Hp] H. unfold sys_measure. destruct H as [H|i Hi H].
  - destruct H as [s i P L|s P|s i P L E|s P|s j o P Q]; unfold parent_inv in Hp; rewrite P in *;
      cbn [set_parent set_phase s_parent s_phase].
    + destruct Hp as [A [B C]].
      assert ((list_sum (map (fun k => phase_measure k (upd (s_phase s) i PhBegin k)) (seq 0 (workers u))) <
               list_sum (map (fun k => phase_measure k (s_phase s k)) (seq 0 (workers u))))%nat).
      { apply (sum_one_lower _ _ i); [assumption| |].
        - rewrite upd_same, (B i) by lia. unfold phase_measure. lia.
        - intros k Hk. rewrite upd_other by assumption. reflexivity. }
      unfold parent_measure in *. lia.
    + unfold parent_measure. lia.
    + unfold parent_measure. lia.
    + assert ((parent_measure (decide (array_list u s)) < parent_measure (PJoin (workers u)))%nat).
      { unfold decide. destruct (neqb _ _ _); unfold parent_measure; lia. }
      lia.
    + assert ((parent_measure (take u o) < parent_measure (PGet j))%nat).
      { unfold take. destruct (deepcopy_solution _ _); unfold parent_measure; lia. }
      lia.
  - rewrite (worker_step_parent _ _ _ H).
    assert ((list_sum (map (fun k => phase_measure k (s_phase s' k)) (seq 0 (workers u))) <
             list_sum (map (fun k => phase_measure k (s_phase s k)) (seq 0 (workers u))))%nat); [|lia].
    apply (sum_one_lower _ _ i); [assumption| |].
    + apply worker_step_measure; [auto|assumption].
    + intros k Hk. destruct (worker_step_other _ _ _ k H Hk) as [_ [-> _]]. reflexivity.
Qed.

(** ** A worker that is running can take a step *)
Lemma worker_progress i s : winv s i -> s_phase s i <> PhIdle -> ~ ended (s_phase s i) ->
  (forall o, s_phase s i = PhFlush o -> (su_size u o <= su_capacity u)%nat) ->
  exists s', worker_step u may_raise may_die i s s'.
Proof.
  intros Hw Hni Hne Hcap. unfold winv in Hw. destruct Hw as [_ [_ Hw]]. destruct (s_phase s i) as [| |w rest|w g v rest seen|w g v rest opt|w g v rest opt|w rest opt|o| | |o| |] eqn:P.
  - contradiction.
  - destruct (su_forced u i) eqn:F; [eexists; apply W_forced; assumption|].
    eexists. eapply W_begin; [exact P|exact F|exact (cs_init _ _ _ _ Hs0)|exact (cs_calc _ _ _ _ Hs0)].
  - destruct Hw as [W1 [W2 [W3 W4]]]. destruct rest as [|g rest]; [eexists; apply W_end; exact P|].
    destruct (wg_loose _ _ W1) as [V1 _].
    assert (V1' : loose ar (set_strategy (w_inst w) g)) by exact V1.
    destruct (loose_search ar laws (set_strategy (w_inst w) g) V1'
                (su_clock u i) (su_limit u) (su_throttle u) (Some (su_start u)) (w_clk w))
      as [fuel [x1 [clk1 [nl [v' [sol' [Hls [_ [_ [_ [Hval _]]]]]]]]]]].
    eexists. eapply W_search; [exact P| |exact Hval]. exists fuel, nl. exact Hls.
  - destruct Hw as [W1 [W2 [W3 [W4 [W5 W6]]]]]. destruct (Nat.eq_dec (length seen) (workers u)) as [E|E].
    + eexists. eapply W_compare; eassumption.
    + eexists. eapply W_read; [eassumption|lia].
  - eexists. eapply W_write. exact P.
  - destruct Hw as [_ [[_ W2] _]]. destruct W2 as [sol' [h [G _]]]. eexists. eapply W_keep; [exact P|exact G].
  - eexists. eapply W_check. exact P.
  - eexists. eapply W_put. exact P.
  - eexists. apply W_fail. exact P.
  - eexists. apply W_fail_put. exact P.
  - eexists. eapply W_flush; [exact P|]. left. apply Hcap. reflexivity.
  - exfalso. apply Hne. left. reflexivity.
  - exfalso. apply Hne. right. reflexivity.
Qed.

Lemma ended_dec p : ended p \/ ~ ended p.
Proof. unfold ended. destruct p; try (right; intros [C|C]; discriminate C); left; auto. Qed.
End Workers.
End Arithmetic.
