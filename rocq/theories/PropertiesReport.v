(** * C45-C46: log_solution and create_figure. *)
From Coq Require Import ZArith String List Bool QArith Lia Permutation.
From Verif Require Import Py ProofsPy Arith Construct Spec LocalSearch ProofsLocalSearch SpecSearch Values ProofsVal
  Settings Instance SpecInstance SpecSettings ProofsMachine ProofsOps ProofsRun ProofsHistory
  PropertiesHistory ProofsRefine ProofsSettings PropertiesSettings Report SpecReport Colours ProofsFigure.
Import ListNotations.
Open Scope string_scope.
Open Scope list_scope.
Open Scope Z_scope.

(** ** Lemmas *)
Lemma stored_count_eq sol : stored_count sol = Z.of_nat (length (stored_ids sol)).
Proof.
  unfold stored_count, stored_ids, dvals.
  assert (G : forall l a, fold_left (fun n csol => n + zlen csol) (map snd l) a =
                          a + Z.of_nat (length (concat (map (fun kc : string * odict entry => dkeys (snd kc)) l)))).
  { induction l as [|[k csol] l IH]; intros a; cbn [map fold_left concat length]; [cbn; lia|].
    rewrite IH, app_length. cbn [snd]. unfold dkeys, zlen. rewrite map_length. lia. }
  rewrite G. lia.
Qed.

Lemma stored_area_eq csol : stored_area csol = total_area (entries csol).
Proof.
  unfold stored_area, total_area, entry_area, dvals, entries.
  assert (G : forall l a, fold_left (fun n e => n + e_w e * e_l e) l a = a + fold_right (fun e n => e_w e * e_l e + n) 0 l).
  { induction l as [|e l IH]; intros a; cbn; [lia|]. rewrite IH. lia. }
  rewrite G. lia.
Qed.

Lemma dmem_keys {A} (d : odict A) i : dmem d i = true <-> In i (dkeys d).
Proof.
  unfold dmem. split.
  - destruct (dget d i) eqn:E; [|discriminate]. intros _. apply dget_In in E. apply in_map_iff. eexists. split; [|exact E]. reflexivity.
  - intros H. destruct (dget d i) eqn:E; [reflexivity|]. apply dget_None in E. contradiction.
Qed.

Lemma stored_spec sol i : existsb (fun kc : string * odict entry => dmem (snd kc) i) sol = true <-> In i (stored_ids sol).
Proof.
  unfold stored_ids. rewrite existsb_exists, in_concat. split.
  - intros [kc [H1 H2]]. exists (dkeys (snd kc)). split; [apply in_map_iff; eauto|]. apply dmem_keys. assumption.
  - intros [l [H1 H2]]. apply in_map_iff in H1. destruct H1 as [kc [<- H1]]. exists kc. split; [assumption|]. apply dmem_keys. assumption.
Qed.

Lemma NoDup_app_intro {A} (a b : list A) : NoDup a -> NoDup b -> (forall x, In x a -> In x b -> False) -> NoDup (a ++ b).
Proof.
  induction a as [|x a IH]; intros Ha Hb H; [assumption|]. inversion Ha as [|? ? Hx Ha']; subst. cbn. constructor.
  - rewrite in_app_iff. intros [K|K]; [contradiction|]. apply (H x); [left; reflexivity|assumption].
  - apply IH; try assumption. intros y H1 H2. apply (H y); [right; assumption|assumption].
Qed.

Lemma zpos_Q z : 0 < z -> ~ (inject_Z z == 0)%Q.
Proof. intros H E. unfold Qeq, inject_Z in E. cbn in E. lia. Qed.

Section Log.
Context {ar : arith}.
Notation machine := (machine ar).

(** What [a_packing] gives for one container. *)
Lemma packed_container cs is_ strip sol cid c :
  a_packing cs is_ strip sol -> valid_items cs -> In (cid, c) cs ->
  dget cs cid = Some c /\
  exists csol, dget sol cid = Some csol /\ In (cid, csol) sol /\
    forall i e, In (i, e) csol -> 0 < e_w e /\ 0 < e_l e /\ 0 <= e_y e.
Proof.
  intros [P1 [P2 [P3 _]]] V Hc.
  assert (Hd : dget cs cid = Some c) by (apply In_dget; [apply V|assumption]). split; [assumption|].
  destruct (dget sol cid) as [csol|] eqn:E.
  - exists csol. pose proof (dget_In _ _ _ E) as Hin. split; [reflexivity|]. split; [assumption|].
    intros i e He. destruct (P3 cid csol i e Hin He) as [c' [d [_ [_ [_ G]]]]]. destruct strip; [tauto|].
    unfold inside in G. tauto.
  - exfalso. apply dget_None in E. apply E. rewrite P1. apply in_map_iff. exists (cid, c). auto.
Qed.

Lemma stack_pos es : es <> [] -> (forall e, In e es -> 0 < e_l e /\ 0 <= e_y e) -> 0 < stack_height es.
Proof. destruct es as [|e es]; [congruence|]. intros _ H. destruct (H e (or_introl eq_refl)). cbn. lia. Qed.

Lemma view_height (x : inst ar) cid c csol :
  in_sol x <> [] -> dget (pb_containers (in_pb x)) cid = Some c -> dget (in_sol x) cid = Some csol ->
  (forall i e, In (i, e) csol -> 0 < e_w e /\ 0 < e_l e /\ 0 <= e_y e) ->
  get_height ar x cid = Ok (shown_height (pb_strip (in_pb x)) (in_min x) c csol) /\
  solution_height csol = stack_height (entries csol).
Proof.
  intros H1 H2 H3 H4.
  assert (H5 : solution_height csol = stack_height (entries csol)).
  { apply solution_height_eq. intros e He. apply in_map_iff in He. destruct He as [[i e'] [<- He]]. specialize (H4 _ _ He). cbn. lia. }
  split; [|assumption]. unfold get_height, shown_height, dget_r. destruct (pb_strip (in_pb x)).
  - destruct (in_sol x) as [|p l] eqn:E; [congruence|]. rewrite H3. cbn [bind]. rewrite H5. destruct (in_min x); cbn; f_equal; lia.
  - rewrite H2. reflexivity.
Qed.

Lemma quotient_ok a b : b <> 0 -> quotient a b = Ok (inject_Z a / inject_Z b)%Q.
Proof. intros H. unfold quotient. destruct (Z.eqb_spec b 0); [contradiction|reflexivity]. Qed.

Lemma div_back a b : 0 < b -> (inject_Z a / inject_Z b * inject_Z b == inject_Z a)%Q.
Proof. intros H. unfold Qdiv. rewrite <- Qmult_assoc, (Qmult_comm (/ _)), Qmult_inv_r, Qmult_1_r; [reflexivity|]. apply zpos_Q. assumption. Qed.

Lemma log_container_good (x : inst ar) cid c csol :
  in_sol x <> [] -> dget (pb_containers (in_pb x)) cid = Some c -> dget (in_sol x) cid = Some csol ->
  (forall i e, In (i, e) csol -> 0 < e_w e /\ 0 < e_l e /\ 0 <= e_y e) ->
  0 < dw c * shown_height (pb_strip (in_pb x)) (in_min x) c csol ->
  exists ls, log_container x cid = Ok ls /\ container_log (pb_strip (in_pb x)) (in_min x) (in_sol x) (cid, c) ls.
Proof.
  intros H1 H2 H3 H4 H5. destruct (view_height x cid c csol H1 H2 H3 H4) as [E1 E2].
  unfold log_container. rewrite E1. cbn [bind]. unfold dget_r. rewrite H2, H3. cbn [bind]. rewrite quotient_ok by lia. cbn [bind].
  eexists. split; [reflexivity|]. exists csol. eexists. split; [exact H3|]. cbn [fst snd]. rewrite E2. split; [reflexivity|].
  split; [|assumption]. rewrite div_back by assumption. rewrite stored_area_eq, inject_Z_mult. ring.
Qed.

Lemma log_container_zero (x : inst ar) cid c csol :
  in_sol x <> [] -> dget (pb_containers (in_pb x)) cid = Some c -> dget (in_sol x) cid = Some csol ->
  (forall i e, In (i, e) csol -> 0 < e_w e /\ 0 < e_l e /\ 0 <= e_y e) ->
  shown_height (pb_strip (in_pb x)) (in_min x) c csol = 0 -> log_container x cid = Err ZeroDivisionError.
Proof.
  intros H1 H2 H3 H4 H5. destruct (view_height x cid c csol H1 H2 H3 H4) as [E1 E2].
  unfold log_container. rewrite E1. cbn [bind]. unfold dget_r. rewrite H2, H3. cbn [bind]. rewrite H5.
  unfold quotient. rewrite Z.mul_0_r. reflexivity.
Qed.

Lemma log_containers_good (x : inst ar) (l : odict dims) :
  (forall cid c, In (cid, c) l ->
     exists ls, log_container x cid = Ok ls /\ container_log (pb_strip (in_pb x)) (in_min x) (in_sol x) (cid, c) ls) ->
  exists parts, log_containers x (dkeys l) = Ok (concat parts) /\
    Forall2 (container_log (pb_strip (in_pb x)) (in_min x) (in_sol x)) l parts.
Proof.
  induction l as [|[cid c] l IH]; intros H; [exists []; split; [reflexivity|constructor]|].
  destruct (H cid c (or_introl eq_refl)) as [ls [E1 E2]]. destruct IH as [parts [E3 E4]]; [intros; apply H; right; assumption|].
  exists (ls :: parts). cbn [dkeys map fst log_containers concat]. rewrite E1. cbn [bind]. change (map fst l) with (dkeys l). rewrite E3.
  split; [reflexivity|constructor; assumption].
Qed.

Lemma remaining_good (x : inst ar) : NoDup (dkeys (pb_items (in_pb x))) -> NoDup (stored_ids (in_sol x)) ->
  (forall i, In i (stored_ids (in_sol x)) -> In i (dkeys (pb_items (in_pb x)))) ->
  Permutation (stored_ids (in_sol x) ++ remaining_items x) (dkeys (pb_items (in_pb x))).
Proof.
  intros N1 N2 H. unfold remaining_items.
  assert (M : forall i, In i (filter (fun id => negb (existsb (fun kc => dmem (snd kc) id) (in_sol x))) (dkeys (pb_items (in_pb x)))) <->
                        In i (dkeys (pb_items (in_pb x))) /\ ~ In i (stored_ids (in_sol x))).
  { intros i. rewrite filter_In, negb_true_iff, <- not_true_iff_false, stored_spec. reflexivity. }
  apply NoDup_Permutation.
  - apply NoDup_app_intro; [assumption|apply NoDup_filter; assumption|]. intros i H1 H2. apply M in H2. tauto.
  - assumption.
  - intros i. rewrite in_app_iff, M. split; [intros [K|[K _]]; auto|]. intros K.
    destruct (in_dec String.string_dec i (stored_ids (in_sol x))); auto.
Qed.

(** The log in every state of a history. *)
Lemma log_cases (s : machine) : inv s -> m_sol s <> [] ->
  exists cs is_, containers_of s = Some cs /\ items_of s = Some is_ /\
    ((empty_strip s /\ log_solution s = Err ZeroDivisionError) \/
     (~ empty_strip s /\ exists ls, log_solution s = Ok (Some ls) /\ good_log cs is_ (m_strip s) (m_min s) (m_sol s) ls)).
Proof.
  intros I Hs. destruct (inv_view s I) as [cs [is_ [V1 [V2 [V3 [V4 [V5 [V6 V7]]]]]]]]. exists cs, is_. split; [assumption|]. split; [assumption|].
  destruct (iv_fresh s I) as [F|[cs' [is' [F1 [F2 F3]]]]]; [contradiction|].
  rewrite V1 in F1. injection F1 as <-. rewrite V2 in F2. injection F2 as <-.
  unfold log_solution. destruct (m_sol s) as [|p0 l0] eqn:Esol; [congruence|]. rewrite <- Esol in *. rewrite V7.
  match goal with |- context [log_view ?v] => set (x := v) end.
  assert (X1 : pb_containers (in_pb x) = cs) by reflexivity. assert (X2 : pb_items (in_pb x) = is_) by reflexivity.
  assert (X3 : in_sol x = m_sol s) by reflexivity. assert (X4 : pb_strip (in_pb x) = m_strip s) by reflexivity.
  assert (X5 : in_min x = m_min s) by reflexivity. clearbody x.
  unfold log_view. rewrite X2, X3. rewrite quotient_ok.
  2: { destruct is_; [congruence|]. unfold zlen. cbn. lia. }
  cbn [bind].
  assert (W : forall cid c, In (cid, c) cs -> 0 < dw c /\ 0 < dl c).
  { intros cid c H. destruct V5 as [_ V5]. exact (V5 _ _ H). }
  assert (D : empty_strip s \/ ~ empty_strip s).
  { unfold empty_strip. destruct (m_strip s); [|right; intros [? _]; discriminate]. destruct (stored_ids (m_sol s)); [|right; intros [_ [? _]]; discriminate].
    destruct (m_min s); [right; intros [_ [_ ?]]; discriminate|left; auto]. }
  destruct D as [D|D].
  - left. split; [assumption|]. destruct D as [D1 [D2 D3]]. pose proof (inv_strip_keys s cs I D1 V1) as K.
    destruct cs as [|[cid c] [|? ?]]; try discriminate K. injection K as ->.
    destruct (packed_container _ _ _ _ strip_id c F3 V5 (or_introl eq_refl)) as [P1 [csol [P2 [P3 P4]]]].
    rewrite X1. cbn [dkeys map fst log_containers]. rewrite (log_container_zero x strip_id c csol); [reflexivity| | | | |].
    + rewrite X3. assumption.
    + rewrite X1. assumption.
    + rewrite X3. assumption.
    + assumption.
    + rewrite X4, X5, D1, D3. unfold shown_height. destruct csol as [|[i e] csol]; [reflexivity|]. exfalso.
      assert (In i (stored_ids (m_sol s))); [|rewrite D2 in *; contradiction]. unfold stored_ids. apply in_concat.
      exists (dkeys ((i, e) :: csol)). split; [apply in_map_iff; exists (strip_id, (i, e) :: csol); auto|left; reflexivity].
  - right. split; [assumption|].
    destruct (log_containers_good x cs) as [parts [E1 E2]].
    { intros cid c Hc. destruct (packed_container _ _ _ _ cid c F3 V5 Hc) as [P1 [csol [P2 [P3 P4]]]].
      apply (log_container_good x cid c csol); rewrite ?X1, ?X3, ?X4, ?X5; auto.
      destruct (W _ _ Hc) as [W1 W2]. apply Z.mul_pos_pos; [assumption|]. unfold shown_height. destruct (m_strip s) eqn:Es; [|assumption].
      destruct (m_min s) as [m|] eqn:Em.
      - destruct (iv_heights s I Es) as [h [_ [_ Hm]]]. specialize (Hm m Em). lia.
      - apply stack_pos.
        + intros Z0. apply D. split; [assumption|]. split; [|assumption].
          pose proof (inv_strip_keys s cs I Es V1) as K. destruct F3 as [F3 _]. rewrite K in F3.
          destruct (m_sol s) as [|[k0 c0] [|? ?]]; try discriminate F3. cbn in P2. destruct (String.eqb cid k0); [|discriminate]. injection P2 as ->.
          unfold stored_ids. cbn. rewrite app_nil_r. unfold dkeys. destruct csol; [reflexivity|discriminate].
        + intros e He. apply in_map_iff in He. destruct He as [[i e'] [<- He]]. specialize (P4 _ _ He). cbn. lia. }
    rewrite X4, X5, X3 in E2. rewrite X1, E1. cbn [bind]. eexists. split; [reflexivity|].
    eexists. exists parts, (remaining_items x). split; [reflexivity|].
    destruct F3 as [F31 [F32 [F33 _]]].
    split; [|split; [assumption|split]].
    + assert (P : 0 < zlen is_) by (destruct is_; [congruence|]; unfold zlen; cbn; lia).
      pose proof (div_back (stored_count (m_sol s)) (zlen is_) P) as B.
      rewrite <- stored_count_eq. change (Z.of_nat (length is_)) with (zlen is_).
      set (q := (inject_Z (stored_count (m_sol s)) / inject_Z (zlen is_))%Q) in *.
      transitivity (100 * (q * inject_Z (zlen is_)))%Q; [ring|rewrite B; reflexivity].
    + rewrite <- X2, <- X3. apply remaining_good; rewrite ?X2, ?X3; [apply V6|assumption|].
      intros i Hi. unfold stored_ids in Hi. apply in_concat in Hi. destruct Hi as [k [K1 K2]]. apply in_map_iff in K1.
      destruct K1 as [[cid csol] [<- K1]]. cbn in K2. apply in_map_iff in K2. destruct K2 as [[i' e] [<- K2]].
      destruct (F33 _ _ _ _ K1 K2) as [_ [d [_ [G _]]]]. cbn. apply dget_Some_In. eauto.
    + unfold remaining_items. rewrite X2. eexists. reflexivity.
Qed.
End Log.

(** ** C45 *)

(** Without a solution there is no log. *)
Theorem C45_no_solution : forall ar (s : machine ar), m_sol s = [] -> log_solution s = Ok None.
Proof. intros ar s H. unfold log_solution. rewrite H. reflexivity. Qed.
Print Assumptions C45_no_solution.

(** With a solution, the log is the right one, unless the strip is empty. *)
Theorem C45_log_partial : forall ar, arith_laws ar ->
  forall env containers items settings width l (s : machine ar),
  history env containers items settings width l s -> without_ior l -> m_sol s <> [] -> ~ empty_strip s ->
  exists cs is_ ls, containers_of s = Some cs /\ items_of s = Some is_ /\
    log_solution s = Ok (Some ls) /\ good_log cs is_ (m_strip s) (m_min s) (m_sol s) ls.
Proof.
  intros ar laws env containers items settings width l s H Hl Hs He.
  destruct (log_cases s (history_inv laws _ _ _ _ _ _ _ H Hl) Hs) as [cs [is_ [V1 [V2 [[E _]|[_ [ls [E G]]]]]]]]; [contradiction|].
  exists cs, is_, ls. auto.
Qed.
Print Assumptions C45_log_partial.

(** False in general: log_solution raises when nothing could be stored in a strip. *)
Theorem C45_empty_strip_raises : forall ar, arith_laws ar ->
  forall env containers items settings width l (s : machine ar),
  history env containers items settings width l s -> without_ior l -> m_sol s <> [] -> empty_strip s ->
  log_solution s = Err ZeroDivisionError.
Proof.
  intros ar laws env containers items settings width l s H Hl Hs He.
  destruct (log_cases s (history_inv laws _ _ _ _ _ _ _ H Hl) Hs) as [cs [is_ [V1 [V2 [[_ E]|[E _]]]]]]; [assumption|contradiction].
Qed.
Print Assumptions C45_empty_strip_raises.

(** An item wider and longer than the strip. *)
Definition narrow_strip : machine qarith :=
  fst (create qarith no_libraries VNone (VDict [(VStr "a", py_dims KItems 7 8)]) VNone (VInt 5) (blank qarith)).
Theorem C45_refuted :
  history no_libraries VNone (VDict [(VStr "a", py_dims KItems 7 8)]) VNone (VInt 5) [OpSolve None] (after narrow_strip [OpSolve None]) /\
  outcome (OpSolve None) narrow_strip = Ok tt /\
  m_sol (after narrow_strip [OpSolve None]) = [(strip_id, [])] /\
  log_solution (after narrow_strip [OpSolve None]) = Err ZeroDivisionError.
Proof.
  split; [exists narrow_strip; split; [apply created_fst; vm_compute; reflexivity|apply leads_after]|].
  refine (conj _ (conj _ _)); vm_compute; reflexivity.
Qed.
Print Assumptions C45_refuted.

Example C45_witness :
  let s := after bins [OpSolve (Some ["a"; "b"])] in
  let t := after strip [OpSolve None] in
  m_sol s <> [] /\ ~ empty_strip s /\
  log_solution s = Ok (Some [LTitle; LPercent (200 # 3)%Q; LContainer "C1" 4 4; LUtil (1000 # 16)%Q;
                             LContainer "C2" 5 3; LUtil (0 # 15)%Q; LRemaining ["c"]]) /\
  m_sol t <> [] /\ ~ empty_strip t.
Proof.
  cbv zeta. refine (conj _ (conj _ (conj _ (conj _ _)))).
  - vm_compute. discriminate.
  - intros [H _]. vm_compute in H. discriminate H.
  - vm_compute. reflexivity.
  - vm_compute. discriminate.
  - intros [_ [H _]]. vm_compute in H. discriminate H.
Qed.
Print Assumptions C45_witness.

(** ** Lemmas on figures *)
Lemma draw_items_ok csol : forall i, (i + length csol <= length items_colors)%nat ->
  exists r, draw_items i csol = Ok r /\ Forall2 draws csol (fst r) /\ Forall2 traces csol (snd r) /\
    map sh_color (fst r) = firstn (length csol) (skipn i items_colors).
Proof.
  induction csol as [|[id e] csol IH]; intros i H; [exists ([], []); repeat (split; [constructor|]); reflexivity|].
  cbn [draw_items length] in *. destruct (nth_error items_colors i) as [colour|] eqn:Ec.
  2:{ apply nth_error_None in Ec. lia. }
  destruct (IH (S i)) as [r [E1 [E2 [E3 E4]]]]; [lia|].
  rewrite E1. cbn [bind]. eexists. split; [reflexivity|]. cbn [fst snd map sh_color]. rewrite E4.
  split; [constructor; [repeat split|assumption]|]. split; [constructor; [reflexivity|assumption]|].
  assert (K : skipn i items_colors = colour :: skipn (S i) items_colors).
  { clear - Ec. revert i Ec. induction items_colors as [|x l IHl]; intros [|i] Ec; try discriminate Ec; [injection Ec as <-; reflexivity|].
    cbn [skipn]. rewrite (IHl i Ec). reflexivity. }
  rewrite K. reflexivity.
Qed.

Lemma draw_items_err csol : forall i, (i <= length items_colors)%nat -> (length items_colors < i + length csol)%nat -> draw_items i csol = Err IndexError.
Proof.
  induction csol as [|[id e] csol IH]; intros i H1 H2; [cbn [length] in H2; lia|]. cbn [draw_items length] in *.
  destruct (nth_error items_colors i) as [colour|] eqn:Ec; [|reflexivity].
  assert (i < length items_colors)%nat by (apply nth_error_Some; congruence). rewrite IH by lia. reflexivity.
Qed.

Lemma firstn_Forall {A} (P : A -> Prop) l : forall n, Forall P l -> Forall P (firstn n l).
Proof. intros n H. revert n. induction H; intros [|n]; cbn; constructor; auto. Qed.
Lemma firstn_NoDup {A} (l : list A) : forall n, NoDup l -> NoDup (firstn n l).
Proof.
  intros n H. revert n. induction H as [|x l Hx H IH]; intros [|n]; cbn; constructor; auto.
  intros K. apply Hx. rewrite <- (firstn_skipn n l). apply in_or_app. auto.
Qed.

Section Figures.
Context {ar : arith}.
Notation machine := (machine ar).

Lemma draw_container_ok (x : inst ar) cid c csol :
  in_sol x <> [] -> dget (pb_containers (in_pb x)) cid = Some c -> dget (in_sol x) cid = Some csol ->
  (forall i e, In (i, e) csol -> 0 < e_w e /\ 0 < e_l e /\ 0 <= e_y e) -> 0 < dw c < 2 ^ 1000 ->
  0 <= shown_height (pb_strip (in_pb x)) (in_min x) c csol < 2 ^ 1000 ->
  ((length csol <= 1000)%nat ->
     exists f, draw_container x cid = Ok f /\ good_figure (pb_strip (in_pb x)) (in_min x) (in_sol x) (cid, c) f) /\
  ((1000 < length csol)%nat -> draw_container x cid = Err IndexError).
Proof.
  intros H1 H2 H3 H4 H5 H6. destruct (view_height x cid c csol H1 H2 H3 H4) as [E1 _].
  destruct (dtick_ok (dw c) ltac:(lia)) as [tx [T1 T2]]. destruct (dtick_ok _ H6) as [ty [T3 T4]].
  unfold draw_container. rewrite E1. cbn [bind]. unfold dget_r. rewrite H2, H3. cbn [bind]. rewrite T1, T3. cbn [bind].
  rewrite <- colours_number. split; intros H.
  - destruct (draw_items_ok csol 0) as [r [G1 [G2 [G3 G4]]]]; [exact H|]. rewrite G1. cbn [bind]. eexists. split; [reflexivity|].
    exists csol. split; [exact H3|]. cbv zeta. cbn [fg_title fg_x fg_y fg_frame fg_shapes fg_traces fst snd].
    split; [reflexivity|]. split; [exact (conj eq_refl (conj eq_refl T2))|]. split; [exact (conj eq_refl (conj eq_refl T4))|]. split; [reflexivity|]. split; [exact G2|]. split; [exact G3|].
    rewrite G4. cbn [skipn]. split; [apply firstn_NoDup, colours_distinct|apply firstn_Forall, colours_rgb].
  - rewrite draw_items_err; [reflexivity|lia|exact H].
Qed.

Lemma size_or e k v : size_is e k v -> or_1700 e k = v.
Proof.
  unfold size_is, or_1700, absent_or_none, absent, has, vget_str. intros [[[H|H] ->]|[H [z Hz]]]; rewrite H; [reflexivity|reflexivity|].
  destruct Hz as [[->|[-> _]] Hz]; [|reflexivity]. cbn. destruct (Z.eqb_spec z 0); [lia|reflexivity].
Qed.

Lemma export_events writes e x cid f show : (forall dir name, writes dir name = true) -> export_task e x -> fg_title f = cid ->
  exists ev, export_figure writes (VDict e) cid f = Ok ev /\
    ev ++ (if show : bool then [Shown f] else []) = events_of (mkTask show (Some x)) f.
Proof.
  intros Hw H Ht. unfold export_figure. destruct H as [dir n H1 H2 H3|dir n fmt w h H1 H2 H3 H4 H5 H6]; unfold has, file_is, html_type, absent, has in *;
    [destruct H1 as [H1|H1]|]; destruct H3 as [H3|[H3 ->]]; rewrite H2, H3, H1; cbn [String.eqb Ascii.eqb Bool.eqb].
  1-4: rewrite Hw; eexists; (split; [reflexivity|]); unfold events_of; cbn [t_export t_show]; rewrite Ht; reflexivity.
  all: rewrite H4, Hw; eexists; (split; [reflexivity|]); rewrite (size_or _ _ _ H5), (size_or _ _ _ H6); unfold events_of; cbn [t_export t_show];
    rewrite Ht; reflexivity.
Qed.

(** The value of ["export"] for a task. *)
Definition export_value (t : task) (v : pyval) : Prop :=
  match t_export t with
  | None => v = VNone
  | Some x => exists e, v = VDict e /\ e <> [] /\ export_task e x
  end.

Lemma figure_of_ok writes v t (x : inst ar) cid f : (forall dir name, writes dir name = true) -> export_value t v ->
  draw_container x cid = Ok f -> fg_title f = cid -> figure_of writes v (t_show t) x cid = (events_of t f, Ok tt).
Proof.
  intros Hw Hv Hd Ht. unfold figure_of. rewrite Hd. destruct t as [show [y|]]; cbn [t_show] in *; unfold export_value in Hv; cbn [t_export] in Hv.
  - destruct Hv as [e [-> [He Hx]]]. assert (T : truthy (VDict e) = true) by (destruct e; [congruence|reflexivity]). rewrite T.
    destruct (export_events writes e y cid f show Hw Hx Ht) as [ev [E1 E2]]. rewrite E1, E2. reflexivity.
  - subst v. reflexivity.
Qed.

Lemma figures_of_ok writes v t (x : inst ar) (P : string * dims -> figure -> Prop) (l : odict dims) :
  (forall dir name, writes dir name = true) -> export_value t v ->
  (forall cid c, In (cid, c) l -> exists f, draw_container x cid = Ok f /\ fg_title f = cid /\ P (cid, c) f) ->
  exists figs, Forall2 P l figs /\ figures_of writes v (t_show t) x (dkeys l) = (concat (map (events_of t) figs), Ok tt).
Proof.
  intros Hw Hv. induction l as [|[cid c] l IH]; intros H; [exists []; split; [constructor|reflexivity]|].
  destruct (H cid c (or_introl eq_refl)) as [f [E1 [E2 E3]]]. destruct IH as [figs [F1 F2]]; [intros; apply H; right; assumption|].
  exists (f :: figs). split; [constructor; assumption|]. cbn [dkeys map fst figures_of concat].
  rewrite (figure_of_ok writes v t x cid f Hw Hv E1 E2). change (map fst l) with (dkeys l). rewrite F2. reflexivity.
Qed.

(** An error while drawing the container [cid], after the figures of those before it. *)
Lemma figures_of_err writes v t (x : inst ar) (P : string * dims -> figure -> Prop) (l : odict dims) cid rest e :
  (forall dir name, writes dir name = true) -> export_value t v ->
  (forall k c, In (k, c) l -> exists f, draw_container x k = Ok f /\ fg_title f = k /\ P (k, c) f) ->
  draw_container x cid = Err e ->
  exists figs, Forall2 P l figs /\ figures_of writes v (t_show t) x (dkeys l ++ cid :: rest) = (concat (map (events_of t) figs), Err e).
Proof.
  intros Hw Hv H He. induction l as [|[k c] l IH].
  - exists []. split; [constructor|]. cbn [dkeys map app figures_of]. unfold figure_of at 1. rewrite He. reflexivity.
  - destruct (H k c (or_introl eq_refl)) as [f [E1 [E2 E3]]]. destruct IH as [figs [F1 F2]]; [intros; apply H; right; assumption|].
    exists (f :: figs). split; [constructor; assumption|]. cbn [dkeys map fst app figures_of concat].
    rewrite (figure_of_ok writes v t x k f Hw Hv E1 E2). change (map fst l) with (dkeys l). rewrite F2. reflexivity.
Qed.

Lemma task_create writes d show t (s : machine) : m_sol s <> [] ->
  c_plotly (m_cfg s) = true -> c_plotly_ok (m_cfg s) = true -> settings_of s = VDict d -> task_of d show t ->
  exists v, export_value t v /\
    create_figure writes show s =
      if negb (t_show t) && is_none v then ([], Ok tt)
      else match view s with
           | Some x => figures_of writes v (t_show t) x (dkeys (pb_containers (in_pb x)))
           | None => ([], Err unusable)
           end.
Proof.
  intros Hs H1 H2 H3 Ht. unfold create_figure. destruct (m_sol s) as [|p l]; [congruence|]. rewrite H1, H2. unfold settings_of in H3. rewrite H3.
  destruct Ht as [[Ha ->]|[f [Ha [T1 [T2 T3]]]]]; unfold absent, has in *; rewrite Ha.
  - exists VNone. split; [reflexivity|]. cbn [negb vget truthy orb t_show]. reflexivity.
  - assert (S : truthy (match vget f (VStr "show") with Some v => v | None => VNone end) || show = t_show t).
    { rewrite T1. destruct T3 as [E|[b E]]; rewrite E; reflexivity. }
    cbn [negb]. rewrite S. destruct (vget f (VStr "export")) as [v|].
    + exists v. destruct v; try contradiction. split; [|reflexivity]. destruct T2 as [x [G1 G2]]. unfold export_value. rewrite G2.
      exists d0. split; [reflexivity|]. split; [|assumption]. intros ->. destruct G1; discriminate.
    + exists VNone. split; [unfold export_value; rewrite T2; reflexivity|reflexivity].
Qed.

(** The containers as drawn: those before the first one with too many items. *)
Lemma create_figure_cases writes d show t (s : machine) : inv s -> m_sol s <> [] ->
  c_plotly (m_cfg s) = true -> c_plotly_ok (m_cfg s) = true -> settings_of s = VDict d -> task_of d show t ->
  (forall dir name, writes dir name = true) ->
  exists cs, containers_of s = Some cs /\
    (moderate_sides (m_strip s) (m_min s) (m_sol s) cs -> forall l1 l2, cs = l1 ++ l2 -> (forall cid csol, In cid (dkeys l1) -> dget (m_sol s) cid = Some csol -> (length csol <= 1000)%nat) ->
       (l2 = [] -> exists figs, Forall2 (good_figure (m_strip s) (m_min s) (m_sol s)) cs figs /\
                      create_figure writes show s = (concat (map (events_of t) figs), Ok tt)) /\
       (forall cid c l3 csol, l2 = (cid, c) :: l3 -> dget (m_sol s) cid = Some csol -> (1000 < length csol)%nat ->
          t_show t = true \/ t_export t <> None ->
          exists figs, Forall2 (good_figure (m_strip s) (m_min s) (m_sol s)) l1 figs /\
            create_figure writes show s = (concat (map (events_of t) figs), Err IndexError))).
Proof.
  intros I Hs H1 H2 H3 Ht Hw. destruct (inv_view s I) as [cs [is_ [V1 [V2 [V3 [V4 [V5 [V6 V7]]]]]]]]. exists cs. split; [assumption|].
  destruct (iv_fresh s I) as [F|[cs' [is' [F1 [F2 F3]]]]]; [contradiction|].
  rewrite V1 in F1. injection F1 as <-. rewrite V2 in F2. injection F2 as <-.
  destruct (task_create writes d show t s Hs H1 H2 H3 Ht) as [v [Hv Hc]]. rewrite Hc, V7. clear Hc.
  match goal with |- context [figures_of _ _ _ ?y _] => set (x := y) end.
  assert (X1 : pb_containers (in_pb x) = cs) by reflexivity. assert (X3 : in_sol x = m_sol s) by reflexivity.
  assert (X4 : pb_strip (in_pb x) = m_strip s) by reflexivity. assert (X5 : in_min x = m_min s) by reflexivity. clearbody x. rewrite X1.
  assert (Q : negb (t_show t) && is_none v = true -> forall figs, concat (map (events_of t) figs) = []).
  { intros Hq. apply andb_true_iff in Hq. destruct Hq as [Q1 Q2]. apply negb_true_iff in Q1. unfold export_value in Hv.
    assert (E : t_export t = None). { destruct (t_export t); [|reflexivity]. destruct Hv as [e [-> _]]. discriminate. }
    induction figs as [|f figs IH]; [reflexivity|]. cbn. rewrite IH. unfold events_of. rewrite E, Q1. reflexivity. }
  intros Hm l1 l2 Hcs Hl.
  assert (M : forall cid c csol, In (cid, c) cs -> dget (m_sol s) cid = Some csol ->
     0 < dw c < 2 ^ 1000 /\ 0 <= shown_height (m_strip s) (m_min s) c csol < 2 ^ 1000).
  { intros cid c csol Hin G. destruct (Hm cid c csol Hin G) as [M1 M2]. destruct (proj2 V5 cid c Hin) as [W1 W2]. split; [lia|]. split; [|exact M2].
    unfold shown_height. pose proof (ProofsConstruct.stack_height_nonneg (entries csol)). destruct (m_strip s); [destruct (m_min s); lia|lia]. }
  assert (D1 : forall cid c, In (cid, c) l1 -> exists f, draw_container x cid = Ok f /\ fg_title f = cid /\
                 good_figure (m_strip s) (m_min s) (m_sol s) (cid, c) f).
  { intros cid c Hin. destruct (packed_container _ _ _ _ cid c F3 V5) as [P1 [csol [P2 [P3 P4]]]]; [rewrite Hcs; apply in_or_app; auto|].
    destruct (M cid c csol) as [M1 M2]; [rewrite Hcs; apply in_or_app; auto|assumption|].
    destruct (draw_container_ok x cid c csol) as [G _]; rewrite ?X1, ?X3, ?X4, ?X5; auto. rewrite X4, X5, X3 in G.
    destruct G as [f [G1 G2]]; [apply (Hl cid); [apply in_map_iff; exists (cid, c); auto|assumption]|].
    exists f. split; [assumption|]. split; [|assumption]. destruct G2 as [? [_ [G2 _]]]. exact G2. }
  split.
  - intros ->. rewrite app_nil_r in Hcs. subst l1. destruct (figures_of_ok writes v t x _ cs Hw Hv D1) as [figs [E1 E2]].
    exists figs. split; [assumption|]. rewrite E2. destruct (negb (t_show t) && is_none v) eqn:Eq; [|reflexivity]. rewrite (Q eq_refl). reflexivity.
  - intros cid c l3 csol -> Hcs2 Hlen Hdo.
    assert (Hin : In (cid, c) cs) by (rewrite Hcs; apply in_or_app; right; left; reflexivity).
    destruct (packed_container _ _ _ _ cid c F3 V5 Hin) as [P1 [csol' [P2 [P3 P4]]]]. rewrite Hcs2 in P2. injection P2 as <-.
    destruct (M cid c csol Hin Hcs2) as [M1 M2].
    destruct (draw_container_ok x cid c csol) as [_ G]; rewrite ?X1, ?X3, ?X4, ?X5; auto. specialize (G Hlen).
    destruct (figures_of_err writes v t x _ l1 cid (dkeys l3) IndexError Hw Hv D1 G) as [figs [E1 E2]].
    exists figs. split; [assumption|].
    assert (Eq : negb (t_show t) && is_none v = false).
    { destruct Hdo as [-> |Hd]; [reflexivity|]. apply andb_false_iff. right. unfold export_value in Hv. destruct (t_export t); [|congruence].
      destruct Hv as [e [-> _]]. reflexivity. }
    rewrite Eq. rewrite <- E2. rewrite Hcs. unfold dkeys. rewrite map_app. reflexivity.
Qed.
End Figures.

(** ** C46 *)

(** [_plotly_installed], [_plotly_ver_ok]: a suitable plotly was found when the settings were
    last validated. *)
Definition plotly_usable {ar} (s : machine ar) : Prop := c_plotly (m_cfg s) = true /\ c_plotly_ok (m_cfg s) = true.

(** With at most 1000 items in each container: one figure per container, in order, drawing exactly
    the solution; exported and shown as asked. *)
Theorem C46_draws_partial : forall ar, arith_laws ar ->
  forall env containers items settings width l (s : machine ar) d show t writes,
  history env containers items settings width l s -> without_ior l -> m_sol s <> [] ->
  plotly_usable s -> settings_of s = VDict d -> task_of d show t -> (forall dir name, writes dir name = true) ->
  (forall cid csol, dget (m_sol s) cid = Some csol -> (length csol <= 1000)%nat) ->
  (forall cs, containers_of s = Some cs -> moderate_sides (m_strip s) (m_min s) (m_sol s) cs) ->
  exists cs figs, containers_of s = Some cs /\ Forall2 (good_figure (m_strip s) (m_min s) (m_sol s)) cs figs /\
    create_figure writes show s = (concat (map (events_of t) figs), Ok tt).
Proof.
  intros ar laws env containers items settings width l s d show t writes H Hl Hs [P1 P2] Hset Ht Hw Hn Hm.
  destruct (create_figure_cases writes d show t s (history_inv laws _ _ _ _ _ _ _ H Hl) Hs P1 P2 Hset Ht Hw) as [cs [V G]].
  destruct (G (Hm cs V) cs [] (eq_sym (app_nil_r _))) as [G1 _]; [eauto|]. destruct (G1 eq_refl) as [figs [E1 E2]]. eauto.
Qed.
Print Assumptions C46_draws_partial.

(** With more in one of them, IndexError; the figures of the containers before it are out. *)
Theorem C46_too_many_items : forall ar, arith_laws ar ->
  forall env containers items settings width l (s : machine ar) d show t writes before cid c after_ csol,
  history env containers items settings width l s -> without_ior l -> m_sol s <> [] ->
  plotly_usable s -> settings_of s = VDict d -> task_of d show t -> (forall dir name, writes dir name = true) ->
  t_show t = true \/ t_export t <> None ->
  containers_of s = Some (before ++ (cid, c) :: after_) ->
  (forall k csol', In k (dkeys before) -> dget (m_sol s) k = Some csol' -> (length csol' <= 1000)%nat) ->
  dget (m_sol s) cid = Some csol -> (1000 < length csol)%nat ->
  moderate_sides (m_strip s) (m_min s) (m_sol s) (before ++ (cid, c) :: after_) ->
  exists figs, Forall2 (good_figure (m_strip s) (m_min s) (m_sol s)) before figs /\
    create_figure writes show s = (concat (map (events_of t) figs), Err IndexError).
Proof.
  intros ar laws env containers items settings width l s d show t writes before cid c after_ csol H Hl Hs [P1 P2] Hset Ht Hw Hdo Hcs Hb Hc Hn Hm.
  destruct (create_figure_cases writes d show t s (history_inv laws _ _ _ _ _ _ _ H Hl) Hs P1 P2 Hset Ht Hw) as [cs [V G]].
  rewrite Hcs in V. injection V as <-. destruct (G Hm before ((cid, c) :: after_) eq_refl Hb) as [_ G2]. eapply G2; eauto.
Qed.
Print Assumptions C46_too_many_items.

Definition everything_works (dir name : string) : bool := true.

(** A file that cannot be written: FigureExportError; the figures of the containers before it are
    out, and its own is not shown. *)
Definition file_of (t : string * string * string * option (pyval * pyval)) (cid : string) : string * string :=
  match t with (dir, file, ext, _) => (dir, (file ++ "__" ++ cid ++ "." ++ ext)%string) end.

Lemma export_figure_eq writes e x cid f : export_task e x ->
  export_figure writes (VDict e) cid f =
    if writes (fst (file_of x cid)) (snd (file_of x cid)) then export_figure everything_works (VDict e) cid f else Err FigureExportError.
Proof.
  intros H. unfold export_figure, everything_works. destruct H as [dir n H1 H2 H3|dir n fmt w h H1 H2 H3 H4 H5 H6]; unfold has, file_is, html_type, absent, has in *;
    [destruct H1 as [H1|H1]|]; destruct H3 as [H3|[H3 ->]]; rewrite H2, H3, H1; cbn [String.eqb Ascii.eqb Bool.eqb file_of fst snd];
    try reflexivity; rewrite H4; reflexivity.
Qed.

Lemma figures_write_fails {ar} writes e x show (i : inst ar) cid rest f : forall l evs,
  export_task e x -> e <> [] -> draw_container i cid = Ok f ->
  (forall k, In k l -> writes (fst (file_of x k)) (snd (file_of x k)) = true) ->
  writes (fst (file_of x cid)) (snd (file_of x cid)) = false ->
  figures_of everything_works (VDict e) show i l = (evs, Ok tt) ->
  figures_of writes (VDict e) show i (l ++ cid :: rest) = (evs, Err FigureExportError).
Proof.
  intros l evs Hx He Hd. assert (T : truthy (VDict e) = true) by (destruct e; [congruence|reflexivity]).
  revert evs. induction l as [|k l IH]; intros evs Hw Hf E.
  - injection E as <-. cbn [app figures_of]. unfold figure_of at 1. rewrite Hd, T, (export_figure_eq writes e x cid f Hx), Hf. reflexivity.
  - cbn [app figures_of] in *. unfold figure_of at 1 in E. unfold figure_of at 1. destruct (draw_container i k) as [g|]; [|discriminate E].
    rewrite T in *. rewrite (export_figure_eq writes e x k g Hx), (Hw k (or_introl eq_refl)).
    destruct (export_figure everything_works (VDict e) k g) as [ev|]; [|discriminate E].
    destruct (figures_of everything_works (VDict e) show i l) as [ev' r] eqn:El. injection E as <- ->.
    rewrite (IH ev'); [reflexivity|intros k' Hk; apply Hw; right; exact Hk|exact Hf|reflexivity].
Qed.

Theorem C46_write_fails : forall ar, arith_laws ar ->
  forall env containers items settings width l (s : machine ar) d show t writes before cid c after_ x,
  history env containers items settings width l s -> without_ior l -> m_sol s <> [] ->
  plotly_usable s -> settings_of s = VDict d -> task_of d show t -> t_export t = Some x ->
  containers_of s = Some (before ++ (cid, c) :: after_) ->
  (forall k csol, In k (dkeys (before ++ [(cid, c)])) -> dget (m_sol s) k = Some csol -> (length csol <= 1000)%nat) ->
  moderate_sides (m_strip s) (m_min s) (m_sol s) (before ++ (cid, c) :: after_) ->
  (forall k, In k (dkeys before) -> writes (fst (file_of x k)) (snd (file_of x k)) = true) ->
  writes (fst (file_of x cid)) (snd (file_of x cid)) = false ->
  exists figs, Forall2 (good_figure (m_strip s) (m_min s) (m_sol s)) before figs /\
    create_figure writes show s = (concat (map (events_of t) figs), Err FigureExportError).
Proof.
  intros ar laws env containers items settings width l s d show t writes before cid c after_ x H Hl Hs [U1 U2] Hset Ht Hx Hcs Hb Hm Hw Hf.
  pose proof (history_inv laws _ _ _ _ _ _ _ H Hl) as I.
  destruct (inv_view s I) as [cs [is_ [V1 [V2 [V3 [V4 [V5 [V6 V7]]]]]]]]. rewrite Hcs in V1. injection V1 as <-.
  destruct (iv_fresh s I) as [F|[cs' [is' [F1 [F2 F3]]]]]; [contradiction|].
  rewrite Hcs in F1. injection F1 as <-. rewrite V2 in F2. injection F2 as <-.
  destruct (task_create writes d show t s Hs U1 U2 Hset Ht) as [v [Hv Hc]]. rewrite Hc, V7. clear Hc.
  match goal with |- context [figures_of _ _ _ ?y _] => set (i := y) end.
  assert (X1 : pb_containers (in_pb i) = before ++ (cid, c) :: after_) by reflexivity. assert (X3 : in_sol i = m_sol s) by reflexivity.
  assert (X4 : pb_strip (in_pb i) = m_strip s) by reflexivity. assert (X5 : in_min i = m_min s) by reflexivity. clearbody i. rewrite X1.
  assert (D : forall k e, In (k, e) (before ++ [(cid, c)]) -> exists f, draw_container i k = Ok f /\ fg_title f = k /\
                 good_figure (m_strip s) (m_min s) (m_sol s) (k, e) f).
  { intros k e Hin. assert (Hin' : In (k, e) (before ++ (cid, c) :: after_)).
    { apply in_app_or in Hin. apply in_or_app. destruct Hin as [Hin|[Hin|[]]]; [left; exact Hin|right; left; exact Hin]. }
    destruct (packed_container _ _ _ _ k e F3 V5 Hin') as [P1 [csol [P2 [P3 P4]]]].
    destruct (Hm k e csol Hin' P2) as [M1 M2]. destruct (proj2 V5 k e Hin') as [W1 W2].
    assert (N : 0 <= shown_height (m_strip s) (m_min s) e csol).
    { unfold shown_height. pose proof (ProofsConstruct.stack_height_nonneg (entries csol)). destruct (m_strip s); [destruct (m_min s); lia|lia]. }
    destruct (draw_container_ok i k e csol) as [G _]; rewrite ?X1, ?X3, ?X4, ?X5; auto. rewrite X4, X5, X3 in G.
    destruct G as [f [G1 G2]]; [apply (Hb k); [apply in_map_iff; exists (k, e); auto|assumption]|].
    exists f. split; [assumption|]. split; [|assumption]. destruct G2 as [? [_ [G2 _]]]. exact G2. }
  destruct (figures_of_ok everything_works v t i (good_figure (m_strip s) (m_min s) (m_sol s)) before) as [figs [E1 E2]];
    [reflexivity|exact Hv|intros k e Hin; apply D; apply in_or_app; left; exact Hin|].
  exists figs. split; [exact E1|]. unfold export_value in Hv. rewrite Hx in Hv. destruct Hv as [e [-> [He Hv]]].
  replace (negb (t_show t) && is_none (VDict e)) with false by (destruct (t_show t); reflexivity).
  destruct (D cid c) as [f [D1 _]]; [apply in_or_app; right; left; reflexivity|].
  unfold dkeys. rewrite map_app. cbn [map fst].
  eapply figures_write_fails; eassumption.
Qed.
Print Assumptions C46_write_fails.

(** Settings that were accepted always define a task: what [create_figure] will do. *)
Lemma validate_export_named env d f e c c' :
  c_settings c = VDict d -> has d "figure" (VDict f) -> has f "export" (VDict e) ->
  validate_export env (VDict e) c = (c', Ok tt) ->
  (absent_or_none e "file_name" /\
   c_settings c' = VDict (vset d (VStr "figure") (VDict (vset f (VStr "export") (VDict (vset e (VStr "file_name") (VStr "PlotlyGraph"))))))) \/
  (exists n, has e "file_name" (VStr n) /\ c_settings c' = c_settings c).
Proof.
  intros Hd Hf He E. unfold validate_export in E. cbv zeta in E.
  rewrite swhen_cases in E. destruct (is_none (vget_str e "type")); [discriminate E|].
  rewrite swhen_cases in E. destruct (negb (in_strings (vget_str e "type") ["html"; "image"])); [discriminate E|].
  unfold sbind at 1 in E.
  match type of E with context [match ?m c with (_, _) => _ end] => assert (P : m c = (c, Ok tt)) end.
  { destruct (vget_str e "path") as [| | | |p| | | | | |]; try discriminate E. unfold sbind at 1 in E. unfold sbind.
    destruct (env_exists env p); [|discriminate E]. destruct (env_is_dir env p); [|discriminate E]. reflexivity. }
  rewrite P in E. clear P.
  rewrite swhen_cases in E. destruct (is_none (vget_str e "format") && _); [discriminate E|].
  rewrite swhen_cases in E. destruct (negb (is_string (vget_str e "type") "html") && _); [discriminate E|].
  rewrite swhen_cases in E. destruct (is_string (vget_str e "type") "image" && _); [discriminate E|].
  assert (K : forall c1, (if is_string (vget_str e "type") "image"
        then (sbind sget (fun c => sbind (swhen (negb (c_kaleido c)) (serr S_EXPORT_KALEIDO_MISSING)) (fun _ =>
        sbind (swhen (negb (c_kaleido_ok c)) (serr S_EXPORT_KALEIDO_VERSION)) (fun _ =>
        sbind (swhen (negb (is_none (vget_str e "width")) && not_positive_int (vget_str e "width")) (serr S_EXPORT_WIDTH_VALUE)) (fun _ =>
        swhen (negb (is_none (vget_str e "height")) && not_positive_int (vget_str e "height")) (serr S_EXPORT_HEIGHT_VALUE))))))
      else sret tt) c1 = (c', Ok tt) -> c' = c1).
  { intros c1. destruct (is_string (vget_str e "type") "image"); [|intros [= <-]; reflexivity].
    unfold sbind at 1, sget. rewrite swhen_cases. destruct (negb (c_kaleido c1)); [discriminate|].
    rewrite swhen_cases. destruct (negb (c_kaleido_ok c1)); [discriminate|]. rewrite swhen_cases.
    destruct (negb (is_none (vget_str e "width")) && _); [discriminate|].
    destruct (negb (is_none (vget_str e "height")) && _); [discriminate|intros [= <-]; reflexivity]. }
  destruct (vget_str e "file_name") as [| | | |n| | | | | |] eqn:En; try discriminate E.
  - left. split; [apply vget_str_none; assumption|]. unfold sbind at 1, smodify in E. apply K in E. subst c'.
    unfold insert_file_name. rewrite Hd. unfold has in Hf, He. rewrite Hf, He. reflexivity.
  - right. exists n. split; [apply vget_str_some; [assumption|discriminate]|]. rewrite swhen_cases in E.
    destruct (negb (file_name_ok n)); [discriminate E|]. apply K in E. subst c'. reflexivity.
Qed.

Lemma validate_solver_settings c c' : validate_solver c = (c', Ok tt) -> c_settings c' = c_settings c.
Proof.
  intros E.
  assert (K : forall (m : SM cfg unit), (forall a b r, m a = (b, r) -> c_settings b = c_settings a) -> m c = (c', Ok tt) -> c_settings c' = c_settings c)
    by (intros m H1 H2; eauto).
  pose proof (validate_solver_tri (mkEnv None None (fun _ => false) (fun _ => false)) (c_settings c) c c) as T.
  assert (W : with_settings c (c_settings c) = c) by (destruct c; reflexivity). specialize (T (eq_sym W)). rewrite E in T.
  destruct T as [d [_ [T _]]]. exact T.
Qed.

Theorem C46_accepted_settings : forall ar env v (s s' : machine ar) o show,
  validates env v s o -> run o s = (s', Ok tt) ->
  exists d t, settings_of s' = VDict d /\ task_of d show t /\
    (plotly_by_code env <-> plotly_usable s').
Proof.
  intros ar env v s s' o show H E.
  destruct (validates_cases _ _ _ _ _ _ H E) as [_ [[_ [d [Ev [[F1 [_ [_ [_ [L1 [L2 _]]]]]] F]]]]|[m [X _]]]]; [|discriminate X].
  assert (PU : plotly_by_code env <-> plotly_usable s').
  { rewrite <- plotly_ok_spec. unfold plotly_usable. rewrite L1, L2. unfold plotly_ok, installed. destruct (env_plotly env); tauto. }
  destruct (validates_run _ _ _ _ _ _ H E) as [c [Ec ->]]. unfold settings_of. cbn [m_cfg set_cfg] in *. rewrite Ev in *. clear v Ev.
  unfold validate_settings, sbind at 1 in Ec. destruct (validate_solver (with_settings (m_cfg s) (VDict d))) as [c1 [[]|e]] eqn:E1; [|discriminate Ec].
  apply validate_solver_settings in E1. cbn [with_settings c_settings] in E1.
  unfold validate_figure, check_versions, smodify, sbind at 1 in Ec. set (c2 := with_libs c1 _ _ _ _) in *.
  assert (S2 : c_settings c2 = VDict d) by exact E1. unfold sbind at 1, sget in Ec. cbv zeta in Ec. rewrite S2 in Ec.
  destruct F as [Ha|[f [Ha F]]].
  - unfold absent in Ha. rewrite Ha in Ec. injection Ec as <-. exists d, (mkTask show None). split; [assumption|]. split; [left; auto|assumption].
  - unfold has in Ha. rewrite Ha in Ec. destruct F as [->|[_ [Fe Fs]]].
    + injection Ec as <-. exists d, (mkTask show None). split; [assumption|]. split; [|assumption]. right. exists []. split; [exact Ha|]. split; [reflexivity|]. split; [reflexivity|left; reflexivity].
    + assert (Hne : f = [] \/ f <> []) by (destruct f; [left|right]; congruence). destruct Hne as [-> |Hne].
      { injection Ec as <-. exists d, (mkTask show None). split; [assumption|]. split; [|assumption]. right. exists []. split; [exact Ha|]. split; [reflexivity|]. split; [reflexivity|left; reflexivity]. }
      assert (Ec' : (let '(c3, r) := match vget f (VStr "export") with Some e => validate_export env e | None => sret tt end c2 in
                     match r with Ok _ => (c3, Ok tt) | Err x => (c3, Err x) end) = (c, Ok tt)).
      { destruct f as [|p f0]; [congruence|]. set (f := p :: f0) in *. clearbody f. rewrite swhen_cases in Ec. destruct (negb (c_plotly c2)); [discriminate Ec|].
        rewrite swhen_cases in Ec. destruct (negb (c_plotly_ok c2)); [discriminate Ec|]. unfold sbind at 1 in Ec.
        destruct (match vget f (VStr "export") with Some e => validate_export env e | None => sret tt end c2) as [c3 [[]|x]]; [|assumption].
        destruct (vget f (VStr "show")) as [w|]; [destruct w; try discriminate Ec|]; exact Ec. }
      clear Ec. destruct Fe as [Fe|[e [Fe Fr]]].
      * unfold absent in Fe. rewrite Fe in Ec'. injection Ec' as <-. exists d. eexists (mkTask _ None). split; [assumption|].
        split; [|assumption]. right. exists f. split; [exact Ha|]. rewrite Fe. cbn [t_show t_export]. auto.
      * unfold has in Fe. rewrite Fe in Ec'. destruct (validate_export env (VDict e) c2) as [c3 [[]|x]] eqn:Ee; [|discriminate Ec'].
        injection Ec' as ->. destruct Fr as [Fty [[p [Fp _]] _]].
        assert (TK : forall e' n, has e' "file_name" (VStr n) -> (forall k, k <> "file_name" -> vget e' (VStr k) = vget e (VStr k)) ->
                       exists x, export_task e' x).
        { intros e' n Hn Hk.
          assert (SZ : forall k, k <> "file_name" -> size_ok e k -> exists w, size_is e' k w).
          { intros k Hk' [G|[w [G1 G2]]].
            - exists (VInt 1700). left. split; [|reflexivity]. unfold absent_or_none, absent in *. rewrite Hk by assumption. assumption.
            - exists w. right. split; [|assumption]. unfold has in *. rewrite Hk by assumption. assumption. }
          destruct Fty as [[G _]|[G1 [G2 [G3 [_ [fmt [G4 _]]]]]]].
          - exists (p, n, "html", None). constructor; [left| |left]; unfold file_is, has in *; rewrite ?Hk by discriminate; assumption.
          - destruct (SZ "width" ltac:(discriminate) G2) as [w Hw]. destruct (SZ "height" ltac:(discriminate) G3) as [h Hh].
            exists (p, n, fmt, Some (w, h)). constructor; [| |left| | |]; unfold file_is in *; try assumption; unfold has in *; rewrite ?Hk by discriminate; assumption. }
        assert (GO : forall d' f' e', c_settings c = VDict d' -> has d' "figure" (VDict f') -> has f' "export" (VDict e') ->
                  vget f' (VStr "show") = vget f (VStr "show") -> (exists x, export_task e' x) ->
                  exists d0 t, c_settings c = VDict d0 /\ task_of d0 show t /\ (plotly_by_code env <-> plotly_usable (set_cfg s c))).
        { intros d' f' e' G1 G2 G3 G4 [x Gx].
          exists d', (mkTask ((match vget f' (VStr "show") with Some (VBool b) => b | _ => false end) || show) (Some x)).
          split; [assumption|]. split; [|assumption]. right. exists f'. split; [assumption|]. cbn [t_show t_export]. split; [reflexivity|].
          unfold has in G3. rewrite G3. split; [eauto|]. unfold absent, has. rewrite G4. exact Fs. }
        destruct (validate_export_named env d f e c2 c S2 Ha Fe Ee) as [[N1 N2]|[n [N1 N2]]].
        -- eapply GO; [exact N2|apply vget_vset_same|apply vget_vset_same|apply vget_vset_other; discriminate|].
           eapply (TK _ "PlotlyGraph"); [apply vget_vset_same|]. intros k Hk. apply vget_vset_other. congruence.
        -- eapply (GO d f e); [congruence|exact Ha|exact Fe|reflexivity|]. eapply (TK e n N1). reflexivity.
Qed.
Print Assumptions C46_accepted_settings.

(** False for any number of items: 1001 items in one container. *)
Definition short_name (n : nat) : string := String (Ascii.ascii_of_nat (n mod 128)) (String (Ascii.ascii_of_nat (n / 128)) "").
Definition many_items : pyval := VDict (map (fun n => (VStr (short_name n), py_dims KItems 1 1)) (seq 0 1001)).
Definition one_container : pyval := VDict [(VStr "C", py_dims KContainers 32 32)].
Definition crowded : machine qarith :=
  fst (create qarith (libraries "5.18.0" "0.2.1") one_container many_items VNone VNone (blank qarith)).
Definition crowded_ops : list op := [OpSetStrategy (VTuple [VStr "A"; VStr "B"]); OpSolve None].

Theorem C46_refuted :
  let s := after crowded crowded_ops in
  (snd (create qarith (libraries "5.18.0" "0.2.1") one_container many_items VNone VNone (blank qarith)),
   map (fun kc => length (snd kc)) (m_sol s),
   create_figure everything_works true s) = (Ok tt, [1001%nat], ([], Err IndexError)).
Proof. vm_compute. reflexivity. Qed.
Print Assumptions C46_refuted.

(** Different containers are written to different files. *)
Lemma append_inj_r a b c : (a ++ b = a ++ c)%string -> b = c.
Proof. induction a as [|x a IH]; cbn; [auto|]. intros [= H]. auto. Qed.
Lemma length_append a b : String.length (a ++ b) = (String.length a + String.length b)%nat.
Proof. induction a as [|x a IH]; cbn; congruence. Qed.
Lemma append_inj_l c : forall a b, (a ++ c = b ++ c)%string -> a = b.
Proof.
  induction a as [|x a IH]; intros [|y b] H.
  - reflexivity.
  - apply (f_equal String.length) in H. cbn in H. rewrite length_append in H. lia.
  - apply (f_equal String.length) in H. cbn in H. rewrite length_append in H. lia.
  - injection H as -> H. f_equal. apply IH. assumption.
Qed.

Theorem C46_distinct_files : forall t f f' dir dir' name name' size size',
  In (Wrote dir name size f) (events_of t f) -> In (Wrote dir' name' size' f') (events_of t f') ->
  fg_title f <> fg_title f' -> dir = dir' /\ name <> name'.
Proof.
  intros t f f' dir dir' name name' size size' H H' Hne. unfold events_of in *. apply in_app_or in H. apply in_app_or in H'.
  destruct H as [H|H]; [|destruct (t_show t); cbn in H; [destruct H as [H|[]]; discriminate H|contradiction]].
  destruct H' as [H'|H']; [|destruct (t_show t); cbn in H'; [destruct H' as [H'|[]]; discriminate H'|contradiction]].
  destruct (t_export t) as [[[[d n] ext] sz]|]; [|contradiction]. destruct H as [[= <- <- _]|[]]. destruct H' as [[= <- <- _]|[]].
  split; [reflexivity|]. intros E. apply Hne. apply append_inj_r in E. injection E as E. eapply append_inj_l. exact E.
Qed.
Print Assumptions C46_distinct_files.

(** Nothing is drawn without a solution, and nothing else can happen than in the theorems above:
    without a suitable plotly, SettingsError; with settings whose rejected value is no dictionary
    still in place (C41), AttributeError. *)
Theorem C46_other_outcomes : forall ar (s : machine ar) writes show,
  (m_sol s = [] -> create_figure writes show s = ([], Ok tt)) /\
  (m_sol s <> [] -> ~ plotly_usable s ->
     exists m, create_figure writes show s = ([], Err (SettingsError m)) /\ (m = S_PLOTLY_NOT_INSTALLED \/ m = S_PLOTLY_VERSION)) /\
  (forall d, m_sol s <> [] -> plotly_usable s -> settings_of s = VDict d -> absent d "figure" ->
     create_figure writes false s = ([], Ok tt)).
Proof.
  intros ar s writes show. unfold create_figure, plotly_usable. split; [|split].
  - intros ->. reflexivity.
  - intros H1 H2. destruct (m_sol s); [congruence|]. destruct (c_plotly (m_cfg s)); cbn [negb]; [|eauto].
    destruct (c_plotly_ok (m_cfg s)); cbn [negb]; [exfalso; auto|eauto].
  - intros d H1 [H2 H3] H4 H5. destruct (m_sol s); [congruence|]. rewrite H2, H3. unfold settings_of in H4. rewrite H4. unfold absent in H5. rewrite H5. reflexivity.
Qed.
Print Assumptions C46_other_outcomes.

(** Two containers, three items: exported, and drawn as stored. *)
Definition plotted : machine qarith :=
  fst (create qarith (libraries "5.18.0" "0.2.1") two_containers three_items (html_export []) VNone (blank qarith)).
Example C46_witness :
  let s := after plotted [OpSolve None] in
  snd (create qarith (libraries "5.18.0" "0.2.1") two_containers three_items (html_export []) VNone (blank qarith)) = Ok tt /\
  plotly_usable s /\ settings_of s = html_export [(VStr "file_name", VStr "PlotlyGraph")] /\
  map (fun e => match e with Wrote dir name _ f => (dir, name, map (fun sh => (sh_label sh, sh_x0 sh, sh_y0 sh, sh_x1 sh, sh_y1 sh)) (fg_shapes f))
                           | Shown _ => ("", "", []) end) (fst (create_figure everything_works false s)) =
    [("/figures", "PlotlyGraph__C1.html", [("a", 0, 0, 2, 3); ("b", 0, 3, 4, 4)]);
     ("/figures", "PlotlyGraph__C2.html", [("c", 0, 0, 3, 3)])] /\
  snd (create_figure everything_works false s) = Ok tt.
Proof. cbv zeta. refine (conj _ (conj (conj _ _) (conj _ (conj _ _)))); vm_compute; reflexivity. Qed.
Print Assumptions C46_witness.

(** The second file cannot be written. *)
Definition only_first (dir name : string) : bool := String.eqb name "PlotlyGraph__C1.html".
Example C46_write_fails_witness :
  let s := after plotted [OpSolve None] in
  exists f, create_figure only_first true s =
    ([Wrote "/figures" "PlotlyGraph__C1.html" None f; Shown f], Err FigureExportError) /\
    map sh_label (fg_shapes f) = ["a"; "b"] /\ map sh_color (fg_shapes f) = ["#6c5ebd"; "#cd5836"] /\ ax_tick (fg_x f) = 1.
Proof.
  cbv zeta. exists (mkFigure "C1" (mkAxis (-2) 6 1) (mkAxis (-2) 6 1) [mkShape "a" 0 0 2 3 "#6c5ebd"; mkShape "b" 0 3 4 4 "#cd5836"]
    [([0; 2; 2; 0], [0; 0; 3; 3]); ([0; 4; 4; 0], [3; 3; 4; 4])] ((0, 0), (4, 4))).
  refine (conj _ (conj _ (conj _ _))); vm_compute; reflexivity.
Qed.
Example moderate_sides_witness :
  let s := after plotted [OpSolve None] in
  forall cs, containers_of s = Some cs -> moderate_sides (m_strip s) (m_min s) (m_sol s) cs.
Proof.
  cbv zeta. intros cs H. assert (E : cs = [("C1", mkDims 4 4); ("C2", mkDims 5 3)]) by (vm_compute in H; injection H as <-; reflexivity). subst cs. clear H.
  intros cid c csol Hin _. replace (m_strip (after plotted [OpSolve None])) with false by (vm_compute; reflexivity). unfold shown_height.
  destruct Hin as [[= <- <-]|[[= <- <-]|[]]]; cbn [dw dl]; lia.
Qed.

(** ** C56: the ["show"] setting and the parameter *)

(** Documented: the setting has precedence. In the code the figure is shown if either asks for it. *)
Lemma shown_if_either d show t : task_of d show t ->
  (t_show t = true <-> show = true \/ exists f, has d "figure" (VDict f) /\ has f "show" (VBool true)).
Proof.
  intros [[Ha ->]|[f [Ha [T1 [_ T3]]]]]; cbn [t_show].
  - split; [auto|]. intros [E|[f [G _]]]; [assumption|]. unfold absent, has in *. congruence.
  - rewrite T1. unfold absent, has in *. split.
    + intros E. apply orb_true_iff in E. destruct E as [E|E]; [right|left; assumption]. exists f. split; [assumption|].
      destruct T3 as [G|[b G]]; rewrite G in *; congruence.
    + intros [->|[f' [G1 G2]]]; [apply orb_true_r|]. assert (f' = f) by congruence. subst f'. rewrite G2. reflexivity.
Qed.

Theorem C56_shown_if_either_partial : forall ar, arith_laws ar ->
  forall env containers items settings width l (s : machine ar) d show t writes,
  history env containers items settings width l s -> without_ior l -> m_sol s <> [] ->
  plotly_usable s -> settings_of s = VDict d -> task_of d show t -> (forall dir name, writes dir name = true) ->
  (forall cid csol, dget (m_sol s) cid = Some csol -> (length csol <= 1000)%nat) ->
  (forall cs, containers_of s = Some cs -> moderate_sides (m_strip s) (m_min s) (m_sol s) cs) ->
  ((exists f, In (Shown f) (fst (create_figure writes show s))) <->
   (show = true \/ exists f, has d "figure" (VDict f) /\ has f "show" (VBool true))).
Proof.
  intros ar laws env containers items settings width l s d show t writes H Hl Hs HP Hset Ht Hw Hn Hm.
  destruct (C46_draws_partial ar laws _ _ _ _ _ _ _ _ _ _ _ H Hl Hs HP Hset Ht Hw Hn Hm) as [cs [figs [V [F E]]]]. rewrite E. cbn [fst].
  rewrite <- (shown_if_either d show t Ht).
  destruct (C32_well_formed_partial ar laws _ _ _ _ _ _ _ H Hl) as [cs' [is_ [V' [_ [Hne _]]]]]. rewrite V in V'. injection V' as <-.
  split.
  - intros [f Hf]. apply in_concat in Hf. destruct Hf as [ev [K1 K2]]. apply in_map_iff in K1. destruct K1 as [f' [<- K1]].
    unfold events_of in K2. apply in_app_or in K2. destruct K2 as [K2|K2].
    + destruct (t_export t) as [[[[? ?] ?] ?]|]; [|contradiction]. destruct K2 as [K2|[]]. discriminate K2.
    + destruct (t_show t); [reflexivity|contradiction].
  - intros E'. destruct F as [|c f cs figs]; [congruence|]. exists f. cbn [map concat]. apply in_or_app. left. unfold events_of. rewrite E'.
    apply in_or_app. right. left. reflexivity.
Qed.
Print Assumptions C56_shown_if_either_partial.

Definition do_not_show : pyval := VDict [(VStr "figure", VDict [(VStr "show", VBool false)])].
Definition silent : machine qarith :=
  fst (create qarith (libraries "5.18.0" "0.2.1") two_containers three_items do_not_show VNone (blank qarith)).
Theorem C56_refuted :
  let s := after silent [OpSolve None] in
  settings_of s = do_not_show /\
  exists f1 f2, create_figure everything_works true s = ([Shown f1; Shown f2], Ok tt).
Proof.
  cbv zeta. split; [vm_compute; reflexivity|].
  exists (mkFigure "C1" (mkAxis (-2) 6 1) (mkAxis (-2) 6 1) [mkShape "a" 0 0 2 3 "#6c5ebd"; mkShape "b" 0 3 4 4 "#cd5836"]
    [([0; 2; 2; 0], [0; 0; 3; 3]); ([0; 4; 4; 0], [3; 3; 4; 4])] ((0, 0), (4, 4))).
  exists (mkFigure "C2" (mkAxis (-2) 7 1) (mkAxis (-2) 5 1) [mkShape "c" 0 0 3 3 "#6c5ebd"] [([0; 3; 3; 0], [0; 0; 3; 3])] ((0, 0), (5, 3))). vm_compute. reflexivity.
Qed.
Print Assumptions C56_refuted.
