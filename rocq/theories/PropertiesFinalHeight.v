(** * C54 without a minimum height: the height is lowered only by solutions that store all the
    items, and what a strip hypersearch returns fits the final [container_height]. *)
From Coq Require Import ZArith String List Bool Lia Permutation QArith Lqa.
From Coq Require Import ZifyBool ZifyNat.
From Verif Require Import Py Arith Construct Spec Runs LocalSearch SpecSearch Perms ItemsManip
  HyperSearch ProofsPy ProofsConstruct ProofsSolve ProofsPacking ProofsSolution ProofsValues
  ProofsLocalSearch ProofsSearchRun ProofsHyper Validation PropertiesSolve PropertiesSearch PropertiesHyper.
Import ListNotations.
Open Scope string_scope.
Open Scope list_scope.
Open Scope Z_scope.

(** ** Local search *)
(** Without a minimum height, a search that leaves the strip lower than it was leaves a solution
    with all the items. *)
Theorem C20_lower_only_when_full : forall ar, arith_laws ar ->
  forall x, valid_inst ar x -> pb_strip (in_pb x) = true -> in_min x = None ->
  forall ck limit throttle start clk y clk' log,
  local_search ar ck limit throttle start x clk = Ok (y, clk', log) ->
  pb_height (in_pb y) = pb_height (in_pb x) \/ strip_full ar x (in_sol y).
Proof.
  intros ar laws x Hv Hs Hm ck limit throttle start clk y clk' log H.
  destruct (run_of ar laws x Hv ck limit throttle start clk y clk' log H)
    as [s0 [s [-> [-> [I0 [Hi0 [R _]]]]]]].
  cbn [in_sol in_pb set_solution].
  destruct (lr_full _ _ _ _ _ _ _ _ R) as [[_ E]|[sol [objs [E Hf]]]].
  - left. unfold height in E. rewrite E. exact (in0_height _ _ _ _ _ I0).
  - right. rewrite E. cbn [fst].
    specialize (Hf Hs Hm). destruct Hf as [c [H1 H2]]. exists (deepcopy_container (pb_items (in_pb x)) c).
    destruct Hv as [[[Hn _] _] Hst]. destruct (Hst Hs) as [Hk _]. split.
    + unfold copied. rewrite dget_map_keys. rewrite Hk.
      destruct (in_dec string_dec strip_id [strip_id]) as [|C]; [|exfalso; apply C; left; reflexivity].
      rewrite H1. reflexivity.
    + intros i Hi. apply deepcopy_container_keys; [assumption|]. auto.
Qed.
Print Assumptions C20_lower_only_when_full.

(** ** Values of strip constructions *)
Lemma top_le_stack es : forall e, In e es -> e_y e + e_l e <= stack_height es.
Proof.
  induction es as [|a t IH]; intros e Hin; [destruct Hin|].
  change (stack_height (a :: t)) with (Z.max (e_y a + e_l a) (stack_height t)).
  destruct Hin as [<-|Hin]; [lia|]. specialize (IH e Hin). lia.
Qed.

Lemma stack_le es h : 0 <= h -> (forall e, In e es -> e_y e + e_l e <= h) -> stack_height es <= h.
Proof.
  intros Hh. induction es as [|a t IH]; intros H; [exact Hh|].
  change (stack_height (a :: t)) with (Z.max (e_y a + e_l a) (stack_height t)).
  assert (stack_height t <= h) by (apply IH; intros; apply H; right; assumption).
  pose proof (H a (or_introl eq_refl)). lia.
Qed.

(** What [solve] makes of a strip: one container, its entries, and a value equal to
    area / (W * max(1, height - 1)) when something is stored. *)
Lemma strip_made pb c seq sol objs v :
  valid_problem pb -> pb_strip pb = true -> pb_containers pb = [(strip_id, c)] ->
  Permutation seq (dkeys (pb_items pb)) ->
  solve qarith pb (Some seq) = Ok (sol, objs) -> obj_value qarith 1 (dvals objs) = Ok v ->
  exists csol, sol = [(strip_id, csol)] /\ NoDup (dkeys csol) /\
    0 <= total_area (entries csol) <= items_area (pb_items pb) /\
    ((forall i, In i (dkeys (pb_items pb)) -> In i (dkeys csol)) ->
       total_area (entries csol) = items_area (pb_items pb)) /\
    (entries csol <> [] -> 0 < total_area (entries csol) /\
       (v == inject_Z (total_area (entries csol)) /
             inject_Z (dw c * Z.max 1 (stack_height (entries csol) - 1)))%Q).
Proof.
  intros Hv Hs Hc Hp H Hval.
  assert (Hk : known_sequence pb (Some seq)) by (intros i Hi; exact (Permutation_in _ Hp Hi)).
  pose proof H as H'. rewrite C04_solve_is_solve_full in H'. destruct H' as [left H'].
  destruct (C04_ids_stored_once qarith _ _ _ _ _ Hv Hk H') as [K1 [K2 [K3 _]]].
  rewrite Hc in K1, K2. destruct sol as [|[i csol] [|]]; try discriminate K1. injection K1 as ->.
  destruct objs as [|[j obj] [|]]; try discriminate K2. injection K2 as ->.
  exists csol. split; [reflexivity|].
  apply NoDup_app_iff in K3. destruct K3 as [K3 _]. unfold stored_ids in K3. cbn [map concat snd] in K3.
  rewrite app_nil_r in K3. split; [exact K3|].
  assert (Harea : 0 <= total_area (entries csol) <= items_area (pb_items pb)).
  { destruct (solve_run_of _ _ _ Hv Hk _ _ H) as [items [rest [_ [[Hvi [Hw Hd]] [_ Hrun]]]]].
    destruct (run_perm _ _ _ _ _ _ _ Hrun) as [ds [Hpd [Hds HF]]].
    simpl in HF. rewrite app_nil_r in HF. rewrite <- (stores_area _ _ _ HF).
    assert (Hsub : incl ds (pb_items pb)).
    { intros [i d] Hin. apply dget_In. apply Hd. eapply Permutation_in; [exact Hpd|]. apply in_or_app. auto. }
    assert (Hpos : forall i d, In (i, d) (pb_items pb) -> pos_dims d) by apply Hv.
    split; [apply items_area_nonneg; intros i d Hin; eapply Hpos; apply Hsub; exact Hin|].
    apply area_incl; [|exact Hsub|exact Hpos].
    assert (Hnd : NoDup (dkeys (ds ++ rest))).
    { eapply Permutation_NoDup; [apply Permutation_map, Permutation_sym, Hpd|]. apply Hvi. }
    unfold dkeys in Hnd. rewrite map_app in Hnd. apply NoDup_app_iff in Hnd. destruct Hnd as [Hnd _].
    eapply NoDup_map_inv. exact Hnd. }
  split; [exact Harea|]. split.
  { intros Hf. exact (full_area _ _ _ _ _ _ _ Hv Hk H eq_refl Hf). }
  intros Hne.
  destruct (strip_value pb (Some seq) Hv Hk _ _ strip_id csol obj Hs H eq_refl eq_refl Hne) as [c' [Hc' Ho]].
  rewrite Hc in Hc'. cbn in Hc'. injection Hc' as <-. split.
  - assert (Hpos : forall e, In e (entries csol) -> 0 < entry_area e).
    { intros e He. unfold entries in He. apply in_map_iff in He. destruct He as [[k e'] [<- He]].
      destruct (solve_inside _ _ _ Hv Hk _ _ H strip_id csol k e' (or_introl eq_refl) He)
        as [c' [_ Hin]]. unfold inside in Hin. unfold entry_area. simpl. nia. }
    clear - Hne Hpos. destruct (entries csol) as [|e t]; [congruence|].
    assert (0 <= total_area t).
    { assert (Ht : forall e, In e t -> 0 < entry_area e) by (intros; apply Hpos; right; assumption).
      clear - Ht. induction t as [|e t IH]; simpl; [lia|].
      pose proof (Ht e (or_introl eq_refl)).
      assert (0 <= total_area t) by (apply IH; intros; apply Ht; right; assumption).
      unfold total_area in *. lia. }
    pose proof (Hpos e (or_introl eq_refl)). simpl. unfold total_area in *. lia.
  - change (Ok (Qred (0 + obj)) = Ok v) in Hval.
    assert (E : v = Qred (0 + obj)) by (injection Hval; intros <-; reflexivity). rewrite E.
    eapply Qeq_trans; [apply Qred_correct|]. eapply Qeq_trans; [apply Qplus_0_l|]. exact Ho.
Qed.

Lemma quot_le a b c d : 0 < b -> 0 < d -> a * d <= c * b ->
  (inject_Z a / inject_Z b <= inject_Z c / inject_Z d)%Q.
Proof.
  intros Hb Hd H. apply Qle_shift_div_l; [apply inject_pos; exact Hd|].
  assert (E : (inject_Z a / inject_Z b * inject_Z d == inject_Z (a * d) / inject_Z b)%Q).
  { rewrite inject_Z_mult. field. pose proof (inject_pos b Hb). lra. }
  rewrite E. apply Qle_shift_div_r; [apply inject_pos; exact Hb|].
  rewrite <- inject_Z_mult, <- Zle_Qle. exact H.
Qed.

Lemma quot_le_inv a b c d : 0 < b -> 0 < d ->
  (inject_Z a / inject_Z b <= inject_Z c / inject_Z d)%Q -> a * d <= c * b.
Proof.
  intros Hb Hd H. pose proof (inject_pos b Hb) as Pb. pose proof (inject_pos d Hd) as Pd.
  assert (G : (inject_Z a / inject_Z b * (inject_Z b * inject_Z d) <=
               inject_Z c / inject_Z d * (inject_Z b * inject_Z d))%Q).
  { apply Qmult_le_compat_r; [exact H|]. apply Qlt_le_weak. nra. }
  assert (E1 : (inject_Z a / inject_Z b * (inject_Z b * inject_Z d) == inject_Z (a * d))%Q).
  { rewrite inject_Z_mult. field. lra. }
  assert (E2 : (inject_Z c / inject_Z d * (inject_Z b * inject_Z d) == inject_Z (c * b))%Q).
  { rewrite inject_Z_mult. field. lra. }
  rewrite E1, E2, <- Zle_Qle in G. exact G.
Qed.

(** ** The loop over the strategies *)
Section Final.
Context (x : inst qarith) (Hv : valid_inst qarith x) (Hs : pb_strip (in_pb x) = true)
        (Hm : in_min x = None) (Hcnt : in_cnum x = 1).
Context (ck : clock) (limit : Z) (throttle : bool) (start : Z).
Context (c : dims) (Hc : pb_containers (in_pb x) = [(strip_id, c)]).

(** What all the items are worth in a strip of height [h]. *)
Definition worth (h : Z) : Q :=
  (inject_Z (items_area (pb_items (in_pb x))) / inject_Z (dw c * Z.max 1 (h - 1)))%Q.

Definition covered (s : hs qarith) : Prop :=
  pb_height (in_pb (hs_st s)) = pb_height (in_pb x) \/ (worth (pb_height (in_pb (hs_st s))) <= hs_best s)%Q.

Lemma width_pos : 0 < dw c.
Proof.
  destruct Hv as [[_ [[_ Hp] _]] _]. rewrite Hc in Hp. apply (Hp strip_id c). left. reflexivity.
Qed.

Lemma gtb_le (a b : Q) : Qgtb a b = false -> (a <= b)%Q.
Proof.
  unfold Qgtb. intros H. apply negb_false_iff in H. apply Qle_bool_iff. exact H.
Qed.
Lemma gtb_lt (a b : Q) : Qgtb a b = true -> (b < a)%Q.
Proof. intros H. apply qbelow. exact H. Qed.

(** One local search: if it lowers the strip, its value is worth the new height. *)
Lemma lowered_worth y clk y' clk' log v : valid_inst qarith y -> same_but_strategy qarith x y ->
  local_search qarith ck limit throttle (Some start) y clk = Ok (y', clk', log) ->
  calculate_obj_value qarith y' = Ok v ->
  pb_height (in_pb y') = pb_height (in_pb y) \/ (worth (pb_height (in_pb y')) <= v)%Q.
Proof.
  intros Hvy [C1 [C2 C3]] H Hval.
  assert (Hsy : pb_strip (in_pb y) = true) by (rewrite C1; exact Hs).
  assert (Hmy : in_min y = None) by congruence.
  destruct (C20_lower_only_when_full qarith qarith_laws y Hvy Hsy Hmy _ _ _ _ _ _ _ _ H) as [E|Hfull]; [left; exact E|].
  right.
  destruct (C15_genuine_construction qarith qarith_laws y Hvy _ _ _ _ _ _ _ _ H) as [seq [h [sol [G1 [G2 [G3 G4]]]]]].
  destruct (C15_configuration_kept qarith qarith_laws y Hvy _ _ _ _ _ _ _ _ H) as [_ [_ [_ [_ [_ [_ [K7 _]]]]]]].
  destruct (C22_strip_height qarith qarith_laws y Hvy Hsy _ _ _ _ _ _ _ _ H) as [[Hh1 Hh2] [_ [_ [_ [_ Hin]]]]].
  rewrite Hsy in G4.
  assert (Hitems : pb_items (in_pb y) = pb_items (in_pb x)) by (rewrite C1; reflexivity).
  assert (Hcy : pb_containers (in_pb y) = [(strip_id, c)]) by (rewrite C1; exact Hc).
  assert (Hvp : valid_problem (pb_with_height (in_pb y) h)).
  { destruct Hvy as [[V1 [V2 [V3 [V4 V5]]]] _]. unfold valid_problem.
    cbn [pb_items pb_containers pb_strip pb_height pb_with_height].
    split; [exact V1|]. split; [exact V2|]. split; [exact V3|]. split; [exact V4|]. intros _. lia. }
  assert (Hv1 : obj_value qarith 1 (dvals (in_objs y')) = Ok v).
  { unfold calculate_obj_value in Hval. rewrite K7, C3, Hcnt in Hval. exact Hval. }
  destruct (strip_made (pb_with_height (in_pb y) h) c seq sol (in_objs y') v Hvp Hsy Hcy G1 G2 Hv1)
    as [csol [Esol [Hnd [Ha [Hfa Hvalue]]]]].
  destruct Hfull as [csol' [D1 D2]]. destruct G3 as [S1 [S2 S3]].
  assert (Hd0 : dget sol strip_id = Some csol) by (rewrite Esol; reflexivity).
  assert (Hsame : forall i, dget csol i = dget csol' i) by (exact (S2 strip_id csol csol' Hd0 D1)).
  assert (Hf : forall i, In i (dkeys (pb_items (pb_with_height (in_pb y) h))) -> In i (dkeys csol)).
  { intros i Hi. specialize (D2 i Hi). apply dget_Some_In in D2. destruct D2 as [e D2].
    apply dget_Some_In. exists e. rewrite Hsame. exact D2. }
  assert (Hne : entries csol <> []).
  { intros E. unfold entries in E. apply map_eq_nil in E. subst csol.
    destruct Hvp as [_ [_ [Hi _]]]. destruct (pb_items (pb_with_height (in_pb y) h)) as [|[k d] t] eqn:Ei; [congruence|].
    apply (Hf k). left. reflexivity. }
  destruct (Hvalue Hne) as [Hpos Ev]. specialize (Hfa Hf).
  cbn [pb_items pb_with_height] in Hfa. rewrite Hitems in Hfa.
  assert (Hst : stack_height (entries csol) <= pb_height (in_pb y')).
  { apply stack_le; [lia|]. intros e He. unfold entries in He. apply in_map_iff in He.
    destruct He as [[i e'] [<- He]]. cbn [snd]. apply In_dget in He; [|exact Hnd]. rewrite Hsame in He.
    apply (Hin strip_id csol' i e'); apply dget_In; assumption. }
  rewrite Ev. unfold worth. rewrite Hfa. pose proof width_pos as Hw. apply quot_le; [nia|nia|].
  rewrite Hfa in Hpos. apply Z.mul_le_mono_nonneg_l; [lia|]. nia.
Qed.

Lemma loop_covered strategies : forall s improved, hinv qarith x s improved -> covered s ->
  forall s' log, hs_loop qarith ck limit throttle start strategies s = Ok (s', log) -> covered s'.
Proof.
  induction strategies as [|g rest IH]; intros s improved Hi Hcov s' log H.
  { cbn [hs_loop] in H. injection H as <- <-. exact Hcov. }
  destruct (hs_loop_run qarith qarith_laws x ck limit throttle start [g] s improved Hi)
    as [s1 [imp [log1 [H1 [Hi1 _]]]]].
  cbn [hs_loop] in H, H1.
  destruct (local_search qarith ck limit throttle (Some start) (set_strategy (hs_st s) g) (hs_clk s))
    as [[[x1 clk1] nl]|] eqn:Els; [|discriminate].
  cbn [bind] in H, H1. destruct (calculate_obj_value qarith x1) as [v|] eqn:Ev; [|discriminate].
  cbn [bind] in H, H1.
  assert (Hcfg : same_but_strategy qarith x (set_strategy (hs_st s) g)).
  { destruct (hi_config _ _ _ _ Hi) as [C1 [C2 C3]]. split; [|split; assumption].
    cbn [in_pb set_strategy pb_strategy pb_height pb_with_strategy]. rewrite C1. reflexivity. }
  pose proof (lowered_worth _ _ _ _ _ _ (set_strategy_valid qarith (hs_st s) g (hi_valid _ _ _ _ Hi)) Hcfg Els Ev) as Hlow.
  cbn [in_pb set_strategy pb_height pb_with_strategy] in Hlow.
  assert (Hstep : forall b, (v <= b)%Q -> (hs_best s <= b)%Q ->
            pb_height (in_pb x1) = pb_height (in_pb x) \/ (worth (pb_height (in_pb x1)) <= b)%Q).
  { intros b B1 B2. destruct Hlow as [E|L].
    - rewrite E. destruct Hcov as [E2|L2]; [left; exact E2|right]. eapply Qle_trans; eassumption.
    - right. eapply Qle_trans; eassumption. }
  unfold check_solution in *. cbn [ngtb qarith] in *. destruct (Qgtb v (hs_best s)) eqn:Eb.
  - destruct (get_solution qarith x1) as [ret|] eqn:Eg; [|discriminate]. cbn [bind andb] in H, H1.
    assert (Hnew : forall n, covered (mkHs x1 v ret g n)).
    { intros n. unfold covered. cbn [hs_st hs_best]. apply Hstep; [apply Qle_refl|].
      apply Qlt_le_weak, gtb_lt, Eb. }
    destruct (global_check qarith v); [injection H as <- <-; apply Hnew|].
    destruct (over_time ck start limit clk1); [injection H as <- <-; apply Hnew|].
    cbn [hs_st hs_best hs_ret hs_strategy bind] in H, H1. injection H1 as <- <-.
    destruct (hs_loop qarith ck limit throttle start rest (mkHs x1 v ret g (S clk1))) as [[s3 log3]|] eqn:El; [|discriminate].
    cbn [bind] in H. injection H as <- <-. exact (IH _ _ Hi1 (Hnew _) _ _ El).
  - cbn [bind andb] in H, H1.
    assert (Hnew : forall n, covered (mkHs x1 (hs_best s) (hs_ret s) (hs_strategy s) n)).
    { intros n. unfold covered. cbn [hs_st hs_best]. apply Hstep; [apply gtb_le, Eb|apply Qle_refl]. }
    cbn [hs_st hs_best hs_ret hs_strategy] in H, H1.
    destruct (over_time ck start limit clk1); [injection H as <- <-; apply Hnew|].
    cbn [bind] in H1. injection H1 as <- <-.
    destruct (hs_loop qarith ck limit throttle start rest (mkHs x1 (hs_best s) (hs_ret s) (hs_strategy s) (S clk1)))
      as [[s3 log3]|] eqn:El; [|discriminate].
    cbn [bind] in H. injection H as <- <-. exact (IH _ _ Hi1 (Hnew _) _ _ El).
Qed.

(** The kept solution fits what it is worth. *)
Lemma kept_fits s improved : hinv qarith x s improved -> covered s ->
  forall cid csol i e, dget (fst (hs_ret s)) cid = Some csol -> dget csol i = Some e ->
  e_y e + e_l e <= Z.max 2 (pb_height (in_pb (hs_st s))).
Proof.
  intros Hi Hcov cid csol' i e D1 D2.
  destruct (hi_made _ _ _ _ Hi) as [g [h [_ [Hh [seq [sol [M1 [M2 [S1 [S2 S3]]]]]]]]]].
  unfold height_within in Hh. rewrite Hs in Hh.
  assert (Hvp : valid_problem (pb_with_height (pb_with_strategy (in_pb x) g) h)).
  { destruct Hv as [[V1 [V2 [V3 [V4 V5]]]] _]. unfold valid_problem.
    cbn [pb_items pb_containers pb_strip pb_height pb_with_height pb_with_strategy].
    split; [exact V1|]. split; [exact V2|]. split; [exact V3|]. split; [exact V4|]. intros _. lia. }
  pose proof (hi_value _ _ _ _ Hi) as Hval. rewrite Hcnt in Hval.
  destruct (strip_made (pb_with_height (pb_with_strategy (in_pb x) g) h) c seq sol (snd (hs_ret s)) (hs_best s)
              Hvp Hs Hc M1 M2 Hval) as [csol [Esol [Hnd [Ha [_ Hvalue]]]]].
  assert (Hin : In cid (dkeys sol)) by (rewrite S1; apply dget_Some_In; eauto).
  assert (cid = strip_id) as -> by (rewrite Esol in Hin; destruct Hin as [<-|[]]; reflexivity).
  assert (Hd0 : dget sol strip_id = Some csol) by (rewrite Esol; reflexivity).
  rewrite <- (S2 strip_id csol csol' Hd0 D1 i) in D2.
  assert (He : In e (entries csol)) by (unfold entries; apply in_map_iff; exists (i, e); split; [reflexivity|apply dget_In; exact D2]).
  pose proof (top_le_stack _ _ He) as Htop.
  destruct Hcov as [E|L].
  - assert (Hks : known_sequence (pb_with_height (pb_with_strategy (in_pb x) g) h) (Some seq))
      by (intros k Hk; exact (Permutation_in _ M1 Hk)).
    destruct (C01_inside_container _ _ _ _ _ Hvp Hks M2 strip_id csol i e (dget_In _ _ _ Hd0) (dget_In _ _ _ D2))
      as [c' [_ Hins]].
    unfold available_height in Hins. cbn [pb_strip pb_height pb_with_height pb_with_strategy] in Hins.
    rewrite Hs in Hins. unfold inside in Hins. lia.
  - assert (Hne : entries csol <> []) by (intros C; rewrite C in He; destruct He).
    destruct (Hvalue Hne) as [Hpos Ev]. cbn [pb_items pb_with_height pb_with_strategy] in Ha.
    rewrite Ev in L. unfold worth in L. pose proof width_pos as Hw.
    set (st := stack_height (entries csol)) in *. set (H := pb_height (in_pb (hs_st s))) in *.
    set (A := items_area (pb_items (in_pb x))) in *. set (a := total_area (entries csol)) in *.
    apply quot_le_inv in L; [|nia|nia].
    assert (Z.max 1 (st - 1) <= Z.max 1 (H - 1)); [|lia].
    set (mr := Z.max 1 (st - 1)) in *. set (mh := Z.max 1 (H - 1)) in *.
    assert (1 <= mr) by lia. assert (1 <= mh) by lia.
    assert (L2 : A * mr <= a * mh) by nia.
    assert (L3 : a * mr <= a * mh) by nia. nia.
Qed.
End Final.

(** ** C54 without a minimum height *)
(** Exact values, one process: everything in the returned solution lies below the final
    [container_height], or below 2 when that is 1 (a strip of height 1 and one of height 2 have the
    same value, see C09; no run in which this happens is known). *)
Theorem C54_no_minimum_partial : forall x, valid_inst qarith x -> counted qarith x ->
  pb_strip (in_pb x) = true -> in_min x = None ->
  forall ck limit throttle orientation sorting_by strategies clk r,
  hypersearch qarith ck limit throttle orientation sorting_by strategies x clk = Ok r ->
  forall cid csol i e, dget (in_sol (hr_inst r)) cid = Some csol -> dget csol i = Some e ->
  e_y e + e_l e <= Z.max 2 (pb_height (in_pb (hr_inst r))).
Proof.
  intros x Hv Hcnt Hs Hm ck limit throttle o sb strategies clk r H cid csol i e D1 D2.
  destruct (hypersearch_run qarith qarith_laws x Hv _ _ _ _ _ _ _ _ H)
    as [x2 [Hp [Hv2 _]]].
  destruct (prepared_kept qarith o sb x x2 Hp) as [K1 [K2 [K3 [K4 [K5 [K6 K7]]]]]].
  unfold hypersearch in H. destruct Hp as [x1 [Es ->]]. rewrite Es in H. cbn [bind] in H.
  set (x2 := orient_items qarith o x1) in *.
  assert (Hs2 : pb_strip (in_pb x2) = true) by congruence.
  assert (Hm2 : in_min x2 = None) by congruence.
  assert (Hk : dkeys (pb_containers (in_pb x2)) = [strip_id]) by (apply Hv2; exact Hs2).
  assert (Hc : exists c, pb_containers (in_pb x2) = [(strip_id, c)]).
  { destruct (pb_containers (in_pb x2)) as [|[k c] [|]]; try discriminate Hk. injection Hk as ->. eauto. }
  destruct Hc as [c Hc].
  assert (Hcnt2 : in_cnum x2 = 1).
  { rewrite K5. unfold counted in Hcnt. rewrite Hcnt, <- K1, Hc. reflexivity. }
  destruct (single_process_run qarith qarith_laws x2 Hv2 ck limit throttle (ck clk) strategies (S clk))
    as [s0 [s [imp [log [H1 [H2 [H3 H4]]]]]]].
  rewrite H2 in H. cbn [bind] in H. injection H as <-.
  cbn [hr_inst in_sol in_pb set_solution] in *.
  refine (kept_fits x2 Hv2 Hs2 Hcnt2 c Hc s imp H3 _ cid csol i e D1 D2).
  unfold single_process in H2.
  destruct (get_init_solution qarith x2) as [[x0 ret]|] eqn:Ei; [|discriminate]. cbn [bind] in H2.
  destruct (calculate_obj_value qarith x0) as [best|] eqn:Eb; [|discriminate]. cbn [bind] in H2.
  destruct (single_process_run qarith qarith_laws x2 Hv2 ck limit throttle (ck clk) [] (S clk))
    as [t0 [t [imp' [log' [_ [G2 [G3 _]]]]]]].
  unfold single_process in G2. rewrite Ei in G2. cbn [bind] in G2. rewrite Eb in G2. cbn [bind hs_loop] in G2.
  injection G2 as <- <-.
  refine (loop_covered x2 Hv2 Hs2 Hm2 Hcnt2 ck limit throttle (ck clk) c Hc strategies _ imp' G3 _ _ _ H2).
  left. cbn [hs_st]. unfold get_init_solution, inst_solve in Ei.
  destruct (solve qarith (in_pb x2) None) as [[sol0 objs0]|]; [|discriminate]. cbn [bind] in Ei.
  destruct (get_solution qarith (set_solution x2 sol0 objs0)); [|discriminate]. cbn [bind] in Ei.
  injection Ei as <- <-. reflexivity.
Qed.
Print Assumptions C54_no_minimum_partial.

(** Non-vacuity: a strip without minimum height whose hypersearch lowers it from 7 to 3. *)
Definition strip_shrinks : inst qarith := fresh {|
  pb_containers := [(strip_id, mkDims 4 (2 ^ 100))];
  pb_items := [("a", mkDims 3 1); ("b", mkDims 1 3); ("c", mkDims 2 2); ("d", mkDims 1 2)];
  pb_rotation := false; pb_strategy := default_strategy; pb_strip := true; pb_height := 7 |} None.

Example C54_no_minimum_witness :
  valid_inst qarith strip_shrinks /\ counted qarith strip_shrinks /\
  pb_strip (in_pb strip_shrinks) = true /\ in_min strip_shrinks = None /\
  exists r, hypersearch qarith frozen 60 true None None strategy_pool strip_shrinks 0 = Ok r /\
    in_sol (hr_inst r) = [(strip_id, [("a", mkEntry 0 2 3 1); ("b", mkEntry 3 0 1 3);
                                      ("c", mkEntry 0 0 2 2); ("d", mkEntry 2 0 1 2)])] /\
    pb_height (in_pb (hr_inst r)) = 3.
Proof.
  split; [split; [valid_demo|]|].
  { intros _. split; [reflexivity|discriminate]. }
  split; [reflexivity|]. split; [reflexivity|]. split; [reflexivity|].
  apply Ok_with. vm_compute. split; reflexivity.
Qed.
