(** * Objective values: exact rational arithmetic. *)
From Coq Require Import ZArith String List Bool Lia Permutation QArith Qreduction Qfield Lqa.
From Coq Require Import ZifyBool ZifyNat.
From Verif Require Import Py Arith Construct Spec Runs ProofsPy ProofsGrid ProofsConstruct ProofsSolve
  ProofsPacking ProofsSolution.
Import ListNotations.
Open Scope Z_scope.

Lemma Qdivz_spec a b : 0 < b -> (Qdivz a b == inject_Z a / inject_Z b)%Q.
Proof.
  intros Hb. destruct b as [|p|p]; try lia. unfold Qdivz. rewrite Qred_correct.
  unfold Qeq, Qdiv, Qmult, Qinv, inject_Z. simpl. lia.
Qed.

Lemma inject_pos a : 0 < a -> (0 < inject_Z a)%Q.
Proof. intros. unfold Qlt. simpl. lia. Qed.

Lemma Qdiv_add (a b c : Q) : (a / c + b / c == (a + b) / c)%Q.
Proof. unfold Qdiv. ring. Qed.

Lemma fold_obj D es : 0 < D -> forall o : Q,
  (fold_left (fun o e => nadd qarith o (ndiv qarith (entry_area e) D)) es o ==
   o + inject_Z (total_area es) / inject_Z D)%Q.
Proof.
  intros HD. induction es as [|e es IH]; intros o.
  - simpl. unfold Qdiv. ring.
  - cbn [fold_left]. rewrite IH.
    change (nadd qarith o (ndiv qarith (entry_area e) D)) with (Qred (o + Qdivz (entry_area e) D)).
    rewrite Qred_correct, Qdivz_spec by assumption.
    change (total_area (e :: es)) with (entry_area e + total_area es).
    rewrite inject_Z_plus. unfold Qdiv. ring.
Qed.

(** ** Counting cells *)
Definition cells_of (e : entry) : list (Z * Z) :=
  list_prod (zrange (e_x e) (e_x e + e_w e)) (zrange (e_y e) (e_y e + e_l e)).

Lemma in_cells_of e x y : In (x, y) (cells_of e) <-> covers e x y.
Proof. unfold cells_of, covers. rewrite in_prod_iff, !in_zrange. lia. Qed.

Lemma NoDup_zrange a b : NoDup (zrange a b).
Proof.
  unfold zrange. apply FinFun.Injective_map_NoDup; [|apply seq_NoDup].
  intros i j H. lia.
Qed.

Lemma NoDup_prod {A B} (l1 : list A) (l2 : list B) :
  NoDup l1 -> NoDup l2 -> NoDup (list_prod l1 l2).
Proof.
  intros H1 H2. induction H1 as [|a l1 Ha H1 IH]; simpl; [constructor|].
  apply NoDup_app_iff. split; [|split].
  - apply FinFun.Injective_map_NoDup; [|assumption]. intros i j [= ?]. assumption.
  - assumption.
  - intros [a' b] Hin Hin2. apply in_map_iff in Hin. destruct Hin as [b' [[= <- <-] _]].
    apply in_prod_iff in Hin2. tauto.
Qed.

Lemma cells_of_length e : 0 < e_w e -> 0 < e_l e ->
  Z.of_nat (length (cells_of e)) = entry_area e.
Proof.
  intros Hw Hl. unfold cells_of, entry_area. rewrite prod_length. unfold zrange.
  rewrite !map_length, !seq_length. lia.
Qed.

Lemma disjoint_area W L es :
  0 < W -> 0 < L -> (forall e, In e es -> inside W L e) -> no_overlaps es ->
  total_area es <= W * L.
Proof.
  intros HW HL Hin Hno.
  assert (Hnd : NoDup (concat (map cells_of es)) /\
                Z.of_nat (length (concat (map cells_of es))) = total_area es).
  { induction Hno as [|e es He Hes IH]; [split; [constructor|reflexivity]|].
    destruct IH as [IH1 IH2]; [intros; apply Hin; right; assumption|].
    pose proof (Hin e (or_introl eq_refl)) as Hie. unfold inside in Hie. simpl. split.
    - apply NoDup_app_iff. split; [|split; [assumption|]].
      + apply NoDup_prod; apply NoDup_zrange.
      + intros [x y] H1 H2. apply in_cells_of in H1. apply in_concat in H2.
        destruct H2 as [c [Hc H2]]. apply in_map_iff in Hc. destruct Hc as [e' [<- He']].
        apply in_cells_of in H2. rewrite Forall_forall in He. apply (He e' He').
        exists x, y. auto.
    - rewrite app_length, Nat2Z.inj_add, IH2, cells_of_length by lia. reflexivity. }
  destruct Hnd as [Hnd <-].
  assert (Hle : (length (concat (map cells_of es)) <=
                 length (cells_of (mkEntry 0 0 W L)))%nat).
  { apply NoDup_incl_length; [assumption|]. intros [x y] H.
    apply in_concat in H. destruct H as [c [Hc H]]. apply in_map_iff in Hc.
    destruct Hc as [e [<- He]]. apply in_cells_of in H. specialize (Hin e He).
    apply in_cells_of. unfold covers, inside in *. simpl. lia. }
  pose proof (cells_of_length (mkEntry 0 0 W L) HW HL) as Hc. unfold entry_area in Hc.
  simpl in Hc. lia.
Qed.

(** ** Bin utilization *)
Section Q.
Context (pb : problem) (sequence : option (list string)).
Hypothesis Hv : valid_problem pb.
Hypothesis Hk : known_sequence pb sequence.

Lemma container_obj (ar : arith) sol objs cid csol obj :
  solve ar pb sequence = Ok (sol, objs) -> dget sol cid = Some csol -> dget objs cid = Some obj ->
  exists c its its', dget (pb_containers pb) cid = Some c /\ room_ok pb c /\ valid_items its /\
    (forall i d, In (i, d) its -> dget (pb_items pb) i = Some d /\ In i (wanted pb sequence)) /\
    built ar pb c its its' csol obj.
Proof.
  intros H Hs Ho. apply dget_In in Hs.
  destruct (container_built _ _ _ Hv Hk _ _ _ _ H Hs)
    as [c [its [its' [obj' [Hc [Ho' [Hr [Hi [Hw Hb]]]]]]]]].
  destruct (solve_run_of _ _ _ Hv Hk _ _ H) as [items [rest [_ [_ [_ Hrun]]]]].
  destruct (run_keys _ _ _ _ _ _ _ Hrun) as [_ Hk2].
  assert (obj' = obj).
  { apply In_dget in Ho'; [congruence|]. rewrite Hk2. apply Hv. }
  subst obj'. exists c, its, its'. auto 10.
Qed.

Lemma bin_value sol objs cid csol obj :
  pb_strip pb = false ->
  solve qarith pb sequence = Ok (sol, objs) -> dget sol cid = Some csol ->
  dget objs cid = Some obj ->
  exists c, dget (pb_containers pb) cid = Some c /\
    (obj == inject_Z (total_area (entries csol)) / inject_Z (dw c * dl c))%Q.
Proof.
  intros Hstrip H Hs Ho.
  destruct (container_obj _ _ _ _ _ _ H Hs Ho) as [c [its [its' [Hc [Hr [Hi [_ Hb]]]]]]].
  exists c. split; [assumption|]. destruct Hr as [Hw Hl].
  unfold container_length in Hl. rewrite Hstrip in Hl.
  destruct Hb as [-> -> -> -> | s Hne Hst Hstop Hinv -> -> ->].
  - simpl. unfold Qdiv. ring.
  - unfold final_obj. rewrite Hstrip, entries_result. unfold container_length. rewrite Hstrip.
    rewrite fold_obj by lia. simpl. unfold Qdiv. ring.
Qed.

Lemma bin_value_le_1 sol objs cid csol obj :
  pb_strip pb = false ->
  solve qarith pb sequence = Ok (sol, objs) -> dget sol cid = Some csol ->
  dget objs cid = Some obj -> no_overlaps (entries csol) -> (obj <= 1)%Q.
Proof.
  intros Hstrip H Hs Ho Hno.
  destruct (container_obj _ _ _ _ _ _ H Hs Ho) as [c [its [its' [Hc [Hr [Hi [_ Hb]]]]]]].
  destruct (bin_value _ _ _ _ _ Hstrip H Hs Ho) as [c' [Hc' Heq]].
  assert (c' = c) by congruence. subst c'.
  destruct (built_facts _ _ _ _ _ _ _ Hr Hi Hb) as [Hin _].
  destruct Hr as [Hw Hl]. unfold container_length in *. rewrite Hstrip in *.
  assert (Hle : total_area (entries csol) <= dw c * dl c).
  { apply disjoint_area; auto. intros e He. unfold entries in He. apply in_map_iff in He.
    destruct He as [[i e'] [<- He]]. apply (Hin i). assumption. }
  rewrite Heq. apply Qle_shift_div_r; [apply inject_pos; lia|].
  rewrite Qmult_1_l. unfold Qle. simpl. lia.
Qed.

Lemma total_area_app a b : total_area (a ++ b) = total_area a + total_area b.
Proof. unfold total_area. induction a as [|e a IH]; simpl; [reflexivity|]. rewrite IH. lia. Qed.

(** Whatever overlaps there are, the construction stops before reaching 200%. *)
Lemma bin_value_lt_2 sol objs cid csol obj :
  pb_strip pb = false ->
  solve qarith pb sequence = Ok (sol, objs) -> dget sol cid = Some csol ->
  dget objs cid = Some obj -> (obj < 2)%Q.
Proof.
  intros Hstrip H Hs Ho.
  destruct (container_obj _ _ _ _ _ _ H Hs Ho) as [c [its [its' [Hc [Hr [Hi [_ Hb]]]]]]].
  destruct (bin_value _ _ _ _ _ Hstrip H Hs Ho) as [c' [Hc' Heq]].
  assert (c' = c) by congruence. subst c'. pose proof Hr as [Hw Hl].
  destruct Hb as [-> -> -> -> | s Hne Hst Hstop Hinv -> -> ->]; [reflexivity|].
  rewrite Heq. rewrite entries_result.
  assert (HL : 0 < dl c) by (unfold container_length in Hl; rewrite Hstrip in Hl; exact Hl).
  assert (Hcl : container_length pb c = dl c) by (unfold container_length; rewrite Hstrip; reflexivity).
  rewrite Hcl in *. rewrite Hstrip in *.
  assert (Hlt : total_area (placed_entries qarith s) < 2 * (dw c * dl c)).
  { assert (Hgen : forall u v, steps qarith (dw c) (dl c) false (pb_rotation pb) (pb_strategy pb) u v ->
       inv qarith (dw c) (dl c) false (pb_rotation pb) its u ->
       total_area (placed_entries qarith u) < 2 * (dw c * dl c) ->
       total_area (placed_entries qarith v) < 2 * (dw c * dl c)).
    { clear - Hw HL Hi. induction 1 as [u|u p u1 u2 [Hp [_ Hge]] Hbody _ IH]; intros Hu Hlt; [auto|].
      pose proof (i_cur _ _ _ _ _ _ _ Hu p Hp) as Hpb.
      destruct (loop_body_spec qarith _ _ _ _ (pb_strategy pb) _ Hi u p Hu Hpb)
        as [u1' [? [? [Hb' [Hi' [Hout' _]]]]]].
      assert (u1' = u1) by congruence. subst u1'. apply IH; [assumption|].
      assert (Hone : total_area (placed_entries qarith u) < dw c * dl c).
      { rewrite (i_obj _ _ _ _ _ _ _ Hu) in Hge.
        destruct (Z_lt_le_dec (total_area (placed_entries qarith u)) (dw c * dl c)) as [|Hle];
          [assumption|]. exfalso.
        change (Qle_bool 1 (fold_left (fun o e => nadd qarith o (ndiv qarith (entry_area e) (dw c * dl c)))
                       (placed_entries qarith u) 0%Q) = false) in Hge.
        assert (Hq : (1 <= fold_left (fun o e => nadd qarith o (ndiv qarith (entry_area e) (dw c * dl c)))
                       (placed_entries qarith u) 0)%Q).
        { rewrite fold_obj by lia. rewrite Qplus_0_l.
          apply Qle_shift_div_l; [apply inject_pos; lia|]. rewrite Qmult_1_l.
          unfold Qle. simpl. lia. }
        apply Qle_bool_iff in Hq. congruence. }
      destruct Hout' as [i d rot ? ? _ _ _ _ Hs' _ | _ Hs' _].
      - assert (Hpe : placed_entries qarith u1 = placed_entries qarith u ++
                        [export (mkPlaced d (fst p) (snd p) rot)]).
        { unfold placed_entries. rewrite Hs', map_app. reflexivity. }
        rewrite Hpe, total_area_app.
        assert (Hin : In (export (mkPlaced d (fst p) (snd p) rot)) (placed_entries qarith u1)).
        { rewrite Hpe. apply in_or_app. right. left. reflexivity. }
        apply (i_in _ _ _ _ _ _ _ Hi') in Hin. unfold inside in Hin.
        set (ee := export _) in *. change (total_area [ee]) with (entry_area ee + 0).
        assert (entry_area ee <= dw c * dl c).
        { unfold entry_area. apply Z.mul_le_mono_nonneg; lia. }
        lia.
      - unfold placed_entries. rewrite Hs'. assumption. }
    apply (Hgen _ _ Hst); [apply inv_init; assumption|]. change (total_area (placed_entries qarith (init_state qarith (dw c) (dl c) its))) with 0. nia. }
  apply Qlt_shift_div_r; [apply inject_pos; lia|].
  change 2%Q with (inject_Z 2). rewrite <- inject_Z_mult. rewrite <- Zlt_Qlt. assumption.
Qed.

(** ** Strip objective *)
Lemma strip_value sol objs cid csol obj :
  pb_strip pb = true ->
  solve qarith pb sequence = Ok (sol, objs) -> dget sol cid = Some csol ->
  dget objs cid = Some obj -> entries csol <> [] ->
  exists c, dget (pb_containers pb) cid = Some c /\
    (obj == inject_Z (total_area (entries csol)) /
            inject_Z (dw c * Z.max 1 (stack_height (entries csol) - 1)))%Q.
Proof.
  intros Hstrip H Hs Ho Hne0.
  destruct (container_obj _ _ _ _ _ _ H Hs Ho) as [c [its [its' [Hc [Hr [Hi [_ Hb]]]]]]].
  exists c. split; [assumption|]. destruct Hr as [Hw Hl].
  destruct Hb as [-> -> -> -> | s Hne Hst Hstop Hinv -> -> ->].
  - exfalso. apply Hne0. reflexivity.
  - unfold final_obj. rewrite Hstrip, entries_result. simpl ndiv. rewrite Qdivz_spec by nia.
    reflexivity.
Qed.
End Q.

(** [solve()] is [solve(list(items))]. *)
Lemma deepcopy_self_aux (items : odict dims) : forall pre post,
  items = pre ++ post -> NoDup (dkeys items) ->
  rfold (fun d i => bind (dget_r items i) (fun it => Ok (dset d i it))) (dkeys post) pre = Ok items.
Proof.
  intros pre post. revert pre. induction post as [|[i d] post IH]; intros pre Heq Hn.
  - simpl. rewrite app_nil_r in Heq. congruence.
  - cbn [dkeys map fst rfold]. unfold dget_r at 1.
    assert (Hd : dget items i = Some d).
    { apply In_dget; [assumption|]. rewrite Heq. apply in_or_app. right. left. reflexivity. }
    rewrite Hd. cbn [bind]. rewrite dset_new.
    + apply (IH (pre ++ [(i, d)])); [|assumption]. rewrite <- app_assoc. assumption.
    + destruct (dget pre i) eqn:E; [|reflexivity]. exfalso.
      apply dget_In in E. rewrite Heq in Hn. unfold dkeys in Hn. rewrite map_app in Hn.
      apply NoDup_app_iff in Hn. destruct Hn as [_ [_ Hn]]. apply (Hn i).
      * apply in_map_iff. exists (i, d0). auto.
      * left. reflexivity.
Qed.

Lemma solve_default_sequence ar pb :
  NoDup (dkeys (pb_items pb)) -> solve ar pb None = solve ar pb (Some (dkeys (pb_items pb))).
Proof.
  intros Hn. unfold solve, solve_full, items_for, deepcopy_seq.
  rewrite (deepcopy_self_aux (pb_items pb) [] (pb_items pb)) by auto. reflexivity.
Qed.

(** ** Full strip solutions *)
Lemma items_area_perm a b : Permutation a b -> items_area a = items_area b.
Proof. induction 1; simpl in *; lia. Qed.

Lemma stores_area rot ds cs :
  Forall2 (fun (kd : string * dims) (ke : string * entry) =>
             fst kd = fst ke /\ stores rot (snd kd) (snd ke)) ds cs ->
  items_area ds = total_area (entries cs).
Proof.
  induction 1 as [|kd ke ds cs [_ Hst] _ IH]; [reflexivity|].
  unfold items_area, total_area, entries in *. simpl. rewrite IH. unfold entry_area.
  destruct Hst as [[-> ->]|[_ [-> ->]]]; lia.
Qed.

Lemma NoDup_same_perm (a b : odict dims) :
  NoDup (dkeys a) -> NoDup (dkeys b) -> (forall i d, In (i, d) a -> dget b i = Some d) ->
  (forall i, In i (dkeys b) -> In i (dkeys a)) -> Permutation a b.
Proof.
  intros Ha Hb Hab Hba. apply NoDup_Permutation.
  - eapply NoDup_map_inv. exact Ha.
  - eapply NoDup_map_inv. exact Hb.
  - intros [i d]. split; intros H.
    + apply dget_In. auto.
    + assert (In i (dkeys a)) as Hi by (apply Hba; apply in_map_iff; exists (i, d); auto).
      apply in_map_iff in Hi. destruct Hi as [[j d'] [Hj Hi]]. simpl in Hj. subst j.
      pose proof (Hab _ _ Hi). apply In_dget in H; [|assumption]. congruence.
Qed.

Lemma full_area ar pb sequence sol objs cid csol :
  valid_problem pb -> known_sequence pb sequence ->
  solve ar pb sequence = Ok (sol, objs) -> sol = [(cid, csol)] ->
  (forall i, In i (dkeys (pb_items pb)) -> In i (dkeys csol)) ->
  total_area (entries csol) = items_area (pb_items pb).
Proof.
  intros Hv Hk H -> Hfull.
  destruct (solve_run_of _ _ _ Hv Hk _ _ H) as [items [rest [_ [[Hvi [Hw Hd]] [_ Hrun]]]]].
  destruct (run_perm _ _ _ _ _ _ _ Hrun) as [ds [Hp [Hds HF]]].
  simpl in HF. rewrite app_nil_r in HF.
  rewrite <- (stores_area _ _ _ HF). apply items_area_perm.
  unfold stored_ids in Hds. simpl in Hds. rewrite app_nil_r in Hds.
  assert (Hnd : NoDup (dkeys (ds ++ rest))).
  { eapply Permutation_NoDup; [apply Permutation_map, Permutation_sym, Hp|]. apply Hvi. }
  unfold dkeys in Hnd. rewrite map_app in Hnd. apply NoDup_app_iff in Hnd. destruct Hnd as [Hnd _].
  apply NoDup_same_perm.
  - exact Hnd.
  - apply Hv.
  - intros i d Hin. apply Hd. eapply Permutation_in; [exact Hp|]. apply in_or_app. auto.
  - intros i Hi. rewrite Hds. auto.
Qed.

(** ** Areas *)
Lemma items_area_nonneg l : (forall i d, In (i, d) l -> pos_dims d) -> 0 <= items_area l.
Proof.
  induction l as [|[i d] t IH]; intros H; [reflexivity|].
  change (items_area ((i, d) :: t)) with (dw d * dl d + items_area t).
  destruct (H i d (or_introl eq_refl)). assert (0 <= items_area t) by (apply IH; intros; eapply H; right; eassumption). nia.
Qed.

Lemma items_area_app a b : items_area (a ++ b) = items_area a + items_area b.
Proof.
  induction a as [|[i d] t IH]; [reflexivity|].
  change (items_area (((i, d) :: t) ++ b)) with (dw d * dl d + items_area (t ++ b)).
  change (items_area ((i, d) :: t)) with (dw d * dl d + items_area t). lia.
Qed.

Lemma area_incl : forall a b : odict dims, NoDup a -> incl a b -> (forall i d, In (i, d) b -> pos_dims d) ->
  items_area a <= items_area b.
Proof.
  induction a as [|[i d] t IH]; intros b Hn Hi Hp.
  - apply items_area_nonneg. exact Hp.
  - destruct (in_split (i, d) b) as [b1 [b2 ->]]; [apply Hi; left; reflexivity|].
    inversion Hn as [|? ? Hni Hn']; subst.
    assert (L : items_area t <= items_area (b1 ++ b2)).
    { apply IH; [exact Hn'| |].
      - intros z Hz. assert (Hz' : In z (b1 ++ (i, d) :: b2)) by (apply Hi; right; exact Hz).
        apply in_app_or in Hz'. apply in_or_app. destruct Hz' as [?|[<-|?]]; auto. contradiction.
      - intros j e Hj. eapply (Hp j). apply in_app_or in Hj. apply in_or_app. destruct Hj; [left|right; right]; assumption. }
    rewrite items_area_app in *. change (items_area ((i, d) :: t)) with (dw d * dl d + items_area t).
    change (items_area ((i, d) :: b2)) with (dw d * dl d + items_area b2). lia.
Qed.
