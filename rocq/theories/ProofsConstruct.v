(** * Invariants of the construction loop. *)
From Coq Require Import ZArith String List Bool Lia Permutation.
From Coq Require Import ZifyBool ZifyNat.
From Verif Require Import Py Arith Construct Spec Runs ProofsPy ProofsGrid.
Import ListNotations.
Open Scope Z_scope.

Lemma Forall_In {A} (P : A -> Prop) l x : Forall P l -> In x l -> P x.
Proof. rewrite Forall_forall. auto. Qed.

Lemma ForallOrdPairs_app_one {A} (R : A -> A -> Prop) l x :
  ForallOrdPairs R l -> (forall y, In y l -> R y x) -> ForallOrdPairs R (l ++ [x]).
Proof.
  induction l as [|h t IH]; intros Hl Hx; simpl.
  - repeat constructor.
  - inversion Hl as [|? ? H1 H2]; subst. constructor.
    + apply Forall_app. split; [assumption|]. constructor; [|constructor]. apply Hx. left; auto.
    + apply IH; [assumption|]. intros y Hy. apply Hx. right; assumption.
Qed.

Lemma ForallOrdPairs_nth {A} (R : A -> A -> Prop) l :
  ForallOrdPairs R l ->
  forall i j a b, (i < j)%nat -> nth_error l i = Some a -> nth_error l j = Some b -> R a b.
Proof.
  induction 1 as [|h t H1 H2 IH]; intros i j a b Hij Ha Hb.
  - destruct i; discriminate.
  - destruct j as [|j]; [lia|]. simpl in Hb. destruct i as [|i]; simpl in Ha.
    + injection Ha as <-. eapply Forall_In; [exact H1|]. eapply nth_error_In; eassumption.
    + apply (IH i j); auto. lia.
Qed.

Lemma ForallOrdPairs_map {A B} (f : A -> B) (R : B -> B -> Prop) l :
  ForallOrdPairs (fun a b => R (f a) (f b)) l -> ForallOrdPairs R (map f l).
Proof.
  induction 1 as [|h t H1 H2 IH]; simpl; constructor; auto.
  rewrite Forall_forall in *. intros b Hb. apply in_map_iff in Hb.
  destruct Hb as [a [<- Ha]]. auto.
Qed.

(** ** Pools *)
Definition all_classes := default_strategy.

Lemma all_classes_all c : In c all_classes.
Proof. destruct c; simpl; tauto. Qed.

Lemma pclass_eqb_spec a b : reflect (a = b) (pclass_eqb a b).
Proof. destruct a, b; simpl; constructor; congruence. Qed.

Definition pools_size (pp : pools) : nat :=
  fold_right (fun c n => (length (pp c) + n)%nat) O all_classes.

Lemma pools_size_append pp cp : pools_size (pool_append pp cp) = S (pools_size pp).
Proof.
  destruct cp as [c p]. unfold pools_size, pool_append, all_classes, default_strategy.
  destruct c; simpl; rewrite ?app_length; simpl; lia.
Qed.

Lemma pools_size_extend pp ps : pools_size (pools_extend pp ps) = (pools_size pp + length ps)%nat.
Proof.
  unfold pools_extend. revert pp; induction ps as [|cp ps IH]; intros pp; simpl; [lia|].
  rewrite IH, pools_size_append. lia.
Qed.

Lemma in_pools_extend pp ps c p :
  In p (pools_extend pp ps c) <-> In p (pp c) \/ In (c, p) ps.
Proof.
  unfold pools_extend. revert pp; induction ps as [|[c' p'] ps IH]; intros pp; simpl; [tauto|].
  rewrite IH. unfold pool_append. simpl.
  destruct (pclass_eqb_spec c c') as [->|Hne].
  - rewrite in_app_iff. simpl. intuition congruence.
  - intuition congruence.
Qed.

Lemma get_current_point_spec strategy pp o pp' :
  get_current_point strategy pp = (o, pp') ->
  match o with
  | None => pp' = pp /\ forall c, In c strategy -> pp c = []
  | Some p => exists c, In c strategy /\ pp c = p :: pp' c /\
                        (forall c', c' <> c -> pp' c' = pp c')
  end.
Proof.
  induction strategy as [|c cs IH]; simpl.
  - intros [= <- <-]. split; [reflexivity|]. intros c [].
  - destruct (pp c) as [|p rest] eqn:E.
    + intros H. specialize (IH H). destruct o.
      * destruct IH as [c' [H1 [H2 H3]]]. exists c'. auto.
      * destruct IH as [H1 H2]. split; [assumption|]. intros c' [<-|H']; auto.
    + intros [= <- <-]. exists c. split; [auto|]. split.
      * destruct (pclass_eqb_spec c c); congruence.
      * intros c' Hne. destruct (pclass_eqb_spec c' c); congruence.
Qed.

Lemma pools_size_pop pp pp' c p :
  pp c = p :: pp' c -> (forall c', c' <> c -> pp' c' = pp c') ->
  pools_size pp = S (pools_size pp').
Proof.
  intros H1 H2. unfold pools_size, all_classes, default_strategy.
  destruct c; simpl; rewrite H1;
    repeat match goal with
    | |- context [length (pp' ?k)] =>
        first [ rewrite (H2 k) by discriminate | fail 1 ]
    end; simpl; try lia.
Qed.

Section Loop.
Context (ar : arith) (W L : Z) (strip rotation : bool) (strategy : list pclass).
Context (items0 : odict dims).
Hypothesis HW : 0 < W.
Hypothesis HL : 0 < L.
Hypothesis Hitems0 : valid_items items0.

Notation cstate := (cstate ar).

Notation placed_entries := (Runs.placed_entries ar).

Definition occupied (s : cstate) (x y : Z) : Prop :=
  exists e, In e (placed_entries s) /\ covers e x y.

Record inv (s : cstate) : Prop := {
  i_grid : gwf W L (st_grid s);
  i_cells : forall y x, 0 <= y < L -> 0 <= x < W ->
              (cell (st_grid s) y x <> 0 <-> occupied s x y);
  i_in : forall e, In e (placed_entries s) -> inside W L e;
  i_pools : forall c p, In p (st_pools s c) -> in_bounds W L p;
  i_cur : forall p, st_cur s = Some p -> in_bounds W L p;
  i_ids : st_ids s = dkeys (st_items s);
  i_perm : Permutation (map (fun kp => (fst kp, p_item (snd kp))) (st_sol s) ++ st_items s) items0;
  i_rot : forall i p, In (i, p) (st_sol s) -> p_rot p = true -> rotation = true;
  i_order : placed_in_order (placed_entries s);
  i_obj : st_obj s = if strip then num0 ar else
            fold_left (fun o e => nadd ar o (ndiv ar (entry_area e) (W * L)))
                      (placed_entries s) (num0 ar)
}.

Lemma inv_init : inv (init_state ar W L items0).
Proof.
  constructor; simpl.
  - apply empty_grid_wf; lia.
  - intros y x _ _. rewrite empty_grid_cell. split; [congruence|].
    intros [e [[] _]].
  - intros e [].
  - intros c p [].
  - intros p [= <-]. unfold in_bounds. simpl. lia.
  - reflexivity.
  - apply Permutation_refl.
  - intros i p [].
  - constructor.
  - destruct strip; reflexivity.
Qed.

Lemma inv_items_pos s i d : inv s -> dget (st_items s) i = Some d -> pos_dims d.
Proof.
  intros Hs Hd. apply dget_In in Hd. destruct Hitems0 as [_ Hp]. apply (Hp i).
  eapply Permutation_in; [apply (i_perm s Hs)|]. apply in_or_app. right. assumption.
Qed.

Lemma inv_nodup s : inv s -> NoDup (dkeys (st_items s)) /\ NoDup (dkeys (st_sol s)) /\
  (forall k, In k (dkeys (st_sol s)) -> ~ In k (dkeys (st_items s))).
Proof.
  intros Hs. destruct Hitems0 as [Hn _].
  assert (H : NoDup (dkeys (st_sol s) ++ dkeys (st_items s))).
  { eapply Permutation_NoDup; [|exact Hn]. apply Permutation_sym.
    eapply Permutation_trans;
      [|apply (Permutation_map fst); apply (i_perm s Hs)].
    rewrite map_app, map_map. simpl. apply Permutation_refl. }
  apply NoDup_app_iff in H. tauto.
Qed.

(** The two orientations the search tries. *)
Definition fits_at (g : grid) (p : point) (w l : Z) : Prop :=
  fst p + w <= W /\ snd p + l <= L /\ fit_cells g (fst p) (snd p) w l.

Definition no_fit (g : grid) (p : point) (d : dims) : Prop :=
  ~ fits_at g p (dw d) (dl d) /\ (rotation = true -> ~ fits_at g p (dl d) (dw d)).

Lemma first_fit_spec g (items : odict dims) p ids :
  gwf W L g -> in_bounds W L p ->
  (forall i, In i ids -> exists d, dget items i = Some d /\ pos_dims d) ->
  exists r, first_fit W L (fst p) (snd p) rotation g items ids = Ok r /\
    match r with
    | None => forall i d, In i ids -> dget items i = Some d -> no_fit g p d
    | Some (i, d, rot) =>
        exists pre post, ids = pre ++ i :: post /\ dget items i = Some d /\
          (forall j dj, In j pre -> dget items j = Some dj -> no_fit g p dj) /\
          (if rot then rotation = true /\ ~ fits_at g p (dw d) (dl d) /\ fits_at g p (dl d) (dw d)
           else fits_at g p (dw d) (dl d))
    end.
Proof.
  intros Hg Hp. induction ids as [|i ids IH]; intros Hids.
  - exists None. split; [reflexivity|]. intros i d [].
  - destruct (Hids i) as [d [Hd [Hdw Hdl]]]; [left; reflexivity|].
    destruct IH as [r [Hr HrP]]; [intros j Hj; apply Hids; right; assumption|].
    destruct Hp as [Hpx Hpy].
    destruct (check_fitting_spec W L g (fst p) (snd p) (dw d) (dl d)) as [b [Hb HbP]];
      auto; try lia.
    simpl. unfold dget_r. rewrite Hd. cbn [bind]. rewrite Hb. cbn [bind].
    destruct b.
    { exists (Some (i, d, false)). split; [reflexivity|]. exists [], ids.
      split; [reflexivity|]. split; [assumption|]. split; [intros j dj []|].
      apply HbP. reflexivity. }
    assert (Hnf : ~ fits_at g p (dw d) (dl d)).
    { intros H. apply HbP in H. discriminate. }
    assert (Hrest : forall b', b' = false ->
              (rotation = true -> ~ fits_at g p (dl d) (dw d)) ->
              exists r, first_fit W L (fst p) (snd p) rotation g items ids = Ok r /\
              match r with
              | None => forall i0 d0, In i0 (i :: ids) -> dget items i0 = Some d0 -> no_fit g p d0
              | Some (i0, d0, rot) =>
                  exists pre post, i :: ids = pre ++ i0 :: post /\ dget items i0 = Some d0 /\
                    (forall j dj, In j pre -> dget items j = Some dj -> no_fit g p dj) /\
                    (if rot then rotation = true /\ ~ fits_at g p (dw d0) (dl d0) /\
                                 fits_at g p (dl d0) (dw d0)
                     else fits_at g p (dw d0) (dl d0))
              end).
    { intros _ _ Hnr. exists r. split; [assumption|].
      destruct r as [[[i0 d0] rot]|].
      - destruct HrP as [pre [post [H1 [H2 [H3 H4]]]]]. exists (i :: pre), post.
        split; [simpl; congruence|]. split; [assumption|]. split; [|assumption].
        intros j dj [<-|Hj] Hdj; [|eauto]. rewrite Hd in Hdj. injection Hdj as <-.
        split; assumption.
      - intros j dj [<-|Hj] Hdj; [|eauto]. rewrite Hd in Hdj. injection Hdj as <-.
        split; assumption. }
    destruct rotation eqn:Erot.
    + destruct (check_fitting_spec W L g (fst p) (snd p) (dl d) (dw d)) as [b' [Hb' HbP']];
        auto; try lia.
      rewrite Hb'. cbn [bind]. destruct b'.
      * exists (Some (i, d, true)). split; [reflexivity|]. exists [], ids.
        split; [reflexivity|]. split; [assumption|]. split; [intros j dj []|].
        split; [reflexivity|]. split; [assumption|]. apply HbP'. reflexivity.
      * apply (Hrest false eq_refl). intros _ H. apply HbP' in H. discriminate.
    + apply (Hrest false eq_refl). discriminate.
Qed.

(** What one iteration of the loop does. *)
Definition search_size (s : cstate) : nat :=
  (pools_size (st_pools s) +
   fold_right (fun kv n => item_points (snd kv) + n)%nat O (st_items s))%nat.

Lemma sum_points_del (items : odict dims) i d :
  dget items i = Some d ->
  fold_right (fun kv n => item_points (snd kv) + n)%nat O items =
  (item_points d + fold_right (fun kv n => item_points (snd kv) + n)%nat O (ddel items i))%nat.
Proof.
  induction items as [|[j e] t IH]; simpl; [discriminate|].
  destruct (String.eqb i j).
  - intros [= ->]. reflexivity.
  - intros H. simpl. rewrite (IH H). lia.
Qed.

(** The outcome of an iteration at point [p] in terms of the placed entries. *)
Inductive step_outcome (s : cstate) (p : point) (s' : cstate) : Prop :=
| placed_one i d (rot : bool) pre post :
    st_ids s = pre ++ i :: post ->
    dget (st_items s) i = Some d ->
    (forall j dj, In j pre -> dget (st_items s) j = Some dj -> no_fit (st_grid s) p dj) ->
    (if rot then rotation = true /\ ~ fits_at (st_grid s) p (dw d) (dl d) /\
                 fits_at (st_grid s) p (dl d) (dw d)
     else fits_at (st_grid s) p (dw d) (dl d)) ->
    st_sol s' = st_sol s ++ [(i, mkPlaced d (fst p) (snd p) rot)] ->
    st_items s' = ddel (st_items s) i ->
    step_outcome s p s'
| placed_none :
    (forall i d, In i (st_ids s) -> dget (st_items s) i = Some d -> no_fit (st_grid s) p d) ->
    st_sol s' = st_sol s ->
    st_items s' = st_items s ->
    step_outcome s p s'.

(** Next point: either popped from a pool of the strategy, or all these pools are empty. *)
Definition next_point (s' : cstate) (before : pools) : Prop :=
  match st_cur s' with
  | None => st_pools s' = before /\ forall c, In c strategy -> before c = []
  | Some p => exists c, In c strategy /\ before c = p :: st_pools s' c /\
                        (forall c', c' <> c -> st_pools s' c' = before c')
  end.

Lemma fit_disjoint s d p (rot : bool) :
  inv s -> in_bounds W L p -> pos_dims d ->
  (let w := if rot then dl d else dw d in let l := if rot then dw d else dl d in
   fits_at (st_grid s) p w l) ->
  forall e, In e (placed_entries s) ->
  benign e (export (mkPlaced d (fst p) (snd p) rot)).
Proof.
  intros Hs [Hpx Hpy] [Hdw Hdl] Hfit e He.
  cbv zeta in Hfit. destruct Hfit as [H1 [H2 H3]].
  intros x y Hc1 Hc2. unfold covers in Hc2. simpl in Hc2. unfold on_open_top_row. simpl.
  destruct (Z_lt_dec y (snd p + (if rot then dw d else dl d) - 1)) as [Hlt|Hge].
  2: destruct (Z.eq_dec x (fst p)) as [Hx|Hx].
  3: destruct (Z.eq_dec x (fst p + (if rot then dl d else dw d) - 1)) as [Hx2|Hx2].
  4: split; lia.
  all: exfalso; apply (proj2 (i_cells s Hs y x ltac:(lia) ltac:(lia)));
    [exists e; auto | apply H3; lia].
Qed.

Lemma loop_body_spec s p :
  inv s -> in_bounds W L p ->
  exists s' before ps,
    loop_body ar W L strip rotation strategy s p = Ok s' /\ inv s' /\
    step_outcome s p s' /\ next_point s' before /\
    before = pools_extend (st_pools s) ps /\
    (st_sol s' = st_sol s -> ps = []) /\ st_pending s' = before /\
    Forall (good_point W L (st_grid s')) ps /\
    (search_size s' + (match st_cur s' with Some _ => 1 | None => 0 end) <= search_size s)%nat /\
    (forall y x, 0 <= y < L -> 0 <= x < W -> cell (st_grid s') y x = 0 -> cell (st_grid s) y x = 0).
Proof.
  intros Hs Hp.
  destruct (first_fit_spec (st_grid s) (st_items s) p (st_ids s)) as [r [Hr HrP]].
  { apply Hs. } { assumption. }
  { intros i Hi. rewrite (i_ids s Hs) in Hi. apply dget_Some_In in Hi. destruct Hi as [d Hd].
    exists d. split; [assumption|]. eapply inv_items_pos; eassumption. }
  unfold loop_body. destruct p as [Xo Yo]. simpl in Hr. rewrite Hr. cbn [bind].
  destruct r as [[[i d] rot]|].
  - (* an item is placed *)
    destruct HrP as [pre [post [Hids [Hd [Hpre Hfit]]]]].
    pose proof (inv_items_pos s i d Hs Hd) as [Hdw Hdl].
    set (w := if rot then dl d else dw d). set (l := if rot then dw d else dl d).
    assert (Hfit' : fits_at (st_grid s) (Xo, Yo) w l).
    { unfold w, l. destruct rot; [apply Hfit|assumption]. }
    assert (Hw : 1 <= w) by (unfold w; destruct rot; lia).
    assert (Hl : 1 <= l) by (unfold l; destruct rot; lia).
    pose proof Hfit' as [HfW [HfL Hfc]]. simpl in HfW, HfL, Hfc.
    destruct Hp as [Hpx Hpy]. simpl in Hpx, Hpy.
    unfold place_item. cbv zeta. fold w l.
    destruct (paint_spec W L (st_grid s) Xo Yo w l) as [g' [Hg' [Hwf Hcell]]];
      try apply Hs; try lia.
    rewrite Hg'. cbn [bind].
    destruct (generate_points_ok W L g' Xo Yo w l) with (ar := ar) as [ps [Hps [Hgood Hlen]]];
      auto; try lia.
    rewrite Hps. cbn [bind st_pools st_items st_ids st_obj st_grid st_sol].
    destruct (get_current_point strategy (pools_extend (st_pools s) ps)) as [cur pp] eqn:Hcur.
    destruct (inv_nodup s Hs) as [Hn1 [Hn2 Hn3]].
    assert (Hnew : dget (st_sol s) i = None).
    { apply dget_None. intros Hin. apply (Hn3 i Hin). apply dget_Some_In. eauto. }
    rewrite (dset_new _ _ _ Hnew).
    eexists _, (pools_extend (st_pools s) ps), ps. split; [reflexivity|].
    assert (Hent : forall cur' pp' pend,
      placed_entries (mkState (ddel (st_items s) i) (lremove (st_ids s) i)
         (if strip then st_obj s else nadd ar (st_obj s) (ndiv ar (w * l) (W * L))) g' pp' cur'
         (st_sol s ++ [(i, mkPlaced d Xo Yo rot)]) pend)
      = placed_entries s ++ [mkEntry Xo Yo w l]).
    { intros. unfold placed_entries. simpl. rewrite map_app. reflexivity. }
    apply get_current_point_spec in Hcur.
    assert (Hext : forall c q, In q (pools_extend (st_pools s) ps c) -> in_bounds W L q).
    { intros c q Hq. apply in_pools_extend in Hq. destruct Hq as [Hq|Hq].
      - eapply i_pools; eassumption.
      - apply (Forall_In _ _ _ Hgood Hq). }
    assert (Hin_new : forall y x, 0 <= y < L -> 0 <= x < W ->
              (in_rect Xo Yo w l y x = true <-> covers (mkEntry Xo Yo w l) x y)).
    { intros y x Hy Hx. unfold in_rect, covers. simpl. lia. }
    split; [|split; [|split; [|split; [|split; [|split; [|split; [|split]]]]]]].
    + constructor; simpl; try rewrite !Hent.
      * assumption.
      * intros y x Hy Hx. unfold occupied. rewrite Hent. rewrite Hcell by assumption.
        specialize (Hin_new y x Hy Hx).
        destruct (in_rect Xo Yo w l y x).
        -- split; [|intros _; apply colour_nonzero]. intros _. exists (mkEntry Xo Yo w l).
           split; [apply in_or_app; right; left; reflexivity|]. apply Hin_new. reflexivity.
        -- rewrite (i_cells s Hs y x Hy Hx). split.
           ++ intros [e [He Hc]]. exists e. split; [apply in_or_app; left; assumption|assumption].
           ++ intros [e [He Hc]]. apply in_app_or in He. destruct He as [He|[<-|[]]].
              ** exists e. auto.
              ** apply Hin_new in Hc. discriminate.
      * intros e He. apply in_app_or in He. destruct He as [He|[<-|[]]].
        -- apply (i_in s Hs). assumption.
        -- unfold inside. simpl. lia.
      * intros c q Hq. destruct cur as [pc|].
        -- destruct Hcur as [c0 [Hc1 [Hc2 Hc3]]].
           destruct (pclass_eqb_spec c c0) as [->|Hne].
           ++ apply (Hext c0). rewrite Hc2. right. assumption.
           ++ apply (Hext c). rewrite <- Hc3 by assumption. assumption.
        -- destruct Hcur as [-> _]. eapply Hext; eassumption.
      * intros q [= ->]. destruct Hcur as [c0 [Hc1 [Hc2 Hc3]]].
        apply (Hext c0). rewrite Hc2. left. reflexivity.
      * rewrite dkeys_ddel. rewrite (i_ids s Hs). reflexivity.
      * rewrite map_app. simpl. rewrite <- app_assoc. simpl.
        eapply Permutation_trans; [|apply (i_perm s Hs)].
        apply Permutation_app_head. apply Permutation_sym. apply ddel_perm. assumption.
      * intros j q Hin Hq. apply in_app_or in Hin. destruct Hin as [Hin|[[= <- <-]|[]]].
        -- eapply i_rot; eassumption.
        -- simpl in Hq. subst rot. apply Hfit.
      * apply ForallOrdPairs_app_one; [apply (i_order s Hs)|].
        intros e He. apply (fit_disjoint s d (Xo, Yo) rot); auto.
        { unfold in_bounds. simpl. lia. } { split; assumption. }
      * rewrite (i_obj s Hs). destruct strip; [reflexivity|].
        rewrite fold_left_app. reflexivity.
    + apply (placed_one _ _ _ i d rot pre post); auto.
    + exact Hcur.
    + reflexivity.
    + intros H. exfalso. apply (f_equal (@length _)) in H. simpl in H.
      rewrite app_length in H. simpl in H. lia.
    + reflexivity.
    + exact Hgood.
    + unfold search_size. cbn [st_pools st_items st_cur].
      rewrite (sum_points_del _ _ _ Hd).
      pose proof (pools_size_extend (st_pools s) ps) as Hsz.
      assert (Hip : (Z.to_nat w + Z.to_nat l + 4 = item_points d)%nat).
      { unfold item_points, w, l. destruct rot; lia. }
      destruct cur as [pc|].
      * destruct Hcur as [c0 [Hc1 [Hc2 Hc3]]].
        pose proof (pools_size_pop _ _ _ _ Hc2 Hc3). lia.
      * destruct Hcur as [-> _]. lia.
    + cbn [st_grid]. intros y x Hy Hx. rewrite Hcell by assumption.
      destruct (in_rect Xo Yo w l y x); [|auto].
      intros H. exfalso. eapply colour_nonzero; eassumption.
  - (* nothing fits *)
    destruct (get_current_point strategy (st_pools s)) as [cur pp] eqn:Hcur.
    eexists _, (st_pools s), []. cbn [bind]. rewrite Hcur. split; [reflexivity|].
    apply get_current_point_spec in Hcur.
    split; [|split; [|split; [|split; [|split; [|split; [|split; [|split]]]]]]].
    + constructor; simpl; try apply Hs.
      * intros c q Hq. destruct cur as [pc|].
        -- destruct Hcur as [c0 [Hc1 [Hc2 Hc3]]].
           destruct (pclass_eqb_spec c c0) as [->|Hne].
           ++ apply (i_pools s Hs c0). rewrite Hc2. right. assumption.
           ++ apply (i_pools s Hs c). rewrite <- Hc3 by assumption. assumption.
        -- destruct Hcur as [-> _]. eapply i_pools; eassumption.
      * intros q [= ->]. destruct Hcur as [c0 [Hc1 [Hc2 Hc3]]].
        apply (i_pools s Hs c0). rewrite Hc2. left. reflexivity.
    + apply placed_none; auto.
    + exact Hcur.
    + reflexivity.
    + reflexivity.
    + reflexivity.
    + constructor.
    + unfold search_size. cbn [st_pools st_items st_cur]. destruct cur as [pc|].
      * destruct Hcur as [c0 [Hc1 [Hc2 Hc3]]].
        pose proof (pools_size_pop _ _ _ _ Hc2 Hc3). lia.
      * destruct Hcur as [-> _]. lia.
    + auto.
Qed.

(** ** Reachability and the whole loop *)
Notation running := (Runs.running ar).
Notation steps := (Runs.steps ar W L strip rotation strategy).
Notation stopped := (Runs.stopped ar).

Lemma steps_trans a b c : steps a b -> steps b c -> steps a c.
Proof. induction 1; intros; auto. econstructor; eauto. Qed.

Lemma steps_inv a b : steps a b -> inv a -> inv b.
Proof.
  induction 1 as [|s p s1 s2 [Hc _] Hb _ IH]; [auto|]. intros Ha. apply IH.
  destruct (loop_body_spec s p Ha (i_cur s Ha p Hc)) as [s' [? [? [Hs' [Hi _]]]]].
  congruence.
Qed.

Lemma construct_loop_total fuel s :
  inv s -> (search_size s + (match st_cur s with Some _ => 1 | None => 0 end) <= fuel)%nat ->
  exists s', construct_loop ar fuel W L strip rotation strategy s = Ok s' /\
             steps s s' /\ stopped s' /\ inv s'.
Proof.
  revert s. induction fuel as [|n IH]; intros s Hs Hf.
  - destruct (st_cur s) eqn:Hc; [lia|].
    exists s. simpl. rewrite Hc. split; [reflexivity|]. split; [constructor|].
    split; [|assumption]. intros p [H _]. congruence.
  - cbn [construct_loop]. destruct (st_cur s) as [p|] eqn:Hc.
    2:{ exists s. split; [reflexivity|]. split; [constructor|].
        split; [|assumption]. intros p [H _]. congruence. }
    destruct (st_ids s) as [|i0 ids0] eqn:Hids.
    { exists s. split; [reflexivity|]. split; [constructor|].
      split; [|assumption]. intros q [_ [H _]]. congruence. }
    destruct (ngeb ar (st_obj s) (num1 ar)) eqn:Hobj.
    { exists s. split; [reflexivity|]. split; [constructor|].
      split; [|assumption]. intros q [_ [_ H]]. congruence. }
    destruct (loop_body_spec s p Hs (i_cur s Hs p Hc))
      as [s1 [before [ps [Hs1 [Hi1 [_ [_ [_ [_ [_ [_ [Hsz _]]]]]]]]]]]].
    rewrite Hs1. cbn [bind].
    destruct (IH s1 Hi1) as [s' [H1 [H2 [H3 H4]]]]; [lia|].
    exists s'. split; [assumption|]. split; [|auto].
    apply (steps_cons ar W L strip rotation strategy s p s1 s'); auto. repeat split; congruence.
Qed.

Lemma construct_loop_result :
  exists s, construct_loop ar (construct_fuel items0) W L strip rotation strategy
                           (init_state ar W L items0) = Ok s /\
            steps (init_state ar W L items0) s /\ stopped s /\ inv s.
Proof.
  apply construct_loop_total; [apply inv_init|].
  unfold search_size, construct_fuel. simpl. lia.
Qed.

(** More fuel changes nothing: the bound is not observable. *)
Lemma construct_loop_fuel fuel s s' n :
  construct_loop ar fuel W L strip rotation strategy s = Ok s' ->
  construct_loop ar (n + fuel) W L strip rotation strategy s = Ok s'.
Proof.
  revert s. induction fuel as [|m IH]; intros s H.
  - rewrite Nat.add_0_r. destruct n; [assumption|]. cbn [construct_loop] in *.
    destruct (st_cur s) as [p|]; [|assumption].
    destruct (st_ids s); [assumption|].
    destruct (ngeb ar (st_obj s) (num1 ar)); [assumption|discriminate].
  - replace (n + S m)%nat with (S (n + m)) by lia. cbn [construct_loop] in *.
    destruct (st_cur s) as [p|]; [|assumption].
    destruct (st_ids s); [assumption|].
    destruct (ngeb ar (st_obj s) (num1 ar)); [assumption|].
    destruct (loop_body ar W L strip rotation strategy s p); cbn [bind] in *; [|discriminate].
    apply IH. assumption.
Qed.

(** ** Height of a strip solution *)
Lemma existsb_row_nonzero s y :
  inv s -> 0 <= y < L ->
  existsb nonzero (nth (Z.to_nat y) (st_grid s) []) = true <-> exists x, occupied s x y.
Proof.
  intros Hs Hy. pose proof (gwf_row W L _ y (i_grid s Hs) Hy) as Hr. split.
  - intros H. apply existsb_exists in H. destruct H as [c [Hin Hc]].
    apply (In_nth _ _ 0) in Hin. destruct Hin as [n [Hn Hcn]]. unfold zlen in Hr.
    exists (Z.of_nat n). apply (i_cells s Hs y); try lia.
    unfold cell. rewrite Nat2Z.id, Hcn. unfold nonzero in Hc. lia.
  - intros [x [e [He Hc]]]. pose proof (i_in s Hs e He) as Hin.
    unfold covers in Hc. unfold inside in Hin.
    apply existsb_exists. exists (cell (st_grid s) y x). split.
    + unfold cell. apply nth_In. unfold zlen in Hr. lia.
    + assert (cell (st_grid s) y x <> 0).
      { apply (i_cells s Hs y x); try lia. exists e. split; [assumption|]. unfold covers. lia. }
      unfold nonzero. lia.
Qed.

Lemma stack_height_ge es e : In e es -> e_y e + e_l e <= stack_height es.
Proof. induction es as [|h t IH]; simpl; [tauto|]. intros [->|H]; [lia|]. specialize (IH H). lia. Qed.

Lemma stack_height_nonneg es : 0 <= stack_height es.
Proof. induction es; simpl; lia. Qed.

Lemma stack_height_attained es :
  stack_height es = 0 \/ exists e, In e es /\ e_y e + e_l e = stack_height es.
Proof.
  induction es as [|h t IH]; [left; reflexivity|].
  change (stack_height (h :: t)) with (Z.max (e_y h + e_l h) (stack_height t)).
  destruct (Z.max_spec (e_y h + e_l h) (stack_height t)) as [[? E]|[? E]]; rewrite E.
  - destruct IH as [IH|[e [He IH]]]; [left; assumption|].
    right. exists e. split; [right; assumption|assumption].
  - right. exists h. split; [left|]; reflexivity.
Qed.

Lemma top_row_down s n :
  inv s -> Z.of_nat n < L ->
  (forall y x, Z.of_nat n < y < L -> ~ occupied s x y) ->
  top_row (st_grid s) (map (fun k => Z.of_nat n - Z.of_nat k) (seq 0 n)) =
  Ok (Z.max 1 (stack_height (placed_entries s) - 1)).
Proof.
  intros Hs. induction n as [|n IH]; intros Hn Habove.
  - simpl. f_equal. destruct (stack_height_attained (placed_entries s)) as [->|[e [He Hh]]].
    + reflexivity.
    + pose proof (i_in s Hs e He) as Hin. unfold inside in Hin.
      assert (stack_height (placed_entries s) <= 1); [|lia].
      destruct (Z_le_dec (stack_height (placed_entries s)) 1); [assumption|].
      exfalso. apply (Habove (stack_height (placed_entries s) - 1) (e_x e)); [lia|].
      exists e. split; [assumption|]. unfold covers. lia.
  - cbn [seq map]. replace (Z.of_nat (S n) - Z.of_nat 0) with (Z.of_nat (S n)) by lia.
    cbn [top_row]. pose proof (i_grid s Hs) as [Hgl _].
    rewrite (py_get_in _ _ []) by lia. cbn [bind].
    pose proof (existsb_row_nonzero s (Z.of_nat (S n)) Hs ltac:(lia)) as Hrow.
    destruct (existsb nonzero (nth (Z.to_nat (Z.of_nat (S n))) (st_grid s) [])).
    + destruct (proj1 Hrow eq_refl) as [x [e [He Hc]]]. f_equal.
      pose proof (stack_height_ge _ _ He) as Hge.
      pose proof (i_in s Hs e He) as Hin. unfold inside in Hin. unfold covers in Hc.
      assert (stack_height (placed_entries s) <= Z.of_nat (S n) + 1); [|lia].
      destruct (stack_height_attained (placed_entries s)) as [H0|[e' [He' Hh]]]; [lia|].
      destruct (Z_le_dec (stack_height (placed_entries s)) (Z.of_nat (S n) + 1)); [assumption|].
      exfalso. pose proof (i_in s Hs e' He') as Hin'. unfold inside in Hin'.
      apply (Habove (stack_height (placed_entries s) - 1) (e_x e')); [lia|].
      exists e'. split; [assumption|]. unfold covers. lia.
    + rewrite <- seq_shift, map_map.
      rewrite (map_ext _ (fun k => Z.of_nat n - Z.of_nat k)) by (intros; lia).
      apply IH; [lia|]. intros y x Hy Hocc.
      destruct (Z.eq_dec y (Z.of_nat (S n))) as [->|Hne].
      * assert (false = true) by (apply Hrow; eauto). discriminate.
      * apply (Habove y x); [lia|assumption].
Qed.

Lemma top_row_spec s :
  inv s ->
  top_row (st_grid s) (strip_rows L) = Ok (Z.max 1 (stack_height (placed_entries s) - 1)).
Proof.
  intros Hs.
  replace (strip_rows L) with
    (map (fun k => Z.of_nat (Z.to_nat (L - 1)) - Z.of_nat k) (seq 0 (Z.to_nat (L - 1)))).
  - apply top_row_down; [assumption|lia|].
    intros y x Hy. lia.
  - unfold strip_rows, zrange. rewrite map_map. apply map_ext. intros k. lia.
Qed.

(** ** Lifting to [construct_solution] *)
Definition result_entries (s : cstate) : odict entry :=
  map (fun kp => (fst kp, export (snd kp))) (st_sol s).

Lemma entries_result s : entries (result_entries s) = placed_entries s.
Proof. unfold entries, result_entries, placed_entries. rewrite map_map. reflexivity. Qed.

Lemma dkeys_result s : dkeys (result_entries s) = dkeys (st_sol s).
Proof. unfold dkeys, result_entries. rewrite map_map. reflexivity. Qed.

Lemma items_area_eq s :
  inv s ->
  fold_right Z.add 0 (map (fun kp => dw (p_item (snd kp)) * dl (p_item (snd kp))) (st_sol s))
  = total_area (placed_entries s).
Proof.
  intros _. unfold placed_entries. induction (st_sol s) as [|[i p] t IH]; simpl; [reflexivity|].
  rewrite IH. unfold entry_area, export. simpl. destruct (p_rot p); lia.
Qed.

Definition final_obj (s : cstate) : num ar :=
  if strip
  then ndiv ar (total_area (placed_entries s))
            (W * Z.max 1 (stack_height (placed_entries s) - 1))
  else fold_left (fun o e => nadd ar o (ndiv ar (entry_area e) (W * L)))
                 (placed_entries s) (num0 ar).

Lemma construct_solution_spec :
  exists s, construct_solution ar W L strip rotation strategy items0 =
              Ok (st_items s, final_obj s, result_entries s, st_pending s) /\
            steps (init_state ar W L items0) s /\ stopped s /\ inv s.
Proof.
  destruct construct_loop_result as [s [Hc [H1 [H2 H3]]]].
  exists s. split; [|auto]. unfold construct_solution. rewrite Hc. cbn [bind].
  unfold final_obj. pose proof (i_obj s H3) as Ho. destruct strip eqn:Es.
  - rewrite top_row_spec by assumption. cbn [bind]. rewrite items_area_eq by assumption.
    reflexivity.
  - cbn [bind]. rewrite Ho. reflexivity.
Qed.
End Loop.
