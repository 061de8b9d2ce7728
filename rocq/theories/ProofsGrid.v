(** * Lemmas about the coordinates grid: reading, painting, the fit test. *)
From Coq Require Import ZArith String List Bool Lia Permutation.
From Coq Require Import ZifyBool ZifyNat.
From Verif Require Import Py Arith Construct ProofsPy.
Import ListNotations.
Open Scope Z_scope.

Definition gwf (W L : Z) (g : grid) : Prop := zlen g = L /\ Forall (fun r => zlen r = W) g.

Definition cell (g : grid) (y x : Z) : Z := nth (Z.to_nat x) (nth (Z.to_nat y) g []) 0.

Section Grid.
Context (W L : Z).

Lemma gwf_row g y : gwf W L g -> 0 <= y < L -> zlen (nth (Z.to_nat y) g []) = W.
Proof.
  intros [HL HF] Hy. rewrite Forall_forall in HF. apply HF. apply nth_In.
  unfold zlen in HL. lia.
Qed.

Lemma gget_in g y x :
  gwf W L g -> 0 <= y < L -> 0 <= x < W -> gget g y x = Ok (cell g y x).
Proof.
  intros Hg Hy Hx. unfold gget. destruct Hg as [HL HF] eqn:E. rewrite (py_get_in g y []) by lia.
  simpl. rewrite (py_get_in _ x 0); [reflexivity|].
  rewrite gwf_row by assumption. assumption.
Qed.

Lemma gget_ok g y x :
  gwf W L g -> - L <= y < L -> - W <= x < W -> exists c, gget g y x = Ok c.
Proof.
  intros [HL HF] Hy Hx. unfold gget.
  destruct (py_get_ok g y) as [r [-> Hr]]; [lia|]. simpl.
  rewrite Forall_forall in HF. specialize (HF r Hr).
  destruct (py_get_ok r x) as [c [Hc _]]; [lia|]. eauto.
Qed.

Lemma gwf_list_set g y r :
  gwf W L g -> 0 <= y < L -> zlen r = W -> gwf W L (list_set g (Z.to_nat y) r).
Proof.
  intros [HL HF] Hy Hr. split.
  - unfold zlen in *. rewrite list_set_length. assumption.
  - rewrite Forall_forall in *. intros r' Hin.
    apply (In_nth _ _ []) in Hin. destruct Hin as [n [Hn Hr']].
    rewrite list_set_length in Hn. unfold zlen in HL.
    rewrite nth_list_set in Hr' by lia.
    rewrite <- Hr'. destruct (Nat.eqb n (Z.to_nat y)); [assumption|].
    apply HF. apply nth_In. assumption.
Qed.

Lemma cell_list_set g y r y' x' :
  gwf W L g -> 0 <= y < L -> 0 <= y' < L -> zlen r = W ->
  cell (list_set g (Z.to_nat y) r) y' x' =
  if y' =? y then nth (Z.to_nat x') r 0 else cell g y' x'.
Proof.
  intros [HL HF] Hy Hy' Hr. unfold cell. unfold zlen in HL.
  rewrite nth_list_set by lia.
  destruct (Z.eqb_spec y' y) as [->|Hne].
  - rewrite Nat.eqb_refl. reflexivity.
  - destruct (Nat.eqb_spec (Z.to_nat y') (Z.to_nat y)); [lia|reflexivity].
Qed.

(** [upd g g' P v]: [g'] is [g] with the cells satisfying [P y x] set to [v y x]. *)
Definition upd (g g' : grid) (P : Z -> Z -> bool) (v : Z -> Z -> Z) : Prop :=
  gwf W L g' /\
  forall y x, 0 <= y < L -> 0 <= x < W -> cell g' y x = if P y x then v y x else cell g y x.

Lemma gset_in g y x v :
  gwf W L g -> 0 <= y < L -> 0 <= x < W ->
  exists g', gset g y x v = Ok g' /\
             upd g g' (fun y' x' => (y' =? y) && (x' =? x)) (fun _ _ => v).
Proof.
  intros Hg Hy Hx. pose proof Hg as [HL HF]. unfold gset.
  rewrite (py_get_in g y []) by lia. simpl.
  pose proof (gwf_row g y Hg Hy) as Hr.
  rewrite py_set_in by lia. simpl. rewrite py_set_in by lia.
  eexists; split; [reflexivity|]. split.
  - apply gwf_list_set; auto. unfold zlen in *. rewrite list_set_length. assumption.
  - intros y' x' Hy' Hx'. rewrite cell_list_set; auto.
    2:{ unfold zlen in *. rewrite list_set_length. assumption. }
    destruct (Z.eqb_spec y' y) as [->|Hne]; [|reflexivity].
    rewrite nth_list_set by (unfold zlen in Hr; lia).
    destruct (Z.eqb_spec x' x) as [->|Hnx]; simpl.
    + rewrite Nat.eqb_refl. reflexivity.
    + destruct (Nat.eqb_spec (Z.to_nat x') (Z.to_nat x)); [lia|reflexivity].
Qed.

Lemma gfill_in g y a b v n :
  gwf W L g -> 0 <= y < L -> 0 <= a -> a <= b <= W -> n = b - a ->
  exists g', gfill g y a b v n = Ok g' /\
             upd g g' (fun y' x' => (y' =? y) && ((a <=? x') && (x' <? b))) (fun _ _ => v).
Proof.
  intros Hg Hy Ha Hb ->. pose proof Hg as [HL HF]. unfold gfill.
  rewrite (py_get_in g y []) by lia. simpl.
  pose proof (gwf_row g y Hg Hy) as Hr.
  rewrite py_set_in by lia.
  eexists; split; [reflexivity|].
  assert (Hlen : zlen (py_slice_set (nth (Z.to_nat y) g []) a b (py_repeat v (b - a))) = W).
  { unfold zlen in *. rewrite py_slice_set_length; unfold zlen; lia. }
  split; [apply gwf_list_set; auto|].
  intros y' x' Hy' Hx'. rewrite cell_list_set; auto.
  destruct (Z.eqb_spec y' y) as [->|Hne]; [|reflexivity].
  rewrite nth_py_slice_set by lia. reflexivity.
Qed.

Lemma upd_refl g P v :
  gwf W L g -> (forall y x, 0 <= y < L -> 0 <= x < W -> P y x = false) -> upd g g P v.
Proof. intros Hg HP. split; [assumption|]. intros y x Hy Hx. rewrite HP; auto. Qed.

Lemma rfold_upd (f : grid -> Z -> result grid) (Q : Z -> bool) (v : Z) ys g :
  gwf W L g ->
  (forall g y, In y ys -> gwf W L g ->
     exists g', f g y = Ok g' /\ upd g g' (fun y' x' => (y' =? y) && Q x') (fun _ _ => v)) ->
  exists g', rfold f ys g = Ok g' /\
             upd g g' (fun y' x' => existsb (Z.eqb y') ys && Q x') (fun _ _ => v).
Proof.
  revert g; induction ys as [|y ys IH]; intros g Hg Hf; simpl.
  - exists g. split; [reflexivity|]. apply upd_refl; auto.
  - destruct (Hf g y) as [g1 [H1 [Hg1 Hc1]]]; [left; reflexivity|assumption|].
    rewrite H1. simpl.
    destruct (IH g1 Hg1) as [g2 [H2 [Hg2 Hc2]]].
    { intros g' y' Hin. apply Hf. right. assumption. }
    exists g2. split; [assumption|]. split; [assumption|].
    intros y' x' Hy Hx. rewrite Hc2, Hc1 by assumption.
    destruct (y' =? y), (Q x'), (existsb (Z.eqb y') ys); reflexivity.
Qed.

Lemma existsb_zrange a b y : existsb (Z.eqb y) (zrange a b) = (a <=? y) && (y <? b).
Proof.
  destruct ((a <=? y) && (y <? b)) eqn:E.
  - apply existsb_exists. exists y. rewrite in_zrange. split; [lia|apply Z.eqb_refl].
  - apply existsb_false_iff. intros z Hz. rewrite in_zrange in Hz. lia.
Qed.

(** The colour [_construct_solution] gives to a cell of a placed item. *)
Definition colour (Xo Yo w l y x : Z) : Z :=
  if ((x =? Xo) || (x =? Xo + w - 1)) && ((y =? Yo) || (y =? Yo + l - 1)) then 3
  else if (x =? Xo) || (x =? Xo + w - 1) || (y =? Yo) || (y =? Yo + l - 1) then 2
  else 1.

Definition in_rect (Xo Yo w l y x : Z) : bool :=
  (Xo <=? x) && (x <? Xo + w) && (Yo <=? y) && (y <? Yo + l).

Lemma paint_spec g Xo Yo w l :
  gwf W L g -> 0 <= Xo -> 0 <= Yo -> 1 <= w -> 1 <= l -> Xo + w <= W -> Yo + l <= L ->
  exists g', paint g Xo Yo w l = Ok g' /\
             upd g g' (in_rect Xo Yo w l) (colour Xo Yo w l).
Proof.
  intros Hg HX HY Hw Hl HW HL. unfold paint. cbv zeta.
  set (xe := Xo + w - 1). set (ye := Yo + l - 1).
  (* interior *)
  assert (exists g1,
    (if (w >? 2) && (l >? 2)
     then rfold (fun g y => gfill g y (Xo + 1) xe 1 (w - 2)) (zrange (Yo + 1) ye) g
     else Ok g) = Ok g1 /\
    upd g g1 (fun y x => ((Yo + 1 <=? y) && (y <? ye)) && ((Xo + 1 <=? x) && (x <? xe)))
        (fun _ _ => 1)) as [g1 [-> [Hg1 Hc1]]].
  { destruct ((w >? 2) && (l >? 2)) eqn:E.
    - destruct (rfold_upd (fun g y => gfill g y (Xo + 1) xe 1 (w - 2))
                          (fun x => (Xo + 1 <=? x) && (x <? xe)) 1 (zrange (Yo + 1) ye) g)
        as [g1 [H1 [Hw1 Hc1]]]; auto.
      { intros g0 y Hin Hg0. rewrite in_zrange in Hin.
        apply gfill_in; auto; unfold xe, ye in *; lia. }
      exists g1. split; [exact H1|]. split; [assumption|].
      intros y x Hy Hx. rewrite Hc1 by assumption. rewrite existsb_zrange. reflexivity.
    - exists g. split; [reflexivity|]. apply upd_refl; auto. unfold xe, ye. intros; lia. }
  cbn [bind].
  (* horizontal sides *)
  assert (exists g2,
    (if w >? 2
     then bind (gfill g1 Yo (Xo + 1) xe 2 (w - 2))
            (fun g' => if l >? 1 then gfill g' ye (Xo + 1) xe 2 (w - 2) else Ok g')
     else Ok g1) = Ok g2 /\
    upd g1 g2 (fun y x => ((y =? Yo) || (y =? ye)) && ((Xo + 1 <=? x) && (x <? xe)))
        (fun _ _ => 2)) as [g2 [-> [Hg2 Hc2]]].
  { destruct (w >? 2) eqn:E.
    - destruct (gfill_in g1 Yo (Xo + 1) xe 2 (w - 2)) as [ga [-> [Hga Hca]]];
        auto; try (unfold xe; lia). cbn [bind].
      destruct (l >? 1) eqn:E'.
      + destruct (gfill_in ga ye (Xo + 1) xe 2 (w - 2)) as [gb [-> [Hgb Hcb]]];
          auto; try (unfold xe, ye; lia).
        exists gb. split; [reflexivity|]. split; [assumption|].
        intros y x Hy Hx. rewrite Hcb, Hca by assumption.
        destruct (y =? Yo), (y =? ye), ((Xo + 1 <=? x) && (x <? xe)); reflexivity.
      + exists ga. split; [reflexivity|]. split; [assumption|].
        intros y x Hy Hx. rewrite Hca by assumption.
        replace ye with Yo by (unfold ye; lia). rewrite orb_diag. reflexivity.
    - exists g1. split; [reflexivity|]. apply upd_refl; auto. unfold xe. intros; lia. }
  cbn [bind].
  (* vertical sides *)
  assert (exists g3,
    (if l >? 2
     then rfold (fun g y => bind (gset g y Xo 2)
                   (fun g' => if w >? 1 then gset g' y xe 2 else Ok g'))
                (zrange (Yo + 1) ye) g2
     else Ok g2) = Ok g3 /\
    upd g2 g3 (fun y x => ((Yo + 1 <=? y) && (y <? ye)) && ((x =? Xo) || (x =? xe)))
        (fun _ _ => 2)) as [g3 [-> [Hg3 Hc3]]].
  { destruct (l >? 2) eqn:E.
    - destruct (rfold_upd (fun g y => bind (gset g y Xo 2)
                   (fun g' => if w >? 1 then gset g' y xe 2 else Ok g'))
                          (fun x => (x =? Xo) || (x =? xe)) 2 (zrange (Yo + 1) ye) g2)
        as [g3 [H3 [Hw3 Hc3]]]; auto.
      { intros g0 y Hin Hg0. rewrite in_zrange in Hin.
        destruct (gset_in g0 y Xo 2) as [ga [-> [Hga Hca]]]; auto; try (unfold ye in *; lia).
        cbn [bind]. destruct (w >? 1) eqn:E'.
        - destruct (gset_in ga y xe 2) as [gb [-> [Hgb Hcb]]];
            auto; try (unfold xe, ye in *; lia).
          exists gb. split; [reflexivity|]. split; [assumption|].
          intros y' x' Hy Hx. rewrite Hcb, Hca by assumption.
          destruct (y' =? y), (x' =? Xo), (x' =? xe); reflexivity.
        - exists ga. split; [reflexivity|]. split; [assumption|].
          intros y' x' Hy Hx. rewrite Hca by assumption.
          replace xe with Xo by (unfold xe; lia). rewrite orb_diag. reflexivity. }
      exists g3. split; [exact H3|]. split; [assumption|].
      intros y x Hy Hx. rewrite Hc3 by assumption. rewrite existsb_zrange. reflexivity.
    - exists g2. split; [reflexivity|]. apply upd_refl; auto. unfold ye. intros; lia. }
  cbn [bind].
  (* corners *)
  destruct (gset_in g3 Yo Xo 3) as [g4 [-> [Hg4 Hc4]]]; auto; try (unfold xe, ye; lia).
  cbn [bind].
  destruct (gset_in g4 Yo xe 3) as [g5 [-> [Hg5 Hc5]]]; auto; try (unfold xe, ye; lia).
  cbn [bind].
  destruct (gset_in g5 ye Xo 3) as [g6 [-> [Hg6 Hc6]]]; auto; try (unfold xe, ye; lia).
  cbn [bind].
  destruct (gset_in g6 ye xe 3) as [g7 [-> [Hg7 Hc7]]]; auto; try (unfold xe, ye; lia).
  exists g7. split; [reflexivity|]. split; [assumption|].
  intros y x Hy Hx.
  rewrite Hc7, Hc6, Hc5, Hc4, Hc3, Hc2, Hc1 by assumption.
  unfold in_rect, colour. fold xe ye.
  assert (Hxe : xe = Xo + w - 1) by reflexivity.
  assert (Hye : ye = Yo + l - 1) by reflexivity.
  clearbody xe ye. clear - Hxe Hye Hw Hl.
  repeat match goal with
         | |- context [if ?b then _ else _] =>
             destruct b eqn:?; try reflexivity; try (exfalso; lia)
         end.
Qed.

Lemma colour_nonzero Xo Yo w l y x : colour Xo Yo w l y x <> 0.
Proof.
  unfold colour. destruct (_ && _); [discriminate|]. destruct (_ || _); discriminate.
Qed.

Lemma empty_grid_wf : 0 <= W -> 0 <= L -> gwf W L (empty_grid W L).
Proof.
  intros HW HL. unfold empty_grid. split.
  - unfold zlen. rewrite map_length, zrange_length. lia.
  - rewrite Forall_forall. intros r Hr. apply in_map_iff in Hr. destruct Hr as [y [<- _]].
    unfold zlen. rewrite py_repeat_length. lia.
Qed.

Lemma empty_grid_cell y x : cell (empty_grid W L) y x = 0.
Proof.
  unfold cell.
  assert (H : forall r, r = [] \/ In r (empty_grid W L) -> nth (Z.to_nat x) r 0 = 0).
  { intros r [->|Hr]; [destruct (Z.to_nat x); reflexivity|].
    unfold empty_grid in Hr. apply in_map_iff in Hr. destruct Hr as [z [<- _]].
    unfold py_repeat. generalize (Z.to_nat W) as n, (Z.to_nat x) as m.
    induction n; intros [|m]; simpl; auto. }
  apply H. destruct (nth_in_or_default (Z.to_nat y) (empty_grid W L) []); auto.
Qed.

(** ** The fit test *)

(** What [_check_fitting] really tests: inside the container, and every cell free except
    possibly the cells strictly between the corners on the last row. *)
Definition fit_cells (g : grid) (Xo Yo w l : Z) : Prop :=
  forall y x, Xo <= x < Xo + w -> Yo <= y < Yo + l ->
              (y < Yo + l - 1 \/ x = Xo \/ x = Xo + w - 1) -> cell g y x = 0.

Lemma rows_free_ok g Xo w ys :
  gwf W L g -> 0 <= Xo -> 0 <= w -> Xo + w <= W -> (forall y, In y ys -> 0 <= y < L) ->
  exists b, rows_free g Xo w ys = Ok b /\
    (b = true <-> forall y x, In y ys -> Xo <= x < Xo + w -> cell g y x = 0).
Proof.
  intros Hg HX Hw HW. induction ys as [|y ys IH]; intros Hys.
  - exists true. split; [reflexivity|]. split; [intros _ y x []|reflexivity].
  - simpl. pose proof Hg as [HL _].
    assert (Hy : 0 <= y < L) by (apply Hys; left; reflexivity).
    rewrite (py_get_in g y []) by lia. cbn [bind].
    pose proof (gwf_row g y Hg Hy) as Hr.
    destruct (existsb nonzero (py_slice (nth (Z.to_nat y) g []) Xo (Xo + w))) eqn:E.
    + exists false. split; [reflexivity|]. split; [discriminate|]. intros H. exfalso.
      apply existsb_exists in E. destruct E as [c [Hin Hc]].
      rewrite (in_py_slice _ _ _ _ 0) in Hin by lia. destruct Hin as [x [Hx Hc']].
      specialize (H y x (or_introl eq_refl) Hx). unfold cell in H. rewrite H in Hc'.
      subst c. discriminate.
    + destruct IH as [b [Hb HbP]]; [intros; apply Hys; right; assumption|].
      exists b. split; [assumption|]. rewrite HbP. rewrite existsb_false_iff in E.
      split.
      * intros H y' x [<-|Hin] Hx; [|auto].
        assert (Hc : nonzero (cell g y x) = false).
        { apply E. rewrite (in_py_slice _ _ _ _ 0) by lia. exists x. split; [assumption|].
          reflexivity. }
        unfold nonzero in Hc. lia.
      * intros H y' x Hin Hx. apply H; [right; assumption|assumption].
Qed.

Lemma check_fitting_spec g Xo Yo w l :
  gwf W L g -> 0 <= Xo -> 0 <= Yo -> 1 <= w -> 1 <= l ->
  exists b, check_fitting W L Xo Yo w l g = Ok b /\
    (b = true <-> Xo + w <= W /\ Yo + l <= L /\ fit_cells g Xo Yo w l).
Proof.
  intros Hg HX HY Hw Hl. unfold check_fitting.
  destruct (Xo + w >? W) eqn:E1; cbn [ror_ bind].
  { exists false. split; [reflexivity|]. split; [discriminate|]. intros [? _]. lia. }
  destruct (Yo + l >? L) eqn:E2; cbn [ror_ bind].
  { exists false. split; [reflexivity|]. split; [discriminate|]. intros [_ [? _]]. lia. }
  rewrite !gget_in by (auto; lia). cbn [ror_ bind].
  assert (corner : forall c (P : Prop), nonzero c = true -> (P -> c = 0) ->
            (false = true <-> P)).
  { intros c P Hc HP. split; [discriminate|]. intros H. apply HP in H. subst. discriminate. }
  destruct (nonzero (cell g Yo Xo)) eqn:C1; cbn [ror_ bind].
  { eexists; split; [reflexivity|]. apply (corner _ _ C1). intros [_ [_ H]]. apply H; lia. }
  destruct (nonzero (cell g Yo (Xo + w - 1))) eqn:C2; cbn [ror_ bind].
  { eexists; split; [reflexivity|]. apply (corner _ _ C2). intros [_ [_ H]]. apply H; lia. }
  destruct (nonzero (cell g (Yo + l - 1) Xo)) eqn:C3; cbn [ror_ bind].
  { eexists; split; [reflexivity|]. apply (corner _ _ C3). intros [_ [_ H]]. apply H; lia. }
  destruct (nonzero (cell g (Yo + l - 1) (Xo + w - 1))) eqn:C4; cbn [ror_ bind].
  { eexists; split; [reflexivity|]. apply (corner _ _ C4). intros [_ [_ H]]. apply H; lia. }
  destruct (rows_free_ok g Xo w (zrange Yo (Yo + l - 1))) as [b [Hb HbP]]; auto; try lia.
  { intros y Hy. rewrite in_zrange in Hy. lia. }
  exists b. split; [assumption|]. rewrite HbP. split.
  - intros H. split; [lia|]. split; [lia|]. intros y x Hx Hy Hc.
    destruct (Z_lt_dec y (Yo + l - 1)).
    + apply H; [rewrite in_zrange; lia|lia].
    + assert (y = Yo + l - 1) by lia. subst y.
      destruct Hc as [Hc|[->| ->]]; [lia| |]; unfold nonzero in *; lia.
  - intros [_ [_ H]] y x Hy Hx. rewrite in_zrange in Hy. apply H; lia.
Qed.

(** ** The generated points *)
Definition in_bounds (p : point) : Prop := 0 <= fst p < W /\ 0 <= snd p < L.

Lemma rand_ok (a b : result bool) :
  (exists x, a = Ok x) -> (a = Ok true -> exists y, b = Ok y) -> exists z, rand_ a b = Ok z.
Proof.
  intros [x ->] H. unfold rand_. simpl. destruct x; [apply H; reflexivity|eauto].
Qed.

Lemma ror_ok (a b : result bool) :
  (exists x, a = Ok x) -> (a = Ok false -> exists y, b = Ok y) -> exists z, ror_ a b = Ok z.
Proof.
  intros [x ->] H. unfold ror_. simpl. destruct x; [eauto|apply H; reflexivity].
Qed.

Lemma rand_true (a b : result bool) : rand_ a b = Ok true -> a = Ok true /\ b = Ok true.
Proof. unfold rand_. destruct a as [[|]|]; simpl; intros H; try discriminate. auto. Qed.

Lemma gtest_ok g y x (f : Z -> bool) :
  gwf W L g -> - L <= y < L -> - W <= x < W ->
  exists b, bind (gget g y x) (fun c => Ok (f c)) = Ok b.
Proof. intros Hg Hy Hx. destruct (gget_ok g y x Hg Hy Hx) as [c ->]. simpl. eauto. Qed.

Lemma gtest_true g y x (f : Z -> bool) :
  gwf W L g -> 0 <= y < L -> 0 <= x < W ->
  bind (gget g y x) (fun c => Ok (f c)) = Ok true -> f (cell g y x) = true.
Proof. intros Hg Hy Hx. rewrite gget_in by assumption. simpl. congruence. Qed.

Lemma Ok_true_inj b : Ok b = Ok true -> b = true.
Proof. congruence. Qed.

Ltac totality :=
  repeat first
    [ apply rand_ok; [|intros ?] | apply ror_ok; [|intros ?]
    | apply gtest_ok; [assumption| |]
    | (eexists; reflexivity) ];
  repeat match goal with
         | H : rand_ _ _ = Ok true |- _ => apply rand_true in H; destruct H
         | H : Ok ?b = Ok true |- _ => apply Ok_true_inj in H
         | H : Ok ?b = Ok false |- _ => injection H as H
         end.

Section AtItem.
Context (g : grid) (Xo Yo w l : Z).
Hypothesis Hg : gwf W L g.
Hypothesis HX : 0 <= Xo.
Hypothesis HY : 0 <= Yo.
Hypothesis Hw : 1 <= w.
Hypothesis Hl : 1 <= l.
Hypothesis HW : Xo + w <= W.
Hypothesis HL : Yo + l <= L.

Lemma gen_A_cond_ok : exists b, gen_A_cond g L Xo (Yo + l) = Ok b /\
  (b = true -> Yo + l < L /\ cell g (Yo + l) Xo = 0).
Proof.
  assert (exists b, gen_A_cond g L Xo (Yo + l) = Ok b) as [b Hb].
  { unfold gen_A_cond. totality; lia. }
  exists b. split; [assumption|]. intros ->. unfold gen_A_cond in Hb.
  apply rand_true in Hb. destruct Hb as [Hb _]. apply rand_true in Hb. destruct Hb as [H1 H2].
  apply Ok_true_inj in H1. split; [lia|].
  apply (gtest_true g _ _ (fun c => c =? 0)) in H2; auto; lia.
Qed.

Lemma gen_B_cond_ok : exists b, gen_B_cond g W Yo (Xo + w) = Ok b /\
  (b = true -> Xo + w < W /\ cell g Yo (Xo + w) = 0).
Proof.
  assert (exists b, gen_B_cond g W Yo (Xo + w) = Ok b) as [b Hb].
  { unfold gen_B_cond. totality; lia. }
  exists b. split; [assumption|]. intros ->. unfold gen_B_cond in Hb.
  apply rand_true in Hb. destruct Hb as [Hb _]. apply rand_true in Hb. destruct Hb as [H1 H2].
  apply Ok_true_inj in H1. split; [lia|].
  apply (gtest_true g _ _ (fun c => c =? 0)) in H2; auto; lia.
Qed.

Lemma gen_A_flags_ok : exists fl, gen_A_flags g L Xo (Yo + l) = Ok fl /\
  (fst fl = true -> Yo + l < L /\ cell g (Yo + l) Xo = 0).
Proof.
  unfold gen_A_flags, ror_. cbn [bind].
  destruct (Yo + l >=? L) eqn:E.
  { cbn [bind]. eexists; split; [reflexivity|]. discriminate. }
  rewrite gget_in by (auto; lia). cbn [bind].
  destruct (nonzero (cell g (Yo + l) Xo)) eqn:E2.
  { eexists; split; [reflexivity|]. discriminate. }
  destruct (gget_ok g (Yo + l) (Xo - 1)) as [c ->]; auto; try lia. cbn [bind].
  eexists; split; [reflexivity|]. intros _. unfold nonzero in E2. lia.
Qed.

Lemma gen_B_flags_ok : exists fl, gen_B_flags g W Yo (Xo + w) = Ok fl /\
  (fst fl = true -> Xo + w < W /\ cell g Yo (Xo + w) = 0).
Proof.
  unfold gen_B_flags, ror_. cbn [bind].
  destruct (Xo + w >=? W) eqn:E.
  { cbn [bind]. eexists; split; [reflexivity|]. discriminate. }
  rewrite gget_in by (auto; lia). cbn [bind].
  destruct (nonzero (cell g Yo (Xo + w))) eqn:E2.
  { eexists; split; [reflexivity|]. discriminate. }
  destruct (gget_ok g (Yo - 1) (Xo + w)) as [c ->]; auto; try lia. cbn [bind].
  eexists; split; [reflexivity|]. intros _. unfold nonzero in E2. lia.
Qed.

Lemma scan_A_ok Ay xs hi :
  0 < Ay < L -> hi < W -> (forall x, In x xs -> 0 <= x <= hi) ->
  exists o, scan_A_ g Ay xs = Ok o /\
    (forall x, o = Some x -> 0 <= x <= hi + 1).
Proof.
  intros HA Hhi. induction xs as [|x xs IH]; intros Hxs; simpl.
  - exists None. split; [reflexivity|]. discriminate.
  - assert (Hx : 0 <= x <= hi) by (apply Hxs; left; reflexivity).
    destruct IH as [o [Ho HoP]]; [intros; apply Hxs; right; assumption|].
    rewrite !gget_in by (auto; lia). cbn [bind].
    destruct (_ && _ && _); [eexists; split; [reflexivity|]; intros ? [= <-]; lia|].
    destruct (_ && _); [eauto|].
    destruct (_ && _); [eexists; split; [reflexivity|]; intros ? [= <-]; lia|].
    destruct (_ && _); [eexists; split; [reflexivity|]; intros ? [= <-]; lia|].
    eauto.
Qed.

Lemma scan_B_ok Bx ys hi :
  0 < Bx < W -> hi < L -> (forall y, In y ys -> 0 <= y <= hi) ->
  exists o, scan_B_ g Bx ys = Ok o /\
    (forall y, o = Some y -> 0 <= y <= hi + 1).
Proof.
  intros HB Hhi. induction ys as [|y ys IH]; intros Hys; simpl.
  - exists None. split; [reflexivity|]. discriminate.
  - assert (Hy : 0 <= y <= hi) by (apply Hys; left; reflexivity).
    destruct IH as [o [Ho HoP]]; [intros; apply Hys; right; assumption|].
    rewrite !gget_in by (auto; lia). cbn [bind].
    destruct (_ && _ && _); [eexists; split; [reflexivity|]; intros ? [= <-]; lia|].
    destruct (_ && _); [eauto|].
    destruct (_ && _); [eexists; split; [reflexivity|]; intros ? [= <-]; lia|].
    destruct (_ && _); [eexists; split; [reflexivity|]; intros ? [= <-]; lia|].
    destruct (_ && _); [eexists; split; [reflexivity|]; discriminate|].
    eauto.
Qed.

(** Point classes whose points are always on free cells. *)
Definition free_class (c : pclass) : bool :=
  match c with cA | cB | cC | cD | cA__ | cB__ => true | _ => false end.

Definition good_point (cp : pclass * point) : Prop :=
  in_bounds (snd cp) /\
  (free_class (fst cp) = true -> cell g (snd (snd cp)) (fst (snd cp)) = 0).

Variable ar : arith.

Lemma gen_A_side_ok : exists ps, gen_A_side ar g W L Xo (Yo + l) = Ok ps /\
  Forall good_point ps /\ (length ps <= 2)%nat.
Proof.
  unfold gen_A_side.
  destruct gen_A_cond_ok as [A [-> HA]]. cbn [bind].
  destruct gen_A_flags_ok as [[ap pr] [-> Hap]]. cbn [bind fst] in *.
  assert (exists b, gen_A_prime_cond g L Xo (Yo + l) A pr = Ok b /\
            (b = true -> Yo + l < L /\ 0 < Xo /\ A = false)) as [b [-> Hb]].
  { assert (exists b, gen_A_prime_cond g L Xo (Yo + l) A pr = Ok b) as [b Hb].
    { unfold gen_A_prime_cond. totality; lia. }
    exists b. split; [assumption|]. intros ->. unfold gen_A_prime_cond in Hb.
    apply rand_true in Hb. destruct Hb as [H1 Hb].
    apply rand_true in Hb. destruct Hb as [H2 Hb].
    apply rand_true in Hb. destruct Hb as [H3 Hb].
    apply Ok_true_inj in H1, H2, H3. split; [lia|]. split; [lia|].
    destruct A; [discriminate|reflexivity]. }
  cbn [bind].
  assert (exists o, (if b then scan_A_ g (Yo + l) (zrange_down (Xo - 1)) else Ok None) = Ok o /\
            (forall x, o = Some x -> 0 <= x <= Xo /\ Yo + l < L /\ A = false)) as [o [-> Ho]].
  { destruct b.
    - destruct (Hb eq_refl) as [? [? ?]].
      destruct (scan_A_ok (Yo + l) (zrange_down (Xo - 1)) (Xo - 1)) as [o [-> Ho]]; try lia.
      { intros x Hx. rewrite in_zrange_down in Hx. lia. }
      exists o. split; [reflexivity|]. intros x Hx. specialize (Ho x Hx). split; [lia|auto].
    - exists None. split; [reflexivity|]. discriminate. }
  cbn [bind]. eexists; split; [reflexivity|]. split.
  - apply Forall_app. split.
    { destruct A; constructor; [|constructor]. destruct (HA eq_refl).
      split; [unfold in_bounds; simpl; lia|]. auto. }
    apply Forall_app. split.
    { destruct o as [x|]; constructor; [|constructor]. destruct (Ho x eq_refl) as [? [? ?]].
      split; [unfold in_bounds; simpl; lia|].
      destruct (ratio_le_fifth ar _ _); discriminate. }
    destruct A, ap; cbn; constructor; [|constructor]. destruct (Hap eq_refl).
    split; [unfold in_bounds; simpl; lia|]. auto.
  - rewrite !app_length. destruct A, o, ap; simpl; try lia;
      destruct (Ho z eq_refl) as [_ [_ ?]]; discriminate.
Qed.

Lemma gen_B_side_ok : exists ps, gen_B_side ar g W L Yo (Xo + w) = Ok ps /\
  Forall good_point ps /\ (length ps <= 2)%nat.
Proof.
  unfold gen_B_side.
  destruct gen_B_cond_ok as [B [-> HB]]. cbn [bind].
  destruct gen_B_flags_ok as [[ap pr] [-> Hap]]. cbn [bind fst] in *.
  assert (exists b, gen_B_prime_cond g W Yo (Xo + w) B pr = Ok b /\
            (b = true -> Xo + w < W /\ 0 < Yo /\ B = false)) as [b [-> Hb]].
  { assert (exists b, gen_B_prime_cond g W Yo (Xo + w) B pr = Ok b) as [b Hb].
    { unfold gen_B_prime_cond. totality; lia. }
    exists b. split; [assumption|]. intros ->. unfold gen_B_prime_cond in Hb.
    apply rand_true in Hb. destruct Hb as [H1 Hb].
    apply rand_true in Hb. destruct Hb as [H2 Hb].
    apply rand_true in Hb. destruct Hb as [H3 Hb].
    apply Ok_true_inj in H1, H2, H3. split; [lia|]. split; [lia|].
    destruct B; [discriminate|reflexivity]. }
  cbn [bind].
  assert (exists o, (if b then scan_B_ g (Xo + w) (zrange_down (Yo - 1)) else Ok None) = Ok o /\
            (forall y, o = Some y -> 0 <= y <= Yo /\ Xo + w < W /\ B = false)) as [o [-> Ho]].
  { destruct b.
    - destruct (Hb eq_refl) as [? [? ?]].
      destruct (scan_B_ok (Xo + w) (zrange_down (Yo - 1)) (Yo - 1)) as [o [-> Ho]]; try lia.
      { intros y Hy. rewrite in_zrange_down in Hy. lia. }
      exists o. split; [reflexivity|]. intros y Hy. specialize (Ho y Hy). split; [lia|auto].
    - exists None. split; [reflexivity|]. discriminate. }
  cbn [bind]. eexists; split; [reflexivity|]. split.
  - apply Forall_app. split.
    { destruct B; constructor; [|constructor]. destruct (HB eq_refl).
      split; [unfold in_bounds; simpl; lia|]. auto. }
    apply Forall_app. split.
    { destruct o as [y|]; constructor; [|constructor]. destruct (Ho y eq_refl) as [? [? ?]].
      split; [unfold in_bounds; simpl; lia|].
      destruct (ratio_le_fifth ar _ _); discriminate. }
    destruct B, ap; cbn; constructor; [|constructor]. destruct (Hap eq_refl).
    split; [unfold in_bounds; simpl; lia|]. auto.
  - rewrite !app_length. destruct B, o, ap; simpl; try lia;
      destruct (Ho z eq_refl) as [_ [_ ?]]; discriminate.
Qed.

Lemma gen_C_ok x :
  Yo + l < L -> Xo <= x < Xo + w - 1 ->
  exists ps, gen_C g (Yo + l) x = Ok ps /\ Forall good_point ps /\ (length ps <= 1)%nat.
Proof.
  intros HA Hx. unfold gen_C. rewrite !gget_in by (auto; lia). cbn [bind rand_].
  destruct (cell g (Yo + l) x =? 3); cbn [bind].
  - eexists; split; [reflexivity|].
    destruct (Z.eqb_spec (cell g (Yo + l) (x + 1)) 0); split; simpl; auto.
    constructor; [|constructor]. split; [unfold in_bounds; simpl; lia|]. auto.
  - eexists; split; [reflexivity|]. split; simpl; auto.
Qed.

Lemma gen_D_ok y :
  Xo + w < W -> Yo <= y < Yo + l - 1 ->
  exists ps, gen_D g (Xo + w) y = Ok ps /\ Forall good_point ps /\ (length ps <= 1)%nat.
Proof.
  intros HA Hy. unfold gen_D. rewrite !gget_in by (auto; lia). cbn [bind rand_].
  destruct (cell g y (Xo + w) =? 3); cbn [bind].
  - eexists; split; [reflexivity|].
    destruct (Z.eqb_spec (cell g (y + 1) (Xo + w)) 0); split; simpl; auto.
    constructor; [|constructor]. split; [unfold in_bounds; simpl; lia|]. auto.
  - eexists; split; [reflexivity|]. split; simpl; auto.
Qed.

Lemma rmap_gen_ok {B} (f : B -> result gen) xs :
  (forall x, In x xs ->
     exists ps, f x = Ok ps /\ Forall good_point ps /\ (length ps <= 1)%nat) ->
  exists ps, rmap f xs = Ok ps /\ Forall good_point (concat ps) /\
             (length (concat ps) <= length xs)%nat.
Proof.
  intros H.
  destruct (rmap_ok f (fun _ ps => Forall good_point ps /\ (length ps <= 1)%nat) xs)
    as [ps [-> HF]]; [assumption|].
  exists ps. split; [reflexivity|].
  induction HF as [|x p xs ps [Hp Hlen] HF IH]; simpl.
  - split; [constructor|auto].
  - destruct IH as [IH1 IH2]; [intros; apply H; right; assumption|].
    split; [apply Forall_app; auto|]. rewrite app_length. lia.
Qed.

Lemma generate_points_ok : exists ps, generate_points ar g W L Xo Yo w l = Ok ps /\
  Forall good_point ps /\ (length ps <= Z.to_nat w + Z.to_nat l + 4)%nat.
Proof.
  unfold generate_points. cbv zeta.
  destruct gen_A_side_ok as [ga [-> [HgA HlA]]]. cbn [bind].
  destruct gen_B_side_ok as [gb [-> [HgB HlB]]]. cbn [bind].
  assert (exists gc,
    (if Yo + l <? L then rmap (gen_C g (Yo + l)) (zrange Xo (Xo + w - 1)) else Ok []) = Ok gc /\
    Forall good_point (concat gc) /\ (length (concat gc) <= Z.to_nat w)%nat)
    as [gc [-> [HgC HlC]]].
  { destruct (Z.ltb_spec (Yo + l) L).
    - destruct (rmap_gen_ok (gen_C g (Yo + l)) (zrange Xo (Xo + w - 1))) as [gc [-> [? Hn]]].
      { intros x Hx. rewrite in_zrange in Hx. apply gen_C_ok; lia. }
      rewrite zrange_length in Hn. exists gc. repeat split; auto. lia.
    - exists []. simpl. repeat split; auto. lia. }
  cbn [bind].
  assert (exists gd,
    (if Xo + w <? W then rmap (gen_D g (Xo + w)) (zrange Yo (Yo + l - 1)) else Ok []) = Ok gd /\
    Forall good_point (concat gd) /\ (length (concat gd) <= Z.to_nat l)%nat)
    as [gd [-> [HgD HlD]]].
  { destruct (Z.ltb_spec (Xo + w) W).
    - destruct (rmap_gen_ok (gen_D g (Xo + w)) (zrange Yo (Yo + l - 1))) as [gd [-> [? Hn]]].
      { intros y Hy. rewrite in_zrange in Hy. apply gen_D_ok; lia. }
      rewrite zrange_length in Hn. exists gd. repeat split; auto. lia.
    - exists []. simpl. repeat split; auto. lia. }
  cbn [bind]. eexists; split; [reflexivity|]. split.
  - repeat (apply Forall_app; split); assumption.
  - rewrite !app_length. lia.
Qed.
End AtItem.
End Grid.
