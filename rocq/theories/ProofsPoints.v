(** * The potential points, exactly (C65, C66). *)
From Coq Require Import ZArith String List Bool Lia Sorted.
From Verif Require Import Py Arith FloatArith Construct Spec Runs SpecPoints ProofsPy ProofsGrid ProofsConstruct
  ProofsFloatSame.
Import ListNotations.
Open Scope Z_scope.

(** ** What the grid says about a cell *)
Definition code (es : list entry) (x y : Z) : Z :=
  fold_left (fun c e => if in_rect (e_x e) (e_y e) (e_w e) (e_l e) y x
                        then colour (e_x e) (e_y e) (e_w e) (e_l e) y x else c) es 0.

Lemma code_snoc es e x y :
  code (es ++ [e]) x y = if in_rect (e_x e) (e_y e) (e_w e) (e_l e) y x
                         then colour (e_x e) (e_y e) (e_w e) (e_l e) y x else code es x y.
Proof. unfold code. rewrite fold_left_app. reflexivity. Qed.

Lemma in_rect_covers e x y : in_rect (e_x e) (e_y e) (e_w e) (e_l e) y x = true <-> covers e x y.
Proof. unfold in_rect, covers. lia. Qed.

Lemma colour_3 a b w l y x :
  colour a b w l y x = 3 <-> (x = a \/ x = a + w - 1) /\ (y = b \/ y = b + l - 1).
Proof.
  unfold colour.
  destruct (((x =? a) || (x =? a + w - 1)) && ((y =? b) || (y =? b + l - 1))) eqn:E.
  - split; [lia|reflexivity].
  - destruct ((x =? a) || (x =? a + w - 1) || (y =? b) || (y =? b + l - 1));
      (split; [discriminate|lia]).
Qed.

Lemma colour_23 a b w l y x :
  in23 (colour a b w l y x) = true <-> (x = a \/ x = a + w - 1) \/ (y = b \/ y = b + l - 1).
Proof.
  unfold colour.
  destruct (((x =? a) || (x =? a + w - 1)) && ((y =? b) || (y =? b + l - 1))) eqn:E.
  - split; [lia|reflexivity].
  - destruct ((x =? a) || (x =? a + w - 1) || (y =? b) || (y =? b + l - 1)) eqn:E2.
    + split; [lia|reflexivity].
    + split; [discriminate|lia].
Qed.

(** Either nothing covers the cell and the code is 0, or an item is seen there. *)
Lemma code_cases es x y :
  (code es x y = 0 /\ free es x y) \/
  (exists e, seen es e x y /\ code es x y = colour (e_x e) (e_y e) (e_w e) (e_l e) y x).
Proof.
  induction es as [|e es IH] using rev_ind.
  - left. split; [reflexivity|]. intros e [].
  - rewrite code_snoc. destruct (in_rect _ _ _ _ _ _) eqn:E.
    + right. exists e. split; [|reflexivity]. exists es, []. split; [reflexivity|].
      split; [apply in_rect_covers; exact E|]. intros e' [].
    + assert (Hn : ~ covers e x y) by (rewrite <- in_rect_covers, E; discriminate).
      destruct IH as [[H1 H2]|[e0 [[b [a [-> [Hc Ha]]]] H2]]].
      * left. split; [exact H1|]. intros e' He'. apply in_app_or in He'.
        destruct He' as [He'|[<-|[]]]; auto.
      * right. exists e0. split; [|exact H2]. exists b, (a ++ [e]).
        rewrite <- app_assoc. split; [reflexivity|]. split; [exact Hc|].
        intros e' He'. apply in_app_or in He'. destruct He' as [He'|[<-|[]]]; auto.
Qed.

Lemma seen_covers es e x y : seen es e x y -> In e es /\ covers e x y.
Proof.
  intros [b [a [-> [H _]]]]. split; [|exact H]. apply in_or_app. right. left. reflexivity.
Qed.

Lemma seen_unique es e e' x y : seen es e x y -> seen es e' x y -> e = e'.
Proof.
  intros [b [a [Hes [H1 H2]]]] [b' [a' [Hes' [H1' H2']]]]. rewrite Hes in Hes'. clear Hes es.
  revert b' Hes'. induction b as [|z b IH]; intros b' H.
  - destruct b' as [|z' b']; [injection H as -> ->; reflexivity|].
    injection H as -> ->. exfalso. apply (H2 e'); [|exact H1'].
    apply in_or_app. right. left. reflexivity.
  - destruct b' as [|z' b'].
    + injection H as -> <-. exfalso. apply (H2' e); [|exact H1].
      apply in_or_app. right. left. reflexivity.
    + injection H as _ H. apply (IH b' H).
Qed.

Lemma code_free es x y : code es x y = 0 <-> free es x y.
Proof.
  destruct (code_cases es x y) as [[H1 H2]|[e [H1 H2]]]; [tauto|].
  split; intros H.
  - rewrite H2 in H. exfalso. eapply colour_nonzero; exact H.
  - exfalso. apply seen_covers in H1. apply (H e); apply H1.
Qed.

Lemma code_corner es x y : code es x y = 3 <-> corner es x y.
Proof.
  destruct (code_cases es x y) as [[H1 H2]|[e [H1 H2]]].
  - split; [rewrite H1; discriminate|]. intros [e [H _]]. apply seen_covers in H.
    exfalso. apply (H2 e); apply H.
  - rewrite H2, colour_3. split.
    + intros H. exists e. split; [exact H1|]. exact H.
    + intros [e' [He Hxy]]. rewrite <- (seen_unique _ _ _ _ _ H1 He) in Hxy. exact Hxy.
Qed.

Lemma code_border es x y : in23 (code es x y) = true <-> border es x y.
Proof.
  destruct (code_cases es x y) as [[H1 H2]|[e [H1 H2]]].
  - split; [rewrite H1; discriminate|]. intros [e [H _]]. apply seen_covers in H.
    exfalso. apply (H2 e); apply H.
  - rewrite H2, colour_23. split.
    + intros H. exists e. split; [exact H1|]. exact H.
    + intros [e' [He Hxy]]. rewrite <- (seen_unique _ _ _ _ _ H1 He) in Hxy. exact Hxy.
Qed.

Lemma free_not_border es x y : free es x y -> ~ border es x y.
Proof.
  intros H [e [He _]]. apply seen_covers in He. apply (H e); apply He.
Qed.

Definition coded (W L : Z) (g : grid) (es : list entry) : Prop :=
  forall y x, 0 <= y < L -> 0 <= x < W -> cell g y x = code es x y.

(** ** The generated points on a coded grid *)
Section Exact.
Context (W L : Z) (g : grid) (es : list entry) (Xo Yo w l : Z).
Hypothesis Hg : gwf W L g.
Hypothesis Hc : coded W L g es.
Hypothesis HX : 0 <= Xo.
Hypothesis HY : 0 <= Yo.
Hypothesis Hw : 1 <= w.
Hypothesis Hl : 1 <= l.
Hypothesis HW : Xo + w <= W.
Hypothesis HL : Yo + l <= L.

Notation e := (mkEntry Xo Yo w l).

Lemma gget_code y x : 0 <= y < L -> 0 <= x < W -> gget g y x = Ok (code es x y).
Proof. intros Hy Hx. rewrite (gget_in W L) by assumption. rewrite Hc by assumption. reflexivity. Qed.

Lemma in03_iff x y : in03 (code es x y) = true <-> free es x y \/ corner es x y.
Proof. unfold in03. rewrite <- code_free, <- code_corner. lia. Qed.

(** *** Side A *)
Lemma gen_A_cond_exact : exists b, gen_A_cond g L Xo (Yo + l) = Ok b /\
  (b = true <-> Yo + l < L /\ free es Xo (Yo + l) /\ A_supported es e).
Proof.
  unfold gen_A_cond, A_supported, backed. cbn [e_x e_y e_w e_l].
  destruct (Z.ltb_spec (Yo + l) L) as [Hlt|Hge]; cbn [rand_ bind].
  2:{ exists false. split; [reflexivity|]. split; [discriminate|lia]. }
  rewrite (gget_code (Yo + l) Xo) by lia. cbn [bind].
  destruct (Z.eqb_spec (code es Xo (Yo + l)) 0) as [H0|H0]; cbn [rand_ bind].
  2:{ exists false. split; [reflexivity|]. split; [discriminate|].
      intros [_ [H _]]. apply code_free in H. contradiction. }
  apply code_free in H0.
  destruct (Z.eqb_spec Xo 0) as [HX0|HX0]; cbn [ror_ bind].
  { exists true. split; [reflexivity|]. tauto. }
  rewrite !gget_code by lia. cbn [bind rand_ ror_].
  destruct (in23 (code es (Xo - 1) (Yo + l - 1))) eqn:E1; cbn [bind].
  - pose proof (proj1 (code_border _ _ _) E1) as B1.
    destruct (in23 (code es (Xo - 1) (Yo + l))) eqn:E2; cbn [bind].
    + exists true. split; [reflexivity|]. apply code_border in E2. tauto.
    + assert (N2 : ~ border es (Xo - 1) (Yo + l)) by (rewrite <- code_border, E2; discriminate).
      assert (N3 : ~ corner es (Xo - 1) (Yo + l)).
      { intros [e' [? [? ?]]]. apply N2. exists e'. auto. }
      destruct (in03 (code es (Xo - 1) (Yo + l - 1))) eqn:E3; cbn [bind].
      * eexists. split; [reflexivity|]. rewrite Z.eqb_eq, code_corner. intuition lia.
      * exists false. split; [reflexivity|]. split; [discriminate|]. intuition lia.
  - assert (N1 : ~ border es (Xo - 1) (Yo + l - 1)) by (rewrite <- code_border, E1; discriminate).
    destruct (in03 (code es (Xo - 1) (Yo + l - 1))) eqn:E3; cbn [bind].
    + pose proof (proj1 (in03_iff _ _) E3) as F3.
      eexists. split; [reflexivity|]. rewrite Z.eqb_eq, code_corner. intuition lia.
    + assert (N3 : ~ (free es (Xo - 1) (Yo + l - 1) \/ corner es (Xo - 1) (Yo + l - 1)))
        by (rewrite <- in03_iff, E3; discriminate).
      exists false. split; [reflexivity|]. split; [discriminate|]. intuition lia.
Qed.

Lemma scan_A_exact : forall k Ay, Z.of_nat k <= Xo -> 0 < Ay < L ->
  let wall x := border es x Ay /\ (border es x (Ay - 1) \/ free es x (Ay - 1)) in
  let stop x := (forall z, x <= z < Z.of_nat k -> ~ wall z) /\
                ((x = 0 /\ free es 0 Ay /\ free es 0 (Ay - 1)) \/ (0 < x /\ wall (x - 1))) in
  exists o, scan_A_ g Ay (zrange_down (Z.of_nat k - 1)) = Ok o /\
  forall x, (k > 0)%nat -> 0 <= x <= Z.of_nat k -> (o = Some x <-> stop x).
Proof.
  induction k as [|k IH]; intros Ay Hk HA wall stop.
  - exists None. rewrite zrange_down_nil by lia. split; [reflexivity|]. lia.
  - rewrite zrange_down_cons by lia.
    replace (Z.of_nat (S k) - 1) with (Z.of_nat k) by lia.
    replace (Z.of_nat k - 1) with (Z.of_nat k - 1) by lia.
    destruct (IH Ay ltac:(lia) HA) as [o [Ho HoP]]. clear IH.
    fold wall in HoP.
    set (x0 := Z.of_nat k) in *.
    cbn [scan_A_]. rewrite !gget_code by lia. cbn [bind].
    assert (Hstop : forall x, 0 <= x <= x0 -> ~ wall x0 ->
      (stop x <-> ((forall z, x <= z < x0 -> ~ wall z) /\
                   ((x = 0 /\ free es 0 Ay /\ free es 0 (Ay - 1)) \/ (0 < x /\ wall (x - 1)))))).
    { intros x Hx Hn. unfold stop. split; intros [H1 H2]; (split; [|exact H2]); intros z Hz.
      - apply H1. lia.
      - destruct (Z.eq_dec z x0) as [->|]; [exact Hn|]. apply H1. lia. }
    assert (Hlast : ~ wall x0 -> ~ stop (x0 + 1)).
    { intros Hn [_ [[? _]|[_ Hwl]]]; [lia|]. replace (x0 + 1 - 1) with x0 in Hwl by lia.
      contradiction. }
    assert (Hrec : ~ wall x0 -> (k > 0)%nat ->
      forall x, (S k > 0)%nat -> 0 <= x <= Z.of_nat (S k) -> (o = Some x <-> stop x)).
    { intros Hn Hk0 x _ Hx. destruct (Z.eq_dec x (x0 + 1)) as [->|Hne].
      - split; [|intros Hs; exfalso; exact (Hlast Hn Hs)].
        intros HS. exfalso.
        assert (Hb : forall x, o = Some x -> 0 <= x <= x0 - 1 + 1).
        { destruct (scan_A_ok W L g Hg Ay (zrange_down (x0 - 1)) (x0 - 1)) as [o' [Ho' Hb]];
            [assumption|lia|intros; apply in_zrange_down in H; lia|].
          replace o with o' by congruence. exact Hb. }
        specialize (Hb _ HS). lia.
      - rewrite (HoP x Hk0) by lia. symmetry. apply Hstop; [lia|exact Hn]. }
    assert (Hzero : ~ wall x0 -> k = O -> ~ (free es 0 Ay /\ free es 0 (Ay - 1)) ->
      o = None /\ forall x, 0 <= x <= Z.of_nat (S k) -> ~ stop x).
    { intros Hn Hk0 Hf. subst k. rewrite zrange_down_nil in Ho by (unfold x0; lia).
      split; [simpl in Ho; congruence|]. intros x Hx.
      destruct (Z.eq_dec x 1) as [->|]; [apply (Hlast Hn)|].
      intros [_ [[_ H]|[? _]]]; [apply (Hf H)|lia]. }
    destruct (Z.eqb_spec (code es x0 Ay) 0) as [U|U].
    + apply code_free in U. assert (Nw : ~ wall x0).
      { intros [Hb _]. exact (free_not_border _ _ _ U Hb). }
      destruct (Z.eqb_spec (code es x0 (Ay - 1)) 0) as [D|D]; cbn [andb].
      * apply code_free in D. destruct (Z.eqb_spec x0 0) as [Hx0|Hx0].
        -- exists (Some x0). split; [reflexivity|]. intros x _ Hx. split.
           ++ intros [= <-]. split.
              ** intros z Hz. replace z with x0 by lia. exact Nw.
              ** left. rewrite Hx0 in *. auto.
           ++ intros Hs. destruct (Z.eq_dec x (x0 + 1)) as [->|];
                [exfalso; exact (Hlast Nw Hs)|]. f_equal. lia.
        -- exists o. split; [exact Ho|]. apply Hrec; [exact Nw|lia].
      * assert (in23 (code es x0 Ay) = false) as ->.
        { apply code_free in U. rewrite U. reflexivity. }
        cbn [andb]. exists o. split; [exact Ho|].
        destruct k as [|k'] eqn:Ek.
        -- assert (Nf : ~ (free es 0 Ay /\ free es 0 (Ay - 1))).
           { intros [_ H]. apply code_free in H. apply D. replace x0 with 0 by (unfold x0; lia). exact H. }
           destruct (Hzero Nw eq_refl Nf) as [-> Hz].
           intros x _ Hx. split; [discriminate|]. intros Hs. exfalso. exact (Hz x Hx Hs).
        -- apply Hrec; [exact Nw|lia].
    + cbn [andb]. assert (Uf : ~ free es x0 Ay) by (rewrite <- code_free; exact U).
      destruct (in23 (code es x0 Ay)) eqn:UB; cbn [andb].
      * apply code_border in UB.
        destruct (in23 (code es x0 (Ay - 1))) eqn:DB; cbn [andb].
        -- apply code_border in DB.
           exists (Some (x0 + 1)). split; [reflexivity|]. intros x _ Hx.
           assert (Wx : wall x0) by (split; [exact UB|left; exact DB]).
           split.
           ++ intros [= <-]. split; [intros z Hz; lia|]. right. split; [lia|].
              replace (x0 + 1 - 1) with x0 by lia. exact Wx.
           ++ intros [Hno _]. destruct (Z.eq_dec x (x0 + 1)) as [->|]; [reflexivity|].
              exfalso. apply (Hno x0); [lia|exact Wx].
        -- destruct (Z.eqb_spec (code es x0 (Ay - 1)) 0) as [D|D].
           ++ apply code_free in D.
              exists (Some (x0 + 1)). split; [reflexivity|]. intros x _ Hx.
              assert (Wx : wall x0) by (split; [exact UB|right; exact D]).
              split.
              ** intros [= <-]. split; [intros z Hz; lia|]. right. split; [lia|].
                 replace (x0 + 1 - 1) with x0 by lia. exact Wx.
              ** intros [Hno _]. destruct (Z.eq_dec x (x0 + 1)) as [->|]; [reflexivity|].
                 exfalso. apply (Hno x0); [lia|exact Wx].
           ++ assert (Nw : ~ wall x0).
              { intros [_ [Hb|Hf]]; [apply code_border in Hb; congruence|].
                apply code_free in Hf. contradiction. }
              exists o. split; [exact Ho|]. destruct k as [|k'] eqn:Ek.
              ** assert (Nf : ~ (free es 0 Ay /\ free es 0 (Ay - 1))).
                 { intros [H _]. apply Uf. replace x0 with 0 by (unfold x0; lia). exact H. }
                 destruct (Hzero Nw eq_refl Nf) as [-> Hz].
                 intros x _ Hx. split; [discriminate|]. intros Hs. exfalso. exact (Hz x Hx Hs).
              ** apply Hrec; [exact Nw|lia].
      * assert (Nw : ~ wall x0).
        { intros [Hb _]. apply code_border in Hb. congruence. }
        exists o. split; [exact Ho|]. destruct k as [|k'] eqn:Ek.
        -- assert (Nf : ~ (free es 0 Ay /\ free es 0 (Ay - 1))).
           { intros [H _]. apply Uf. replace x0 with 0 by (unfold x0; lia). exact H. }
           destruct (Hzero Nw eq_refl Nf) as [-> Hz].
           intros x _ Hx. split; [discriminate|]. intros Hs. exfalso. exact (Hz x Hx Hs).
        -- apply Hrec; [exact Nw|lia].
Qed.
(** *** Side B *)
Lemma gen_B_cond_exact : exists b, gen_B_cond g W Yo (Xo + w) = Ok b /\
  (b = true <-> Xo + w < W /\ free es (Xo + w) Yo /\ B_supported es e).
Proof.
  unfold gen_B_cond, B_supported, backed. cbn [e_x e_y e_w e_l].
  destruct (Z.ltb_spec (Xo + w) W) as [Hlt|Hge]; cbn [rand_ bind].
  2:{ exists false. split; [reflexivity|]. split; [discriminate|lia]. }
  rewrite (gget_code Yo (Xo + w)) by lia. cbn [bind].
  destruct (Z.eqb_spec (code es (Xo + w) Yo) 0) as [H0|H0]; cbn [rand_ bind].
  2:{ exists false. split; [reflexivity|]. split; [discriminate|].
      intros [_ [H _]]. apply code_free in H. contradiction. }
  apply code_free in H0.
  destruct (Z.eqb_spec Yo 0) as [HX0|HX0]; cbn [ror_ bind].
  { exists true. split; [reflexivity|]. tauto. }
  rewrite !gget_code by lia. cbn [bind rand_ ror_].
  destruct (in23 (code es (Xo + w - 1) (Yo - 1))) eqn:E1; cbn [bind].
  - pose proof (proj1 (code_border _ _ _) E1) as B1.
    destruct (in23 (code es (Xo + w) (Yo - 1))) eqn:E2; cbn [bind].
    + exists true. split; [reflexivity|]. apply code_border in E2. tauto.
    + assert (N2 : ~ border es (Xo + w) (Yo - 1)) by (rewrite <- code_border, E2; discriminate).
      assert (N3 : ~ corner es (Xo + w) (Yo - 1)).
      { intros [e' [? [? ?]]]. apply N2. exists e'. auto. }
      destruct (in03 (code es (Xo + w - 1) (Yo - 1))) eqn:E3; cbn [bind].
      * eexists. split; [reflexivity|]. rewrite Z.eqb_eq, code_corner. intuition lia.
      * exists false. split; [reflexivity|]. split; [discriminate|]. intuition lia.
  - assert (N1 : ~ border es (Xo + w - 1) (Yo - 1)) by (rewrite <- code_border, E1; discriminate).
    destruct (in03 (code es (Xo + w - 1) (Yo - 1))) eqn:E3; cbn [bind].
    + pose proof (proj1 (in03_iff _ _) E3) as F3.
      eexists. split; [reflexivity|]. rewrite Z.eqb_eq, code_corner. intuition lia.
    + assert (N3 : ~ (free es (Xo + w - 1) (Yo - 1) \/ corner es (Xo + w - 1) (Yo - 1)))
        by (rewrite <- in03_iff, E3; discriminate).
      exists false. split; [reflexivity|]. split; [discriminate|]. intuition lia.
Qed.

Lemma scan_B_exact : forall k Bx, Z.of_nat k <= Yo -> 0 < Bx < W ->
  let wall y := border es Bx y /\ (border es (Bx - 1) y \/ free es (Bx - 1) y) in
  let ledge y := border es (Bx - 1) y /\ free es Bx y in
  let stop y := (forall z, y <= z < Z.of_nat k -> ~ wall z /\ ~ ledge z) /\
                ((y = 0 /\ free es Bx 0 /\ free es (Bx - 1) 0) \/ (0 < y /\ wall (y - 1))) in
  exists o, scan_B_ g Bx (zrange_down (Z.of_nat k - 1)) = Ok o /\
  forall y, (k > 0)%nat -> 0 <= y <= Z.of_nat k -> (o = Some y <-> stop y).
Proof.
  induction k as [|k IH]; intros Bx Hk HB wall ledge stop.
  - exists None. rewrite zrange_down_nil by lia. split; [reflexivity|]. lia.
  - rewrite zrange_down_cons by lia.
    replace (Z.of_nat (S k) - 1) with (Z.of_nat k) by lia.
    destruct (IH Bx ltac:(lia) HB) as [o [Ho HoP]]. clear IH.
    fold wall in HoP. fold ledge in HoP.
    set (y0 := Z.of_nat k) in *.
    cbn [scan_B_]. rewrite !gget_code by lia. cbn [bind].
    assert (Hlast : ~ wall y0 -> ~ stop (y0 + 1)).
    { intros Hn [_ [[? _]|[_ Hwl]]]; [lia|]. replace (y0 + 1 - 1) with y0 in Hwl by lia.
      contradiction. }
    assert (Hrec : ~ wall y0 -> ~ ledge y0 ->
      ~ (k = O /\ free es Bx 0 /\ free es (Bx - 1) 0) ->
      forall y, (S k > 0)%nat -> 0 <= y <= Z.of_nat (S k) -> (o = Some y <-> stop y)).
    { intros Hn Hld Hz y _ Hy. destruct (Z.eq_dec y (y0 + 1)) as [->|Hne].
      - split; [|intros Hs; exfalso; exact (Hlast Hn Hs)].
        intros HS. exfalso.
        assert (Hb : forall y, o = Some y -> 0 <= y <= y0 - 1 + 1).
        { destruct (scan_B_ok W L g Hg Bx (zrange_down (y0 - 1)) (y0 - 1)) as [o' [Ho' Hb]];
            [assumption|lia|intros; apply in_zrange_down in H; lia|].
          replace o with o' by congruence. exact Hb. }
        specialize (Hb _ HS). lia.
      - destruct k as [|k'] eqn:Ek.
        + rewrite zrange_down_nil in Ho by (unfold y0; lia). simpl in Ho.
          replace o with (@None Z) by congruence.
          split; [discriminate|]. intros [_ [[_ H]|[? _]]]; [|lia].
          exfalso. apply Hz. auto.
        + rewrite (HoP y) by lia. unfold stop.
          split; intros [H1 H2]; (split; [|exact H2]); intros z Hz'.
          * destruct (Z.eq_dec z y0) as [->|]; [auto|]. apply H1. lia.
          * apply H1. lia. }
    assert (Hwall : wall y0 -> forall y, (S k > 0)%nat -> 0 <= y <= Z.of_nat (S k) ->
                    (Some (y0 + 1) = Some y <-> stop y)).
    { intros Wx y _ Hy. split.
      - intros [= <-]. split; [intros z Hz; lia|]. right. split; [lia|].
        replace (y0 + 1 - 1) with y0 by lia. exact Wx.
      - intros [Hno _]. destruct (Z.eq_dec y (y0 + 1)) as [->|]; [reflexivity|].
        exfalso. apply (proj1 (Hno y0 ltac:(lia))). exact Wx. }
    destruct (Z.eqb_spec (code es Bx y0) 0) as [U|U].
    + apply code_free in U. assert (Nw : ~ wall y0).
      { intros [Hb _]. exact (free_not_border _ _ _ U Hb). }
      assert (in23 (code es Bx y0) = false) as UB.
      { apply code_free in U. rewrite U. reflexivity. }
      rewrite UB.
      destruct (Z.eqb_spec (code es (Bx - 1) y0) 0) as [D|D]; cbn [andb].
      * apply code_free in D.
        assert (Nl : ~ ledge y0). { intros [Hb _]. exact (free_not_border _ _ _ D Hb). }
        destruct (Z.eqb_spec y0 0) as [Hx0|Hx0].
        -- exists (Some y0). split; [reflexivity|]. intros y _ Hy. split.
           ++ intros [= <-]. split.
              ** intros z Hz. replace z with y0 by lia. auto.
              ** left. rewrite Hx0 in *. auto.
           ++ intros Hs. destruct (Z.eq_dec y (y0 + 1)) as [->|];
                [exfalso; exact (Hlast Nw Hs)|]. f_equal. lia.
        -- exists o. split; [exact Ho|]. apply Hrec; [exact Nw|exact Nl|].
           intros [H _]. unfold y0 in Hx0. lia.
      * destruct (in23 (code es (Bx - 1) y0)) eqn:DB; cbn [andb].
        -- apply code_border in DB. exists None. split; [reflexivity|].
           intros y _ Hy. split; [discriminate|]. intros Hs. exfalso.
           destruct (Z.eq_dec y (y0 + 1)) as [->|]; [exact (Hlast Nw Hs)|].
           destruct Hs as [Hno _]. apply (proj2 (Hno y0 ltac:(lia))). split; assumption.
        -- exists o. split; [exact Ho|]. apply Hrec; [exact Nw| |].
           ++ intros [Hb _]. apply code_border in Hb. congruence.
           ++ intros [H0 [_ H]]. apply code_free in H. apply D.
              replace y0 with 0 by (unfold y0; lia). exact H.
    + cbn [andb]. assert (Uf : ~ free es Bx y0) by (rewrite <- code_free; exact U).
      assert (Nl : ~ ledge y0) by (intros [_ H]; contradiction).
      assert (Nz : ~ (k = O /\ free es Bx 0 /\ free es (Bx - 1) 0)).
      { intros [H0 [H _]]. apply Uf. replace y0 with 0 by (unfold y0; lia). exact H. }
      rewrite andb_false_r.
      destruct (in23 (code es Bx y0)) eqn:UB; cbn [andb].
      * apply code_border in UB.
        destruct (in23 (code es (Bx - 1) y0)) eqn:DB; cbn [andb].
        -- apply code_border in DB.
           exists (Some (y0 + 1)). split; [reflexivity|]. apply Hwall. split; auto.
        -- destruct (Z.eqb_spec (code es (Bx - 1) y0) 0) as [D|D].
           ++ apply code_free in D.
              exists (Some (y0 + 1)). split; [reflexivity|]. apply Hwall. split; auto.
           ++ exists o. split; [exact Ho|]. apply Hrec; [|exact Nl|exact Nz].
              intros [_ [Hb|Hf]]; [apply code_border in Hb; congruence|].
              apply code_free in Hf. contradiction.
      * exists o. split; [exact Ho|]. apply Hrec; [|exact Nl|exact Nz].
        intros [Hb _]. apply code_border in Hb. congruence.
Qed.

(** *** Whole sides *)
Variable ar : arith.
Hypothesis HrW : forall d, 0 <= d -> ratio_le_fifth ar d W = (5 * d <=? W).
Hypothesis HrL : forall d, 0 <= d -> ratio_le_fifth ar d L = (5 * d <=? L).

Lemma A_side_exact : exists ps, gen_A_side ar g W L Xo (Yo + l) = Ok ps /\
  (forall c q, In (c, q) ps <->
     (c = cA \/ c = cA_ \/ c = cE \/ c = cA__) /\ spawns W L es e c q) /\
  NoDup (map fst ps).
Proof.
  unfold gen_A_side.
  destruct gen_A_cond_exact as [A [-> HA]]. cbn [bind].
  destruct (Z_lt_ge_dec (Yo + l) L) as [HAy|HAy].
  2:{ assert (A = false) as ->. { destruct A; [|reflexivity]. exfalso. apply HAy. apply HA. reflexivity. }
      unfold gen_A_flags. replace (Yo + l >=? L) with true by lia. cbn [ror_ bind].
      unfold gen_A_prime_cond. replace (Yo + l <? L) with false by lia. cbn [rand_ bind].
      exists []. split; [reflexivity|]. split; [|constructor]. intros c q. split; [intros []|].
      unfold spawns, projected_left, above. cbn [e_x e_y e_w e_l].
      intros [Hcc Hs]. exfalso.
      destruct Hcc as [-> | [-> | [-> | ->]]]; destruct q; cbn [fst snd] in Hs; intuition (try congruence; try lia).
      all: injection H as -> ->; lia. }
  assert (Hfl : exists pr, gen_A_flags g L Xo (Yo + l) = Ok (code es Xo (Yo + l) =? 0, pr) /\
                (0 < Xo -> free es (Xo - 1) (Yo + l) -> pr = false)).
  { unfold gen_A_flags. replace (Yo + l >=? L) with false by lia. cbn [ror_ bind].
    rewrite (gget_code (Yo + l) Xo) by lia. cbn [bind]. unfold nonzero.
    destruct (code es Xo (Yo + l) =? 0); cbn [negb bind].
    - destruct (Z.eq_dec Xo 0) as [H0|H0].
      + destruct (gget_ok W L g (Yo + l) (Xo - 1)) as [c ->]; auto; try lia. cbn [bind].
        eexists. split; [reflexivity|]. lia.
      + rewrite (gget_code (Yo + l) (Xo - 1)) by lia. cbn [bind].
        eexists. split; [reflexivity|]. intros _ Hf. apply code_free in Hf. rewrite Hf. reflexivity.
    - eexists. split; [reflexivity|]. reflexivity. }
  destruct Hfl as [pr [-> Hpr]]. cbn [bind].
  assert (Hscan : exists b, gen_A_prime_cond g L Xo (Yo + l) A pr = Ok b /\
     (b = true <-> 0 < Xo /\ free es (Xo - 1) (Yo + l) /\ free es (Xo - 1) (Yo + l - 1))).
  { unfold gen_A_prime_cond. replace (Yo + l <? L) with true by lia. cbn [rand_ bind].
    destruct (Z.gtb_spec Xo 0) as [H0|H0]; cbn [bind].
    2:{ exists false. split; [reflexivity|]. split; [discriminate|lia]. }
    rewrite !gget_code by lia. cbn [bind].
    destruct (Z.eqb_spec (code es (Xo - 1) (Yo + l)) 0) as [F1|F1].
    - apply code_free in F1. rewrite (Hpr H0 F1).
      assert (A = false) as ->.
      { destruct A; [|reflexivity]. exfalso. destruct (proj1 HA eq_refl) as [_ [_ Hs]].
        unfold A_supported, backed in Hs. cbn [e_x e_y e_w e_l] in Hs.
        destruct Hs as [?|[[_ Hb]|[_ [e' [Hs _]]]]]; [lia|exact (free_not_border _ _ _ F1 Hb)|].
        apply seen_covers in Hs. apply (F1 e'); apply Hs. }
      cbn [negb bind]. destruct (Z.eqb_spec (code es (Xo - 1) (Yo + l - 1)) 0) as [F2|F2]; cbn [bind].
      + exists true. apply code_free in F2. split; [reflexivity|]. split; [auto|reflexivity].
      + exists false. split; [reflexivity|]. split; [discriminate|].
        intros [_ [_ H]]. apply code_free in H. contradiction.
    - exists false. split.
      + destruct A; cbn [negb bind]; [reflexivity|]. destruct pr; cbn [negb bind]; [reflexivity|].
        destruct (_ =? 0); reflexivity.
      + split; [discriminate|]. intros [_ [H _]]. apply code_free in H. contradiction. }
  destruct Hscan as [b [-> Hb]]. cbn [bind].
  assert (Ho : exists o, (if b then scan_A_ g (Yo + l) (zrange_down (Xo - 1)) else Ok None) = Ok o /\
    forall q, (exists x, o = Some x /\ q = (x, Yo + l)) <-> projected_left L es e q).
  { destruct b.
    - destruct (proj1 Hb eq_refl) as [H0 [F1 F2]].
      destruct (scan_A_exact (Z.to_nat Xo) (Yo + l)) as [o [Ho HoP]]; [lia|lia|].
      rewrite Z2Nat.id in Ho, HoP by lia.
      exists o. split; [exact Ho|].
      assert (Hr : forall x, o = Some x -> 0 <= x <= Xo).
      { destruct (scan_A_ok W L g Hg (Yo + l) (zrange_down (Xo - 1)) (Xo - 1)) as [o' [Ho' Hbd]];
          [lia|lia|intros; apply in_zrange_down in H; lia|].
        replace o' with o in Hbd by congruence. intros x Hx. specialize (Hbd x Hx). lia. }
      intros [qx qy]. unfold projected_left, wall_left. cbn [e_x e_y e_w e_l fst snd]. split.
      + intros [x [Hx [= -> ->]]]. pose proof (Hr x Hx) as Hxr.
        apply HoP in Hx; [|lia|exact Hxr]. destruct Hx as [Hn Hs].
        assert (x <> Xo).
        { intros ->. destruct Hs as [[? _]|[_ [Hbo _]]]; [lia|].
          exact (free_not_border _ _ _ F1 Hbo). }
        repeat split; auto; try lia.
      + intros [-> [_ [_ [_ [Hx [Hn Hs]]]]]]. exists qx. split; [|reflexivity].
        apply HoP; [lia|lia|]. split; assumption.
    - exists None. split; [reflexivity|]. intros q. split; [intros [x [? _]]; discriminate|].
      unfold projected_left. cbn [e_x e_y e_w e_l]. intros [_ [_ [F1 [F2 [Hx _]]]]].
      exfalso. assert (false = true) by (apply Hb; repeat split; auto; lia). discriminate. }
  destruct Ho as [o [-> HoP]]. cbn [bind].
  eexists. split; [reflexivity|].
  assert (HA0 : code es Xo (Yo + l) =? 0 = true <-> free es Xo (Yo + l)).
  { rewrite Z.eqb_eq. apply code_free. }
  split.
  - intros c q. rewrite !in_app_iff. unfold spawns, above. cbn [e_x e_y e_w e_l]. split.
    + intros [H|[H|H]].
      * destruct A; [|destruct H]. destruct H as [[= <- <-]|[]].
        destruct (proj1 HA eq_refl) as [? [? ?]]. cbn [fst snd]. auto 8.
      * destruct o as [x|]; [|destruct H]. destruct H as [H|[]]. injection H as Hc' Hq. subst q.
        assert (HP : projected_left L es e (x, Yo + l)) by (apply HoP; eauto).
        assert (Hxr : 0 <= x < Xo). { destruct HP as [_ [_ [_ [_ [H _]]]]]. exact H. }
        rewrite HrW in Hc' by lia. rewrite Z.abs_eq in Hc' by lia.
        destruct (Z.leb_spec (5 * (Xo - x)) W) as [H5|H5]; subst c; cbn [fst]; auto 8.
      * destruct A; cbn [negb andb] in H; [destruct H|].
        destruct (code es Xo (Yo + l) =? 0) eqn:E; [|destruct H]. destruct H as [[= <- <-]|[]].
        pose proof (proj1 HA0 eq_refl) as F. cbn [fst snd]. split; [auto|]. split; [reflexivity|].
        split; [exact HAy|]. split; [exact F|]. intros HS.
        assert (false = true) by (apply HA; auto). discriminate.
    + intros [Hcc Hs]. destruct Hcc as [-> | [-> | [-> | ->]]].
      * destruct Hs as [-> [_ [F HS]]]. cbn [fst snd] in F. left.
        assert (A = true) as -> by (apply HA; auto). left. reflexivity.
      * right. left. destruct Hs as [HP H5]. apply HoP in HP. destruct HP as [x [-> ->]].
        cbn [fst] in H5.
        assert (Hxr : 0 <= x < Xo).
        { destruct (proj1 (HoP (x, Yo + l))) as [_ [_ [_ [_ [H _]]]]]; [eauto|]. exact H. }
        rewrite HrW, Z.abs_eq by lia. replace (5 * (Xo - x) <=? W) with true by lia. left. reflexivity.
      * right. left. destruct Hs as [HP H5]. apply HoP in HP. destruct HP as [x [-> ->]].
        cbn [fst] in H5.
        assert (Hxr : 0 <= x < Xo).
        { destruct (proj1 (HoP (x, Yo + l))) as [_ [_ [_ [_ [H _]]]]]; [eauto|]. exact H. }
        rewrite HrW, Z.abs_eq by lia. replace (5 * (Xo - x) <=? W) with false by lia. left. reflexivity.
      * right. right. destruct Hs as [-> [_ [F HS]]]. cbn [fst snd] in F.
        assert (A = false) as ->.
        { destruct A; [|reflexivity]. exfalso. apply HS. apply HA. reflexivity. }
        apply HA0 in F. rewrite F. left. reflexivity.
  - destruct A, o as [x|], (code es Xo (Yo + l) =? 0); cbn [negb andb app map fst];
      try (destruct (ratio_le_fifth ar _ _)); repeat constructor; simpl; intuition discriminate.
Qed.

Lemma B_side_exact : exists ps, gen_B_side ar g W L Yo (Xo + w) = Ok ps /\
  (forall c q, In (c, q) ps <->
     (c = cB \/ c = cB_ \/ c = cF \/ c = cB__) /\ spawns W L es e c q) /\
  NoDup (map fst ps).
Proof.
  unfold gen_B_side.
  destruct gen_B_cond_exact as [A [-> HA]]. cbn [bind].
  destruct (Z_lt_ge_dec (Xo + w) W) as [HBx|HBx].
  2:{ assert (A = false) as ->. { destruct A; [|reflexivity]. exfalso. apply HBx. apply HA. reflexivity. }
      unfold gen_B_flags. replace (Xo + w >=? W) with true by lia. cbn [ror_ bind].
      unfold gen_B_prime_cond. replace (Xo + w <? W) with false by lia. cbn [rand_ bind].
      exists []. split; [reflexivity|]. split; [|constructor]. intros c q. split; [intros []|].
      unfold spawns, projected_down, beside. cbn [e_x e_y e_w e_l].
      intros [Hcc Hs]. exfalso.
      destruct Hcc as [-> | [-> | [-> | ->]]]; destruct q; cbn [fst snd] in Hs; intuition (try congruence; try lia).
      all: injection H as -> ->; lia. }
  assert (Hfl : exists pr, gen_B_flags g W Yo (Xo + w) = Ok (code es (Xo + w) Yo =? 0, pr) /\
                (0 < Yo -> free es (Xo + w) (Yo - 1) -> pr = false)).
  { unfold gen_B_flags. replace (Xo + w >=? W) with false by lia. cbn [ror_ bind].
    rewrite (gget_code Yo (Xo + w)) by lia. cbn [bind]. unfold nonzero.
    destruct (code es (Xo + w) Yo =? 0); cbn [negb bind].
    - destruct (Z.eq_dec Yo 0) as [H0|H0].
      + destruct (gget_ok W L g (Yo - 1) (Xo + w)) as [c ->]; auto; try lia. cbn [bind].
        eexists. split; [reflexivity|]. lia.
      + rewrite (gget_code (Yo - 1) (Xo + w)) by lia. cbn [bind].
        eexists. split; [reflexivity|]. intros _ Hf. apply code_free in Hf. rewrite Hf. reflexivity.
    - eexists. split; [reflexivity|]. reflexivity. }
  destruct Hfl as [pr [-> Hpr]]. cbn [bind].
  assert (Hscan : exists b, gen_B_prime_cond g W Yo (Xo + w) A pr = Ok b /\
     (b = true <-> 0 < Yo /\ free es (Xo + w) (Yo - 1) /\ free es (Xo + w - 1) (Yo - 1))).
  { unfold gen_B_prime_cond. replace (Xo + w <? W) with true by lia. cbn [rand_ bind].
    destruct (Z.gtb_spec Yo 0) as [H0|H0]; cbn [bind].
    2:{ exists false. split; [reflexivity|]. split; [discriminate|lia]. }
    rewrite !gget_code by lia. cbn [bind].
    destruct (Z.eqb_spec (code es (Xo + w) (Yo - 1)) 0) as [F1|F1].
    - apply code_free in F1. rewrite (Hpr H0 F1).
      assert (A = false) as ->.
      { destruct A; [|reflexivity]. exfalso. destruct (proj1 HA eq_refl) as [_ [_ Hs]].
        unfold B_supported, backed in Hs. cbn [e_x e_y e_w e_l] in Hs.
        destruct Hs as [?|[[_ Hb]|[_ [e' [Hs _]]]]]; [lia|exact (free_not_border _ _ _ F1 Hb)|].
        apply seen_covers in Hs. apply (F1 e'); apply Hs. }
      cbn [negb bind]. destruct (Z.eqb_spec (code es (Xo + w - 1) (Yo - 1)) 0) as [F2|F2]; cbn [bind].
      + exists true. apply code_free in F2. split; [reflexivity|]. split; [auto|reflexivity].
      + exists false. split; [reflexivity|]. split; [discriminate|].
        intros [_ [_ H]]. apply code_free in H. contradiction.
    - exists false. split.
      + destruct A; cbn [negb bind]; [reflexivity|]. destruct pr; cbn [negb bind]; [reflexivity|].
        destruct (_ =? 0); reflexivity.
      + split; [discriminate|]. intros [_ [H _]]. apply code_free in H. contradiction. }
  destruct Hscan as [b [-> Hb]]. cbn [bind].
  assert (Ho : exists o, (if b then scan_B_ g (Xo + w) (zrange_down (Yo - 1)) else Ok None) = Ok o /\
    forall q, (exists y, o = Some y /\ q = (Xo + w, y)) <-> projected_down W es e q).
  { destruct b.
    - destruct (proj1 Hb eq_refl) as [H0 [F1 F2]].
      destruct (scan_B_exact (Z.to_nat Yo) (Xo + w)) as [o [Ho HoP]]; [lia|lia|].
      rewrite Z2Nat.id in Ho, HoP by lia.
      exists o. split; [exact Ho|].
      assert (Hr : forall x, o = Some x -> 0 <= x <= Yo).
      { destruct (scan_B_ok W L g Hg (Xo + w) (zrange_down (Yo - 1)) (Yo - 1)) as [o' [Ho' Hbd]];
          [lia|lia|intros; apply in_zrange_down in H; lia|].
        replace o' with o in Hbd by congruence. intros x Hx. specialize (Hbd x Hx). lia. }
      intros [qx qy]. unfold projected_down, floor_below, ledge_below. cbn [e_x e_y e_w e_l fst snd]. split.
      + intros [x [Hx [= -> ->]]]. pose proof (Hr x Hx) as Hxr.
        apply HoP in Hx; [|lia|exact Hxr]. destruct Hx as [Hn Hs].
        assert (x <> Yo).
        { intros ->. destruct Hs as [[? _]|[_ [Hbo _]]]; [lia|].
          exact (free_not_border _ _ _ F1 Hbo). }
        repeat split; auto; try lia; apply (Hn y); assumption.
      + intros [-> [_ [_ [_ [Hx [Hn Hs]]]]]]. exists qy. split; [|reflexivity].
        apply HoP; [lia|lia|]. split; assumption.
    - exists None. split; [reflexivity|]. intros q. split; [intros [x [? _]]; discriminate|].
      unfold projected_down. cbn [e_x e_y e_w e_l]. intros [_ [_ [F1 [F2 [Hx _]]]]].
      exfalso. assert (false = true) by (apply Hb; repeat split; auto; lia). discriminate. }
  destruct Ho as [o [-> HoP]]. cbn [bind].
  eexists. split; [reflexivity|].
  assert (HA0 : code es (Xo + w) Yo =? 0 = true <-> free es (Xo + w) Yo).
  { rewrite Z.eqb_eq. apply code_free. }
  split.
  - intros c q. rewrite !in_app_iff. unfold spawns, beside. cbn [e_x e_y e_w e_l]. split.
    + intros [H|[H|H]].
      * destruct A; [|destruct H]. destruct H as [[= <- <-]|[]].
        destruct (proj1 HA eq_refl) as [? [? ?]]. cbn [fst snd]. auto 8.
      * destruct o as [x|]; [|destruct H]. destruct H as [H|[]]. injection H as Hc' Hq. subst q.
        assert (HP : projected_down W es e (Xo + w, x)) by (apply HoP; eauto).
        assert (Hxr : 0 <= x < Yo). { destruct HP as [_ [_ [_ [_ [H _]]]]]. exact H. }
        rewrite HrL in Hc' by lia. rewrite Z.abs_eq in Hc' by lia.
        destruct (Z.leb_spec (5 * (Yo - x)) L) as [H5|H5]; subst c; cbn [snd]; auto 8.
      * destruct A; cbn [negb andb] in H; [destruct H|].
        destruct (code es (Xo + w) Yo =? 0) eqn:E; [|destruct H]. destruct H as [[= <- <-]|[]].
        pose proof (proj1 HA0 eq_refl) as F. cbn [fst snd]. split; [auto|]. split; [reflexivity|].
        split; [exact HBx|]. split; [exact F|]. intros HS.
        assert (false = true) by (apply HA; auto). discriminate.
    + intros [Hcc Hs]. destruct Hcc as [-> | [-> | [-> | ->]]].
      * destruct Hs as [-> [_ [F HS]]]. cbn [fst snd] in F. left.
        assert (A = true) as -> by (apply HA; auto). left. reflexivity.
      * right. left. destruct Hs as [HP H5]. apply HoP in HP. destruct HP as [x [-> ->]].
        cbn [snd] in H5.
        assert (Hxr : 0 <= x < Yo).
        { destruct (proj1 (HoP (Xo + w, x))) as [_ [_ [_ [_ [H _]]]]]; [eauto|]. exact H. }
        rewrite HrL, Z.abs_eq by lia. replace (5 * (Yo - x) <=? L) with true by lia. left. reflexivity.
      * right. left. destruct Hs as [HP H5]. apply HoP in HP. destruct HP as [x [-> ->]].
        cbn [snd] in H5.
        assert (Hxr : 0 <= x < Yo).
        { destruct (proj1 (HoP (Xo + w, x))) as [_ [_ [_ [_ [H _]]]]]; [eauto|]. exact H. }
        rewrite HrL, Z.abs_eq by lia. replace (5 * (Yo - x) <=? L) with false by lia. left. reflexivity.
      * right. right. destruct Hs as [-> [_ [F HS]]]. cbn [fst snd] in F.
        assert (A = false) as ->.
        { destruct A; [|reflexivity]. exfalso. apply HS. apply HA. reflexivity. }
        apply HA0 in F. rewrite F. left. reflexivity.
  - destruct A, o as [x|], (code es (Xo + w) Yo =? 0); cbn [negb andb app map fst];
      try (destruct (ratio_le_fifth ar _ _)); repeat constructor; simpl; intuition discriminate.
Qed.
(** *** C and D *)
Lemma C_exact : Yo + l < L -> exists gc, rmap (gen_C g (Yo + l)) (zrange Xo (Xo + w - 1)) = Ok gc /\
  concat gc = map (fun x => (cC, (x + 1, Yo + l)))
    (filter (fun x => (code es x (Yo + l) =? 3) && (code es (x + 1) (Yo + l) =? 0))
            (zrange Xo (Xo + w - 1))).
Proof.
  intros HA.
  assert (Hin : forall x, In x (zrange Xo (Xo + w - 1)) -> Xo <= x < Xo + w - 1)
    by (intros x Hx; apply in_zrange in Hx; lia).
  induction (zrange Xo (Xo + w - 1)) as [|x xs IH]; [exists []; split; reflexivity|].
  destruct IH as [gc [H1 H2]]; [intros; apply Hin; right; assumption|].
  specialize (Hin x (or_introl eq_refl)).
  cbn [rmap]. unfold gen_C at 1. rewrite !gget_code by lia. cbn [bind filter].
  destruct (code es x (Yo + l) =? 3); cbn [rand_ bind andb].
  - rewrite H1. cbn [bind]. eexists. split; [reflexivity|]. cbn [concat].
    destruct (code es (x + 1) (Yo + l) =? 0); cbn [app map]; rewrite H2; reflexivity.
  - rewrite H1. cbn [bind]. eexists. split; [reflexivity|]. cbn [concat app]. exact H2.
Qed.

Lemma D_exact : Xo + w < W -> exists gd, rmap (gen_D g (Xo + w)) (zrange Yo (Yo + l - 1)) = Ok gd /\
  concat gd = map (fun y => (cD, (Xo + w, y + 1)))
    (filter (fun y => (code es (Xo + w) y =? 3) && (code es (Xo + w) (y + 1) =? 0))
            (zrange Yo (Yo + l - 1))).
Proof.
  intros HA.
  assert (Hin : forall x, In x (zrange Yo (Yo + l - 1)) -> Yo <= x < Yo + l - 1)
    by (intros x Hx; apply in_zrange in Hx; lia).
  induction (zrange Yo (Yo + l - 1)) as [|x xs IH]; [exists []; split; reflexivity|].
  destruct IH as [gc [H1 H2]]; [intros; apply Hin; right; assumption|].
  specialize (Hin x (or_introl eq_refl)).
  cbn [rmap]. unfold gen_D at 1. rewrite !gget_code by lia. cbn [bind filter].
  destruct (code es (Xo + w) x =? 3); cbn [rand_ bind andb].
  - rewrite H1. cbn [bind]. eexists. split; [reflexivity|]. cbn [concat].
    destruct (code es (Xo + w) (x + 1) =? 0); cbn [app map]; rewrite H2; reflexivity.
  - rewrite H1. cbn [bind]. eexists. split; [reflexivity|]. cbn [concat app]. exact H2.
Qed.

Definition ordered_pairs (a b : pclass * point) : Prop :=
  fst a = fst b -> left_or_below (snd a) (snd b).

Lemma FOP_app {A} (R : A -> A -> Prop) l1 l2 :
  ForallOrdPairs R l1 -> ForallOrdPairs R l2 -> (forall a b, In a l1 -> In b l2 -> R a b) ->
  ForallOrdPairs R (l1 ++ l2).
Proof.
  induction 1 as [|a l1 Ha _ IH]; intros H2 H; [exact H2|]. simpl. constructor.
  - apply Forall_app. split; [exact Ha|]. apply Forall_forall. intros b Hb. apply H; [left; reflexivity|exact Hb].
  - apply IH; [exact H2|]. intros a' b Ha' Hb. apply H; [right; exact Ha'|exact Hb].
Qed.

Lemma FOP_nodup (l1 : gen) : NoDup (map fst l1) -> ForallOrdPairs ordered_pairs l1.
Proof.
  induction l1 as [|[c p] l1 IH]; intros H; [constructor|]. inversion H; subst. constructor; [|auto].
  apply Forall_forall. intros [c' q] Hin Heq. simpl in Heq. subst c'. exfalso. apply H2.
  apply in_map_iff. exists (c, q). auto.
Qed.

Lemma FOP_zrange (f : Z -> pclass * point) (t : Z -> bool) a b :
  (forall x y, x < y -> left_or_below (snd (f x)) (snd (f y))) ->
  ForallOrdPairs ordered_pairs (map f (filter t (zrange a b))).
Proof.
  intros Hf.
  assert (H : ForallOrdPairs Z.lt (zrange a b)).
  { unfold zrange. generalize (Z.to_nat (b - a)). intros n. generalize O.
    induction n as [|n IH]; intros k; [constructor|]. cbn [seq map]. constructor; [|apply IH].
    apply Forall_forall. intros z Hz. apply in_map_iff in Hz. destruct Hz as [m [<- Hm]].
    apply in_seq in Hm. lia. }
  induction H as [|x xs Hx _ IH]; [constructor|]. simpl. destruct (t x); [|exact IH].
  simpl. constructor; [|exact IH]. apply Forall_forall. intros z Hz _.
  apply in_map_iff in Hz. destruct Hz as [y [<- Hy]]. apply filter_In in Hy. apply Hf.
  rewrite Forall_forall in Hx. apply Hx. apply Hy.
Qed.

Lemma generate_points_exact : exists ps, generate_points ar g W L Xo Yo w l = Ok ps /\
  (forall c q, In (c, q) ps <-> spawns W L es e c q) /\ ForallOrdPairs ordered_pairs ps.
Proof.
  unfold generate_points. cbv zeta.
  destruct A_side_exact as [ga [-> [HA1 HA2]]]. cbn [bind].
  destruct B_side_exact as [gb [-> [HB1 HB2]]]. cbn [bind].
  assert (HC : exists gc,
    (if Yo + l <? L then rmap (gen_C g (Yo + l)) (zrange Xo (Xo + w - 1)) else Ok []) = Ok gc /\
    (forall c q, In (c, q) (concat gc) <-> c = cC /\ spawns W L es e cC q) /\
    ForallOrdPairs ordered_pairs (concat gc)).
  { destruct (Z.ltb_spec (Yo + l) L) as [H|H].
    - destruct (C_exact H) as [gc [-> Hgc]]. exists gc. split; [reflexivity|]. rewrite Hgc. split.
      + intros c [qx qy]. rewrite in_map_iff. unfold spawns. cbn [e_x e_y e_w e_l fst snd]. split.
        * intros [x [[= <- <- <-] Hx]]. apply filter_In in Hx. destruct Hx as [Hx Ht].
          apply in_zrange in Hx. apply andb_true_iff in Ht. destruct Ht as [T1 T2].
          apply Z.eqb_eq in T1, T2. apply code_corner in T1. apply code_free in T2.
          replace (x + 1 - 1) with x by lia. repeat split; auto; lia.
        * intros [-> [-> [_ [Hx [T1 T2]]]]]. exists (qx - 1).
          replace (qx - 1 + 1) with qx by lia. split; [reflexivity|]. apply filter_In.
          split; [apply in_zrange; lia|]. apply andb_true_iff. rewrite !Z.eqb_eq.
          replace (qx - 1 + 1) with qx by lia.
          split; [apply code_corner; exact T1|apply code_free; exact T2].
      + apply FOP_zrange. intros x y Hxy. unfold left_or_below. cbn [fst snd].
        split; [lia|]. split; [lia|]. intros [= ?]. lia.
    - exists []. split; [reflexivity|]. split; [|constructor]. intros c q. split; [intros []|].
      unfold spawns. cbn [e_x e_y e_w e_l]. intros [_ [Hs [Hs2 _]]]. rewrite Hs in Hs2. lia. }
  destruct HC as [gc [-> [HC1 HC2]]]. cbn [bind].
  assert (HD : exists gd,
    (if Xo + w <? W then rmap (gen_D g (Xo + w)) (zrange Yo (Yo + l - 1)) else Ok []) = Ok gd /\
    (forall c q, In (c, q) (concat gd) <-> c = cD /\ spawns W L es e cD q) /\
    ForallOrdPairs ordered_pairs (concat gd)).
  { destruct (Z.ltb_spec (Xo + w) W) as [H|H].
    - destruct (D_exact H) as [gd [-> Hgd]]. exists gd. split; [reflexivity|]. rewrite Hgd. split.
      + intros c [qx qy]. rewrite in_map_iff. unfold spawns. cbn [e_x e_y e_w e_l fst snd]. split.
        * intros [x [[= <- <- <-] Hx]]. apply filter_In in Hx. destruct Hx as [Hx Ht].
          apply in_zrange in Hx. apply andb_true_iff in Ht. destruct Ht as [T1 T2].
          apply Z.eqb_eq in T1, T2. apply code_corner in T1. apply code_free in T2.
          replace (x + 1 - 1) with x by lia. repeat split; auto; lia.
        * intros [-> [-> [_ [Hx [T1 T2]]]]]. exists (qy - 1).
          replace (qy - 1 + 1) with qy by lia. split; [reflexivity|]. apply filter_In.
          split; [apply in_zrange; lia|]. apply andb_true_iff. rewrite !Z.eqb_eq.
          replace (qy - 1 + 1) with qy by lia.
          split; [apply code_corner; exact T1|apply code_free; exact T2].
      + apply FOP_zrange. intros x y Hxy. unfold left_or_below. cbn [fst snd].
        split; [lia|]. split; [lia|]. intros [= ?]. lia.
    - exists []. split; [reflexivity|]. split; [|constructor]. intros c q. split; [intros []|].
      unfold spawns. cbn [e_x e_y e_w e_l]. intros [_ [Hs [Hs2 _]]]. rewrite Hs in Hs2. lia. }
  destruct HD as [gd [-> [HD1 HD2]]]. cbn [bind].
  eexists. split; [reflexivity|]. split.
  - intros c q. rewrite !in_app_iff, HA1, HB1, HC1, HD1. split.
    + intros [[_ H]|[[_ H]|[[-> H]|[-> H]]]]; exact H.
    + intros H. destruct c; intuition.
  - apply FOP_app; [apply FOP_nodup; exact HA2| |].
    + apply FOP_app; [apply FOP_nodup; exact HB2| |].
      * apply FOP_app; [exact HC2|exact HD2|]. intros [c q] [c' q'] H1 H2 Heq. simpl in Heq. subst c'.
        apply HC1 in H1. apply HD1 in H2. destruct H1 as [-> _], H2; discriminate.
      * intros [c q] [c' q'] H1 H2 Heq. simpl in Heq. subst c'.
        apply HB1 in H1. apply in_app_or in H2. rewrite HC1, HD1 in H2.
        destruct H1 as [H1 _], H2 as [[-> _]|[-> _]]; intuition discriminate.
    + intros [c q] [c' q'] H1 H2 Heq. simpl in Heq. subst c'.
      apply HA1 in H1. rewrite !in_app_iff, HB1, HC1, HD1 in H2.
      destruct H1 as [H1 _], H2 as [[H2 _]|[[-> _]|[-> _]]]; intuition (subst; discriminate).
Qed.
End Exact.

(** ** The queues *)
Lemma pools_extend_exact ps : forall pp c,
  pools_extend pp ps c = pp c ++ map snd (filter (fun cp => pclass_eqb c (fst cp)) ps).
Proof.
  unfold pools_extend. induction ps as [|[c' p] ps IH]; intros pp c; simpl; [rewrite app_nil_r; reflexivity|].
  rewrite IH. unfold pool_append. simpl. destruct (pclass_eqb c c'); [|reflexivity].
  rewrite <- app_assoc. reflexivity.
Qed.

Lemma in_new (ps : gen) c q : In q (map snd (filter (fun cp => pclass_eqb c (fst cp)) ps)) <-> In (c, q) ps.
Proof.
  rewrite in_map_iff. split.
  - intros [[c' q'] [<- H]]. apply filter_In in H. destruct H as [H E]. simpl in *.
    destruct (pclass_eqb_spec c c'); [subst; exact H|discriminate].
  - intros H. exists (c, q). split; [reflexivity|]. apply filter_In. split; [exact H|]. simpl.
    destruct (pclass_eqb_spec c c); congruence.
Qed.

Lemma new_ordered (ps : gen) c : ForallOrdPairs ordered_pairs ps ->
  ForallOrdPairs left_or_below (map snd (filter (fun cp => pclass_eqb c (fst cp)) ps)).
Proof.
  induction 1 as [|[c' p] ps H _ IH]; [constructor|]. simpl. destruct (pclass_eqb_spec c c') as [->|]; [|exact IH].
  simpl. constructor; [|exact IH]. apply Forall_forall. intros q Hq. apply in_new in Hq.
  rewrite Forall_forall in H. apply (H _ Hq). reflexivity.
Qed.

Lemma get_current_point_exact strategy pp o pp' :
  get_current_point strategy pp = (o, pp') ->
  match o with
  | None => (forall c, pp' c = pp c) /\ forall c, In c strategy -> pp c = []
  | Some p => exists before c after, strategy = before ++ c :: after /\
      (forall c', In c' before -> pp c' = []) /\ pp c = p :: pp' c /\
      (forall c', c' <> c -> pp' c' = pp c')
  end.
Proof.
  induction strategy as [|c cs IH]; simpl.
  - intros [= <- <-]. split; [reflexivity|]. intros c [].
  - destruct (pp c) as [|p rest] eqn:E.
    + intros H. specialize (IH H). destruct o.
      * destruct IH as [b [c' [a [-> [H1 [H2 H3]]]]]]. exists (c :: b), c', a.
        split; [reflexivity|]. split; [|auto]. intros c1 [<-|Hc]; auto.
      * destruct IH as [H1 H2]. split; [assumption|]. intros c' [<-|H']; auto.
    + intros [= <- <-]. exists [], c, cs. split; [reflexivity|]. split; [intros c' []|]. split.
      * destruct (pclass_eqb_spec c c); congruence.
      * intros c' Hne. destruct (pclass_eqb_spec c' c); congruence.
Qed.

(** ** Along a run *)
Section Run.
Context (ar : arith) (W L : Z) (strip rotation : bool) (strategy : list pclass).
Context (items0 : odict dims).
Hypothesis HW : 0 < W.
Hypothesis HL : 0 < L.
Hypothesis Hitems0 : valid_items items0.

(** An iteration, with the grid. *)
Lemma loop_body_grid s p s' :
  inv ar W L strip rotation items0 s -> in_bounds W L p ->
  loop_body ar W L strip rotation strategy s p = Ok s' ->
  get_current_point strategy (st_pending s') = (st_cur s', st_pools s') /\
  ((st_grid s' = st_grid s /\ placed_entries ar s' = placed_entries ar s /\ st_sol s' = st_sol s /\
    st_pending s' = st_pools s) \/
   (exists w l ps, 1 <= w /\ 1 <= l /\ fst p + w <= W /\ snd p + l <= L /\
      placed_entries ar s' = placed_entries ar s ++ [mkEntry (fst p) (snd p) w l] /\
      upd W L (st_grid s) (st_grid s') (in_rect (fst p) (snd p) w l) (colour (fst p) (snd p) w l) /\
      generate_points ar (st_grid s') W L (fst p) (snd p) w l = Ok ps /\
      st_pending s' = pools_extend (st_pools s) ps)).
Proof.
  intros Hs Hp Hb. pose proof Hb as Hb0.
  destruct (loop_body_spec ar W L strip rotation strategy items0 Hitems0 s p Hs Hp)
    as [s1 [bf [pts [Hb1 [_ [Hout _]]]]]].
  assert (s1 = s') by congruence. subst s1. clear Hb1 bf pts.
  unfold loop_body in Hb. destruct p as [Xo Yo]. cbn [fst snd].
  destruct (first_fit W L Xo Yo rotation (st_grid s) (st_items s) (st_ids s)) as [[[[i d] rot]|]|] eqn:Hff;
    cbn [bind] in Hb; [| |discriminate].
  - unfold place_item in Hb.
    set (w := if rot then dl d else dw d) in Hb. set (l := if rot then dw d else dl d) in Hb.
    destruct (paint (st_grid s) Xo Yo w l) as [g'|] eqn:Hpt; cbn [bind] in Hb; [|discriminate].
    destruct (generate_points ar g' W L Xo Yo w l) as [ps|] eqn:Hps; cbn [bind] in Hb; [|discriminate].
    cbn [st_pools] in Hb.
    destruct (get_current_point strategy (pools_extend (st_pools s) ps)) as [cur pp] eqn:Hcur.
    injection Hb as <-. cbn [st_pending st_cur st_pools st_grid st_sol] in *.
    split; [exact Hcur|]. right.
    destruct Hout as [i' d' rot' ipre ipost Hids Hd _ Hfit Hsol _ | _ Hsol _]; cbn [st_sol] in Hsol.
    + exists w, l, ps.
      pose proof (inv_items_pos _ _ _ _ _ _ Hitems0 s i' d' Hs Hd) as [Hdw Hdl].
      assert (E : st_sol s ++ [(i', mkPlaced d' Xo Yo rot')] = dset (st_sol s) i (mkPlaced d Xo Yo rot)).
      { symmetry. exact Hsol. }
      assert (Hnew : dget (st_sol s) i = None).
      { destruct (dget (st_sol s) i) eqn:Eg; [|reflexivity]. exfalso.
        assert (length (dset (st_sol s) i (mkPlaced d Xo Yo rot)) = length (st_sol s)) as Hlen.
        { clear - Eg. induction (st_sol s) as [|[j q] t IH]; simpl in *; [discriminate|].
          destruct (String.eqb i j); simpl; [reflexivity|]. f_equal. apply IH. exact Eg. }
        rewrite <- E, app_length in Hlen. simpl in Hlen. lia. }
      rewrite (dset_new _ _ _ Hnew) in E. apply app_inj_tail in E. destruct E as [_ E].
      injection E as -> -> ->.
      assert (Hf : fits_at W L (st_grid s) (Xo, Yo) w l).
      { unfold w, l. destruct rot; [apply Hfit|exact Hfit]. }
      destruct Hf as [HfW [HfL _]]. cbn [fst snd] in HfW, HfL.
      destruct Hp as [Hpx Hpy]. cbn [fst snd] in Hpx, Hpy.
      assert (Hw : 1 <= w) by (unfold w; destruct rot; lia).
      assert (Hl : 1 <= l) by (unfold l; destruct rot; lia).
      split; [exact Hw|]. split; [exact Hl|]. split; [exact HfW|]. split; [exact HfL|]. split.
      { unfold placed_entries. cbn [st_sol]. rewrite Hsol, map_app. reflexivity. }
      split; [|split; [exact Hps|reflexivity]].
      destruct (paint_spec W L (st_grid s) Xo Yo w l) as [g2 [Hg2 Hu]]; try apply Hs; try lia.
      replace g' with g2 by congruence. exact Hu.
    + exfalso.
      (* the sequence's first fit is placed *)
      assert (Hn : dget (st_sol s) i = None).
      { assert (Hin : In i (dkeys (st_items s))).
        { clear - Hff. induction (st_ids s) as [|j t IH]; simpl in Hff; [discriminate|].
          destruct (dget_r (st_items s) j) as [it|] eqn:Ej; cbn [bind] in Hff; [|discriminate].
          assert (Hj : In j (dkeys (st_items s))).
          { apply dget_Some_In. unfold dget_r in Ej. destruct (dget (st_items s) j); [eauto|discriminate]. }
          destruct (check_fitting _ _ _ _ _ _ _) as [[|]|]; cbn [bind] in Hff;
            [injection Hff as -> _ _; exact Hj| |discriminate].
          destruct rotation; [|auto].
          destruct (check_fitting _ _ _ _ _ _ _) as [[|]|]; cbn [bind] in Hff;
            [injection Hff as -> _ _; exact Hj|auto|discriminate]. }
        apply dget_None. intros Hs2. destruct (inv_nodup _ _ _ _ _ _ Hitems0 s Hs) as [_ [_ H3]].
        exact (H3 i Hs2 Hin). }
      rewrite (dset_new _ _ _ Hn) in Hsol. apply (f_equal (@length _)) in Hsol.
      rewrite app_length in Hsol. simpl in Hsol. lia.
  - destruct (get_current_point strategy (st_pools s)) as [cur pp] eqn:Hcur.
    injection Hb as <-. cbn [st_pending st_cur st_pools st_grid st_sol]. split; [exact Hcur|].
    left. auto.
Qed.

Lemma coded_init : coded W L (st_grid (init_state ar W L items0)) (placed_entries ar (init_state ar W L items0)).
Proof. intros y x _ _. simpl. rewrite empty_grid_cell. reflexivity. Qed.

Lemma coded_step s p s' :
  inv ar W L strip rotation items0 s -> in_bounds W L p ->
  loop_body ar W L strip rotation strategy s p = Ok s' ->
  coded W L (st_grid s) (placed_entries ar s) -> coded W L (st_grid s') (placed_entries ar s').
Proof.
  intros Hs Hp Hb Hc.
  destruct (loop_body_grid s p s' Hs Hp Hb) as [_ [[-> [-> _]]|[w [l [ps [_ [_ [_ [_ [-> [[_ Hu] _]]]]]]]]]]];
    [exact Hc|].
  intros y x Hy Hx. rewrite Hu by assumption. rewrite code_snoc. cbn [e_x e_y e_w e_l].
  rewrite Hc by assumption. reflexivity.
Qed.

Lemma coded_run s :
  steps ar W L strip rotation strategy (init_state ar W L items0) s ->
  coded W L (st_grid s) (placed_entries ar s).
Proof.
  intros H. remember (init_state ar W L items0) as s0 eqn:E0.
  assert (Hi : inv ar W L strip rotation items0 s0) by (subst s0; apply inv_init; assumption).
  assert (Hc : coded W L (st_grid s0) (placed_entries ar s0)) by (subst s0; apply coded_init).
  clear E0. induction H as [|s p s1 s2 [Hcur _] Hb _ IH]; [exact Hc|].
  pose proof (i_cur _ _ _ _ _ _ _ Hi p Hcur) as Hp. apply IH.
  - destruct (loop_body_spec ar W L strip rotation strategy items0 Hitems0 s p Hi Hp) as [s' [? [? [Hs' [Hi' _]]]]].
    congruence.
  - exact (coded_step s p s1 Hi Hp Hb Hc).
Qed.

Lemma points_exact s p s' : exact_fifths ar W L ->
  steps ar W L strip rotation strategy (init_state ar W L items0) s -> running ar s p ->
  loop_body ar W L strip rotation strategy s p = Ok s' ->
  (placed_entries ar s' = placed_entries ar s /\ forall c, st_pending s' c = st_pools s c) \/
  (exists e new, placed_entries ar s' = placed_entries ar s ++ [e] /\
     (forall c, st_pending s' c = st_pools s c ++ new c /\
        (forall q, In q (new c) <-> spawns W L (placed_entries ar s') e c q) /\
        ForallOrdPairs left_or_below (new c))).
Proof.
  intros Hex Hst [Hcur _] Hb.
  assert (Hs : inv ar W L strip rotation items0 s).
  { eapply steps_inv; [..|exact Hst|apply inv_init]; assumption. }
  pose proof (i_cur _ _ _ _ _ _ _ Hs p Hcur) as Hp.
  pose proof (coded_step s p s' Hs Hp Hb (coded_run s Hst)) as Hc.
  destruct (loop_body_grid s p s' Hs Hp Hb)
    as [_ [[_ [-> [_ ->]]]|[w [l [ps [Hw [Hl [HwW [HlL [Hent [[Hwf _] [Hps Hpend]]]]]]]]]]]].
  { left. auto. }
  right. destruct Hp as [Hpx Hpy].
  assert (HrW : forall d, 0 <= d -> ratio_le_fifth ar d W = (5 * d <=? W)).
  { destruct Hex as [->|[-> [? _]]]; [reflexivity|]. intros d Hd. apply fifth_exact; lia. }
  assert (HrL : forall d, 0 <= d -> ratio_le_fifth ar d L = (5 * d <=? L)).
  { destruct Hex as [->|[-> [_ ?]]]; [reflexivity|]. intros d Hd. apply fifth_exact; lia. }
  destruct (generate_points_exact W L (st_grid s') (placed_entries ar s') (fst p) (snd p) w l)
    with (ar := ar) as [ps' [Hps' [Hin Hord]]]; auto; try lia.
  assert (ps' = ps) by congruence. subst ps'.
  exists (mkEntry (fst p) (snd p) w l),
    (fun c => map snd (filter (fun cp => pclass_eqb c (fst cp)) ps)).
  split; [exact Hent|]. intros c. rewrite Hpend, pools_extend_exact. split; [reflexivity|]. split.
  - intros q. rewrite in_new. apply Hin.
  - apply new_ordered. exact Hord.
Qed.
End Run.
