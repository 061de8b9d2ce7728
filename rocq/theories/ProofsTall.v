(** * A strip much taller than the items can reach: more height changes nothing. *)
From Coq Require Import ZArith String List Bool Lia Permutation.
From Coq Require Import ZifyBool ZifyNat.
From Verif Require Import Py ProofsPy Arith Construct Spec ProofsConstruct.
Import ListNotations.
Open Scope Z_scope.

(** What the items can reach: each takes at most its longer side. *)
Definition longest (d : dims) : Z := Z.max (dw d) (dl d).
Definition reach (items : odict dims) : Z := fold_right (fun kv n => longest (snd kv) + n) 0 items.

Lemma reach_del items i d : dget items i = Some d -> reach items = longest d + reach (ddel items i).
Proof.
  induction items as [|[j e] t IH]; cbn; [discriminate|].
  destruct (String.eqb i j).
  - intros [= ->]. reflexivity.
  - intros H. specialize (IH H). unfold reach in *. cbn [fold_right snd]. lia.
Qed.

Lemma reach_nonneg items : Forall (fun kv => pos_dims (snd kv)) items -> 0 <= reach items.
Proof. induction 1 as [|kv t H _ IH]; [cbn; lia|]. change (reach (kv :: t)) with (longest (snd kv) + reach t).
  destruct H. unfold longest. lia. Qed.

Lemma ddel_pos (items : odict dims) i : Forall (fun kv => pos_dims (snd kv)) items -> Forall (fun kv => pos_dims (snd kv)) (ddel items i).
Proof. induction 1 as [|[j e] t H Ht IH]; cbn; [constructor|]. destruct (String.eqb i j); [exact Ht|constructor; assumption]. Qed.

Lemma dget_pos (items : odict dims) i d : Forall (fun kv => pos_dims (snd kv)) items -> dget items i = Some d -> pos_dims d.
Proof.
  induction 1 as [|[j e] t H Ht IH]; cbn; [discriminate|]. destruct (String.eqb i j); [|exact IH]. intros [= <-]. exact H.
Qed.

Lemma bind_eq {A B} (a b : result A) (f g : A -> result B) : a = b -> (forall x, b = Ok x -> f x = g x) -> bind a f = bind b g.
Proof. intros -> H. destruct b as [x|e]; [apply H|]; reflexivity. Qed.

Lemma rmap_ext {A B} (f g : A -> result B) l : (forall x, f x = g x) -> rmap f l = rmap g l.
Proof. intros H. induction l as [|a t IH]; [reflexivity|]. cbn [rmap]. rewrite H, IH. reflexivity. Qed.

Section Tall.
Context (ar : arith) (W L k : Z) (HL : 1 <= L) (Hk : 0 <= k).
Let z : list Z := py_repeat 0 W.
Let zs : grid := repeat z (Z.to_nat k).

(** [g] has [L] rows, those from [b] on empty. *)
Definition low (b : Z) (g : grid) : Prop :=
  zlen g = L /\ forall y, b <= y < L -> nth (Z.to_nat y) g [] = z.

Lemma low_more b b' g : b <= b' -> low b g -> low b' g.
Proof. intros H [H1 H2]. split; [exact H1|]. intros y Hy. apply H2. lia. Qed.

Lemma zlen_ext g : zlen g = L -> zlen (g ++ zs) = L + k.
Proof. unfold zlen. rewrite app_length. unfold zs. rewrite repeat_length. lia. Qed.

Lemma row_same b g y : low b g -> b < L -> -1 <= y < L -> py_get (g ++ zs) y = py_get g y.
Proof.
  intros [Hg Hz] Hb Hy. unfold py_get. rewrite (zlen_ext g Hg), Hg. unfold py_index.
  destruct (Z.eq_dec y (-1)) as [->|Hn].
  - replace ((0 <=? -1) && (-1 <? L + k)) with false by lia. replace ((0 <=? -1) && (-1 <? L)) with false by lia.
    replace ((- (L + k) <=? -1) && (-1 <? 0)) with true by lia. replace ((- L <=? -1) && (-1 <? 0)) with true by lia.
    assert (Hlast : nth_error g (Z.to_nat (-1 + L)) = Some z).
    { rewrite <- (Hz (L - 1)) by lia. rewrite (nth_error_nth' g []) by (unfold zlen in Hg; lia).
      f_equal. f_equal. f_equal. lia. }
    rewrite Hlast. destruct (Z.eq_dec k 0) as [->|Hk0].
    + unfold zs. simpl repeat. rewrite app_nil_r. replace (-1 + (L + 0)) with (-1 + L) by lia. rewrite Hlast. reflexivity.
    + rewrite nth_error_app2 by (unfold zlen in Hg; lia). unfold zs.
      rewrite (nth_error_nth' _ []) by (rewrite repeat_length; unfold zlen in Hg; lia).
      rewrite (nth_indep _ [] z) by (rewrite repeat_length; unfold zlen in Hg; lia). rewrite nth_repeat. reflexivity.
  - replace ((0 <=? y) && (y <? L + k)) with true by lia. replace ((0 <=? y) && (y <? L)) with true by lia.
    rewrite nth_error_app1 by (unfold zlen in Hg; lia). reflexivity.
Qed.

Lemma gget_same b g y x : low b g -> b < L -> -1 <= y < L -> gget (g ++ zs) y x = gget g y x.
Proof. intros H Hb Hy. unfold gget. rewrite (row_same b) by assumption. reflexivity. Qed.

(** ** Writing *)
Definition lifted (b : Z) (f : grid -> result grid) : Prop :=
  forall g, zlen g = L ->
    (match f g with Ok g' => f (g ++ zs) = Ok (g' ++ zs) | Err e => f (g ++ zs) = Err e end) /\
    (forall g', f g = Ok g' -> zlen g' = L /\ forall y, b <= y < L -> nth (Z.to_nat y) g' [] = nth (Z.to_nat y) g []).

Lemma lifted_ok b : lifted b (fun g => Ok g).
Proof. intros g Hg. split; [reflexivity|]. intros g' [= <-]. auto. Qed.

Lemma lifted_bind b f h : lifted b f -> lifted b h -> lifted b (fun g => g' <- f g ;; h g').
Proof.
  intros Hf Hh g Hg. destruct (Hf g Hg) as [F1 F2]. destruct (f g) as [g1|e]; cbn [bind].
  - destruct (F2 g1 eq_refl) as [G1 G2]. destruct (Hh g1 G1) as [H1 H2]. rewrite F1. cbn [bind]. split; [exact H1|].
    intros g' E. destruct (H2 g' E) as [K1 K2]. split; [exact K1|]. intros y Hy. rewrite K2, G2 by assumption. reflexivity.
  - rewrite F1. cbn [bind]. split; [reflexivity|discriminate].
Qed.

Lemma lifted_if b (c : bool) f h : lifted b f -> lifted b h -> lifted b (fun g => if c then f g else h g).
Proof. destruct c; auto. Qed.

Lemma lifted_rfold b (f : grid -> Z -> result grid) ys : (forall y, In y ys -> lifted b (fun g => f g y)) -> lifted b (rfold f ys).
Proof.
  induction ys as [|y t IH]; intros H; [exact (lifted_ok b)|].
  assert (E : lifted b (fun g => g' <- f g y ;; rfold f t g')).
  { apply (lifted_bind b (fun g => f g y) (rfold f t)); [apply H; left; reflexivity|apply IH; intros y' Hy; apply H; right; exact Hy]. }
  exact E.
Qed.

Lemma list_set_app {A} (l m : list A) n v : (n < length l)%nat -> list_set (l ++ m) n v = list_set l n v ++ m.
Proof. revert n. induction l as [|a l IH]; intros [|n] H; cbn in *; try lia; [reflexivity|]. f_equal. apply IH. lia. Qed.

Lemma lifted_row b y (f : list Z -> result (list Z)) : 0 <= y < b -> b <= L ->
  lifted b (fun g => row <- py_get g y ;; row' <- f row ;; py_set g y row').
Proof.
  intros Hy Hb g Hg.
  assert (E1 : py_get (g ++ zs) y = py_get g y).
  { unfold py_get. rewrite (zlen_ext g Hg), Hg. unfold py_index. replace ((0 <=? y) && (y <? L + k)) with true by lia.
    replace ((0 <=? y) && (y <? L)) with true by lia. rewrite nth_error_app1 by (unfold zlen in Hg; lia). reflexivity. }
  rewrite E1. destruct (py_get g y) as [row|e]; cbn [bind]; [|split; [reflexivity|discriminate]].
  destruct (f row) as [row'|e]; cbn [bind]; [|split; [reflexivity|discriminate]].
  unfold py_set. rewrite (zlen_ext g Hg), Hg. unfold py_index. replace ((0 <=? y) && (y <? L + k)) with true by lia.
  replace ((0 <=? y) && (y <? L)) with true by lia. split.
  - rewrite list_set_app by (unfold zlen in Hg; lia). reflexivity.
  - intros g' [= <-]. split; [unfold zlen in *; rewrite list_set_length; exact Hg|].
    intros y' Hy'. rewrite nth_list_set by (unfold zlen in Hg; lia).
    destruct (Nat.eqb_spec (Z.to_nat y') (Z.to_nat y)); [lia|reflexivity].
Qed.

Lemma lifted_gset b y x v : 0 <= y < b -> b <= L -> lifted b (fun g => gset g y x v).
Proof. intros H1 H2. exact (lifted_row b y (fun row => py_set row x v) H1 H2). Qed.

Lemma lifted_gfill b y a c v n : 0 <= y < b -> b <= L -> lifted b (fun g => gfill g y a c v n).
Proof. intros H1 H2. exact (lifted_row b y (fun row => Ok (py_slice_set row a c (py_repeat v n))) H1 H2). Qed.

Lemma lifted_paint Xo Yo w l : 0 <= Yo -> 1 <= l -> Yo + l <= L -> lifted (Yo + l) (fun g => paint g Xo Yo w l).
Proof.
  intros HY Hl Hb. unfold paint. cbv zeta.
  apply (lifted_bind (Yo + l) (fun g => if (w >? 2) && (l >? 2) then _ else _)).
  { apply lifted_if; [|apply lifted_ok]. apply lifted_rfold. intros y Hy. rewrite in_zrange in Hy. apply lifted_gfill; lia. }
  apply (lifted_bind (Yo + l) (fun g => if w >? 2 then _ else _)).
  { apply (lifted_if _ _ (fun g => _)); [|apply lifted_ok]. apply (lifted_bind _ (fun g => gfill g Yo _ _ _ _)); [apply lifted_gfill; lia|].
    apply (lifted_if _ _ (fun g => _)); [|apply lifted_ok]. apply lifted_gfill; lia. }
  apply (lifted_bind (Yo + l) (fun g => if l >? 2 then _ else _)).
  { apply lifted_if; [|apply lifted_ok]. apply lifted_rfold. intros y Hy. rewrite in_zrange in Hy.
    apply (lifted_bind _ (fun g => gset g y Xo 2)); [apply lifted_gset; lia|].
    apply (lifted_if _ _ (fun g => _)); [|apply lifted_ok]. apply lifted_gset; lia. }
  apply (lifted_bind _ (fun g => gset g Yo Xo 3)); [apply lifted_gset; lia|].
  apply (lifted_bind _ (fun g => gset g Yo _ 3)); [apply lifted_gset; lia|].
  apply (lifted_bind _ (fun g => gset g _ Xo 3)); [apply lifted_gset; lia|].
  apply lifted_gset; lia.
Qed.

(** ** Reading *)
Section Read.
Context (b : Z) (g : grid) (Hg : low b g) (Hb : b < L).

Ltac same := rewrite ?(gget_same b g) by (assumption || lia).

Lemma rows_free_same Xo w ys : (forall y, In y ys -> 0 <= y < L) -> rows_free (g ++ zs) Xo w ys = rows_free g Xo w ys.
Proof.
  induction ys as [|y t IH]; intros H; [reflexivity|]. cbn [rows_free].
  pose proof (H y (or_introl eq_refl)). rewrite (row_same b) by (assumption || lia).
  apply bind_eq; [reflexivity|]. intros row _. destruct (existsb _ _); [reflexivity|]. apply IH. intros y' Hy. apply H. right. exact Hy.
Qed.

Lemma check_fitting_same Xo Yo w l : 0 <= Yo -> 1 <= l -> Yo + l <= L ->
  check_fitting W (L + k) Xo Yo w l (g ++ zs) = check_fitting W L Xo Yo w l g.
Proof.
  intros HY Hl Hy. unfold check_fitting. same. replace (Yo + l >? L + k) with (Yo + l >? L) by lia.
  apply bind_eq; [reflexivity|]. intros blocked _. destruct blocked; [reflexivity|]. apply rows_free_same.
  intros y Hin. rewrite in_zrange in Hin. lia.
Qed.

Lemma first_fit_same Xo Yo rotation items ids : 0 <= Yo -> (forall i d, dget items i = Some d -> pos_dims d /\ Yo + longest d <= L) ->
  first_fit W (L + k) Xo Yo rotation (g ++ zs) items ids = first_fit W L Xo Yo rotation g items ids.
Proof.
  intros HY Hi. induction ids as [|i t IH]; [reflexivity|]. cbn [first_fit].
  apply bind_eq; [reflexivity|]. intros it E.
  assert (Hd : dget items i = Some it). { unfold dget_r in E. destruct (dget items i); [injection E as ->; reflexivity|discriminate]. }
  destruct (Hi i it Hd) as [[Hw Hl] Hm]. unfold longest in Hm.
  rewrite !check_fitting_same by lia. rewrite IH. reflexivity.
Qed.

(** The ratio looks at the height of the strip (class F or B'). *)
Context (T : Z) (HT : b <= T).
Hypothesis Hfifth : forall d, 0 <= d <= T -> ratio_le_fifth ar d (L + k) = ratio_le_fifth ar d L.

Lemma scan_A_same Ay xs : 0 <= Ay < L -> scan_A_ (g ++ zs) Ay xs = scan_A_ g Ay xs.
Proof. intros H. induction xs as [|x t IH]; [reflexivity|]. cbn [scan_A_]. same. rewrite IH. reflexivity. Qed.

Lemma scan_B_same Bx ys : (forall y, In y ys -> 0 <= y < L) -> scan_B_ (g ++ zs) Bx ys = scan_B_ g Bx ys.
Proof.
  induction ys as [|y t IH]; intros H; [reflexivity|]. cbn [scan_B_]. pose proof (H y (or_introl eq_refl)). same.
  rewrite IH; [reflexivity|]. intros y' Hy. apply H. right. exact Hy.
Qed.

Lemma scan_B_range Bx hi ys y : (forall y, In y ys -> 0 <= y < hi) -> scan_B_ g Bx ys = Ok (Some y) -> 0 <= y <= hi.
Proof.
  induction ys as [|a t IH]; intros H; cbn [scan_B_]; [discriminate|].
  pose proof (H a (or_introl eq_refl)) as Ha. assert (Ht : forall y, In y t -> 0 <= y < hi) by (intros y' Hy; apply H; right; exact Hy).
  destruct (gget g a Bx); [|discriminate]. cbn [bind]. destruct (gget g a (Bx - 1)); [|discriminate]. cbn [bind].
  repeat match goal with |- context [if ?c then _ else _] => destruct c end; try discriminate;
    try (intros [= <-]; lia); apply IH; exact Ht.
Qed.

Lemma generate_points_same Xo Yo w l : 0 <= Yo -> 1 <= l -> Yo + l <= b ->
  generate_points ar (g ++ zs) W (L + k) Xo Yo w l = generate_points ar g W L Xo Yo w l.
Proof.
  intros HY Hl Hy. unfold generate_points. cbv zeta.
  apply bind_eq; [|intros ga _; apply bind_eq; [|intros gb _; apply bind_eq; [|intros gc _; apply bind_eq; [|reflexivity]]]].
  - unfold gen_A_side. apply bind_eq.
    { unfold gen_A_cond. same. replace (Yo + l <? L + k) with (Yo + l <? L) by lia. reflexivity. }
    intros A_gen _. apply bind_eq.
    { unfold gen_A_flags. same. replace (Yo + l >=? L + k) with (Yo + l >=? L) by lia. reflexivity. }
    intros [a1 a2] _. apply bind_eq.
    { unfold gen_A_prime_cond. same. replace (Yo + l <? L + k) with (Yo + l <? L) by lia. reflexivity. }
    intros scan _. destruct scan; [|reflexivity]. rewrite scan_A_same by lia. reflexivity.
  - unfold gen_B_side. apply bind_eq; [unfold gen_B_cond; same; reflexivity|]. intros B_gen _.
    apply bind_eq; [unfold gen_B_flags; same; reflexivity|]. intros [a1 a2] _.
    apply bind_eq; [unfold gen_B_prime_cond; same; reflexivity|]. intros scan _.
    assert (Hr : forall y, In y (zrange_down (Yo - 1)) -> 0 <= y < Yo) by (intros y Hin; rewrite in_zrange_down in Hin; lia).
    apply bind_eq; [destruct scan; [apply scan_B_same; intros y Hin; specialize (Hr y Hin); lia|reflexivity]|].
    intros [y|] E; [|reflexivity]. rewrite Hfifth; [reflexivity|].
    destruct scan; [|discriminate]. pose proof (scan_B_range _ Yo _ _ Hr E). lia.
  - replace (Yo + l <? L + k) with (Yo + l <? L) by lia. destruct (Yo + l <? L); [|reflexivity].
    apply rmap_ext. intros x. unfold gen_C. same. reflexivity.
  - destruct (Xo + w <? W); [|reflexivity].
    assert (E : forall ys, (forall y, In y ys -> Yo <= y < Yo + l - 1) -> rmap (gen_D (g ++ zs) (Xo + w)) ys = rmap (gen_D g (Xo + w)) ys).
    { induction ys as [|y t IH]; intros H; [reflexivity|]. cbn [rmap]. pose proof (H y (or_introl eq_refl)).
      unfold gen_D at 1 3. same. apply bind_eq; [reflexivity|]. intros ? _. rewrite IH; [reflexivity|]. intros y' Hy'. apply H. right. exact Hy'. }
    apply E. intros y Hin. rewrite in_zrange in Hin. lia.
Qed.

(** Where the points are. *)
Lemma gen_D_points Bx ys gd c x y lo hi : (forall y, In y ys -> lo <= y < hi) -> rmap (gen_D g Bx) ys = Ok gd -> In (c, (x, y)) (concat gd) -> lo <= y <= hi.
Proof.
  revert gd. induction ys as [|a t IH]; intros gd H E Hin; cbn [rmap] in E; [injection E as <-; destruct Hin|].
  pose proof (H a (or_introl eq_refl)) as Ha.
  destruct (gen_D g Bx a) as [d|] eqn:Ed; [|discriminate]. cbn [bind] in E.
  destruct (rmap (gen_D g Bx) t) as [ds|] eqn:Es; [|discriminate]. injection E as <-. cbn [concat] in Hin. apply in_app_or in Hin.
  destruct Hin as [Hin|Hin]; [|eapply IH; [intros y' Hy'; apply H; right; exact Hy'|reflexivity|exact Hin]].
  unfold gen_D in Ed. destruct (rand_ _ _) as [[]|]; [|injection Ed as <-; destruct Hin|discriminate]. injection Ed as <-. destruct Hin as [Hin|[]]. injection Hin as _ _ <-. lia.
Qed.

Lemma gen_C_points Ay xs gc c x y : rmap (gen_C g Ay) xs = Ok gc -> In (c, (x, y)) (concat gc) -> y = Ay.
Proof.
  revert gc. induction xs as [|a t IH]; intros gc E Hin; cbn [rmap] in E; [injection E as <-; destruct Hin|].
  destruct (gen_C g Ay a) as [d|] eqn:Ed; [|discriminate]. cbn [bind] in E.
  destruct (rmap (gen_C g Ay) t) as [ds|] eqn:Es; [|discriminate]. injection E as <-. cbn [concat] in Hin. apply in_app_or in Hin.
  destruct Hin as [Hin|Hin]; [|eapply IH; [reflexivity|exact Hin]].
  unfold gen_C in Ed. destruct (rand_ _ _) as [[]|]; [|injection Ed as <-; destruct Hin|discriminate]. injection Ed as <-. destruct Hin as [Hin|[]]. injection Hin as _ _ <-. reflexivity.
Qed.

Lemma generate_points_low Xo Yo w l ps c x y : 0 <= Yo -> 1 <= l ->
  generate_points ar g W L Xo Yo w l = Ok ps -> In (c, (x, y)) ps -> 0 <= y <= Yo + l.
Proof.
  intros HY Hl. unfold generate_points. cbv zeta.
  destruct (gen_A_side ar g W L Xo (Yo + l)) as [ga|] eqn:Ea; [|discriminate]. cbn [bind].
  destruct (gen_B_side ar g W L Yo (Xo + w)) as [gb|] eqn:Eb; [|discriminate]. cbn [bind].
  destruct (if Yo + l <? L then _ else _) as [gc|] eqn:Ec; [|discriminate]. cbn [bind].
  destruct (if Xo + w <? W then _ else _) as [gd|] eqn:Ed; [|discriminate]. cbn [bind]. intros [= <-] Hin.
  rewrite !in_app_iff in Hin. destruct Hin as [Hin|[Hin|[Hin|Hin]]].
  - unfold gen_A_side in Ea. destruct (gen_A_cond _ _ _ _) as [A_gen|]; [|discriminate]. cbn [bind] in Ea.
    destruct (gen_A_flags _ _ _ _) as [[a1 a2]|]; [|discriminate]. cbn [bind] in Ea.
    destruct (gen_A_prime_cond _ _ _ _ _ _) as [scan|]; [|discriminate]. cbn [bind] in Ea.
    destruct (if scan then _ else _) as [o|]; [|discriminate]. injection Ea as <-. rewrite !in_app_iff in Hin.
    destruct Hin as [Hin|[Hin|Hin]].
    + destruct A_gen; [|destruct Hin]. destruct Hin as [Hin|[]]. injection Hin as _ _ <-. lia.
    + destruct o; [|destruct Hin]. destruct Hin as [Hin|[]]. injection Hin as _ _ <-. lia.
    + destruct (negb A_gen && a1); [|destruct Hin]. destruct Hin as [Hin|[]]. injection Hin as _ _ <-. lia.
  - unfold gen_B_side in Eb. destruct (gen_B_cond _ _ _ _) as [B_gen|]; [|discriminate]. cbn [bind] in Eb.
    destruct (gen_B_flags _ _ _ _) as [[a1 a2]|]; [|discriminate]. cbn [bind] in Eb.
    destruct (gen_B_prime_cond _ _ _ _ _ _) as [scan|]; [|discriminate]. cbn [bind] in Eb.
    destruct (if scan then _ else _) as [o|] eqn:Eo; [|discriminate]. injection Eb as <-. rewrite !in_app_iff in Hin.
    destruct Hin as [Hin|[Hin|Hin]].
    + destruct B_gen; [|destruct Hin]. destruct Hin as [Hin|[]]. injection Hin as _ _ <-. lia.
    + destruct o as [y'|]; [|destruct Hin]. destruct Hin as [Hin|[]]. injection Hin as _ _ <-.
      destruct scan; [|discriminate].
      assert (Hr : forall y, In y (zrange_down (Yo - 1)) -> 0 <= y < Yo) by (intros a Ha; rewrite in_zrange_down in Ha; lia).
      pose proof (scan_B_range _ Yo _ _ Hr Eo). lia.
    + destruct (negb B_gen && a1); [|destruct Hin]. destruct Hin as [Hin|[]]. injection Hin as _ _ <-. lia.
  - destruct (Yo + l <? L); [|injection Ec as <-; destruct Hin]. rewrite (gen_C_points _ _ _ _ _ _ Ec Hin). lia.
  - destruct (Xo + w <? W); [|injection Ed as <-; destruct Hin].
    assert (Hr : forall y, In y (zrange Yo (Yo + l - 1)) -> Yo <= y < Yo + l - 1) by (intros a Ha; rewrite in_zrange in Ha; lia).
    pose proof (gen_D_points _ _ _ _ _ _ _ _ Hr Ed Hin). lia.
Qed.
End Read.

(** ** The loop of [_construct_solution] *)
Section Run.
Context (T : Z) (HT : T < L).
Hypothesis Hfifth : forall d, 0 <= d <= T -> ratio_le_fifth ar d (L + k) = ratio_le_fifth ar d L.
Context (rotation : bool) (strategy : list pclass).

Definition ext (s : cstate ar) : cstate ar :=
  mkState (st_items s) (st_ids s) (st_obj s) (st_grid s ++ zs) (st_pools s) (st_cur s) (st_sol s) (st_pending s).

Record tall (b : Z) (s : cstate ar) : Prop := {
  t_low : low b (st_grid s);
  t_b : 0 <= b;
  t_reach : b + reach (st_items s) <= T;
  t_pos : Forall (fun kv => pos_dims (snd kv)) (st_items s);
  t_pools : forall c p, In p (st_pools s c) -> 0 <= snd p <= b;
  t_cur : forall p, st_cur s = Some p -> 0 <= snd p <= b }.

Lemma first_fit_item W' L' X Y g (items : odict dims) ids i it rot :
  first_fit W' L' X Y rotation g items ids = Ok (Some (i, it, rot)) -> dget items i = Some it.
Proof.
  induction ids as [|j t IH]; cbn [first_fit]; [discriminate|].
  unfold dget_r. destruct (dget items j) as [e|] eqn:E; [|discriminate]. cbn [bind].
  destruct (check_fitting _ _ _ _ (dw e) (dl e) g) as [c1|]; [|discriminate]. cbn [bind].
  destruct c1; [intros [= <- <- <-]; exact E|]. destruct rotation; [|exact IH].
  destruct (check_fitting _ _ _ _ (dl e) (dw e) g) as [c2|]; [|discriminate]. cbn [bind].
  destruct c2; [intros [= <- <- <-]; exact E|exact IH].
Qed.

Lemma place_item_ext b s Xo Yo i it rot : tall b s -> 0 <= Yo <= b -> dget (st_items s) i = Some it ->
  (place_item ar W (L + k) true (ext s) Xo Yo i it rot = bind (place_item ar W L true s Xo Yo i it rot) (fun s' => Ok (ext s'))) /\
  (forall s', place_item ar W L true s Xo Yo i it rot = Ok s' -> exists b', b <= b' /\ tall b' s').
Proof.
  intros Hs HY Hi. destruct Hs as [Hlow Hb Hr Hp Hpp Hc].
  pose proof (reach_del _ _ _ Hi) as Hd. pose proof (dget_pos _ _ _ Hp Hi) as [Hw Hl].
  pose proof (reach_nonneg _ (ddel_pos _ i Hp)) as Hn. unfold longest in Hd.
  unfold place_item. cbv zeta. set (w := if rot then dl it else dw it). set (l := if rot then dw it else dl it).
  assert (Hl1 : 1 <= l) by (unfold l; destruct rot; lia).
  assert (Hl2 : l <= Z.max (dw it) (dl it)) by (unfold l; destruct rot; lia).
  destruct (lifted_paint Xo Yo w l ltac:(lia) Hl1 ltac:(lia) (st_grid s) (proj1 Hlow)) as [P1 P2].
  set (b' := Z.max b (Yo + l)).
  assert (Hb' : forall g', paint (st_grid s) Xo Yo w l = Ok g' -> low b' g').
  { intros g' E. destruct (P2 g' E) as [Q1 Q2]. split; [exact Q1|]. intros y Hy. rewrite Q2 by lia. apply (proj2 Hlow). lia. }
  cbn [st_grid st_items st_ids st_obj st_pools st_cur st_sol st_pending ext].
  destruct (paint (st_grid s) Xo Yo w l) as [g'|e] eqn:Ep; [|rewrite P1; split; [reflexivity|discriminate]].
  specialize (Hb' g' eq_refl). rewrite P1. cbn [bind].
  rewrite (generate_points_same b' g' Hb' ltac:(lia) T ltac:(lia) Hfifth) by lia.
  destruct (generate_points ar g' W L Xo Yo w l) as [ps|e] eqn:Eg; cbn [bind]; [|split; [reflexivity|discriminate]].
  split; [reflexivity|]. intros s' [= <-]. exists b'. split; [lia|]. constructor; cbn [st_grid st_items st_pools st_cur].
  - exact Hb'.
  - lia.
  - lia.
  - apply ddel_pos. exact Hp.
  - intros c [x y] Hin. apply in_pools_extend in Hin. destruct Hin as [Hin|Hin].
    + specialize (Hpp _ _ Hin). lia.
    + cbn [snd]. assert (Q : 0 <= y <= Yo + l) by (eapply generate_points_low with (T := T); eassumption || lia). lia.
  - intros p Ecur. specialize (Hc p Ecur). lia.
Qed.

Lemma loop_body_ext b s p : tall b s -> st_cur s = Some p ->
  (loop_body ar W (L + k) true rotation strategy (ext s) p = bind (loop_body ar W L true rotation strategy s p) (fun s' => Ok (ext s'))) /\
  (forall s', loop_body ar W L true rotation strategy s p = Ok s' -> exists b', b <= b' /\ tall b' s').
Proof.
  intros Hs Hcur. destruct p as [Xo Yo]. pose proof (t_cur _ _ Hs _ Hcur) as HY. cbn in HY. unfold loop_body.
  cbn [st_grid st_items st_ids ext].
  assert (Hfit : forall i d, dget (st_items s) i = Some d -> pos_dims d /\ Yo + longest d <= L).
  { intros i d Hi. split; [eapply dget_pos; [apply Hs|exact Hi]|].
    pose proof (reach_del _ _ _ Hi). pose proof (reach_nonneg _ (ddel_pos _ i (t_pos _ _ Hs))). pose proof (t_reach _ _ Hs). lia. }
  assert (Hbl : b < L). { pose proof (reach_nonneg _ (t_pos _ _ Hs)). pose proof (t_reach _ _ Hs). lia. }
  rewrite (first_fit_same b (st_grid s) (t_low _ _ Hs) Hbl Xo Yo rotation (st_items s) (st_ids s) ltac:(lia) Hfit).
  destruct (first_fit W L Xo Yo rotation (st_grid s) (st_items s) (st_ids s)) as [found|e] eqn:Ef; cbn [bind]; [|split; [reflexivity|discriminate]].
  assert (H : (match found with Some (i, it, rot) => place_item ar W (L + k) true (ext s) Xo Yo i it rot | None => Ok (ext s) end
               = bind (match found with Some (i, it, rot) => place_item ar W L true s Xo Yo i it rot | None => Ok s end) (fun s' => Ok (ext s'))) /\
              (forall s', match found with Some (i, it, rot) => place_item ar W L true s Xo Yo i it rot | None => Ok s end = Ok s' -> exists b', b <= b' /\ tall b' s')).
  { destruct found as [[[i it] rot]|].
    - apply place_item_ext; [exact Hs|exact HY|]. eapply first_fit_item. exact Ef.
    - split; [reflexivity|]. intros s' [= <-]. exists b. split; [lia|exact Hs]. }
  destruct H as [H1 H2]. rewrite H1. clear H1.
  destruct (match found with Some (i, it, rot) => place_item ar W L true s Xo Yo i it rot | None => Ok s end) as [s1|e]; cbn [bind]; [|split; [reflexivity|discriminate]].
  destruct (H2 s1 eq_refl) as [b' [Hb' Hs1]]. cbn [st_items st_ids st_obj st_grid st_pools st_cur st_sol st_pending ext].
  destruct (get_current_point strategy (st_pools s1)) as [cur pp] eqn:Eg. split; [reflexivity|].
  intros s' [= <-]. exists b'. split; [exact Hb'|]. apply get_current_point_spec in Eg.
  constructor; cbn; try apply Hs1.
  - intros c q Hq. destruct cur as [q0|]; [|destruct Eg as [-> _]; exact (t_pools _ _ Hs1 c q Hq)].
    destruct Eg as [c0 [E1 [E2 E3]]]. destruct (pclass_eqb c c0) eqn:Ec.
    + assert (c = c0) as -> by (destruct c, c0; (reflexivity || discriminate)). apply (t_pools _ _ Hs1 c0). rewrite E2. right. exact Hq.
    + apply (t_pools _ _ Hs1 c). rewrite <- E3; [exact Hq|]. intros ->. destruct c0; discriminate.
  - intros q ->. destruct Eg as [c0 [E1 [E2 E3]]]. apply (t_pools _ _ Hs1 c0). rewrite E2. left. reflexivity.
Qed.

Lemma construct_loop_ext n : forall b s, tall b s ->
  (construct_loop ar n W (L + k) true rotation strategy (ext s) = bind (construct_loop ar n W L true rotation strategy s) (fun s' => Ok (ext s'))) /\
  (forall s', construct_loop ar n W L true rotation strategy s = Ok s' -> exists b', b <= b' /\ tall b' s').
Proof.
  induction n as [|n IH]; intros b s Hs; cbn [construct_loop].
  - change (st_cur (ext s)) with (st_cur s). change (st_ids (ext s)) with (st_ids s). change (st_obj (ext s)) with (st_obj s).
    assert (K : forall s', Ok s = Ok s' -> exists b', b <= b' /\ tall b' s') by (intros s' [= <-]; exists b; split; [lia|exact Hs]).
    destruct (st_cur s) eqn:Ec; [|split; [reflexivity|exact K]].
    destruct (st_ids s); [split; [reflexivity|exact K]|]. destruct (ngeb ar (st_obj s) (num1 ar)); [split; [reflexivity|exact K]|].
    split; [reflexivity|discriminate].
  - change (st_cur (ext s)) with (st_cur s). change (st_ids (ext s)) with (st_ids s). change (st_obj (ext s)) with (st_obj s).
    assert (K : forall s', Ok s = Ok s' -> exists b', b <= b' /\ tall b' s') by (intros s' [= <-]; exists b; split; [lia|exact Hs]).
    destruct (st_cur s) as [p|] eqn:Ec; [|split; [reflexivity|exact K]].
    destruct (st_ids s) eqn:Ei; [split; [reflexivity|exact K]|]. destruct (ngeb ar (st_obj s) (num1 ar)) eqn:Eo; [split; [reflexivity|exact K]|].
    destruct (loop_body_ext b s p Hs Ec) as [B1 B2].
    rewrite B1.
    destruct (loop_body ar W L true rotation strategy s p) as [s1|e]; cbn [bind]; [|split; [reflexivity|discriminate]].
    destruct (B2 s1 eq_refl) as [b1 [Hb1 Hs1]]. destruct (IH b1 s1 Hs1) as [I1 I2]. split; [exact I1|].
    intros s' E. destruct (I2 s' E) as [b2 [Hb2 Hs2]]. exists b2. split; [lia|exact Hs2].
Qed.

(** The topmost used row. *)
Lemma z_zero : existsb nonzero z = false.
Proof. unfold z, py_repeat. induction (Z.to_nat W) as [|n IH]; [reflexivity|exact IH]. Qed.

Lemma top_row_app g ys zs' : (forall y, In y zs' -> exists row, py_get g y = Ok row /\ existsb nonzero row = false) ->
  top_row g (zs' ++ ys) = top_row g ys.
Proof.
  induction zs' as [|y t IH]; intros H; [reflexivity|]. cbn [app top_row].
  destruct (H y (or_introl eq_refl)) as [row [E1 E2]]. rewrite E1. cbn [bind]. rewrite E2. apply IH. intros y' Hy. apply H. right. exact Hy.
Qed.

Lemma top_row_same b g ys : low b g -> b < L -> (forall y, In y ys -> 0 <= y < L) -> top_row (g ++ zs) ys = top_row g ys.
Proof.
  intros Hg Hb. induction ys as [|y t IH]; intros H; [reflexivity|]. cbn [top_row].
  rewrite (row_same b) by (assumption || (pose proof (H y (or_introl eq_refl)); lia)).
  apply bind_eq; [reflexivity|]. intros row _. rewrite IH; [reflexivity|]. intros y' Hy. apply H. right. exact Hy.
Qed.

Lemma strip_rows_split : exists zs', strip_rows (L + k) = zs' ++ strip_rows L /\ forall y, In y zs' -> L <= y < L + k.
Proof.
  unfold strip_rows. exists (map (fun y => L + k - y) (zrange 1 (1 + k))). split.
  - assert (E : zrange 1 (L + k) = zrange 1 (1 + k) ++ zrange (1 + k) (L + k)).
    { unfold zrange. replace (Z.to_nat (L + k - 1)) with (Z.to_nat (1 + k - 1) + Z.to_nat (L + k - (1 + k)))%nat by lia.
      rewrite seq_app, map_app. f_equal. replace (0 + Z.to_nat (1 + k - 1))%nat with (Z.to_nat (1 + k - 1) + 0)%nat by lia.
      rewrite <- (map_id (seq 0 _)) at 1.
      assert (G : forall m a, map (fun n => 1 + Z.of_nat n) (seq (Z.to_nat (1 + k - 1) + a) m) = map (fun n => 1 + k + Z.of_nat n) (seq a m)).
      { induction m as [|m IHm]; intros a; [reflexivity|]. cbn [seq map]. f_equal; [lia|].
        replace (S (Z.to_nat (1 + k - 1) + a)) with (Z.to_nat (1 + k - 1) + S a)%nat by lia. apply IHm. }
      rewrite map_id. apply G. }
    rewrite E, map_app. f_equal. unfold zrange. rewrite !map_map.
    replace (Z.to_nat (L + k - (1 + k))) with (Z.to_nat (L - 1)) by lia. apply map_ext. intros a. lia.
  - intros y Hin. apply in_map_iff in Hin. destruct Hin as [x [<- Hx]]. rewrite in_zrange in Hx. lia.
Qed.

Lemma strip_rows_range y : In y (strip_rows L) -> 0 <= y < L.
Proof. unfold strip_rows. intros H. apply in_map_iff in H. destruct H as [x [<- Hx]]. rewrite in_zrange in Hx. lia. Qed.

Lemma top_row_ext b g : low b g -> b < L -> top_row (g ++ zs) (strip_rows (L + k)) = top_row g (strip_rows L).
Proof.
  intros Hg Hb. destruct strip_rows_split as [zs' [E Hz]]. rewrite E.
  rewrite top_row_app.
  - eapply top_row_same; [exact Hg|exact Hb|exact strip_rows_range].
  - intros y Hin. specialize (Hz y Hin). exists z. split; [|exact z_zero].
    unfold py_get. rewrite (zlen_ext g (proj1 Hg)). unfold py_index. replace ((0 <=? y) && (y <? L + k)) with true by lia.
    pose proof (proj1 Hg) as Hlen. unfold zlen in Hlen.
    rewrite nth_error_app2 by lia. unfold zs.
    rewrite (nth_error_nth' _ []) by (rewrite repeat_length; lia).
    rewrite (nth_indep _ [] z) by (rewrite repeat_length; lia). rewrite nth_repeat. reflexivity.
Qed.

Lemma seq_map_const {A} (a : A) n : forall m, map (fun _ => a) (map (fun i => 0 + Z.of_nat i) (seq m n)) = repeat a n.
Proof. induction n as [|n IH]; intros m; [reflexivity|]. cbn [seq map repeat]. f_equal. apply IH. Qed.

Lemma empty_grid_repeat L' : empty_grid W L' = repeat z (Z.to_nat L').
Proof. unfold empty_grid, zrange. replace (L' - 0) with L' by lia. apply seq_map_const. Qed.

Lemma empty_grid_ext : empty_grid W (L + k) = empty_grid W L ++ zs.
Proof. rewrite !empty_grid_repeat. unfold zs. rewrite <- repeat_app. f_equal. lia. Qed.

Lemma empty_grid_low : low 0 (empty_grid W L).
Proof.
  rewrite empty_grid_repeat. split; [unfold zlen; rewrite repeat_length; lia|].
  intros y Hy. rewrite (nth_indep _ [] z) by (rewrite repeat_length; lia). apply nth_repeat.
Qed.

(** ** One strip *)
Theorem construct_solution_tall items : Forall (fun kv => pos_dims (snd kv)) items -> reach items <= T ->
  construct_solution ar W (L + k) true rotation strategy items = construct_solution ar W L true rotation strategy items.
Proof.
  intros Hp Hr. unfold construct_solution.
  assert (H0 : tall 0 (init_state ar W L items)).
  { constructor; cbn [st_grid st_items st_pools st_cur init_state].
    - exact empty_grid_low.
    - lia.
    - lia.
    - exact Hp.
    - intros c p Hin. destruct c; destruct Hin.
    - intros p [= <-]. cbn. lia. }
  replace (init_state ar W (L + k) items) with (ext (init_state ar W L items)) by (unfold ext, init_state; cbn; rewrite empty_grid_ext; reflexivity).
  destruct (construct_loop_ext (construct_fuel items) 0 _ H0) as [E1 E2]. rewrite E1.
  destruct (construct_loop ar (construct_fuel items) W L true rotation strategy (init_state ar W L items)) as [s|e]; cbn [bind]; [|reflexivity].
  destruct (E2 s eq_refl) as [b [Hb Hs]]. cbn [st_grid st_items st_sol st_pending ext].
  rewrite (top_row_ext b) by (try apply Hs; pose proof (reach_nonneg _ (t_pos _ _ Hs)); pose proof (t_reach _ _ Hs); lia).
  reflexivity.
Qed.
End Run.
End Tall.
