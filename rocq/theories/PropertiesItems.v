(** * Properties of [orient_items()] and [sort_items()]: C43, C44. *)
From Coq Require Import ZArith String List Bool QArith Lia Permutation Sorted OrderedTypeEx.
From Coq Require Import ZifyBool.
From Verif Require Import Py Arith Construct Spec LocalSearch SpecSearch ItemsManip
  ProofsPy ProofsValues PropertiesSolve PropertiesSearch.
Import ListNotations.
Open Scope string_scope.
Open Scope list_scope.
Open Scope Z_scope.

(** ** Vocabulary *)

(** The documented value items are sorted by. *)
Definition criterion (by_ : string) (d : dims) : option Q :=
  if string_dec by_ "area" then Some (inject_Z (dw d * dl d))
  else if string_dec by_ "perimeter" then Some (inject_Z (2 * (dw d + dl d)))
  else if string_dec by_ "longest_side_ratio"
  then Some (inject_Z (Z.max (dw d) (dl d)) / inject_Z (Z.min (dw d) (dl d)))%Q
  else None.

(** [a] comes before [b] in ascending order: smaller value, or the same value and a smaller id
    (code point order). *)
Definition comes_before (by_ : string) (a b : string * dims) : Prop :=
  exists ka kb, criterion by_ (snd a) = Some ka /\ criterion by_ (snd b) = Some kb /\
    ((ka < kb)%Q \/ ((ka == kb)%Q /\ String.compare (fst a) (fst b) = Lt)).

(** The same instance but for the items; the solution is reset. *)
Definition items_replaced {ar} (x : inst ar) (items : odict dims) (y : inst ar) : Prop :=
  in_pb y = mkProblem (pb_containers (in_pb x)) items (pb_rotation (in_pb x))
                      (pb_strategy (in_pb x)) (pb_strip (in_pb x)) (pb_height (in_pb x)) /\
  in_min y = in_min x /\ in_cnum y = in_cnum x /\ in_sol y = [] /\ in_objs y = [] /\
  in_hist y = in_hist x.

(** Comparing ratios of sides up to [n] as the exact ratios compare; true of [qarith] for every
    [n], of doubles up to 2^25 (PropertiesFloat.v). *)
Definition exact_ratios (ar : arith) (n : Z) : Prop :=
  forall a b c d, 0 < a <= n -> 0 < b <= n -> 0 < c <= n -> 0 < d <= n ->
    ngtb ar (ndiv ar a b) (ndiv ar c d) = true <-> (inject_Z c / inject_Z d < inject_Z a / inject_Z b)%Q.

Definition sides_up_to (n : Z) (d : dims) : Prop := dw d <= n /\ dl d <= n.

Lemma qarith_exact n : exact_ratios qarith n.
Proof.
  intros a b c d [Ha _] [Hb _] [Hc _] [Hd _]. cbn [ngtb ndiv qarith]. unfold Qgtb. rewrite negb_true_iff.
  rewrite <- (Qdivz_spec a b), <- (Qdivz_spec c d) by assumption.
  split.
  - intros E. apply Qnot_le_lt. intros C. apply Qle_bool_iff in C. congruence.
  - intros H. destruct (Qle_bool (Qdivz a b) (Qdivz c d)) eqn:E; [|reflexivity].
    apply Qle_bool_iff in E. exfalso. apply (Qlt_not_le _ _ H). assumption.
Qed.

(** ** Sorting *)
Section Sorting.
Context {A : Type} (lt : A -> A -> bool).

Lemma insert_perm a l : Permutation (insert_sorted lt a l) (a :: l).
Proof.
  induction l as [|b t IH]; [reflexivity|]. cbn [insert_sorted]. destruct (lt b a); [|reflexivity].
  rewrite IH. apply perm_swap.
Qed.

Lemma py_sort_perm l : Permutation (py_sort lt l) l.
Proof. induction l as [|a t IH]; [constructor|]. cbn [py_sort]. rewrite insert_perm, IH. reflexivity. Qed.

Context (P : A -> Prop) (R : A -> A -> Prop).
Context (HR : forall a b, P a -> P b -> lt a b = true <-> R a b).
Context (Htrans : forall a b c, R a b -> R b c -> R a c).

Lemma insert_ordered a l : P a -> Forall P l -> (forall b, In b l -> R a b \/ R b a) ->
  StronglySorted R l -> StronglySorted R (insert_sorted lt a l).
Proof.
  intros Pa. induction l as [|b t IH]; intros Hp Htot Hs; [repeat constructor|].
  cbn [insert_sorted]. inversion Hp as [|? ? Pb Pt]; subst. inversion Hs as [|? ? Hst Hfa]; subst.
  destruct (lt b a) eqn:E.
  - constructor.
    + apply IH; [assumption| |assumption]. intros c Hc. apply Htot. right. assumption.
    + apply Forall_forall. intros c Hc. apply (Permutation_in _ (insert_perm a t)) in Hc.
      destruct Hc as [<-|Hc]; [apply HR; assumption|].
      rewrite Forall_forall in Hfa. apply Hfa. assumption.
  - assert (Hab : R a b).
    { destruct (Htot b (or_introl eq_refl)) as [H|H]; [assumption|].
      apply HR in H; [congruence|assumption|assumption]. }
    constructor; [constructor; assumption|]. constructor; [assumption|].
    eapply Forall_impl; [|exact Hfa]. intros c Hc. eapply Htrans; eassumption.
Qed.

Lemma py_sort_sorted l : Forall P l -> ForallOrdPairs (fun a b => R a b \/ R b a) l ->
  StronglySorted R (py_sort lt l).
Proof.
  intros Hp Ho. induction Ho as [|a t Ha Ho IH]; [constructor|]. inversion Hp; subst. cbn [py_sort].
  apply insert_ordered; [assumption| | |apply IH; assumption].
  - apply Forall_forall. intros b Hb. apply (Permutation_in _ (py_sort_perm t)) in Hb.
    match goal with H : Forall P t |- _ => rewrite Forall_forall in H; apply H; assumption end.
  - intros b Hb. apply (Permutation_in _ (py_sort_perm t)) in Hb. rewrite Forall_forall in Ha. auto.
Qed.
End Sorting.

Lemma str_lt_trans a b c : String.compare a b = Lt -> String.compare b c = Lt -> String.compare a c = Lt.
Proof.
  change String.compare with String_as_OT.cmp. rewrite !String_as_OT.cmp_lt. apply String_as_OT.lt_trans.
Qed.

Lemma str_total a b : a <> b -> String.compare a b = Lt \/ String.compare b a = Lt.
Proof.
  intros H. destruct (String.compare a b) eqn:E.
  - apply String.compare_eq_iff in E. contradiction.
  - left. reflexivity.
  - right. rewrite String.compare_antisym, E. reflexivity.
Qed.

Lemma str_ltb a b : String.ltb a b = true <-> String.compare a b = Lt.
Proof. unfold String.ltb. destruct (String.compare a b); split; congruence. Qed.

Lemma comes_before_trans by_ a b c :
  comes_before by_ a b -> comes_before by_ b c -> comes_before by_ a c.
Proof.
  intros [ka [kb [Ha [Hb H1]]]] [kb' [kc [Hb' [Hc H2]]]]. rewrite Hb in Hb'. injection Hb' as <-.
  exists ka, kc. split; [assumption|]. split; [assumption|].
  destruct H1 as [H1|[E1 H1]], H2 as [H2|[E2 H2]].
  - left. eapply Qlt_trans; eassumption.
  - left. rewrite <- E2. assumption.
  - left. rewrite E1. assumption.
  - right. split; [rewrite E1; assumption|]. eapply str_lt_trans; eassumption.
Qed.

Lemma key_lt_spec ar n by_ lt : key_lt ar by_ = Some lt ->
  (by_ = "longest_side_ratio" -> exact_ratios ar n) ->
  forall a b, pos_dims a -> pos_dims b -> sides_up_to n a -> sides_up_to n b ->
  exists ka kb, criterion by_ a = Some ka /\ criterion by_ b = Some kb /\ (lt a b = true <-> (ka < kb)%Q).
Proof.
  intros H Hr a b [Ha1 Ha2] [Hb1 Hb2] [Na1 Na2] [Nb1 Nb2]. unfold key_lt in H. unfold criterion.
  destruct (String.eqb_spec by_ "area") as [->|N1].
  { injection H as <-. destruct (string_dec "area" "area"); [|congruence].
    eexists _, _. split; [reflexivity|]. split; [reflexivity|]. rewrite <- Zlt_Qlt. lia. }
  destruct (String.eqb_spec by_ "perimeter") as [->|N2].
  { injection H as <-. destruct (string_dec "perimeter" "area"); [discriminate|].
    destruct (string_dec "perimeter" "perimeter"); [|congruence].
    eexists _, _. split; [reflexivity|]. split; [reflexivity|]. rewrite <- Zlt_Qlt. lia. }
  destruct (String.eqb_spec by_ "longest_side_ratio") as [->|N3]; [|discriminate].
  injection H as <-. destruct (string_dec "longest_side_ratio" "area"); [discriminate|].
  destruct (string_dec "longest_side_ratio" "perimeter"); [discriminate|].
  destruct (string_dec "longest_side_ratio" "longest_side_ratio"); [|congruence].
  eexists _, _. split; [reflexivity|]. split; [reflexivity|]. apply (Hr eq_refl); lia.
Qed.

Lemma elem_lt_spec ar n by_ lt : key_lt ar by_ = Some lt ->
  (by_ = "longest_side_ratio" -> exact_ratios ar n) ->
  forall a b, pos_dims (snd a) -> pos_dims (snd b) -> sides_up_to n (snd a) -> sides_up_to n (snd b) ->
  (elem_lt lt a b = true <-> comes_before by_ a b).
Proof.
  intros H Hr a b Ha Hb Na Nb. unfold elem_lt, comes_before.
  destruct (key_lt_spec ar n by_ lt H Hr _ _ Ha Hb Na Nb) as [ka [kb [Ka [Kb L1]]]].
  destruct (key_lt_spec ar n by_ lt H Hr _ _ Hb Ha Nb Na) as [kb' [ka' [Kb' [Ka' L2]]]].
  rewrite Ka in Ka'. rewrite Kb in Kb'. injection Ka' as <-. injection Kb' as <-.
  split.
  - intros E. exists ka, kb. split; [assumption|]. split; [assumption|].
    destruct (lt (snd a) (snd b)) eqn:E1; [left; apply L1; reflexivity|].
    destruct (lt (snd b) (snd a)) eqn:E2; [discriminate|]. right.
    split; [|apply str_ltb; assumption].
    apply Qle_antisym; apply Qnot_lt_le; intros C.
    + apply L2 in C. congruence.
    + apply L1 in C. congruence.
  - intros [ka' [kb' [Ka' [Kb' D]]]]. rewrite Ka in Ka'. rewrite Kb in Kb'.
    injection Ka' as <-. injection Kb' as <-.
    destruct (lt (snd a) (snd b)) eqn:E1; [reflexivity|].
    destruct D as [D|[D D']]; [apply L1 in D; congruence|].
    destruct (lt (snd b) (snd a)) eqn:E2; [|apply str_ltb; assumption].
    exfalso. assert (C : (kb < ka)%Q) by (apply L2; reflexivity). rewrite D in C.
    apply Qlt_irrefl in C. assumption.
Qed.

(** ** C44 *)
Theorem C44_sort_items : forall ar n x by_ reverse y,
  (by_ = "longest_side_ratio" -> exact_ratios ar n) ->
  valid_items (pb_items (in_pb x)) -> (forall i d, In (i, d) (pb_items (in_pb x)) -> sides_up_to n d) ->
  sort_items ar (Some (by_, reverse)) x = Ok y ->
  (forall d, criterion by_ d <> None) /\
  exists items, items_replaced x items y /\ Permutation items (pb_items (in_pb x)) /\
    StronglySorted (fun a b => if reverse then comes_before by_ b a else comes_before by_ a b) items.
Proof.
  intros ar n x by_ reverse y Hr [Hn Hp] Hup H. unfold sort_items in H.
  destruct (key_lt ar by_) as [lt|] eqn:Ek; [|discriminate]. injection H as <-.
  split.
  { intros d. unfold key_lt in Ek. unfold criterion.
    destruct (string_dec by_ "area"); [discriminate|].
    destruct (string_dec by_ "perimeter"); [discriminate|].
    destruct (string_dec by_ "longest_side_ratio"); [discriminate|].
    apply String.eqb_neq in n0, n1, n2. rewrite n0, n1, n2 in Ek. discriminate. }
  exists (py_sort_rev (elem_lt lt) reverse (pb_items (in_pb x))). split; [repeat split|].
  assert (Hpd : Forall (fun kd : string * dims => pos_dims (snd kd) /\ sides_up_to n (snd kd)) (pb_items (in_pb x))).
  { apply Forall_forall. intros [i d] Hi. split; [apply (Hp i d Hi)|apply (Hup i d Hi)]. }
  assert (Htot : ForallOrdPairs (fun a b : string * dims => comes_before by_ a b \/ comes_before by_ b a)
                                (pb_items (in_pb x))).
  { clear - Hn Hpd Ek Hr. induction (pb_items (in_pb x)) as [|a t IH]; [constructor|].
    inversion Hpd as [|? ? Pa Pt]; subst. cbn in Hn. inversion Hn as [|? ? Ha Ht]; subst.
    constructor; [|apply IH; assumption]. apply Forall_forall. intros b Hb.
    rewrite Forall_forall in Pt. specialize (Pt b Hb).
    destruct Pa as [Pa Na], Pt as [Pt' Nt].
    destruct (key_lt_spec ar n by_ lt Ek Hr _ _ Pa Pt' Na Nt) as [ka [kb [Ka [Kb _]]]].
    assert (Hne : fst a <> fst b).
    { intros C. apply Ha. rewrite C. apply in_map. assumption. }
    destruct (Q_dec ka kb) as [[D|D]|D].
    - left. exists ka, kb. auto.
    - right. exists kb, ka. auto.
    - destruct (str_total _ _ Hne) as [S|S].
      + left. exists ka, kb. auto.
      + right. exists kb, ka. split; [assumption|]. split; [assumption|]. right. split; [|assumption].
        symmetry. assumption. }
  unfold py_sort_rev. destruct reverse.
  - split; [apply py_sort_perm|].
    apply (py_sort_sorted _ (fun kd : string * dims => pos_dims (snd kd) /\ sides_up_to n (snd kd)) (fun a b => comes_before by_ b a)).
    + intros a b [Ha Na] [Hb Nb]. apply (elem_lt_spec ar n by_ lt Ek Hr); assumption.
    + intros a b c H1 H2. eapply comes_before_trans; eassumption.
    + assumption.
    + clear - Htot. induction Htot as [|a t Ha Ht IH]; constructor; [|exact IH].
      eapply Forall_impl; [|exact Ha]. cbv beta. tauto.
  - split; [apply py_sort_perm|].
    apply (py_sort_sorted _ (fun kd : string * dims => pos_dims (snd kd) /\ sides_up_to n (snd kd)) (fun a b => comes_before by_ a b)).
    + intros a b [Ha Na] [Hb Nb]. apply (elem_lt_spec ar n by_ lt Ek Hr); assumption.
    + intros a b c H1 H2. eapply comes_before_trans; eassumption.
    + assumption.
    + exact Htot.
Qed.
Print Assumptions C44_sort_items.

(** Without rounding no bound on the sides is needed. *)
Corollary C44_exact : forall x by_ reverse y, valid_items (pb_items (in_pb x)) ->
  sort_items qarith (Some (by_, reverse)) x = Ok y ->
  exists items, items_replaced x items y /\ Permutation items (pb_items (in_pb x)) /\
    StronglySorted (fun a b => if reverse then comes_before by_ b a else comes_before by_ a b) items.
Proof.
  intros x by_ reverse y Hv H.
  assert (B : exists n, forall i d, In (i, d) (pb_items (in_pb x)) -> sides_up_to n d).
  { clear. induction (pb_items (in_pb x)) as [|[i d] t [n IH]].
    - exists 0. intros i d [].
    - exists (Z.max n (Z.max (dw d) (dl d))). intros j e [E|Hin].
      + injection E as <- <-. unfold sides_up_to. lia.
      + specialize (IH j e Hin). unfold sides_up_to in *. lia. }
  destruct B as [n B]. apply (C44_sort_items qarith n x by_ reverse y (fun _ => qarith_exact n) Hv B H).
Qed.
Print Assumptions C44_exact.

(** Unknown criteria raise; [None] changes nothing. *)
Theorem C44_other_criteria : forall ar x by_ reverse,
  (sort_items ar (Some (by_, reverse)) x = Err NotImplementedError <-> forall d, criterion by_ d = None) /\
  ((forall d, criterion by_ d = None) \/ exists y, sort_items ar (Some (by_, reverse)) x = Ok y) /\
  sort_items ar None x = Ok x.
Proof.
  intros ar x by_ reverse. unfold sort_items, key_lt, criterion.
  destruct (String.eqb_spec by_ "area") as [->|N1].
  { cbn. split; [split; [discriminate|intros C; specialize (C (mkDims 1 1)); discriminate]|].
    split; [right; eauto|reflexivity]. }
  destruct (String.eqb_spec by_ "perimeter") as [->|N2].
  { cbn. split; [split; [discriminate|intros C; specialize (C (mkDims 1 1)); discriminate]|].
    split; [right; eauto|reflexivity]. }
  destruct (String.eqb_spec by_ "longest_side_ratio") as [->|N3].
  { cbn. split; [split; [discriminate|intros C; specialize (C (mkDims 1 1)); discriminate]|].
    split; [right; eauto|reflexivity]. }
  destruct (string_dec by_ "area"); [contradiction|].
  destruct (string_dec by_ "perimeter"); [contradiction|].
  destruct (string_dec by_ "longest_side_ratio"); [contradiction|].
  split; [tauto|]. split; [left; reflexivity|reflexivity].
Qed.
Print Assumptions C44_other_criteria.

(** Two sorted arrangements of the same items are equal, so C44 determines the result. *)
Theorem C44_order_is_unique : forall by_ l1 l2,
  Permutation l1 l2 -> StronglySorted (comes_before by_) l1 -> StronglySorted (comes_before by_) l2 ->
  l1 = l2.
Proof.
  intros by_ l1. assert (Hirr : forall a, ~ comes_before by_ a a).
  { intros a [ka [kb [Ha [Hb D]]]]. rewrite Ha in Hb. injection Hb as <-.
    destruct D as [D|[_ D]]; [apply Qlt_irrefl in D; assumption|].
    pose proof (proj2 (String_as_OT.cmp_eq (fst a) (fst a)) eq_refl) as E. unfold String_as_OT.cmp in E.
    congruence. }
  induction l1 as [|a t IH]; intros l2 Hp H1 H2.
  - apply Permutation_nil in Hp. auto.
  - destruct l2 as [|b t2]; [symmetry in Hp; apply Permutation_nil in Hp; discriminate|].
    inversion H1 as [|? ? S1 F1]; subst. inversion H2 as [|? ? S2 F2]; subst.
    rewrite Forall_forall in F1, F2.
    assert (a = b).
    { assert (Ia : In a (b :: t2)) by (eapply Permutation_in; [exact Hp|left; reflexivity]).
      assert (Ib : In b (a :: t)) by (eapply Permutation_in; [symmetry; exact Hp|left; reflexivity]).
      destruct Ia as [E|Ia]; [congruence|]. destruct Ib as [E|Ib]; [congruence|].
      exfalso. apply (Hirr a). eapply comes_before_trans; [apply F1; exact Ib|apply F2; exact Ia]. }
    subst b. f_equal. apply IH; [|assumption|assumption]. eapply Permutation_cons_inv; eassumption.
Qed.
Print Assumptions C44_order_is_unique.

(** ** C43 *)
Theorem C43_orient_items : forall ar x orientation,
  let y := orient_items ar orientation x in
  (* the same ids in the same order *)
  dkeys (pb_items (in_pb y)) = dkeys (pb_items (in_pb x)) /\
  (* every item keeps its two sides, and is turned as requested *)
  (forall i d, dget (pb_items (in_pb x)) i = Some d ->
     exists d', dget (pb_items (in_pb y)) i = Some d' /\
       (d' = d \/ d' = mkDims (dl d) (dw d)) /\
       (pb_rotation (in_pb x) = true -> orientation = Some "wide" -> dl d' <= dw d') /\
       (pb_rotation (in_pb x) = true -> orientation = Some "long" -> dw d' <= dl d') /\
       (dw d = dl d -> d' = d)) /\
  (* nothing else changes; the solution is reset exactly when the items change *)
  (pb_items (in_pb y) = pb_items (in_pb x) -> y = x) /\
  (pb_items (in_pb y) <> pb_items (in_pb x) -> items_replaced x (pb_items (in_pb y)) y) /\
  (pb_rotation (in_pb x) = false \/ (orientation <> Some "wide" /\ orientation <> Some "long") -> y = x).
Proof.
  intros ar x orientation.
  assert (G : forall (f : dims -> dims) (turn : dims -> bool),
    (forall d, f d = if turn d then mkDims (dl d) (dw d) else d) ->
    (forall d, turn d = true -> dw d <> dl d) ->
    let y := orient_all ar f turn x in
    dkeys (pb_items (in_pb y)) = dkeys (pb_items (in_pb x)) /\
    (forall i d, dget (pb_items (in_pb x)) i = Some d -> dget (pb_items (in_pb y)) i = Some (f d)) /\
    (pb_items (in_pb y) = pb_items (in_pb x) -> y = x) /\
    (pb_items (in_pb y) <> pb_items (in_pb x) -> items_replaced x (pb_items (in_pb y)) y)).
  { intros f turn Hf Ht y. unfold y, orient_all.
    assert (Hget : forall (l : odict dims) i d, dget l i = Some d ->
              dget (map (fun kd : string * dims => (fst kd, f (snd kd))) l) i = Some (f d)).
    { induction l as [|[k d0] t IH]; intros i d; cbn; [discriminate|].
      destruct (String.eqb i k); [intros [= <-]; reflexivity|apply IH]. }
    destruct (existsb _ _) eqn:E.
    - cbn [in_pb set_items pb_items]. split; [unfold dkeys; rewrite map_map; reflexivity|].
      split; [apply Hget|]. split; [|intros _; repeat split].
      intros C. exfalso. apply existsb_exists in E. destruct E as [[i d] [Hin Hd]]. cbn in Hd.
      assert (G : f d = d).
      { revert C Hin. generalize (pb_items (in_pb x)) as l. induction l as [|[k d0] t IH]; intros C; [intros []|].
        cbn in C. injection C as C1 C2. intros [[= -> ->]|Hi]; [assumption|]. apply IH; assumption. }
      rewrite Hf, Hd in G. specialize (Ht d Hd). destruct d as [w l]. cbn in *. injection G as -> _.
      contradiction.
    - split; [reflexivity|]. split; [|split; [reflexivity|congruence]].
      intros i d Hd. rewrite Hd. f_equal. rewrite Hf. destruct (turn d) eqn:Et; [|reflexivity].
      exfalso. rewrite <- not_true_iff_false in E. apply E. apply existsb_exists. exists (i, d).
      split; [apply dget_In; assumption|exact Et]. }
  assert (Gsame : forall o, orient_items ar o x = x ->
      pb_rotation (in_pb x) = false \/ (o <> Some "wide" /\ o <> Some "long") ->
      let y := orient_items ar o x in
      dkeys (pb_items (in_pb y)) = dkeys (pb_items (in_pb x)) /\
      (forall i d, dget (pb_items (in_pb x)) i = Some d ->
         exists d', dget (pb_items (in_pb y)) i = Some d' /\
           (d' = d \/ d' = mkDims (dl d) (dw d)) /\
           (pb_rotation (in_pb x) = true -> o = Some "wide" -> dl d' <= dw d') /\
           (pb_rotation (in_pb x) = true -> o = Some "long" -> dw d' <= dl d') /\
           (dw d = dl d -> d' = d)) /\
      (pb_items (in_pb y) = pb_items (in_pb x) -> y = x) /\
      (pb_items (in_pb y) <> pb_items (in_pb x) -> items_replaced x (pb_items (in_pb y)) y) /\
      (pb_rotation (in_pb x) = false \/ (o <> Some "wide" /\ o <> Some "long") -> y = x)).
  { intros o E Ho y. unfold y. rewrite E. split; [reflexivity|]. split.
    - intros i d Hd. exists d. split; [assumption|]. split; [left; reflexivity|].
      destruct Ho as [Ho|[Ho1 Ho2]].
      + rewrite Ho. split; [discriminate|]. split; [discriminate|reflexivity].
      + split; [contradiction|]. split; [contradiction|reflexivity].
    - split; [reflexivity|]. split; [congruence|reflexivity]. }
  destruct orientation as [o|].
  2:{ apply Gsame; [reflexivity|]. right. split; discriminate. }
  destruct (pb_rotation (in_pb x)) eqn:Er.
  2:{ apply Gsame; [unfold orient_items; rewrite Er; reflexivity|]. left. reflexivity. }
  destruct (String.eqb_spec o "wide") as [->|N1].
  { unfold orient_items. rewrite Er. cbn [negb]. rewrite String.eqb_refl.
    destruct (G orient_wide (fun d => dl d >? dw d)) as [G1 [G2 [G3 G4]]].
    - reflexivity.
    - intros d. cbv beta. lia.
    - split; [exact G1|]. split; [|split; [exact G3|split; [exact G4|]]].
      + intros i d Hd. exists (orient_wide d). split; [apply G2; assumption|]. unfold orient_wide.
        destruct (dl d >? dw d) eqn:E.
        * split; [right; reflexivity|]. cbn. split; [lia|]. split; [intros _ [=]|lia].
        * split; [left; reflexivity|]. split; [lia|]. split; [intros _ [=]|reflexivity].
      + intros [C|[C _]]; congruence. }
  destruct (String.eqb_spec o "long") as [->|N2].
  { unfold orient_items. rewrite Er. cbn [negb]. rewrite (proj2 (String.eqb_neq "long" "wide") N1).
    rewrite String.eqb_refl.
    destruct (G orient_long (fun d => dl d <? dw d)) as [G1 [G2 [G3 G4]]].
    - reflexivity.
    - intros d. cbv beta. lia.
    - split; [exact G1|]. split; [|split; [exact G3|split; [exact G4|]]].
      + intros i d Hd. exists (orient_long d). split; [apply G2; assumption|]. unfold orient_long.
        destruct (dl d <? dw d) eqn:E.
        * split; [right; reflexivity|]. cbn. split; [intros _ [=]|]. split; lia.
        * split; [left; reflexivity|]. split; [intros _ [=]|]. split; [lia|reflexivity].
      + intros [C|[_ C]]; congruence. }
  apply Gsame.
  - unfold orient_items. rewrite Er. cbn [negb].
    rewrite (proj2 (String.eqb_neq _ _) N1), (proj2 (String.eqb_neq _ _) N2). reflexivity.
  - right. split; congruence.
Qed.
Print Assumptions C43_orient_items.

(** Concrete cases. *)
Example sort_demo :
  exists y, sort_items qarith (Some ("area", true)) bin_demo = Ok y /\
    dkeys (pb_items (in_pb y)) = ["c"; "d"; "b"; "a"].
Proof. eexists. split; [vm_compute; reflexivity|reflexivity]. Qed.

Example orient_demo :
  pb_items (in_pb (orient_items qarith (Some "wide") bin_demo)) =
    [("a", mkDims 1 1); ("b", mkDims 1 1); ("c", mkDims 2 2); ("d", mkDims 3 1)].
Proof. reflexivity. Qed.
