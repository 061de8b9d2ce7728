(** * Local search: totality, invariants, termination. *)
From Coq Require Import ZArith String List Bool Lia Permutation Factorial.
From Coq Require Import ZifyBool ZifyNat ArithRing.
From Verif Require Import Py Arith Construct Spec Runs LocalSearch SpecSearch Perms
  ProofsPy ProofsGrid ProofsConstruct ProofsSolve ProofsPacking ProofsSolution ProofsValues.
Import ListNotations.
Open Scope Z_scope.

(** ** Swaps *)
Lemma list_set_app {A} (a : list A) x b v : list_set (a ++ x :: b) (length a) v = a ++ v :: b.
Proof. induction a; simpl; [reflexivity|]. rewrite IHa. reflexivity. Qed.

Lemma swap_at_perm l i j : (i < j)%nat -> Permutation (swap_at l i j) l.
Proof.
  intros Hij. unfold swap_at.
  destruct (nth_error l i) as [a|] eqn:Ei; [|reflexivity].
  destruct (nth_error l j) as [b|] eqn:Ej; [|reflexivity].
  apply nth_error_split in Ei. destruct Ei as [l1 [l2 [-> Hl1]]]. subst i.
  rewrite list_set_app.
  rewrite nth_error_app2 in Ej by lia.
  destruct (j - length l1)%nat as [|k] eqn:Ek; [lia|]. simpl in Ej.
  apply nth_error_split in Ej. destruct Ej as [l3 [l4 [-> Hl3]]]. subst k.
  replace j with (length (l1 ++ b :: l3)) by (rewrite app_length; simpl; lia).
  replace (l1 ++ b :: l3 ++ b :: l4) with ((l1 ++ b :: l3) ++ b :: l4)
    by (rewrite <- app_assoc; reflexivity).
  rewrite list_set_app. rewrite <- app_assoc. simpl.
  apply Permutation_app_head.
  transitivity (b :: a :: l3 ++ l4); [apply perm_skip; symmetry; apply Permutation_middle|].
  transitivity (a :: b :: l3 ++ l4); [apply perm_swap|apply perm_skip; apply Permutation_middle].
Qed.

Lemma in_index_swaps n i j : In (i, j) (index_swaps n) <-> (i < j < n)%nat.
Proof.
  unfold index_swaps. rewrite in_concat. split.
  - intros [l [Hl Hin]]. apply in_map_iff in Hl. destruct Hl as [i' [<- Hi]].
    apply in_map_iff in Hin. destruct Hin as [j' [[= <- <-] Hj]].
    apply in_seq in Hi. apply in_seq in Hj. lia.
  - intros H. exists (map (fun j => (i, j)) (seq (S i) (n - S i))). split.
    + apply in_map_iff. exists i. split; [reflexivity|]. apply in_seq. lia.
    + apply in_map_iff. exists j. split; [reflexivity|]. apply in_seq. lia.
Qed.

Lemma index_swaps_length n : Z.of_nat (length (index_swaps n)) = Z.of_nat n * (Z.of_nat n - 1) / 2.
Proof.
  unfold index_swaps.
  assert (G : forall k a, (a + k = n)%nat ->
    (2 * length (concat (map (fun i => map (fun j => (i, j)) (seq (S i) (n - S i))) (seq a k))) =
     k * (k - 1))%nat).
  { induction k as [|k IH]; intros a Ha; [reflexivity|].
    cbn [seq map concat]. rewrite app_length, map_length, seq_length.
    rewrite Nat.mul_add_distr_l. rewrite (IH (S a)) by lia.
    replace (n - S a)%nat with k by lia. destruct k; [reflexivity|].
    replace (S k - 1)%nat with k by lia. replace (S (S k) - 1)%nat with (S k) by lia. ring. }
  specialize (G n 0%nat eq_refl).
  apply Z.div_unique_exact; [lia|]. destruct n; [reflexivity|]. nia.
Qed.

(** ** Copies *)
Lemma dkeys_dget_nonempty {A} (d : odict A) k : In k (dkeys d) -> exists v, dget d k = Some v.
Proof. intros H. apply dget_Some_In in H. exact H. Qed.

Lemma dget_deepcopy_container items csol i :
  NoDup (dkeys items) ->
  dget (deepcopy_container items csol) i =
  if in_dec string_dec i (dkeys items) then dget csol i else None.
Proof.
  unfold deepcopy_container. intros Hn. induction (dkeys items) as [|k ks IH].
  - reflexivity.
  - inversion Hn as [|? ? Hk Hks]; subst. specialize (IH Hks).
    cbn [map concat]. destruct (dget csol k) as [e|] eqn:E.
    + cbn [app dget]. destruct (String.eqb_spec i k) as [->|Hne].
      * rewrite <- E. destruct (in_dec string_dec k (k :: ks)) as [|H]; [auto|].
        exfalso. apply H. left. reflexivity.
      * rewrite IH. destruct (in_dec string_dec i ks), (in_dec string_dec i (k :: ks)); auto;
          simpl in *; intuition congruence.
    + cbn [app]. rewrite IH.
      destruct (in_dec string_dec i ks), (in_dec string_dec i (k :: ks)); auto;
        simpl in *; intuition congruence.
Qed.

Lemma deepcopy_container_keys items csol i :
  NoDup (dkeys items) ->
  In i (dkeys (deepcopy_container items csol)) <-> In i (dkeys items) /\ In i (dkeys csol).
Proof.
  intros Hn. rewrite <- !dget_Some_In. rewrite dget_deepcopy_container by assumption.
  destruct (in_dec string_dec i (dkeys items)) as [H|H].
  - rewrite <- dget_Some_In in H. tauto.
  - rewrite <- dget_Some_In in H. split; [intros [v Hv]; discriminate|tauto].
Qed.

Lemma deepcopy_container_nodup items csol :
  NoDup (dkeys items) -> NoDup (dkeys (deepcopy_container items csol)).
Proof.
  unfold deepcopy_container. intros Hn.
  assert (G : forall ks, NoDup ks -> NoDup (dkeys (concat (map (fun id =>
      match dget csol id with Some e => [(id, e)] | None => [] end) ks))) /\
      forall i, In i (dkeys (concat (map (fun id =>
      match dget csol id with Some e => [(id, e)] | None => [] end) ks))) -> In i ks).
  { induction ks as [|k ks IH]; intros H; [split; [constructor|auto]|].
    inversion H as [|? ? Hk Hks]; subst. destruct (IH Hks) as [I1 I2].
    cbn [map concat]. destruct (dget csol k) as [e|]; cbn [app dkeys map fst].
    - split; [constructor; [|exact I1]|].
      + intros Hin. apply Hk. apply I2. exact Hin.
      + intros i [->|Hin]; [left; reflexivity|right; apply I2; exact Hin].
    - split; [exact I1|]. intros i Hin. right. apply I2. exact Hin. }
  apply G. exact Hn.
Qed.

Lemma deepcopy_solution_ok pb sol :
  dkeys sol = dkeys (pb_containers pb) ->
  deepcopy_solution pb sol =
    Ok (map (fun cid => (cid, deepcopy_container (pb_items pb)
                                match dget sol cid with Some c => c | None => [] end))
            (dkeys (pb_containers pb))).
Proof.
  intros Hk. unfold deepcopy_solution. rewrite <- Hk.
  assert (G : forall ks, (forall k, In k ks -> In k (dkeys sol)) ->
    rmap (fun cid => bind (dget_r sol cid)
            (fun csol => Ok (cid, deepcopy_container (pb_items pb) csol))) ks =
    Ok (map (fun cid => (cid, deepcopy_container (pb_items pb)
                                match dget sol cid with Some c => c | None => [] end)) ks)).
  { induction ks as [|k ks IH]; intros H; [reflexivity|].
    cbn [rmap map]. destruct (dkeys_dget_nonempty sol k) as [v Hv]; [apply H; left; reflexivity|].
    unfold dget_r at 1. rewrite Hv. cbn [bind]. rewrite IH by (intros; apply H; right; assumption).
    reflexivity. }
  apply G. auto.
Qed.

Lemma dget_map_keys {A} (f : string -> A) ks cid :
  dget (map (fun k => (k, f k)) ks) cid = if in_dec string_dec cid ks then Some (f cid) else None.
Proof.
  induction ks as [|k ks IH]; [reflexivity|]. cbn [map dget].
  destruct (String.eqb_spec cid k) as [->|Hne].
  - destruct (in_dec string_dec k (k :: ks)) as [|H]; [reflexivity|]. exfalso. apply H. left. auto.
  - rewrite IH. destruct (in_dec string_dec cid ks), (in_dec string_dec cid (k :: ks)); auto;
      simpl in *; intuition congruence.
Qed.

(** The copy has the same placements (C49). *)
Lemma deepcopy_same pb sol sol' :
  NoDup (dkeys (pb_items pb)) -> dkeys sol = dkeys (pb_containers pb) ->
  (forall cid csol i, dget sol cid = Some csol -> In i (dkeys csol) -> In i (dkeys (pb_items pb))) ->
  deepcopy_solution pb sol = Ok sol' -> same_placements sol sol'.
Proof.
  intros Hn Hk Hsub H. rewrite (deepcopy_solution_ok pb sol Hk) in H. injection H as <-.
  split; [|split].
  - unfold dkeys at 2. rewrite map_map. simpl. rewrite map_id. assumption.
  - intros cid csol csol' H1 H2 i. rewrite dget_map_keys in H2.
    destruct (in_dec string_dec cid (dkeys (pb_containers pb))); [|discriminate].
    rewrite H1 in H2. injection H2 as <-.
    rewrite dget_deepcopy_container by assumption.
    destruct (in_dec string_dec i (dkeys (pb_items pb))) as [|Hni]; [reflexivity|].
    destruct (dget csol i) eqn:E; [|reflexivity]. exfalso. apply Hni.
    apply (Hsub cid csol i H1). apply dget_Some_In. eauto.
  - intros cid csol' Hin. apply in_map_iff in Hin. destruct Hin as [k [[= _ <-] _]].
    apply deepcopy_container_nodup. exact Hn.
Qed.

(** ** Heights *)
Lemma solution_height_eq csol :
  (forall e, In e (entries csol) -> 0 <= e_y e + e_l e) ->
  solution_height csol = stack_height (entries csol).
Proof.
  unfold solution_height. change (dvals csol) with (entries csol).
  destruct (entries csol) as [|e es]; [reflexivity|]. intros H.
  assert (G : forall l a, fold_left (fun m e => Z.max m (e_y e + e_l e)) l a
                          = Z.max a (fold_left (fun m e => Z.max m (e_y e + e_l e)) l a)).
  { induction l as [|b l IH]; intros a; simpl; [lia|]. rewrite (IH (Z.max a _)). lia. }
  assert (G2 : forall l a, 0 <= a -> fold_left (fun m e => Z.max m (e_y e + e_l e)) l a =
                           Z.max a (stack_height l)).
  { induction l as [|b l IH]; intros a Ha; simpl; [lia|]. rewrite IH by lia. lia. }
  rewrite G2 by (apply H; left; reflexivity). reflexivity.
Qed.
