(** * [itertools.permutations(l, len(l))]

    Used by [get_strategies] (heuristics.py:451-456). Lexicographic order of positions, as
    documented for itertools: pick each element in turn, then permute the rest. *)
From Coq Require Import List Permutation Arith Lia FinFun.
Import ListNotations.

Section Perms.
Context {A : Type}.

(** Every way to take one element out of a list. *)
Fixpoint picks (l : list A) : list (A * list A) :=
  match l with
  | [] => []
  | x :: t => (x, t) :: map (fun yr => (fst yr, x :: snd yr)) (picks t)
  end.

Fixpoint perms_n (n : nat) (l : list A) : list (list A) :=
  match n with
  | O => [[]]
  | S m => concat (map (fun xr => map (cons (fst xr)) (perms_n m (snd xr))) (picks l))
  end.

Definition permutations (l : list A) : list (list A) := perms_n (length l) l.

(** ** Facts *)
Lemma picks_perm l x r : In (x, r) (picks l) -> Permutation l (x :: r).
Proof.
  revert x r. induction l as [|y t IH]; simpl; intros x r; [tauto|].
  intros [[= <- <-]|H]; [reflexivity|].
  apply in_map_iff in H. destruct H as [[z r'] [[= <- <-] H]].
  apply IH in H. rewrite H. apply perm_swap.
Qed.

Lemma picks_complete l a b x : l = a ++ x :: b -> In (x, a ++ b) (picks l).
Proof.
  revert l. induction a as [|y a IH]; intros l ->; simpl; [left; reflexivity|].
  right. apply in_map_iff. exists (x, a ++ b). split; [reflexivity|]. apply IH. reflexivity.
Qed.

Lemma picks_length l : length (picks l) = length l.
Proof. induction l; simpl; [reflexivity|]. rewrite map_length. congruence. Qed.

Lemma picks_rest_length l x r : In (x, r) (picks l) -> S (length r) = length l.
Proof. intros H. apply picks_perm in H. apply Permutation_length in H. simpl in H. auto. Qed.

Lemma in_perms_n n : forall l p, length l = n -> In p (perms_n n l) <-> Permutation p l.
Proof.
  induction n as [|n IH]; intros l p Hl.
  - destruct l; [|discriminate]. simpl. split.
    + intros [<-|[]]. constructor.
    + intros H. left. symmetry. apply Permutation_nil. symmetry. assumption.
  - simpl. rewrite in_concat. split.
    + intros [q [Hq Hp]]. apply in_map_iff in Hq. destruct Hq as [[x r] [<- Hx]]. simpl in Hp.
      apply in_map_iff in Hp. destruct Hp as [p' [<- Hp]].
      pose proof (picks_rest_length _ _ _ Hx). apply IH in Hp; [|lia].
      rewrite Hp. symmetry. apply picks_perm. assumption.
    + intros H. destruct p as [|x p].
      { apply Permutation_nil in H. subst. discriminate. }
      assert (Hin : In x l) by (eapply Permutation_in; [exact H|left; reflexivity]).
      apply in_split in Hin. destruct Hin as [a [b ->]].
      exists (map (cons x) (perms_n n (a ++ b))). split.
      * apply in_map_iff. exists (x, a ++ b). split; [reflexivity|]. apply picks_complete. reflexivity.
      * apply in_map. apply IH.
        -- rewrite app_length in *. simpl in Hl. lia.
        -- apply Permutation_cons_app_inv with (a := x). assumption.
Qed.

Lemma in_permutations l p : In p (permutations l) <-> Permutation p l.
Proof. apply in_perms_n. reflexivity. Qed.

Lemma concat_length_const (ls : list (list (list A))) k :
  (forall x, In x ls -> length x = k) -> length (concat ls) = length ls * k.
Proof.
  induction ls as [|x t IH]; intros H; simpl; [reflexivity|].
  rewrite app_length, IH by (intros; apply H; right; assumption).
  rewrite (H x) by (left; reflexivity). reflexivity.
Qed.

Lemma perms_n_length n : forall l, length l = n -> length (perms_n n l) = fact n.
Proof.
  induction n as [|n IH]; intros l Hl; [reflexivity|]. cbn [perms_n].
  rewrite (concat_length_const _ (fact n)).
  - rewrite map_length, picks_length, Hl. reflexivity.
  - intros x Hx. apply in_map_iff in Hx. destruct Hx as [[y r] [<- Hy]].
    rewrite map_length. apply IH. apply picks_rest_length in Hy. simpl. lia.
Qed.

Lemma permutations_length l : length (permutations l) = fact (length l).
Proof. apply perms_n_length. reflexivity. Qed.

Lemma picks_fst l : map fst (picks l) = l.
Proof.
  induction l as [|x t IH]; simpl; [reflexivity|]. f_equal. rewrite map_map. simpl. exact IH.
Qed.

Lemma NoDup_concat_map {B} (f : B -> list (list A)) ls :
  NoDup ls -> (forall x, In x ls -> NoDup (f x)) ->
  (forall x y p, In x ls -> In y ls -> In p (f x) -> In p (f y) -> x = y) ->
  NoDup (concat (map f ls)).
Proof.
  induction ls as [|x t IH]; intros Hn H1 H2; simpl; [constructor|].
  inversion Hn as [|? ? Hx Ht]; subst.
  assert (G : forall l1 l2 : list (list A), NoDup l1 -> NoDup l2 ->
             (forall p, In p l1 -> ~ In p l2) -> NoDup (l1 ++ l2)).
  { intros l1 l2 N1. induction N1 as [|a l1 Ha N1 IH1]; intros N2 D; simpl; [assumption|].
    constructor.
    - rewrite in_app_iff. intros [C|C]; [contradiction|]. apply (D a); [left; reflexivity|assumption].
    - apply IH1; [assumption|]. intros p Hp. apply D. right. assumption. }
  apply G.
  - apply H1. left. reflexivity.
  - apply IH; [assumption| |].
    + intros; apply H1; right; assumption.
    + intros a b p Ha Hb. apply H2; right; assumption.
  - intros p Hp Hc. apply in_concat in Hc. destruct Hc as [c [Hc Hpc]].
    apply in_map_iff in Hc. destruct Hc as [y [<- Hy]].
    assert (x = y) by (eapply H2; eauto; [left; reflexivity|right; assumption]).
    subst. contradiction.
Qed.

Lemma NoDup_perms_n n : forall l, length l = n -> NoDup l -> NoDup (perms_n n l).
Proof.
  induction n as [|n IH]; intros l Hl Hn; simpl.
  - constructor; [intros []|constructor].
  - apply NoDup_concat_map.
    + apply (NoDup_map_inv fst). rewrite picks_fst. assumption.
    + intros [x r] Hx. simpl. apply Injective_map_NoDup; [intros a b [= ?]; assumption|].
      apply IH.
      * apply picks_rest_length in Hx. lia.
      * apply picks_perm in Hx. assert (NoDup (x :: r)) as Hc.
        { eapply Permutation_NoDup; eassumption. }
        inversion Hc; assumption.
    + intros [x r] [y q] p Hx Hy Hp Hq. simpl in *.
      apply in_map_iff in Hp. destruct Hp as [p1 [<- Hp]].
      apply in_map_iff in Hq. destruct Hq as [p2 [[= <- <-] Hq]].
      (* same head in a NoDup list: same pick *)
      assert (G : forall l' a r1 r2, NoDup l' -> In (a, r1) (picks l') -> In (a, r2) (picks l') ->
                  r1 = r2).
      { clear. induction l' as [|z t IHt]; simpl; intros a r1 r2 Hn; [tauto|].
        inversion Hn as [|? ? Hz Ht]; subst.
        assert (Hfst : forall c r, In (c, r) (map (fun yr => (fst yr, z :: snd yr)) (picks t)) ->
                        In c t).
        { intros c r H. apply in_map_iff in H. destruct H as [[c' r'] [[= <- <-] H]].
          rewrite <- (picks_fst t). apply in_map_iff. exists (c', r'). auto. }
        intros [[= <- <-]|H1] [E|H2].
        - congruence.
        - exfalso. apply Hfst in H2. contradiction.
        - injection E as -> <-. exfalso. apply Hfst in H1. contradiction.
        - apply in_map_iff in H1. destruct H1 as [[a1 q1] [[= <- <-] H1]].
          apply in_map_iff in H2. destruct H2 as [[a2 q2] [[= Ea <-] H2]].
          simpl in *. subst a2. f_equal. eapply IHt; eassumption. }
      f_equal. eapply G; eassumption.
Qed.

Lemma NoDup_permutations l : NoDup l -> NoDup (permutations l).
Proof. apply NoDup_perms_n. reflexivity. Qed.
End Perms.
