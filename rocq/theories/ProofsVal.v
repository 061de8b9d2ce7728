(** * Facts about Python values, dictionaries with string keys and the state monad. *)
From Coq Require Import ZArith String List Bool Lia Permutation QArith.
From Verif Require Import Py ProofsPy Values.
Import ListNotations.
Open Scope list_scope.
Open Scope Z_scope.

Lemma key_eqb_str_l a k : key_eqb (VStr a) k = true <-> k = VStr a.
Proof.
  destruct k; simpl; try (split; intros; discriminate).
  rewrite String.eqb_eq. split; [intros ->; reflexivity|intros [= ->]; reflexivity].
Qed.

Lemma key_eqb_str_r a k : key_eqb k (VStr a) = true <-> k = VStr a.
Proof.
  destruct k; simpl; try (split; intros; discriminate); try (split; [|discriminate]; destruct (as_number _); discriminate).
  rewrite String.eqb_eq. split; [intros ->; reflexivity|intros [= ->]; reflexivity].
Qed.

Lemma key_eqb_strs a b : key_eqb (VStr a) (VStr b) = String.eqb a b.
Proof. reflexivity. Qed.

(** ** Dictionaries with string keys *)
Definition sdict {A} (f : A -> pyval) (l : odict A) : vdict := map (fun p => (VStr (fst p), f (snd p))) l.

Lemma vget_sdict {A} (f : A -> pyval) l k :
  vget (sdict f l) k = match k with VStr i => option_map f (dget l i) | _ => None end.
Proof.
  induction l as [|[i a] l IH]; simpl; [destruct k; reflexivity|].
  destruct (key_eqb k (VStr i)) eqn:E.
  - apply key_eqb_str_r in E. subst k. rewrite String.eqb_refl. reflexivity.
  - rewrite IH. destruct k as [| | | | j | | | | | |]; try reflexivity. rewrite key_eqb_strs in E. rewrite E. reflexivity.
Qed.

Lemma vset_sdict {A} (f : A -> pyval) l i a : vset (sdict f l) (VStr i) (f a) = sdict f (dset l i a).
Proof.
  induction l as [|[j b] l IH]; simpl; [reflexivity|]. destruct (String.eqb i j); [reflexivity|].
  cbn [sdict map fst snd]. f_equal. apply IH.
Qed.

Lemma vdel_sdict {A} (f : A -> pyval) l i : vdel (sdict f l) (VStr i) = sdict f (ddel l i).
Proof.
  induction l as [|[j b] l IH]; simpl; [reflexivity|]. destruct (String.eqb i j); [reflexivity|].
  cbn [sdict map fst snd]. f_equal. apply IH.
Qed.

Lemma vkeys_sdict {A} (f : A -> pyval) l : vkeys (sdict f l) = map VStr (dkeys l).
Proof. unfold vkeys, sdict, dkeys. rewrite !map_map. reflexivity. Qed.

Lemma length_sdict {A} (f : A -> pyval) l : length (sdict f l) = length l.
Proof. apply map_length. Qed.

(** ** The monad *)
Lemma sbind_inv {S A B} (m : SM S A) (f : A -> SM S B) s s' r :
  sbind m f s = (s', r) ->
  (exists s1 a, m s = (s1, Ok a) /\ f a s1 = (s', r)) \/ (exists e, m s = (s', Err e) /\ r = Err e).
Proof.
  unfold sbind. destruct (m s) as [s1 [a|e]] eqn:E; intros H.
  - left. eauto.
  - right. injection H as <- <-. eauto.
Qed.

Lemma sbind_ok {S A B} (m : SM S A) (f : A -> SM S B) s s1 a :
  m s = (s1, Ok a) -> sbind m f s = f a s1.
Proof. unfold sbind. intros ->. reflexivity. Qed.
Lemma sbind_err {S A B} (m : SM S A) (f : A -> SM S B) s s1 e :
  m s = (s1, Err e) -> sbind m f s = (s1, Err e).
Proof. unfold sbind. intros ->. reflexivity. Qed.

Lemma swhen_cases {S A} b e (k : SM S A) s : 
  sbind (swhen b e) (fun _ => k) s = if b then (s, Err e) else k s.
Proof. destruct b; reflexivity. Qed.

Lemma list_set_other {A} (l : list A) n m v : n <> m -> nth_error (list_set l n v) m = nth_error l m.
Proof.
  revert n m; induction l as [|a l IH]; intros [|n] [|m] H; simpl; try reflexivity; try congruence.
  apply IH. congruence.
Qed.
Lemma list_set_same {A} (l : list A) n v : (n < length l)%nat -> nth_error (list_set l n v) n = Some v.
Proof.
  revert n; induction l as [|a l IH]; intros [|n] H; simpl in *; try lia; [reflexivity|]. apply IH. lia.
Qed.
Lemma list_set_id {A} (l : list A) n v : nth_error l n = Some v -> list_set l n v = l.
Proof.
  revert n; induction l as [|a l IH]; intros [|n] H; simpl in *; try discriminate; [congruence|].
  rewrite IH; auto.
Qed.
Lemma list_set_nth {A} (l : list A) n v m x :
  nth_error (list_set l n v) m = Some x -> (m = n /\ x = v /\ (n < length l)%nat) \/ (m <> n /\ nth_error l m = Some x).
Proof.
  intros H. destruct (Nat.eq_dec n m) as [->|Hne].
  - left. assert (Hl : (m < length l)%nat).
    { assert (m < length (list_set l m v))%nat as Hm by (apply nth_error_Some; congruence).
      rewrite list_set_length in Hm. assumption. }
    rewrite list_set_same in H by assumption. injection H as <-. auto.
  - right. rewrite list_set_other in H by assumption. auto.
Qed.

Lemma nth_error_snoc {A} (l : list A) a n x :
  nth_error (l ++ [a]) n = Some x -> nth_error l n = Some x \/ (n = length l /\ x = a).
Proof.
  intros H. destruct (Nat.lt_ge_cases n (length l)) as [Hl|Hl].
  - rewrite nth_error_app1 in H by assumption. auto.
  - rewrite nth_error_app2 in H by assumption. destruct (n - length l)%nat eqn:E; simpl in H.
    + injection H as <-. right. split; [lia|reflexivity].
    + destruct n0; discriminate.
Qed.
Lemma nth_error_last {A} (l : list A) a : nth_error (l ++ [a]) (length l) = Some a.
Proof. rewrite nth_error_app2 by lia. rewrite Nat.sub_diag. reflexivity. Qed.
Lemma nth_error_keep {A} (l k : list A) n x : nth_error l n = Some x -> nth_error (l ++ k) n = Some x.
Proof. intros H. rewrite nth_error_app1; [assumption|]. apply nth_error_Some. congruence. Qed.
