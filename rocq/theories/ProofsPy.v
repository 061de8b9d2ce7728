(** * Lemmas about the Python primitives of Py.v. *)
From Coq Require Import ZArith String List Bool Lia Permutation.
From Coq Require Import ZifyBool ZifyNat.
From Verif Require Import Py.
Import ListNotations.
Open Scope Z_scope.

Lemma zlen_app {A} (a b : list A) : zlen (a ++ b) = zlen a + zlen b.
Proof. unfold zlen. rewrite app_length. lia. Qed.

Lemma zlen_nonneg {A} (a : list A) : 0 <= zlen a.
Proof. unfold zlen. lia. Qed.

(** ** Ranges *)
Lemma in_zrange a b y : In y (zrange a b) <-> a <= y < b.
Proof.
  unfold zrange. rewrite in_map_iff. split.
  - intros [k [Hk Hin]]. apply in_seq in Hin. lia.
  - intros H. exists (Z.to_nat (y - a)). split; [lia|]. apply in_seq. lia.
Qed.

Lemma zrange_nil a b : b <= a -> zrange a b = [].
Proof. intros H. unfold zrange. replace (Z.to_nat (b - a)) with O by lia. reflexivity. Qed.

Lemma zrange_cons a b : a < b -> zrange a b = a :: zrange (a + 1) b.
Proof.
  intros H. unfold zrange.
  replace (Z.to_nat (b - a)) with (S (Z.to_nat (b - (a + 1)))) by lia.
  cbn [seq map]. f_equal; [lia|].
  rewrite <- seq_shift, map_map. apply map_ext. intros k. lia.
Qed.

Lemma zrange_length a b : length (zrange a b) = Z.to_nat (b - a).
Proof. unfold zrange. rewrite map_length, seq_length. reflexivity. Qed.

Lemma NoDup_zrange a b : NoDup (zrange a b).
Proof.
  unfold zrange. apply FinFun.Injective_map_NoDup; [|apply seq_NoDup].
  intros x y H. lia.
Qed.

Lemma zrange_down_nil a : a < 0 -> zrange_down a = [].
Proof. intros H. unfold zrange_down. replace (Z.to_nat (a + 1)) with O by lia. reflexivity. Qed.

Lemma zrange_down_cons a : 0 <= a -> zrange_down a = a :: zrange_down (a - 1).
Proof.
  intros H. unfold zrange_down.
  replace (Z.to_nat (a + 1)) with (S (Z.to_nat (a - 1 + 1))) by lia.
  cbn [seq map]. f_equal; [lia|].
  rewrite <- seq_shift, map_map. apply map_ext. intros k. lia.
Qed.

Lemma in_zrange_down a y : In y (zrange_down a) <-> 0 <= y <= a.
Proof.
  unfold zrange_down. rewrite in_map_iff. split.
  - intros [k [Hk Hin]]. apply in_seq in Hin. lia.
  - intros H. exists (Z.to_nat (a - y)). split; [lia|]. apply in_seq. lia.
Qed.

(** ** Indexing *)
Lemma py_index_in len i : 0 <= i < len -> py_index len i = Some (Z.to_nat i).
Proof.
  intros H. unfold py_index.
  replace ((0 <=? i) && (i <? len)) with true by lia. reflexivity.
Qed.

Lemma py_index_neg len i : - len <= i < 0 -> py_index len i = Some (Z.to_nat (i + len)).
Proof.
  intros H. unfold py_index.
  replace ((0 <=? i) && (i <? len)) with false by lia.
  replace ((- len <=? i) && (i <? 0)) with true by lia. reflexivity.
Qed.

Lemma py_get_in {A} (l : list A) i d :
  0 <= i < zlen l -> py_get l i = Ok (nth (Z.to_nat i) l d).
Proof.
  intros H. unfold py_get. rewrite py_index_in by assumption.
  rewrite (nth_error_nth' l d); [reflexivity|]. unfold zlen in H. lia.
Qed.

Lemma py_get_ok {A} (l : list A) i :
  - zlen l <= i < zlen l -> exists a, py_get l i = Ok a /\ In a l.
Proof.
  intros H. unfold py_get.
  assert (exists n, py_index (zlen l) i = Some n /\ (n < length l)%nat) as [n [-> Hn]].
  { destruct (Z_lt_dec i 0).
    - rewrite py_index_neg by lia. eexists; split; [reflexivity|]. unfold zlen in *. lia.
    - rewrite py_index_in by lia. eexists; split; [reflexivity|]. unfold zlen in *. lia. }
  destruct (nth_error l n) eqn:E.
  - eexists; split; [reflexivity|]. eapply nth_error_In; eassumption.
  - apply nth_error_None in E. lia.
Qed.

Lemma list_set_length {A} (l : list A) n v : length (list_set l n v) = length l.
Proof. revert n; induction l as [|h t IH]; intros [|n]; simpl; auto. Qed.

Lemma nth_list_set {A} (l : list A) n v m d :
  (n < length l)%nat ->
  nth m (list_set l n v) d = if Nat.eqb m n then v else nth m l d.
Proof.
  revert n m; induction l as [|h t IH]; intros [|n] [|m] H; simpl in *; try lia; auto.
  apply IH. lia.
Qed.

Lemma py_set_in {A} (l : list A) i v :
  0 <= i < zlen l -> py_set l i v = Ok (list_set l (Z.to_nat i) v).
Proof. intros H. unfold py_set. rewrite py_index_in by assumption. reflexivity. Qed.

(** ** Slices *)
Lemma slice_bound_in len i : 0 <= i <= len -> slice_bound len i = Z.to_nat i.
Proof. intros H. unfold slice_bound. destruct (Z.ltb_spec i 0); f_equal; lia. Qed.

Lemma nth_skipn_add {A} (l : list A) a k d : nth k (skipn a l) d = nth (a + k) l d.
Proof. revert l; induction a as [|a IH]; intros [|h t]; simpl; auto. destruct k; auto. Qed.

Lemma nth_firstn_lt {A} (l : list A) n k d : (k < n)%nat -> nth k (firstn n l) d = nth k l d.
Proof.
  revert l k; induction n as [|n IH]; intros [|h t] [|k] H; simpl; auto; try lia.
  apply IH. lia.
Qed.

Lemma in_firstn_skipn {A} (l : list A) a n x d :
  In x (firstn n (skipn a l)) <->
  exists k, (a <= k < a + n)%nat /\ (k < length l)%nat /\ nth k l d = x.
Proof.
  split.
  - intros H. apply (In_nth _ _ d) in H. destruct H as [k [Hk Hx]].
    rewrite firstn_length, skipn_length in Hk.
    exists (a + k)%nat. split; [lia|]. split; [lia|].
    rewrite <- Hx. rewrite nth_firstn_lt by lia. rewrite nth_skipn_add. reflexivity.
  - intros [k [Hk [Hl Hx]]].
    assert (Hn : nth_error l k = Some x).
    { rewrite (nth_error_nth' l d Hl). rewrite Hx. reflexivity. }
    apply nth_error_split in Hn. destruct Hn as [l1 [l2 [-> Hlen]]].
    rewrite skipn_app, firstn_app. apply in_or_app. right.
    replace (a - length l1)%nat with O by lia. simpl.
    rewrite skipn_length.
    destruct (n - (length l1 - a))%nat eqn:E; [lia|]. simpl. auto.
Qed.

Lemma in_py_slice {A} (l : list A) a b x d :
  0 <= a -> a <= b <= zlen l ->
  In x (py_slice l a b) <-> exists i, a <= i < b /\ nth (Z.to_nat i) l d = x.
Proof.
  intros Ha Hb. unfold py_slice. rewrite !slice_bound_in by lia.
  rewrite (in_firstn_skipn _ _ _ _ d). unfold zlen in *. split.
  - intros [k [Hk [Hl Hx]]]. exists (Z.of_nat k). rewrite Nat2Z.id. split; [lia|assumption].
  - intros [i [Hi Hx]]. exists (Z.to_nat i). split; [lia|]. split; [lia|assumption].
Qed.

Lemma py_repeat_length {A} (v : A) n : length (py_repeat v n) = Z.to_nat n.
Proof. apply repeat_length. Qed.

Lemma nth_py_slice_set {A} (l : list A) a b (v : A) i d :
  0 <= a -> a <= b <= zlen l -> 0 <= i < zlen l ->
  nth (Z.to_nat i) (py_slice_set l a b (py_repeat v (b - a))) d =
  if (a <=? i) && (i <? b) then v else nth (Z.to_nat i) l d.
Proof.
  intros Ha Hb Hi. unfold py_slice_set. rewrite !slice_bound_in by lia.
  unfold zlen in *.
  destruct ((a <=? i) && (i <? b)) eqn:E.
  - rewrite app_nth2; rewrite firstn_length; [|lia].
    rewrite app_nth1; [|rewrite py_repeat_length; lia].
    unfold py_repeat. rewrite nth_indep with (d' := v) by (rewrite repeat_length; lia).
    apply nth_repeat.
  - destruct (Z_lt_dec i a) as [Hlt|Hge].
    + rewrite app_nth1 by (rewrite firstn_length; lia).
      apply nth_firstn_lt. lia.
    + rewrite app_nth2; rewrite firstn_length; [|lia].
      rewrite app_nth2; rewrite py_repeat_length; [|lia].
      rewrite Nat.max_r by lia. rewrite nth_skipn_add. f_equal. lia.
Qed.

Lemma py_slice_set_length {A} (l : list A) a b (v : A) :
  0 <= a -> a <= b <= zlen l ->
  length (py_slice_set l a b (py_repeat v (b - a))) = length l.
Proof.
  intros Ha Hb. unfold py_slice_set. rewrite !slice_bound_in by lia. unfold zlen in *.
  rewrite !app_length, py_repeat_length, firstn_length, skipn_length. lia.
Qed.

(** ** Dictionaries *)
Section Dict.
Context {A : Type}.
Implicit Types (d : odict A) (k : string).

Lemma dget_In d k v : dget d k = Some v -> In (k, v) d.
Proof.
  induction d as [|[k' v'] t IH]; simpl; [discriminate|].
  destruct (String.eqb_spec k k') as [->|Hne].
  - intros [= ->]. auto.
  - auto.
Qed.

Lemma dget_None d k : dget d k = None <-> ~ In k (dkeys d).
Proof.
  induction d as [|[k' v'] t IH]; simpl; [tauto|].
  destruct (String.eqb_spec k k') as [->|Hne].
  - split; [discriminate|]. intros H. exfalso. auto.
  - rewrite IH. split; [intros H [H'|H']; [congruence|tauto] | tauto].
Qed.

Lemma dget_Some_In d k : (exists v, dget d k = Some v) <-> In k (dkeys d).
Proof.
  destruct (dget d k) eqn:E.
  - split; [|eauto]. intros _. apply dget_In in E.
    apply in_map_iff. exists (k, a). auto.
  - apply dget_None in E. split; [intros [v H]; discriminate|tauto].
Qed.

Lemma In_dget d k v : NoDup (dkeys d) -> In (k, v) d -> dget d k = Some v.
Proof.
  induction d as [|[k' v'] t IH]; simpl; [tauto|].
  intros Hnd [H|H].
  - injection H as -> ->. rewrite String.eqb_refl. reflexivity.
  - inversion Hnd as [|? ? Hni Hnd']; subst.
    destruct (String.eqb_spec k k') as [->|Hne]; [|auto].
    exfalso. apply Hni. apply in_map_iff. exists (k', v). auto.
Qed.

Lemma dget_r_Ok d k v : dget_r d k = Ok v <-> dget d k = Some v.
Proof. unfold dget_r. destruct (dget d k); split; congruence. Qed.

Lemma dkeys_ddel d k : dkeys (ddel d k) = lremove (dkeys d) k.
Proof.
  induction d as [|[k' v'] t IH]; simpl; [reflexivity|].
  destruct (String.eqb k k'); simpl; congruence.
Qed.

Lemma ddel_perm d k v : dget d k = Some v -> Permutation d ((k, v) :: ddel d k).
Proof.
  induction d as [|[k' v'] t IH]; simpl; [discriminate|].
  destruct (String.eqb_spec k k') as [->|Hne].
  - intros [= ->]. apply Permutation_refl.
  - intros H. rewrite (IH H) at 1. apply perm_swap.
Qed.

Lemma ddel_incl d k kv : In kv (ddel d k) -> In kv d.
Proof.
  induction d as [|[k' v'] t IH]; simpl; [tauto|].
  destruct (String.eqb k k'); simpl; tauto.
Qed.

Lemma NoDup_ddel d k : NoDup (dkeys d) -> NoDup (dkeys (ddel d k)).
Proof.
  induction d as [|[k' v'] t IH]; simpl; [auto|].
  intros H. inversion H as [|? ? Hni Hnd]; subst.
  destruct (String.eqb k k'); [assumption|]. simpl. constructor; [|auto].
  intros Hin. apply Hni. unfold dkeys in *. apply in_map_iff in Hin. destruct Hin as [kv [Hk Hin]].
  apply in_map_iff. exists kv. split; [assumption|]. eapply ddel_incl; eassumption.
Qed.

Lemma dget_ddel_same d k : NoDup (dkeys d) -> dget (ddel d k) k = None.
Proof.
  induction d as [|[k' v'] t IH]; simpl; [auto|].
  intros H. inversion H as [|? ? Hni Hnd]; subst.
  destruct (String.eqb_spec k k') as [->|Hne].
  - apply dget_None. assumption.
  - simpl. destruct (String.eqb_spec k k'); [congruence|auto].
Qed.

Lemma dget_ddel_other d k k' : k <> k' -> dget (ddel d k) k' = dget d k'.
Proof.
  intros Hne. induction d as [|[j v] t IH]; simpl; [auto|].
  destruct (String.eqb_spec k j) as [->|Hj].
  - destruct (String.eqb_spec k' j); [congruence|reflexivity].
  - simpl. rewrite IH. reflexivity.
Qed.

Lemma dset_new d k v : dget d k = None -> dset d k v = d ++ [(k, v)].
Proof.
  induction d as [|[k' v'] t IH]; simpl; [auto|].
  destruct (String.eqb k k'); [discriminate|]. intros H. rewrite IH by assumption. reflexivity.
Qed.

Lemma dget_dset_same d k v : dget (dset d k v) k = Some v.
Proof.
  induction d as [|[k' v'] t IH]; simpl; [rewrite String.eqb_refl; reflexivity|].
  destruct (String.eqb k k') eqn:E; simpl; rewrite E; auto.
Qed.

Lemma dget_dset_other d k k' v : k <> k' -> dget (dset d k v) k' = dget d k'.
Proof.
  intros Hne. induction d as [|[j u] t IH]; simpl.
  - destruct (String.eqb_spec k' k); [congruence|reflexivity].
  - destruct (String.eqb_spec k j) as [->|Hj]; simpl.
    + destruct (String.eqb_spec k' j); [congruence|reflexivity].
    + rewrite IH. reflexivity.
Qed.

Lemma dkeys_dset d k v :
  dkeys (dset d k v) = if dmem d k then dkeys d else dkeys d ++ [k].
Proof.
  unfold dmem. induction d as [|[j u] t IH]; simpl; [reflexivity|].
  destruct (String.eqb k j); simpl; [reflexivity|].
  rewrite IH. destruct (dget t k); reflexivity.
Qed.

Lemma NoDup_dset d k v : NoDup (dkeys d) -> NoDup (dkeys (dset d k v)).
Proof.
  intros H. rewrite dkeys_dset. unfold dmem. destruct (dget d k) eqn:E; [assumption|].
  apply dget_None in E.
  apply Permutation_NoDup with (l := k :: dkeys d); [|constructor; assumption].
  apply Permutation_cons_append.
Qed.

Lemma In_dkeys_dset d k v k' : In k' (dkeys (dset d k v)) <-> k' = k \/ In k' (dkeys d).
Proof.
  rewrite dkeys_dset. unfold dmem. destruct (dget d k) eqn:E.
  - assert (In k (dkeys d)) by (apply dget_Some_In; eauto).
    split; [auto|]. intros [->|H']; assumption.
  - rewrite in_app_iff. simpl. intuition.
Qed.

Lemma In_dvals_dset d k v u : In u (dvals (dset d k v)) -> u = v \/ In u (dvals d).
Proof.
  induction d as [|[j w] t IH]; simpl; [intuition|].
  destruct (String.eqb k j); simpl; intuition.
Qed.
End Dict.

Lemma lremove_perm l x : In x l -> Permutation l (x :: lremove l x).
Proof.
  induction l as [|h t IH]; simpl; [tauto|].
  destruct (String.eqb_spec x h) as [->|Hne]; [intros _; apply Permutation_refl|].
  intros [H|H]; [congruence|]. rewrite (IH H) at 1. apply perm_swap.
Qed.

Lemma NoDup_app_iff {A} (a b : list A) :
  NoDup (a ++ b) <-> NoDup a /\ NoDup b /\ (forall x, In x a -> ~ In x b).
Proof.
  induction a as [|h t IH]; simpl.
  - split; [intros H; repeat split; auto; constructor | tauto].
  - split.
    + intros H. inversion H as [|? ? Hni Hnd]; subst. apply IH in Hnd.
      destruct Hnd as [H1 [H2 H3]]. rewrite in_app_iff in Hni. repeat split.
      * constructor; tauto.
      * assumption.
      * intros x [->|Hx]; [tauto|auto].
    + intros [H1 [H2 H3]]. inversion H1 as [|? ? Hni Hnd]; subst. constructor.
      * rewrite in_app_iff. intros [H|H]; [tauto|]. apply (H3 h); auto.
      * apply IH. repeat split; auto.
Qed.

(** ** Monadic maps and folds *)
Lemma bind_Ok {A B} (r : result A) (f : A -> result B) b :
  bind r f = Ok b <-> exists a, r = Ok a /\ f a = Ok b.
Proof.
  destruct r; simpl; split.
  - eauto.
  - intros [x [[= ->] H]]. assumption.
  - discriminate.
  - intros [x [H _]]. discriminate.
Qed.

Lemma rmap_ok {A B} (f : A -> result B) (P : A -> B -> Prop) l :
  (forall a, In a l -> exists b, f a = Ok b /\ P a b) ->
  exists bs, rmap f l = Ok bs /\ Forall2 P l bs.
Proof.
  induction l as [|h t IH]; intros H.
  - exists []. split; [reflexivity|constructor].
  - destruct (H h) as [b [Hb HP]]; [left; reflexivity|].
    destruct IH as [bs [Hbs HF]]; [intros a Ha; apply H; right; assumption|].
    exists (b :: bs). simpl. rewrite Hb. simpl. rewrite Hbs. simpl. split; [reflexivity|].
    constructor; assumption.
Qed.

Lemma rfold_ok {A S} (f : S -> A -> result S) (I : S -> Prop) l s :
  I s -> (forall a s', In a l -> I s' -> exists s'', f s' a = Ok s'' /\ I s'') ->
  exists s', rfold f l s = Ok s' /\ I s'.
Proof.
  revert s; induction l as [|h t IH]; intros s Hs Hstep.
  - exists s. split; [reflexivity|assumption].
  - destruct (Hstep h s) as [s1 [H1 HI]]; [left; reflexivity|assumption|].
    destruct (IH s1 HI) as [s2 [H2 HI2]]; [intros a s' Ha; apply Hstep; right; assumption|].
    exists s2. simpl. rewrite H1. simpl. split; assumption.
Qed.

Lemma rfold_app {A S} (f : S -> A -> result S) l1 l2 s :
  rfold f (l1 ++ l2) s = bind (rfold f l1 s) (rfold f l2).
Proof.
  revert s; induction l1 as [|h t IH]; intros s; simpl; [reflexivity|].
  destruct (f s h); simpl; auto.
Qed.

Lemma existsb_false_iff {A} (f : A -> bool) l :
  existsb f l = false <-> forall x, In x l -> f x = false.
Proof.
  split.
  - intros H x Hx. destruct (f x) eqn:E; [|reflexivity].
    assert (existsb f l = true) by (apply existsb_exists; eauto). congruence.
  - intros H. destruct (existsb f l) eqn:E; [|reflexivity].
    apply existsb_exists in E. destruct E as [x [Hx E]]. rewrite (H x Hx) in E. discriminate.
Qed.
