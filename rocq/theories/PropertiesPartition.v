(** * C26: the strategies are partitioned among the processes.

    [strategies_chunks] divides the number of strategies by the number of workers in double
    precision, as the program does. *)
From Coq Require Import ZArith QArith Qreals Reals Lra Lia Bool List Psatz.
From Flocq Require Import Core.
From Verif Require Import Py Arith FloatArith Construct LocalSearch HyperSearch MultiProcess ProofsFloat ProofsMulti ProofsPartition.
Import ListNotations.
Open Scope Z_scope.

(** ** What happens for every number of workers *)
Lemma share_tiny n q : 0 < n -> (0 < q)%Q -> ((IZR n / Q2R q <= tiny)%R <-> (inject_Z (n * 2 ^ 1075) <= q)%Q).
Proof.
  intros Hn Hq. pose proof (q_pos q Hq) as P.
  assert (E : (tiny * IZR (2 ^ 1075) = 1)%R) by (unfold tiny; rewrite <- pow_R, <- bpow_plus by lia; reflexivity).
  assert (T : (0 < tiny)%R) by apply tiny_pos.
  assert (Z : (0 < IZR (2 ^ 1075))%R) by (apply IZR_lt; reflexivity).
  split; intros H.
  - apply Rle_Qle. rewrite Q2R_inject, mult_IZR. apply Rmult_le_reg_l with tiny; [exact T|].
    rewrite (Rmult_comm (IZR n)), <- Rmult_assoc, E, Rmult_1_l.
    apply (Rmult_le_compat_r (Q2R q)) in H; [|lra]. unfold Rdiv in H. rewrite Rmult_assoc, Rinv_l in H by lra. lra.
  - apply Qle_Rle in H. rewrite Q2R_inject, mult_IZR in H. apply Rmult_le_reg_r with (Q2R q); [exact P|].
    unfold Rdiv. rewrite Rmult_assoc, Rinv_l, Rmult_1_r by lra.
    apply (Rmult_le_compat_l tiny) in H; [|lra]. rewrite (Rmult_comm (IZR n)), <- Rmult_assoc, E, Rmult_1_l in H. exact H.
Qed.

Lemma share_huge n q : 0 < n -> (0 < q)%Q -> ((IZR n / Q2R q < huge)%R <-> (inject_Z n < q * inject_Z (2 ^ 1024 - 2 ^ 970))%Q).
Proof.
  intros Hn Hq. pose proof (q_pos q Hq) as P. split; intros H.
  - apply Rlt_Qlt. rewrite Q2R_mult, !Q2R_inject. change (IZR (2 ^ 1024 - 2 ^ 970)) with huge.
    apply (Rmult_lt_compat_r (Q2R q)) in H; [|exact P]. unfold Rdiv in H. rewrite Rmult_assoc, Rinv_l in H by lra. lra.
  - apply Qlt_Rlt in H. rewrite Q2R_mult, !Q2R_inject in H. change (IZR (2 ^ 1024 - 2 ^ 970)) with huge in H.
    apply Rmult_lt_reg_r with (Q2R q); [exact P|]. unfold Rdiv. rewrite Rmult_assoc, Rinv_l, Rmult_1_r by lra. lra.
Qed.

Lemma zlen_pos {A} (l : list A) : l <> [] -> 0 < zlen l.
Proof. unfold zlen. destruct l; [contradiction|simpl; lia]. Qed.

(** The call raises ValueError when the quotient is rounded to zero (so also without strategies),
    OverflowError when it is too large for a double, and makes chunks otherwise. *)
Theorem C26_outcome : forall (A : Type) (strategies : list A) (workers_num : Q), (0 < workers_num)%Q ->
  let n := zlen strategies in
  ((inject_Z (n * 2 ^ 1075) <= workers_num)%Q -> strategies_chunks strategies workers_num = Err ValueError) /\
  ((workers_num * inject_Z (2 ^ 1024 - 2 ^ 970) <= inject_Z n)%Q -> strategies_chunks strategies workers_num = Err OverflowError) /\
  ((workers_num < inject_Z (n * 2 ^ 1075))%Q -> (inject_Z n < workers_num * inject_Z (2 ^ 1024 - 2 ^ 970))%Q ->
     exists chunks, strategies_chunks strategies workers_num = Ok chunks).
Proof.
  intros A l q Hq n. assert (El : l = [] \/ l <> []) by (destruct l; [left; reflexivity|right; discriminate]).
  destruct El as [El|El].
  - assert (E : strategies_chunks (@nil A) q = Err ValueError).
    { unfold strategies_chunks, strategies_per_process, zlen. cbn [length Z.of_nat Z.mul sf_of_Z].
      unfold Qlt in Hq. destruct q as [[|x|x] y]; cbn in Hq; try lia. reflexivity. }
    unfold n. rewrite El. split; [intros _; exact E|]. unfold zlen. cbn [length Z.of_nat Z.mul]. split.
    + intros H. exfalso. unfold Qle, Qlt in *. cbn [Qmult Qnum Qden inject_Z] in *.
      assert (0 < 2 ^ 1024 - 2 ^ 970) by reflexivity. set (B := 2 ^ 1024 - 2 ^ 970) in *. clearbody B. nia.
    + intros H. exfalso. unfold Qlt in *. cbn [Qnum Qden inject_Z] in *. lia.
  - assert (Hn : 0 < n) by (apply zlen_pos; exact El).
    pose proof (share_tiny n q Hn Hq) as T. pose proof (share_huge n q Hn Hq) as G.
    unfold strategies_chunks. fold n. rewrite (per_spec n q Hn Hq).
    assert (TG : (tiny < huge)%R).
    { eapply Rlt_trans; [apply (bpow_lt radix2 _ 0); lia|]. simpl. unfold huge. apply IZR_lt. reflexivity. }
    split; [|split].
    + intros H. apply T in H. destruct (Rlt_dec _ huge) as [L|L]; [|lra]. cbn [bind].
      rewrite (proj2 (per_zero n q Hn Hq) H). reflexivity.
    + intros H. destruct (Rlt_dec _ huge) as [L|L]; [|reflexivity]. apply G in L. exfalso. apply Qlt_not_le in L. exact (L H).
    + intros H1 H2. destruct (Rlt_dec _ huge) as [L|L]; [|exfalso; apply L, G; exact H2]. cbn [bind].
      destruct (Z.eqb_spec (Zceil (rnd (IZR n / Q2R q))) 0) as [E|E].
      * exfalso. apply (per_zero n q Hn Hq) in E. apply T in E. apply Qlt_not_le in H1. exact (H1 E).
      * destruct (_ <? 0); eexists; reflexivity.
Qed.
Print Assumptions C26_outcome.

(** In particular it succeeds for every number of workers anybody would ask for. *)
Corollary C26_succeeds : forall (A : Type) (strategies : list A) (workers_num : Q), strategies <> [] ->
  (inject_Z (zlen strategies) / inject_Z (2 ^ 1000) <= workers_num <= inject_Z (2 ^ 1000))%Q ->
  exists chunks, strategies_chunks strategies workers_num = Ok chunks.
Proof.
  intros A l q Hl [H1 H2]. pose proof (zlen_pos l Hl) as Hn. set (n := zlen l) in *.
  assert (Zp : (0 < inject_Z n / inject_Z (2 ^ 1000))%Q).
  { apply Qlt_shift_div_l; [reflexivity|]. rewrite Qmult_0_l. change 0%Q with (inject_Z 0). rewrite <- Zlt_Qlt. exact Hn. }
  assert (Hq : (0 < q)%Q) by (eapply Qlt_le_trans; eassumption).
  apply (C26_outcome A l q Hq).
  - eapply Qle_lt_trans; [exact H2|]. rewrite <- Zlt_Qlt. fold n.
    assert (0 < 2 ^ 1000 < 2 ^ 1075) by (split; reflexivity). set (a := 2 ^ 1000) in *. set (b := 2 ^ 1075) in *. clearbody a b. nia.
  - fold n.
    assert (E : (inject_Z n <= q * inject_Z (2 ^ 1000))%Q).
    { rewrite <- (Qmult_div_r (inject_Z n) (inject_Z (2 ^ 1000))) by discriminate. rewrite Qmult_comm.
      apply Qmult_le_compat_r; [exact H1|discriminate]. }
    eapply Qle_lt_trans; [exact E|]. apply Qmult_lt_l; [exact Hq|]. rewrite <- Zlt_Qlt. reflexivity.
Qed.
Print Assumptions C26_succeeds.

(** ** The chunks *)
Theorem C26_partition : forall (A : Type) (strategies : list A) (workers_num : Q) chunks, (0 < workers_num)%Q ->
  zlen strategies < 2 ^ 53 -> strategies_chunks strategies workers_num = Ok chunks ->
  (* nothing lost, duplicated or reordered *)
  concat chunks = strategies /\
  (forall c, In c chunks -> c <> []) /\
  (* at most as many processes as asked for, a fraction being rounded up *)
  1 <= zlen chunks /\ (inject_Z (zlen chunks) < workers_num + 1)%Q /\
  (forall n, workers_num = inject_Z n -> zlen chunks <= n) /\
  (* balanced: no chunk is larger than the rounded up share *)
  (forall c, In c chunks -> inject_Z (zlen c - 1) * workers_num < inject_Z (zlen strategies))%Q.
Proof.
  intros A l q chunks Hq Hb H. destruct (chunks_cut l q chunks Hq H) as [Hl [p [Ep [Hp ->]]]].
  pose proof (zlen_pos l Hl) as Hn. rewrite (per_spec _ q Hn Hq) in Ep.
  destruct (Rlt_dec _ huge) as [L|L]; [|discriminate]. injection Ep as Ep.
  destruct (piece_sizes l p Hl Hp) as [H1 [H2 [H3 H4]]].
  assert (C : (inject_Z (zlen (chunks_of l p)) < q + 1)%Q).
  { rewrite (pieces_count l p Hl Hp). set (m := (zlen l + p - 1) / p) in *.
    assert (K : (inject_Z (m - 1) < q)%Q).
    { destruct (Z.eq_dec m 1) as [->|N]; [exact Hq|].
      apply (per_enough (zlen l) q Hn Hq); [lia|exact Hb|rewrite Ep; exact Hp|rewrite Ep; nia]. }
    replace m with (m - 1 + 1) by lia. rewrite inject_Z_plus. apply Qplus_lt_l. exact K. }
  split; [apply pieces_concat; assumption|].
  split; [intros c; apply pieces_nonempty; assumption|].
  split; [rewrite (pieces_count l p Hl Hp); exact H2|]. split; [exact C|]. split.
  - intros k ->. change 1%Q with (inject_Z 1) in C. rewrite <- inject_Z_plus, <- Zlt_Qlt in C. lia.
  - intros c Hc. pose proof (pieces_size l p Hl Hp c Hc) as S. pose proof (pieces_nonempty l p Hl Hp c Hc) as Hne.
    apply zlen_pos in Hne.
    assert (Sl : zlen c <= zlen l).
    { rewrite <- (pieces_concat l p Hl Hp). apply in_split in Hc. destruct Hc as [a [b ->]].
      rewrite concat_app. cbn [concat]. unfold zlen. rewrite !app_length. lia. }
    apply (per_balanced (zlen l) q Hq); [lia|]. rewrite Ep. lia.
Qed.
Print Assumptions C26_partition.

(** With a whole number of workers the rounding has no effect: the chunks have the rounded up
    share, but for the last. *)
Theorem C26_whole_workers : forall (A : Type) (strategies : list A) w, strategies <> [] -> zlen strategies < 2 ^ 53 ->
  1 <= w < 2 ^ 1000 ->
  let per := (zlen strategies + w - 1) / w in
  exists chunks, strategies_chunks strategies (inject_Z w) = Ok chunks /\
    forall i, nth_error chunks i =
      if Z.of_nat i * per <? zlen strategies
      then Some (firstn (Z.to_nat per) (skipn (i * Z.to_nat per) strategies)) else None.
Proof.
  intros A l w Hl Hb Hw per. pose proof (zlen_pos l Hl) as Hn.
  assert (Hq : (0 < inject_Z w)%Q) by (change 0%Q with (inject_Z 0); rewrite <- Zlt_Qlt; lia).
  destruct (C26_succeeds A l (inject_Z w) Hl) as [chunks H].
  { split.
    - apply Qle_shift_div_r; [reflexivity|]. rewrite <- inject_Z_mult, <- Zle_Qle.
      assert (0 < 2 ^ 53 < 2 ^ 1000) by (split; reflexivity). set (a := 2 ^ 53) in *. set (b := 2 ^ 1000) in *. clearbody a b. nia.
    - rewrite <- Zle_Qle. lia. }
  exists chunks. split; [exact H|]. destruct (chunks_cut l _ chunks Hq H) as [_ [p [Ep [Hp ->]]]].
  assert (E : p = per).
  { rewrite (per_spec _ _ Hn Hq) in Ep. destruct (Rlt_dec _ huge) as [L|L]; [|discriminate]. injection Ep as Ep.
    set (n := zlen l) in *. destruct (ceil_spec n w ltac:(lia)) as [S1 S2]. fold per in S1, S2. clearbody per.
    assert (U : n <= w * p).
    { destruct (Z_lt_le_dec (w * p) n) as [C|C]; [exfalso|lia].
      assert (X : (inject_Z w < inject_Z w)%Q) by (apply (per_enough n (inject_Z w) Hn Hq); [lia|exact Hb|lia|rewrite Ep; exact C]).
      exact (Qlt_irrefl _ X). }
    assert (P : per <= p) by nia.
    destruct (Z_lt_le_dec per p) as [C|C]; [exfalso|lia].
    assert (X : (inject_Z per * inject_Z w < inject_Z n)%Q).
    { apply (per_balanced n (inject_Z w) Hq); [split; nia|lia]. }
    rewrite <- inject_Z_mult, <- Zlt_Qlt in X. nia. }
  rewrite E in *. clear E. intros i. rewrite (pieces_eq l per Hl Hp).
  destruct (piece_sizes l per Hl Hp) as [H1 [H2 [H3 H4]]]. set (m := (zlen l + per - 1) / per) in *.
  destruct (Z.ltb_spec (Z.of_nat i * per) (zlen l)) as [C|C].
  - rewrite (map_nth_error _ i (seq 0 (Z.to_nat m)) (d := i)); [reflexivity|].
    assert (Hi : (i < Z.to_nat m)%nat) by nia.
    rewrite (nth_error_nth' _ 0%nat) by (rewrite seq_length; exact Hi). rewrite seq_nth by exact Hi. reflexivity.
  - apply nth_error_None. rewrite map_length, seq_length. nia.
Qed.
Print Assumptions C26_whole_workers.

Definition sizes {A} (r : result (list (list A))) : list Z := match r with Ok c => map zlen c | Err _ => [] end.
Example C26_demo : sizes (strategies_chunks (seq 0 720) 7) = [103; 103; 103; 103; 103; 103; 102].
Proof. vm_compute. reflexivity. Qed.
Example C26_demo_few : strategies_chunks strategy_pool 8 = Ok [[nth 0 strategy_pool []]; [nth 1 strategy_pool []]].
Proof. vm_compute. reflexivity. Qed.
Example C26_demo_float : sizes (strategies_chunks (seq 0 720) (5 # 2)) = [288; 288; 144].
Proof. vm_compute. reflexivity. Qed.
(** The double 0.7 (a little below 7/10): 7 / 0.7 is above 10, and 10.0 as a double. *)
Example C26_demo_rounded : strategies_per_process 7 (6305039478318694 # 9007199254740992) = Ok 10 /\
  (10 * (6305039478318694 # 9007199254740992) < 7)%Q.
Proof. split; vm_compute; reflexivity. Qed.
Example C26_demo_zero : strategies_chunks (seq 0 720) (inject_Z (720 * 2 ^ 1075)) = Err ValueError /\
  exists chunks, strategies_chunks (seq 0 720) (inject_Z (720 * 2 ^ 1075 - 1)) = Ok chunks.
Proof. split; [vm_compute; reflexivity|]. eexists. vm_compute. reflexivity. Qed.
Example C26_demo_overflow : strategies_chunks (seq 0 720) (1 # (2 ^ 1074)) = Err OverflowError.
Proof. vm_compute. reflexivity. Qed.
