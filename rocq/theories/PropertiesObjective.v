(** * What [calculate_obj_value()] computes: C55. *)
From Coq Require Import ZArith String List Bool QArith Lia Permutation.
From Coq Require Import ZifyBool ZifyNat.
From Verif Require Import Py Arith Construct Spec LocalSearch SpecSearch ProofsPy PropertiesSolve PropertiesSearch.
Import ListNotations.
Open Scope string_scope.
Open Scope list_scope.
Open Scope Z_scope.

(** ** C55: what [calculate_obj_value()] is after [solve()]: the utilization of the only
    container, or the sum of the utilizations with the last container counting for 7/10. *)

Lemma nsum_qsum (l : list (num qarith)) : (nsum qarith l == qsum l)%Q.
Proof.
  assert (G : forall (l : list Q) (a : Q), (fold_left (fun a x => Qred (a + x)) l a == a + qsum l)%Q).
  { clear. induction l as [|q l IH]; intros a; cbn [fold_left qsum fold_right]; [ring|].
    rewrite IH, Qred_correct. unfold qsum. ring. }
  etransitivity; [apply (G l 0%Q)|]. ring.
Qed.

Lemma front_slice {A} (l : list A) (a : A) : py_slice (l ++ [a]) 0 (-1) = l.
Proof.
  unfold py_slice. assert (E : zlen (l ++ [a]) = zlen l + 1) by (unfold zlen; rewrite app_length; simpl; lia).
  rewrite E. assert (B0 : slice_bound (zlen l + 1) 0 = 0%nat) by (apply slice_bound_in; unfold zlen; lia).
  assert (B1 : slice_bound (zlen l + 1) (-1) = length l).
  { unfold slice_bound, zlen. replace (-1 <? 0) with true by reflexivity. lia. }
  rewrite B0, B1, Nat.sub_0_r. cbn [skipn]. rewrite firstn_app, Nat.sub_diag, firstn_all. apply app_nil_r.
Qed.

Lemma last_get {A} (l : list A) (a : A) : py_get (l ++ [a]) (-1) = Ok a.
Proof.
  unfold py_get. assert (E : zlen (l ++ [a]) = zlen l + 1) by (unfold zlen; rewrite app_length; simpl; lia).
  assert (I : py_index (zlen (l ++ [a])) (-1) = Some (length l)).
  { rewrite E. unfold py_index. replace (0 <=? -1) with false by reflexivity. cbn [andb].
    replace (- (zlen l + 1) <=? -1) with true by (unfold zlen; lia). cbn [andb]. replace (-1 <? 0) with true by reflexivity.
    f_equal. unfold zlen. lia. }
  rewrite I, nth_error_app2, Nat.sub_diag by lia. reflexivity.
Qed.

Theorem C55_objective_value : forall x, valid_inst qarith x -> counted qarith x ->
  forall sequence sol objs, known_sequence (in_pb x) sequence ->
  solve qarith (in_pb x) sequence = Ok (sol, objs) ->
  exists v, calculate_obj_value qarith (set_solution x sol objs) = Ok v /\
    match rev objs with
    | [] => False
    | [(_, only)] => dkeys (pb_containers (in_pb x)) = dkeys objs /\ (v == only)%Q
    | (_, last) :: front => dkeys (pb_containers (in_pb x)) = dkeys objs /\
        (v == qsum (map snd front) + (7 # 10) * last)%Q
    end.
Proof.
  intros x [Hvp _] Hc sequence sol objs Hk H.
  assert (Hkeys : dkeys objs = dkeys (pb_containers (in_pb x))).
  { pose proof H as H'. rewrite C04_solve_is_solve_full in H'. destruct H' as [left H'].
    apply (C04_ids_stored_once qarith _ _ _ _ _ Hvp Hk H'). }
  assert (Hlen : zlen objs = in_cnum x).
  { rewrite Hc. unfold zlen. f_equal. apply (f_equal (@length _)) in Hkeys. unfold dkeys in Hkeys.
    rewrite !map_length in Hkeys. assumption. }
  assert (Hne : objs <> []).
  { intros ->. destruct Hvp as [_ [_ [_ [Hne _]]]]. apply Hne. destruct (pb_containers (in_pb x)); [reflexivity|discriminate Hkeys]. }
  destruct (exists_last Hne) as [front [[cid last] ->]]. rewrite rev_app_distr. cbn [rev app].
  unfold calculate_obj_value, obj_value. cbn [in_cnum in_objs set_solution].
  unfold dvals. rewrite map_app. cbn [map snd].
  assert (Hz : zlen (front ++ [(cid, last)]) = zlen front + 1) by (unfold zlen; rewrite app_length; simpl; lia).
  destruct front as [|f front] using rev_ind.
  - replace (in_cnum x =? 1) with true by (rewrite <- Hlen, Hz; reflexivity).
    eexists. split; [reflexivity|]. cbn [rev app map]. split; [symmetry; exact Hkeys|].
    rewrite nsum_qsum. cbn [qsum fold_right]. ring.
  - clear IHfront. replace (in_cnum x =? 1) with false.
    2:{ symmetry. apply Z.eqb_neq. rewrite <- Hlen, Hz. unfold zlen. rewrite app_length. simpl. lia. }
    rewrite last_get, front_slice. cbn [bind]. eexists. split; [reflexivity|].
    rewrite rev_app_distr. cbn [rev app]. split; [symmetry; exact Hkeys|].
    set (a := nsum qarith (map snd (front ++ [f]))).
    change (Qred ((a : Q) + Qred ((7 # 10) * (last : Q))) == qsum (map snd (f :: rev front)) + (7 # 10) * last)%Q.
    rewrite !Qred_correct. apply Qplus_inj_r. unfold a. rewrite nsum_qsum.
    assert (P : forall l l' : list Q, Permutation l l' -> (qsum l == qsum l')%Q).
    { clear. intros l l' Hp. induction Hp; cbn [qsum fold_right]; fold qsum in *.
      - reflexivity.
      - unfold qsum in *. rewrite IHHp. reflexivity.
      - unfold qsum. ring.
      - etransitivity; eassumption. }
    apply P. apply Permutation_map. etransitivity; [|apply perm_skip; apply Permutation_rev].
    symmetry. apply Permutation_cons_append.
Qed.
Print Assumptions C55_objective_value.

(** Two bins, full and half full. *)
Example C55_demo : exists sol objs,
  solve qarith (in_pb bin_demo) (Some ["c"; "d"; "a"]) = Ok (sol, objs) /\
  map snd objs = [8 # 9; 0]%Q /\ calculate_obj_value qarith (set_solution bin_demo sol objs) = Ok (8 # 9)%Q.
Proof. eexists _, _. split; [vm_compute; reflexivity|]. split; vm_compute; reflexivity. Qed.
