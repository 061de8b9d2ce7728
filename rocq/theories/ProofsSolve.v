(** * [solve]: lifting the construction invariants to all containers. *)
From Coq Require Import ZArith String List Bool Lia Permutation.
From Coq Require Import ZifyBool ZifyNat.
From Verif Require Import Py Arith Construct Spec Runs ProofsPy ProofsGrid ProofsConstruct.
Import ListNotations.
Open Scope Z_scope.

Section Solve.
Context (ar : arith) (pb : problem).

Notation steps_c c := (steps ar (dw c) (container_length pb c) (pb_strip pb)
                               (pb_rotation pb) (pb_strategy pb)).
Notation init_c c items := (init_state ar (dw c) (container_length pb c) items).
Notation inv_c c items := (inv ar (dw c) (container_length pb c) (pb_strip pb)
                             (pb_rotation pb) items).

(** One container's construction. *)
Inductive built (c : dims) (items rest : odict dims) (csol : odict entry) (obj : num ar) : Prop :=
| built_skip : items = [] -> rest = [] -> csol = [] -> obj = num0 ar -> built c items rest csol obj
| built_run s :
    items <> [] ->
    steps_c c (init_c c items) s -> stopped ar s -> inv_c c items s ->
    rest = st_items s -> csol = result_entries ar s ->
    obj = final_obj ar (dw c) (container_length pb c) (pb_strip pb) s ->
    built c items rest csol obj.

Inductive solve_run : odict dims -> odict dims -> odict dims -> solution -> objvals ar -> Prop :=
| run_nil items : solve_run [] items items [] []
| run_cons cid c cs items mid rest csol obj sol objs :
    built c items mid csol obj ->
    solve_run cs mid rest sol objs ->
    solve_run ((cid, c) :: cs) items rest ((cid, csol) :: sol) ((cid, obj) :: objs).

Definition room_ok (c : dims) : Prop := 0 < dw c /\ 0 < container_length pb c.

Lemma built_perm c items rest csol obj :
  built c items rest csol obj ->
  exists ds, Permutation (ds ++ rest) items /\ dkeys ds = dkeys csol /\
    Forall2 (fun kd ke => fst kd = fst ke /\ stores (pb_rotation pb) (snd kd) (snd ke)) ds csol.
Proof.
  intros [-> -> -> _ | s Hne Hst Hstop Hi -> -> _].
  - exists []. repeat split; constructor.
  - exists (map (fun kp => (fst kp, p_item (snd kp))) (st_sol s)).
    split; [apply (i_perm _ _ _ _ _ _ _ Hi)|]. split.
    { unfold dkeys, result_entries. rewrite !map_map. reflexivity. }
    pose proof (i_rot _ _ _ _ _ _ _ Hi) as Hrot. unfold result_entries.
    induction (st_sol s) as [|[i p] t IH]; simpl; constructor.
    + split; [reflexivity|]. unfold stores, export. simpl.
      destruct (p_rot p) eqn:E; [right|left; auto].
      split; [|auto]. apply (Hrot i p); [left; reflexivity|assumption].
    + apply IH. intros j q Hin. apply Hrot with j. right. assumption.
Qed.

Lemma built_valid c items rest csol obj :
  valid_items items -> built c items rest csol obj -> valid_items rest.
Proof.
  intros [Hn Hp] Hb. destruct (built_perm _ _ _ _ _ Hb) as [ds [Hperm _]]. split.
  - assert (NoDup (dkeys (ds ++ rest))).
    { eapply Permutation_NoDup; [|exact Hn]. apply Permutation_map. apply Permutation_sym.
      assumption. }
    unfold dkeys in *. rewrite map_app in H. apply NoDup_app_iff in H. tauto.
  - intros i d Hin. apply (Hp i). eapply Permutation_in; [exact Hperm|].
    apply in_or_app. auto.
Qed.

Lemma solve_step_spec items sol objs cid c :
  valid_items items -> room_ok c -> dget sol cid = None -> dget objs cid = None ->
  exists rest csol obj, built c items rest csol obj /\
    solve_step ar pb (items, sol, objs) (cid, c) =
      Ok (rest, sol ++ [(cid, csol)], objs ++ [(cid, obj)]).
Proof.
  intros Hv [Hw Hl] H1 H2. unfold solve_step. destruct items as [|kd items'] eqn:E.
  - exists [], [], (num0 ar). split; [apply built_skip; reflexivity|].
    rewrite !dset_new by assumption. reflexivity.
  - rewrite <- E in *.
    destruct (construct_solution_spec ar (dw c) (container_length pb c) (pb_strip pb)
                (pb_rotation pb) (pb_strategy pb) items Hw Hl Hv) as [s [-> [Hs1 [Hs2 Hs3]]]].
    cbn [bind]. rewrite !dset_new by assumption.
    eexists _, _, _. split; [|reflexivity]. eapply built_run; eauto. congruence.
Qed.

Lemma rfold_solve cs : forall items sol objs,
  valid_items items -> (forall cid c, In (cid, c) cs -> room_ok c) ->
  NoDup (dkeys cs) -> (forall cid, In cid (dkeys cs) -> dget sol cid = None /\ dget objs cid = None) ->
  exists rest sol' objs', solve_run cs items rest sol' objs' /\
    rfold (solve_step ar pb) cs (items, sol, objs) = Ok (rest, sol ++ sol', objs ++ objs').
Proof.
  induction cs as [|[cid c] cs IH]; intros items sol objs Hv Hroom Hnd Hfresh.
  - exists items, [], []. split; [constructor|]. simpl. rewrite !app_nil_r. reflexivity.
  - destruct (Hfresh cid) as [Hf1 Hf2]; [left; reflexivity|].
    destruct (solve_step_spec items sol objs cid c Hv) as [mid [csol [obj [Hb Hs]]]]; auto.
    { apply (Hroom cid). left. reflexivity. }
    simpl in Hnd. inversion Hnd as [|? ? Hni Hnd']; subst.
    destruct (IH mid (sol ++ [(cid, csol)]) (objs ++ [(cid, obj)])) as [rest [sol' [objs' [Hr Hf]]]].
    { eapply built_valid; eassumption. }
    { intros; eapply Hroom; right; eassumption. } { assumption. }
    { intros k Hk. assert (k <> cid) by (intros ->; contradiction).
      destruct (Hfresh k) as [Hk1 Hk2]; [right; assumption|].
      rewrite <- (dset_new _ _ _ Hf1), <- (dset_new _ _ _ Hf2).
      rewrite !dget_dset_other by congruence. auto. }
    exists rest, ((cid, csol) :: sol'), ((cid, obj) :: objs'). split; [econstructor; eassumption|].
    cbn [rfold]. rewrite Hs. cbn [bind]. etransitivity; [exact Hf|].
    rewrite <- !app_assoc. reflexivity.
Qed.

(** ** The item sequence *)
Lemma deepcopy_seq_spec (items : odict dims) ids : forall acc,
  (forall i, In i ids -> In i (dkeys items)) ->
  (forall k v, dget acc k = Some v -> dget items k = Some v) ->
  exists d, rfold (fun d i => bind (dget_r items i) (fun it => Ok (dset d i it))) ids acc = Ok d /\
    (forall k v, dget d k = Some v -> dget items k = Some v) /\
    (forall k, In k (dkeys d) <-> In k (dkeys acc) \/ In k ids) /\
    (NoDup (dkeys acc) -> NoDup (dkeys d)).
Proof.
  induction ids as [|i ids IH]; intros acc Hids Hacc.
  - exists acc. simpl. repeat split; auto; tauto.
  - assert (In i (dkeys items)) as Hi by (apply Hids; left; reflexivity).
    apply dget_Some_In in Hi. destruct Hi as [v Hv].
    destruct (IH (dset acc i v)) as [d [Hd [H1 [H2 H3]]]].
    { intros; apply Hids; right; assumption. }
    { intros k u Hk. destruct (string_dec i k) as [->|Hne].
      - rewrite dget_dset_same in Hk. congruence.
      - rewrite dget_dset_other in Hk by assumption. auto. }
    exists d. cbn [rfold]. unfold dget_r at 1. rewrite Hv. cbn [bind]. split; [exact Hd|].
    split; [assumption|]. split.
    + intros k. rewrite H2, In_dkeys_dset. simpl. intuition.
    + intros Hn. apply H3. apply NoDup_dset. assumption.
Qed.

Definition items_ok (items : odict dims) (sequence : option (list string)) : Prop :=
  valid_items items /\
  (forall i, In i (dkeys items) <-> In i (wanted pb sequence)) /\
  (forall i d, In (i, d) items -> dget (pb_items pb) i = Some d).

Lemma items_for_spec sequence :
  valid_items (pb_items pb) -> known_sequence pb sequence ->
  exists items, items_for pb sequence = Ok items /\ items_ok items sequence.
Proof.
  intros [Hn Hp] Hk. destruct sequence as [ids|]; simpl.
  - unfold deepcopy_seq. destruct (deepcopy_seq_spec (pb_items pb) ids []) as [d [-> [H1 [H2 H3]]]].
    { exact Hk. } { discriminate. }
    exists d. split; [reflexivity|]. assert (Hnd : NoDup (dkeys d)) by (apply H3; constructor).
    split; [|split].
    + split; [assumption|]. intros i e Hin. apply (Hp i). apply dget_In. apply H1.
      apply In_dget; assumption.
    + intros i. rewrite H2. simpl. tauto.
    + intros i e Hin. apply H1. apply In_dget; assumption.
  - exists (pb_items pb). split; [reflexivity|]. split; [|split].
    + split; assumption.
    + tauto.
    + intros i d Hin. apply In_dget; assumption.
Qed.

Lemma rooms_ok : valid_problem pb -> forall cid c, In (cid, c) (pb_containers pb) -> room_ok c.
Proof.
  intros [_ [[_ Hc] [_ [_ Hh]]]] cid c Hin. specialize (Hc _ _ Hin). destruct Hc as [Hw Hl].
  split; [assumption|]. unfold container_length. destruct (pb_strip pb); [auto|assumption].
Qed.

Lemma solve_full_spec sequence :
  valid_problem pb -> known_sequence pb sequence ->
  exists items rest sol objs,
    items_for pb sequence = Ok items /\ items_ok items sequence /\
    solve_run (pb_containers pb) items rest sol objs /\
    solve_full ar pb sequence = Ok (rest, sol, objs).
Proof.
  intros Hv Hk. pose proof Hv as [Hvi [[Hcn Hcp] _]].
  destruct (items_for_spec sequence Hvi Hk) as [items [Hitems Hok]].
  destruct (rfold_solve (pb_containers pb) items [] []) as [rest [sol [objs [Hrun Hf]]]].
  { apply Hok. } { apply rooms_ok. assumption. } { assumption. } { intros; auto. }
  exists items, rest, sol, objs.
  split; [exact Hitems|]. split; [exact Hok|]. split; [exact Hrun|].
  unfold solve_full. rewrite Hitems. cbn [bind]. exact Hf.
Qed.

Lemma solve_spec sequence :
  valid_problem pb -> known_sequence pb sequence ->
  exists items rest sol objs,
    items_for pb sequence = Ok items /\ items_ok items sequence /\
    solve_run (pb_containers pb) items rest sol objs /\
    solve_full ar pb sequence = Ok (rest, sol, objs) /\
    solve ar pb sequence = Ok (sol, objs).
Proof.
  intros Hv Hk. destruct (solve_full_spec sequence Hv Hk) as [items [rest [sol [objs [H1 [H2 [H3 H4]]]]]]].
  exists items, rest, sol, objs.
  split; [exact H1|]. split; [exact H2|]. split; [exact H3|]. split; [exact H4|].
  unfold solve. rewrite H4. reflexivity.
Qed.

(** ** Consequences of [solve_run] *)
Lemma run_keys cs items rest sol objs :
  solve_run cs items rest sol objs -> dkeys sol = dkeys cs /\ dkeys objs = dkeys cs.
Proof. induction 1 as [|? ? ? ? ? ? ? ? ? ? _ _ [IH1 IH2]]; simpl; split; congruence. Qed.

Lemma run_containers cs items rest sol objs :
  solve_run cs items rest sol objs -> valid_items items ->
  forall cid csol, In (cid, csol) sol ->
  exists c its its' obj, In (cid, c) cs /\ In (cid, obj) objs /\ valid_items its /\
    (forall kd, In kd its -> In kd items) /\ built c its its' csol obj.
Proof.
  induction 1 as [|cid c cs items mid rest csol obj sol objs Hb Hr IH]; intros Hv k ks Hin.
  - destruct Hin.
  - destruct Hin as [[= <- <-]|Hin].
    + exists c, items, mid, obj. simpl. split; [auto|]. split; [auto|]. split; [exact Hv|]. auto.
    + destruct (IH (built_valid _ _ _ _ _ Hv Hb) _ _ Hin)
        as [c' [its [its' [obj' [H1 [H2 [H3 [H4 H5]]]]]]]].
      exists c', its, its', obj'. simpl. split; [auto|]. split; [auto|]. split; [assumption|].
      split; [|assumption]. intros kd Hkd. specialize (H4 kd Hkd).
      destruct (built_perm _ _ _ _ _ Hb) as [ds [Hp _]].
      eapply Permutation_in; [exact Hp|]. apply in_or_app. auto.
Qed.

Lemma run_objs cs items rest sol objs :
  solve_run cs items rest sol objs -> valid_items items ->
  forall cid obj, In (cid, obj) objs ->
  exists c its its' csol, In (cid, c) cs /\ In (cid, csol) sol /\ valid_items its /\
    built c its its' csol obj.
Proof.
  induction 1 as [|cid c cs items mid rest csol obj sol objs Hb Hr IH]; intros Hv k o Hin.
  - destruct Hin.
  - destruct Hin as [[= <- <-]|Hin].
    + exists c, items, mid, csol. simpl. split; [auto|]. split; [auto|]. split; [exact Hv|]. auto.
    + destruct (IH (built_valid _ _ _ _ _ Hv Hb) _ _ Hin)
        as [c' [its [its' [cs' [H1 [H2 [H3 H4]]]]]]].
      exists c', its, its', cs'. simpl. auto.
Qed.

Lemma run_perm cs items rest sol objs :
  solve_run cs items rest sol objs ->
  exists ds, Permutation (ds ++ rest) items /\ dkeys ds = stored_ids sol /\
    Forall2 (fun kd ke => fst kd = fst ke /\ stores (pb_rotation pb) (snd kd) (snd ke))
            ds (concat (map snd sol)).
Proof.
  induction 1 as [items|cid c cs items mid rest csol obj sol objs Hb Hr [ds [IH1 [IH2 IH3]]]].
  - exists []. repeat split; constructor || apply Permutation_refl.
  - destruct (built_perm _ _ _ _ _ Hb) as [ds0 [H1 [H2 H3]]].
    exists (ds0 ++ ds). split; [|split].
    + rewrite <- app_assoc. rewrite IH1. assumption.
    + unfold dkeys. rewrite map_app. unfold stored_ids. simpl. f_equal; assumption.
    + simpl. apply Forall2_app; assumption.
Qed.

Lemma built_facts c items rest csol obj :
  room_ok c -> valid_items items -> built c items rest csol obj ->
  (forall i e, In (i, e) csol -> inside (dw c) (container_length pb c) e) /\
  placed_in_order (entries csol) /\
  NoDup (dkeys csol).
Proof.
  intros Hroom Hv [-> -> -> _ | s Hne Hst Hstop Hi -> -> _].
  - split; [intros i e []|]. split; constructor.
  - split; [|split].
    + intros i e Hin. unfold result_entries in Hin. apply in_map_iff in Hin.
      destruct Hin as [[j p] [[= <- <-] Hin]]. apply (i_in _ _ _ _ _ _ _ Hi).
      unfold placed_entries. apply in_map_iff. exists (j, p). auto.
    + rewrite entries_result. apply (i_order _ _ _ _ _ _ _ Hi).
    + rewrite dkeys_result. apply (inv_nodup _ _ _ _ _ _ Hv s Hi).
Qed.
End Solve.
