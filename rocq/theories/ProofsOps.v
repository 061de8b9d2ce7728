(** * Every operation but [|=] consists of elementary steps. *)
From Coq Require Import ZArith String List Bool Lia Permutation.
From Verif Require Import Py ProofsPy Arith Construct Spec LocalSearch SpecSearch Values ProofsVal
  Settings Instance SpecInstance ProofsMachine.
Import ListNotations.
Open Scope list_scope.
Open Scope Z_scope.
Open Scope sm_scope.

Lemma validate_data_ok k key item :
  validate_data k key item = Ok tt -> is_proper k key = true /\ posval item.
Proof.
  unfold validate_data. destruct (negb (hashable key)); [discriminate|].
  destruct (is_proper k key); [|discriminate]. cbn [negb]. unfold posval.
  destruct (as_int item) as [z|]; [|discriminate]. destruct (z <=? 0) eqn:E; [discriminate|].
  intros _. split; [reflexivity|]. exists z. split; [reflexivity|]. apply Z.leb_gt in E. assumption.
Qed.

Lemma validate_data_accepts k key item :
  is_proper k key = true -> posval item -> validate_data k key item = Ok tt.
Proof.
  intros Hp [z [Hz Hpos]]. unfold validate_data. pose proof Hp as Hp'. unfold is_proper in Hp'.
  assert (Hh : hashable key = true).
  { apply orb_true_iff in Hp'. destruct Hp' as [H|H]; apply key_eqb_str_r in H; subst; reflexivity. }
  rewrite Hh, Hp, Hz. cbn [negb]. replace (z <=? 0) with false; [reflexivity|]. symmetry. apply Z.leb_gt. assumption.
Qed.

Lemma vmem_vset d k v k' : vmem d k' = true -> (exists i, k = VStr i) -> vmem (vset d k v) k' = true.
Proof.
  unfold vmem. intros H [i ->]. induction d as [|[k1 v1] d IH]; [discriminate|]. cbn [vset].
  destruct (key_eqb (VStr i) k1) eqn:E1.
  - cbn [vget] in *. destruct (key_eqb k' k1); [reflexivity|assumption].
  - cbn [vget] in *. destruct (key_eqb k' k1); [reflexivity|auto].
Qed.

Lemma vmem_vset_same d i v : vmem (vset d (VStr i) v) (VStr i) = true.
Proof.
  unfold vmem. induction d as [|[k1 v1] d IH]; cbn [vset vget].
  - rewrite (proj2 (key_eqb_str_l i (VStr i)) eq_refl). reflexivity.
  - destruct (key_eqb (VStr i) k1) eqn:E; cbn [vget]; rewrite E; auto.
Qed.

Lemma is_proper_str k key : is_proper k key = true -> exists i, key = VStr i /\ (i = wkey k \/ i = lkey k).
Proof.
  unfold is_proper. intros H. apply orb_true_iff in H. destruct H as [H|H]; apply key_eqb_str_r in H; eauto.
Qed.

Lemma fill_dims_good k d data data' :
  fill_dims k d data = Ok data' -> good_data k data ->
  good_data k data' /\ (forall i, vmem data (VStr i) = true \/ vmem d (VStr i) = true -> vmem data' (VStr i) = true).
Proof.
  revert data; induction d as [|[key item] d IH]; cbn [fill_dims]; intros data H G.
  - injection H as <-. split; [assumption|]. intros i [Hi|Hi]; [assumption|discriminate].
  - destruct (validate_data k key item) as [[]|] eqn:E; [|discriminate]. cbn [bind] in H.
    destruct (validate_data_ok _ _ _ E) as [Hp Hv]. destruct (is_proper_str _ _ Hp) as [j [-> _]].
    destruct (IH _ H (good_vset _ _ _ _ G Hp Hv)) as [G1 G2]. split; [assumption|].
    intros i [Hi|Hi]; apply G2.
    + left. apply vmem_vset; eauto.
    + unfold vmem in Hi. cbn [vget] in Hi. destruct (key_eqb (VStr i) (VStr j)) eqn:Ek.
      * apply key_eqb_str_l in Ek. injection Ek as ->. left. apply vmem_vset_same.
      * right. unfold vmem. destruct (vget d (VStr i)); [reflexivity|discriminate].
Qed.

Section Ops.
Context {ar : arith}.
Notation machine := (machine ar).

Definition safe {A} (P : option nat -> Prop) (Q : Prop) (m : M ar A) : Prop :=
  forall s s' r, inv s -> m s = (s', r) -> star P Q s s'.


Lemma safe_bind {A B} P Q (m : M ar A) (f : A -> M ar B) :
  safe P Q m -> (forall a, safe P Q (f a)) -> safe P Q (sbind m f).
Proof.
  intros H1 H2 s s' r I H. apply sbind_inv in H. destruct H as [[s1 [a [E1 E2]]]|[e [E1 _]]].
  - pose proof (H1 _ _ _ I E1) as S1. eapply star_app; [exact S1|].
    eapply H2; [|exact E2]. eapply star_inv; [exact I|exact S1].
  - eapply H1; eassumption.
Qed.

Lemma safe_pure {A} P Q (f : machine -> result A) : safe P Q (fun s => (s, f s)).
Proof. intros s s' r _ [= <- _]. constructor. Qed.
Lemma safe_ret {A} P Q (a : A) : safe P Q (sret a).
Proof. apply (safe_pure P Q (fun _ => Ok a)). Qed.
Lemma safe_raise {A} P Q e : safe P Q (sraise (A := A) e).
Proof. apply (safe_pure P Q (fun _ => Err e)). Qed.
Lemma safe_get P Q : safe P Q sget.
Proof. apply (safe_pure P Q (fun s => Ok s)). Qed.
Lemma safe_lift {A} P Q (x : result A) : safe P Q (slift x).
Proof. apply (safe_pure P Q (fun _ => x)). Qed.
Lemma safe_when P Q b e : safe P Q (swhen b e).
Proof. destruct b; [apply safe_raise|apply safe_ret]. Qed.
Lemma safe_get_dobj P Q h : safe P Q (get_dobj ar h).
Proof. apply safe_pure. Qed.
Lemma safe_get_sobj P Q h : safe P Q (get_sobj ar h).
Proof. apply safe_pure. Qed.
Lemma safe_entries P Q v : safe P Q (entries_of ar v).
Proof. apply safe_pure. Qed.
Lemma safe_weaken {A} (P P' : option nat -> Prop) (Q Q' : Prop) (m : M ar A) :
  (forall t, P t -> P' t) -> (Q -> Q') -> safe P Q m -> safe P' Q' m.
Proof.
  intros HP HQ H s s' r I E. pose proof (H _ _ _ I E) as S. clear - HP HQ S.
  induction S as [|s1 s2 s3 M _ IH]; [constructor|]. econstructor; [|exact IH].
  destruct M.
  all: try solve [econstructor; eauto].
Qed.

(** ** Dimensions *)
Lemma new_dimensions_cases k v (s s' : machine) r :
  new_dimensions ar k v s = (s', r) ->
  (exists e, r = Err e /\ s' = s) \/
  (exists data, r = Ok (length (m_dims s)) /\ good_data k data /\ complete_data k data /\
     (exists d, v = VDict d /\ d <> [] /\ has_proper_keys k d = true /\ fill_dims k d [] = Ok data) /\
     s' = set_dims (set_sol s [] []) (m_dims s ++ [mkDobj k data])).
Proof.
  intros H. destruct v; try (left; injection H as <- <-; eauto; fail).
  destruct d as [|kv d]; [left; injection H as <- <-; eauto|].
  unfold new_dimensions in H. rewrite swhen_cases in H.
  destruct (has_proper_keys k (kv :: d)) eqn:Ep; cbn [negb] in H; [|left; injection H as <- <-; eauto].
  unfold sbind at 1, slift at 1 in H. destruct (fill_dims k (kv :: d) []) as [data|e] eqn:Ef.
  2: { left. injection H as <- <-. eauto. }
  right. exists data. injection H as <- <-. split; [reflexivity|].
  destruct (fill_dims_good k (kv :: d) [] data Ef) as [G1 G2].
  { exists []. split; [reflexivity|]. split; [constructor|]. intros ? ? []. }
  split; [assumption|]. unfold has_proper_keys in Ep. apply andb_true_iff in Ep. destruct Ep as [Ep E2].
  apply andb_true_iff in Ep. destruct Ep as [Ep E1]. split; [split; apply G2; right; assumption|].
  split; [|reflexivity]. exists (kv :: d). split; [reflexivity|]. split; [discriminate|].
  split; [|assumption]. unfold has_proper_keys. rewrite Ep, E1, E2. reflexivity.
Qed.

Lemma star_new_dims P Q (s : machine) k data :
  good_data k data -> star P Q s (set_dims (set_sol s [] []) (m_dims s ++ [mkDobj k data])).
Proof.
  intros G. apply (star_app _ _ _ (set_sol s [] [])); apply star_one; [constructor|].
  change (m_dims s) with (m_dims (set_sol s [] [])). constructor. exact G.
Qed.

Lemma safe_new_dimensions P Q k v : safe P Q (new_dimensions ar k v).
Proof.
  intros s s' r I H. apply new_dimensions_cases in H.
  destruct H as [[e [_ ->]]|[data [_ [G [_ [_ ->]]]]]]; [constructor|]. apply star_new_dims. assumption.
Qed.

Lemma safe_get_dimensions P Q k id v : safe P Q (get_dimensions ar k id v).
Proof. apply safe_bind; [apply safe_when|]. intros _. apply safe_new_dimensions. Qed.

Lemma dim_set_cases h key v (s s' : machine) r :
  dim_set ar h key v s = (s', r) ->
  (exists e, r = Err e /\ s' = s) \/
  (r = Ok tt /\ exists o, nth_error (m_dims s) h = Some o /\
     (m_strip s = true -> do_kind o = KContainers -> do_data o = []) /\
     validate_data (do_kind o) key v = Ok tt /\
     s' = set_sol (set_dims s (list_set (m_dims s) h (mkDobj (do_kind o) (vset (do_data o) key v)))) [] []).
Proof.
  unfold dim_set, sbind at 1, get_dobj.
  destruct (nth_error (m_dims s) h) as [o|] eqn:Ho; [|intros [= <- <-]; left; eauto].
  unfold sbind at 1, sget at 1. rewrite swhen_cases.
  set (b := m_strip s && _ && _). destruct b eqn:Eb; [intros [= <- <-]; left; eauto|].
  unfold sbind at 1, slift at 1. destruct (validate_data (do_kind o) key v) as [[]|e] eqn:Ev.
  2: { intros [= <- <-]. left. eauto. }
  intros [= <- <-]. right. split; [reflexivity|]. exists o. split; [reflexivity|].
  split; [|split; [assumption|reflexivity]].
  intros H1 H2. unfold b in Eb. rewrite H1, H2 in Eb. destruct (do_data o); [reflexivity|discriminate].
Qed.

Lemma safe_dim_set P Q h key v : safe P Q (dim_set ar h key v).
Proof.
  intros s s' r I H. apply dim_set_cases in H.
  destruct H as [[e [_ ->]]|[_ [o [Ho [Hs [Hv ->]]]]]]; [constructor|].
  destruct (validate_data_ok _ _ _ Hv). apply star_one. constructor; assumption.
Qed.

Lemma safe_set_all P Q set l : (forall k v, safe P Q (set k v)) -> safe P Q (set_all ar set l).
Proof.
  intros H. induction l as [|[k v] l IH]; [apply safe_ret|]. cbn [set_all]. apply safe_bind; [apply H|].
  intros _. exact IH.
Qed.

Lemma safe_update P Q set v : (forall k v, safe P Q (set k v)) -> safe P Q (update ar set v).
Proof.
  intros H. apply safe_bind; [apply safe_entries|]. intros p. apply safe_bind; [apply safe_set_all; exact H|].
  intros _. apply safe_lift.
Qed.

Lemma safe_clear_loop P Q pop n : safe P Q pop -> safe P Q (clear_loop ar pop n).
Proof.
  intros Hp. induction n as [|n IH]; intros s s' r I H; cbn [clear_loop] in H.
  - injection H as <- <-. constructor.
  - destruct (pop s) as [s1 r1] eqn:E. pose proof (Hp _ _ _ I E) as S1.
    destruct r1 as [u|e].
    + eapply star_app; [exact S1|]. eapply IH; [|exact H]. eapply star_inv; eassumption.
    + destruct e; injection H as <- <-; exact S1.
Qed.

Lemma safe_dim_del P Q h key : safe P Q (dim_del ar h key).
Proof. apply safe_raise. Qed.

Lemma safe_dim_setdefault P Q h key v : safe P Q (dim_setdefault ar h key v).
Proof.
  apply safe_bind; [apply safe_get_dobj|]. intros d.
  destruct (data_get (do_data d) key) as [|[]]; try apply safe_raise; [apply safe_ret|apply safe_dim_set].
Qed.
Lemma safe_dim_pop P Q h key b : safe P Q (dim_pop ar h key b).
Proof.
  apply safe_bind; [apply safe_get_dobj|]. intros d.
  destruct (data_get (do_data d) key) as [|[]]; try apply safe_raise.
  destruct b; [apply safe_ret|apply safe_raise].
Qed.
Lemma safe_dim_popitem P Q h : safe P Q (dim_popitem ar h).
Proof.
  apply safe_bind; [apply safe_get_dobj|]. intros d. destruct (do_data d) as [|[k v] t]; apply safe_raise.
Qed.
Lemma safe_dim_clear P Q h : safe P Q (dim_clear ar h).
Proof.
  apply safe_bind; [apply safe_get_dobj|]. intros d. apply safe_clear_loop. apply safe_dim_popitem.
Qed.

Lemma safe_new_dobj_empty P Q k : safe P Q (new_dobj ar (mkDobj k [])).
Proof.
  intros s s' r I [= <- <-]. apply star_one. constructor. exists []. split; [reflexivity|].
  split; [constructor|]. intros ? ? [].
Qed.
Lemma safe_dim_copy P Q h : safe P Q (dim_copy ar h).
Proof.
  apply safe_bind; [apply safe_get_dobj|]. intros d.
  apply safe_bind; [apply safe_new_dobj_empty|]. intros c.
  apply safe_bind; [apply safe_update; intros; apply safe_dim_set|]. intros _. apply safe_ret.
Qed.
Lemma safe_dim_copy_copy P Q h : safe P Q (dim_copy_copy ar h).
Proof.
  intros s s' r I H. unfold dim_copy_copy, sbind, get_dobj in H.
  destruct (nth_error (m_dims s) h) as [o|] eqn:Ho; injection H as <- <-; [|constructor].
  apply star_one. constructor. apply (iv_dims s I _ _ Ho).
Qed.

(** ** Items and containers *)
Lemma struct_reset_eq h (s : machine) o : nth_error (m_structs s) h = Some o ->
  struct_reset ar h s = (recount (so_kind o) (zlen (so_data o)) (set_sol s [] []), Ok tt).
Proof.
  intros H. unfold struct_reset, sbind, reset, smodify, get_sobj. cbn [m_structs set_sol]. rewrite H.
  destruct (so_kind o); reflexivity.
Qed.

Lemma struct_set_cases h id v (s s' : machine) r :
  struct_set ar h id v s = (s', r) ->
  (exists e, r = Err e /\ s' = s) \/
  (r = Ok tt /\ exists o i data, nth_error (m_structs s) h = Some o /\ id = VStr i /\
     (m_strip s = true -> so_kind o = KItems) /\
     good_data (so_kind o) data /\ complete_data (so_kind o) data /\
     (exists d, v = VDict d /\ d <> [] /\ has_proper_keys (so_kind o) d = true /\ fill_dims (so_kind o) d [] = Ok data) /\
     let s1 := set_dims (set_sol s [] []) (m_dims s ++ [mkDobj (so_kind o) data]) in
     let entries := vset (so_data o) (VStr i) (VDims (length (m_dims s))) in
     s' = recount (so_kind o) (zlen entries)
            (set_sol (set_structs s1 (list_set (m_structs s1) h (mkSobj (so_kind o) entries))) [] [])).
Proof.
  unfold struct_set, sbind at 1, get_sobj.
  destruct (nth_error (m_structs s) h) as [o|] eqn:Ho; [|intros [= <- <-]; left; eauto].
  unfold sbind at 1, sget at 1. rewrite swhen_cases.
  destruct (m_strip s && match so_kind o with KContainers => true | KItems => false end) eqn:Es; [intros [= <- <-]; left; eauto|].
  intros H. apply sbind_inv in H. unfold get_dimensions in H. rewrite swhen_cases in H.
  destruct H as [[s1 [rd [E1 E2]]]|[e [E1 ->]]].
  2: { left. exists e. split; [reflexivity|]. destruct (negb (is_str id)); [injection E1; auto|].
       apply new_dimensions_cases in E1. destruct E1 as [[e' [_ ->]]|[data [E _]]]; [reflexivity|discriminate]. }
  destruct (negb (is_str id)) eqn:Ei; [discriminate|].
  apply new_dimensions_cases in E1. destruct E1 as [[e [E1 _]]|[data [E1 [G1 [G2 [Ed Es1]]]]]]; [discriminate|].
  injection E1 as ->. right. destruct id as [| | | |i| | | | | |]; try discriminate.
  unfold sbind, put_sobj, smodify in E2.
  assert (Hl : (h < length (m_structs s))%nat) by (apply nth_error_Some; congruence).
  rewrite (struct_reset_eq h _ (mkSobj (so_kind o) (vset (so_data o) (VStr i) (VDims (length (m_dims s)))))) in E2.
  2: { cbn [m_structs set_structs]. subst s1. cbn [m_structs set_dims set_sol]. apply list_set_same. assumption. }
  injection E2 as <- <-. split; [reflexivity|]. exists o, i, data. split; [reflexivity|]. split; [reflexivity|].
  split. { intros Hs. rewrite Hs in Es. destruct (so_kind o); [discriminate|reflexivity]. }
  split; [assumption|]. split; [assumption|]. split; [assumption|]. subst s1. reflexivity.
Qed.

Lemma ref_fresh (s : machine) h o : inv s -> nth_error (m_structs s) h = Some o ->
  ~ In (VDims (length (m_dims s))) (map snd (so_data o)).
Proof.
  intros I Ho Hin. destruct (iv_structs s I _ _ Ho) as [l [El [_ [_ Hl]]]]. rewrite El in Hin.
  unfold sdict in Hin. rewrite map_map in Hin. apply in_map_iff in Hin. destruct Hin as [[i r] [[= Hr] Hin]].
  destruct (Hl i r Hin) as [d [Hd _]]. rewrite Hr in Hd.
  assert (length (m_dims s) < length (m_dims s))%nat by (apply nth_error_Some; congruence). lia.
Qed.

Lemma star_struct_set (P : option nat -> Prop) Q (s : machine) h o i data :
  inv s -> P (Some h) -> nth_error (m_structs s) h = Some o -> (m_strip s = true -> so_kind o = KItems) ->
  good_data (so_kind o) data -> complete_data (so_kind o) data ->
  let s1 := set_dims (set_sol s [] []) (m_dims s ++ [mkDobj (so_kind o) data]) in
  let entries := vset (so_data o) (VStr i) (VDims (length (m_dims s))) in
  star P Q s (recount (so_kind o) (zlen entries)
            (set_sol (set_structs s1 (list_set (m_structs s1) h (mkSobj (so_kind o) entries))) [] [])).
Proof.
  intros I HP Ho Hs G1 G2 s1 entries. apply (star_app _ _ _ s1).
  - apply star_new_dims. assumption.
  - apply star_one. apply (mi_struct_set P Q s1 h o i (length (m_dims s)) (mkDobj (so_kind o) data)); try assumption.
    + apply nth_error_last.
    + reflexivity.
    + apply (ref_fresh s h o I Ho).
Qed.

Lemma safe_struct_set (P : option nat -> Prop) Q h id v : P (Some h) -> safe P Q (struct_set ar h id v).
Proof.
  intros HP s s' r I H. apply struct_set_cases in H.
  destruct H as [[e [_ ->]]|[_ [o [i [data [Ho [-> [Hs [G1 [G2 [_ ->]]]]]]]]]]]; [constructor|].
  apply star_struct_set; assumption.
Qed.

Lemma struct_del_cases h id (s s' : machine) r :
  struct_del ar h id s = (s', r) ->
  (exists e, r = Err e /\ s' = s) \/
  (r = Ok tt /\ exists o, nth_error (m_structs s) h = Some o /\ zlen (so_data o) <> 1 /\
     vmem (so_data o) id = true /\
     s' = recount (so_kind o) (zlen (vdel (so_data o) id))
            (set_sol (set_structs s (list_set (m_structs s) h (mkSobj (so_kind o) (vdel (so_data o) id)))) [] [])).
Proof.
  unfold struct_del, sbind at 1, get_sobj.
  destruct (nth_error (m_structs s) h) as [o|] eqn:Ho; [|intros [= <- <-]; left; eauto].
  rewrite swhen_cases. destruct (zlen (so_data o) =? 1) eqn:El; [intros [= <- <-]; left; eauto|].
  unfold sbind at 1, slift at 1. destruct (data_get (so_data o) id) as [v|e] eqn:Eg.
  2: { intros [= <- <-]. left. eauto. }
  unfold sbind, put_sobj, smodify.
  assert (Hl : (h < length (m_structs s))%nat) by (apply nth_error_Some; congruence).
  rewrite (struct_reset_eq h _ (mkSobj (so_kind o) (vdel (so_data o) id))).
  2: { cbn [m_structs set_structs]. apply list_set_same. assumption. }
  intros [= <- <-]. right. split; [reflexivity|]. exists o. split; [reflexivity|].
  split; [apply Z.eqb_neq in El; assumption|]. split; [|reflexivity].
  unfold data_get in Eg. destruct (negb (hashable id)); [discriminate|]. unfold vmem.
  destruct (vget (so_data o) id); [reflexivity|discriminate].
Qed.

(** The keys are strings. *)
Lemma mem_is_str (s : machine) h o id : inv s -> nth_error (m_structs s) h = Some o -> vmem (so_data o) id = true ->
  exists i, id = VStr i /\ In (VStr i) (vkeys (so_data o)).
Proof.
  intros I Ho Hm. destruct (iv_structs s I _ _ Ho) as [l [El _]]. rewrite El in *.
  unfold vmem in Hm. rewrite vget_sdict in Hm. destruct id as [| | | |i| | | | | |]; try discriminate.
  exists i. split; [reflexivity|]. rewrite vkeys_sdict. apply in_map. apply dget_Some_In.
  destruct (dget l i); [eauto|discriminate].
Qed.

Lemma safe_struct_del (P : option nat -> Prop) Q h id : P (Some h) -> safe P Q (struct_del ar h id).
Proof.
  intros HP s s' r I H. apply struct_del_cases in H.
  destruct H as [[e [_ ->]]|[_ [o [Ho [Hl [Hm ->]]]]]]; [constructor|].
  destruct (mem_is_str s h o id I Ho Hm) as [i [-> Hin]].
  apply star_one. apply mi_struct_del; assumption.
Qed.

Lemma safe_struct_setdefault (P : option nat -> Prop) Q h id v : P (Some h) -> safe P Q (struct_setdefault ar h id v).
Proof.
  intros HP. apply safe_bind; [apply safe_get_sobj|]. intros d.
  destruct (data_get (so_data d) id) as [|[]]; try apply safe_raise; [apply safe_ret|apply safe_struct_set; assumption].
Qed.
Lemma safe_struct_pop (P : option nat -> Prop) Q h id b : P (Some h) -> safe P Q (struct_pop ar h id b).
Proof.
  intros HP. apply safe_bind; [apply safe_get_sobj|]. intros d.
  destruct (data_get (so_data d) id) as [|[]]; try apply safe_raise; [apply safe_struct_del; assumption|].
  destruct b; [apply safe_ret|apply safe_raise].
Qed.
Lemma safe_struct_popitem (P : option nat -> Prop) Q h : P (Some h) -> safe P Q (struct_popitem ar h).
Proof.
  intros HP. apply safe_bind; [apply safe_get_sobj|]. intros d.
  destruct (so_data d) as [|[k v] t]; [apply safe_raise|apply safe_struct_del; assumption].
Qed.
Lemma safe_struct_clear (P : option nat -> Prop) Q h : P (Some h) -> safe P Q (struct_clear ar h).
Proof.
  intros HP. apply safe_bind; [apply safe_get_sobj|]. intros d. apply safe_clear_loop. apply safe_struct_popitem. assumption.
Qed.
Lemma safe_struct_copy_copy P Q h : safe P Q (struct_copy_copy ar h).
Proof.
  intros s s' r I H. unfold struct_copy_copy, sbind, get_sobj in H.
  destruct (nth_error (m_structs s) h) as [o|] eqn:Ho; injection H as <- <-; [|constructor].
  apply star_one. constructor. apply (iv_structs s I _ _ Ho).
Qed.

(** [copy()] fails at its first entry: a Dimensions object is not a dict. *)
Lemma struct_set_dims_fails h id r (s : machine) : exists e, struct_set ar h id (VDims r) s = (s, Err e).
Proof.
  destruct (struct_set ar h id (VDims r) s) as [s' x] eqn:E. pose proof E as E'. apply struct_set_cases in E'.
  destruct E' as [[e [-> ->]]|[_ [o [i [data [_ [_ [_ [_ [_ [[d [Hd _]] _]]]]]]]]]]]; [eauto|discriminate].
Qed.

Lemma safe_struct_copy P Q h : safe P Q (struct_copy ar h).
Proof.
  intros s s' r I H. unfold struct_copy, sbind at 1, get_sobj in H.
  destruct (nth_error (m_structs s) h) as [o|] eqn:Ho; [|injection H as <- <-; constructor].
  unfold sbind at 1, new_sobj at 1 in H.
  set (s1 := set_structs s (m_structs s ++ [mkSobj (so_kind o) []])) in *.
  assert (S1 : star P Q s s1).
  { apply star_one. constructor. exists []. split; [reflexivity|]. split; [constructor|]. split; [constructor|]. intros ? ? []. }
  enough (s' = s1) as -> by exact S1.
  apply sbind_inv in H. destruct H as [[s2 [a [E1 E2]]]|[e [E1 _]]].
  - injection E2 as <- _. unfold update in E1. apply sbind_inv in E1. destruct E1 as [[s3 [p [E1 E3]]]|[e [E1 X]]]; [|discriminate].
    unfold entries_of in E1. unfold s1 in E1. cbn [m_structs set_structs] in E1.
    rewrite (nth_error_keep _ _ _ _ Ho) in E1. injection E1 as <- <-. cbn [fst snd] in E3.
    destruct (iv_structs s I _ _ Ho) as [l [El _]]. rewrite El in E3.
    destruct l as [|[i x] l]; cbn [sdict map set_all fst snd] in E3; [injection E3; auto|].
    destruct (struct_set_dims_fails (length (m_structs s)) (VStr i) x s1) as [e Ee].
    unfold sbind in E3. fold s1 in E3. rewrite Ee in E3. discriminate.
  - unfold update in E1. apply sbind_inv in E1. destruct E1 as [[s3 [p [E1 E3]]]|[e' [E1 X]]].
    2: { unfold entries_of in E1. injection E1; auto. }
    unfold entries_of in E1. unfold s1 in E1. cbn [m_structs set_structs] in E1.
    rewrite (nth_error_keep _ _ _ _ Ho) in E1. injection E1 as <- <-. cbn [fst snd] in E3.
    destruct (iv_structs s I _ _ Ho) as [l [El _]]. rewrite El in E3.
    destruct l as [|[i x] l]; cbn [sdict map set_all fst snd] in E3; [discriminate|].
    destruct (struct_set_dims_fails (length (m_structs s)) (VStr i) x s1) as [e1 Ee].
    unfold sbind in E3. fold s1 in E3. rewrite Ee in E3. injection E3; auto.
Qed.
End Ops.
