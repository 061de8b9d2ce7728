(** * C73: searching leaves the problem alone; the benchmark problems. *)
From Coq Require Import ZArith String List Bool QArith Lia Permutation.
From Verif Require Import Py ProofsPy Arith Construct Spec ProofsConstruct ProofsSolve ProofsPacking ProofsSolution ProofsValues
  LocalSearch SpecSearch ItemsManip HyperSearch MultiProcess
  Values ProofsVal Settings Instance SpecInstance ProofsMachine ProofsOps ProofsRun ProofsAccept ProofsSolver ProofsHistory ProofsFrame
  PropertiesStructures PropertiesHistory MultiHistory SpecMultiHistory ProofsMultiHistory PropertiesMultiHistory PropertiesProvenance
  PropertiesSettings ProofsRefine Benchmarks.
Import ListNotations.
Open Scope string_scope.
Open Scope list_scope.
Open Scope Z_scope.
Open Scope sm_scope.

(** Solving, searching, orienting and sorting, and changing settings, strategy or heights: everything
    but assigning, editing or copying items, containers and dimensions. *)
Definition leaves_problem {ar} (o : mop ar) : Prop :=
  match o with
  | Processes _ => True
  | Plain o =>
      match o with
      | OpDelItems | OpDelContainers | OpSetHeight _ | OpSetMinHeight _ | OpDelHeight | OpDelMinHeight | OpResetHeight
      | OpSetStrategy _ | OpDelStrategy | OpSetSettings _ _ | OpDelSettings | OpValidateSettings _ | OpEditSettings _
      | OpOrient _ | OpSort _ | OpSolve _ | OpLocalSearch _ _ | OpHypersearch _ _ _ _ _ => True
      | _ => False
      end
  end.

Lemma leaves_without_ior {ar} (l : list (mop ar)) : (forall o, In o l -> leaves_problem o) -> mwithout_ior l.
Proof. intros H o Ho. specialize (H o Ho). destruct o as [o|c]; [|reflexivity]. destruct o; try reflexivity; destruct H. Qed.

Lemma rearranged_trans a b c : NoDup (dkeys a) -> rearranged a b -> rearranged b c -> rearranged a c.
Proof.
  intros N [P1 H1] [P2 H2]. split; [etransitivity; eassumption|]. intros i d d' Ha Hc.
  assert (Hb : In i (dkeys b)) by (eapply Permutation_in; [exact P1|]; apply dget_Some_In; eauto).
  apply dget_Some_In in Hb. destruct Hb as [e He]. destruct (H1 i d e Ha He) as [->| ->], (H2 i _ d' He Hc) as [->| ->]; auto.
  left. destruct d; reflexivity.
Qed.

Lemma rearranged_area a b : NoDup (dkeys a) -> rearranged a b -> items_area b = items_area a.
Proof.
  intros N [P H]. assert (Nb : NoDup (dkeys b)) by (eapply Permutation_NoDup; eassumption).
  (* the items of [a] in the order of [b] *)
  assert (G : exists a', Permutation a a' /\ dkeys a' = dkeys b).
  { clear H. revert b P Nb. induction a as [|[i d] a IH]; intros b P Nb.
    - apply Permutation_nil in P. exists []. rewrite P. split; [constructor|reflexivity].
    - cbn in N, P. inversion N as [|? ? N1 N2]; subst.
      assert (Hi : In i (dkeys b)) by (eapply Permutation_in; [exact P|left; reflexivity]).
      apply in_map_iff in Hi. destruct Hi as [[j e] [Ej Hi]]. cbn in Ej. subst j.
      apply in_split in Hi. destruct Hi as [b1 [b2 ->]]. unfold dkeys in P, Nb. rewrite map_app in P, Nb. cbn [map fst] in P, Nb.
      assert (P' : Permutation (dkeys a) (dkeys (b1 ++ b2))).
      { unfold dkeys at 2. rewrite map_app. eapply Permutation_cons_app_inv. exact P. }
      assert (Nb' : NoDup (dkeys (b1 ++ b2))) by (unfold dkeys; rewrite map_app; eapply NoDup_remove_1; exact Nb).
      destruct (IH N2 _ P' Nb') as [a' [A1 A2]]. unfold dkeys in A2. rewrite map_app in A2.
      apply map_eq_app in A2. destruct A2 as [a1 [a2 [-> [E1 E2]]]]. exists (a1 ++ (i, d) :: a2). split.
      + apply Permutation_cons_app. exact A1.
      + unfold dkeys. rewrite !map_app. cbn [map fst]. rewrite E1, E2. reflexivity. }
  destruct G as [a' [G1 G2]]. rewrite (items_area_perm _ _ G1).
  assert (Na' : NoDup (dkeys a')) by (rewrite G2; exact Nb).
  assert (H' : forall i d d', In (i, d) a' -> In (i, d') b -> d' = d \/ d' = mkDims (dl d) (dw d)).
  { intros i d d' H1 H2. apply (H i); [|apply In_dget; assumption].
    apply In_dget; [exact N|]. eapply Permutation_in; [apply Permutation_sym; exact G1|exact H1]. }
  clear - G2 H'. revert b G2 H'. induction a' as [|[i d] a' IH]; intros [|[j e] b] G2 H'; try discriminate; [reflexivity|].
  cbn in G2. injection G2 as <- G2. change (dw e * dl e + items_area b = dw d * dl d + items_area a').
  rewrite (IH b G2) by (intros; eapply H'; right; eassumption).
  destruct (H' i d e (or_introl eq_refl) (or_introl eq_refl)) as [->| ->]; cbn [dw dl]; lia.
Qed.

Section Leaving.
Context {ar : arith} (laws : arith_laws ar) (vals : value_laws ar).

Definition heap (s : machine ar) := (m_dims s, m_structs s, m_items s, m_containers s).
Lemma heap_views (s s' : machine ar) : heap s' = heap s -> containers_of s' = containers_of s /\ items_of s' = items_of s.
Proof. intros [= E1 E2 E3 E4]. unfold containers_of, items_of, view_struct. rewrite E1, E2, E3, E4. auto. Qed.

Definition problem_kept (s s' : machine ar) : Prop :=
  containers_of s' = containers_of s /\
  exists its its', items_of s = Some its /\ items_of s' = Some its' /\ rearranged its its'.

Lemma heap_kept (s s' : machine ar) : inv s -> heap s' = heap s -> problem_kept s s'.
Proof.
  intros I H. destruct (heap_views _ _ H) as [H1 H2]. split; [exact H1|].
  destruct (inv_view s I) as [cs [is_ [_ [V _]]]]. exists is_, is_. split; [exact V|]. split; [congruence|apply rearranged_refl].
Qed.

Lemma kept_trans (s s1 s' : machine ar) : inv s -> problem_kept s s1 -> problem_kept s1 s' -> problem_kept s s'.
Proof.
  intros I [A1 [i1 [i2 [A2 [A3 A4]]]]] [B1 [i3 [i4 [B2 [B3 B4]]]]]. split; [congruence|].
  rewrite A3 in B2. injection B2 as <-. exists i1, i4. split; [exact A2|]. split; [exact B3|].
  destruct (inv_view s I) as [cs [is_ [_ [V [_ [_ [_ [W _]]]]]]]]. rewrite A2 in V. injection V as <-.
  eapply rearranged_trans; [apply W|exact A4|exact B4].
Qed.

Lemma presort_any_kept (c : call ar) (s s1 : machine ar) r : inv s -> presort c s = (s1, r) -> problem_kept s s1.
Proof.
  intros I H. destruct r as [[]|e].
  - destruct (presort_kept c s s1 I H) as [[K _] K2]. split; assumption.
  - destruct (presort_error c s s1 e I H) as [-> _]. apply heap_kept; [exact I|reflexivity].
Qed.

Definition arrange (o : option string) (sb : option (string * bool)) : call ar :=
  mkCall no_libraries o sb [] true (fun _ _ => 0) 0 (fun _ => false) (fun _ => 0%nat) 0.

Lemma leaves_kept o (s s' : machine ar) r : inv s -> leaves_problem o -> mrun o s s' r -> problem_kept s s'.
Proof.
  intros I Ho H. destruct H as [o s s' r _ E|c s s' r _ H].
  2: { destruct (multi_kept _ _ _ _ _ _ I H) as [[K _] K2]. split; assumption. }
  destruct o; try destruct Ho; cbn [run] in E;
    try (apply heap_kept; [exact I|]; injection E as <- _; reflexivity).
  - apply heap_kept; [exact I|]. revert s s' r I E. change (forall s s' r, inv s -> assign_height ar v s = (s', r) -> heap s' = heap s).
    intros s s' r _. revert s s' r. change (keeps heap (assign_height ar v)). unfold assign_height. frame; apply keeps_modify; reflexivity.
  - apply heap_kept; [exact I|]. revert E. generalize r. revert s' . generalize s. change (keeps heap (assign_min_height ar v)).
    unfold assign_min_height. frame; apply keeps_modify; reflexivity.
  - apply heap_kept; [exact I|]. revert E. generalize r. revert s' . generalize s. change (keeps heap (reset_height ar)).
    unfold reset_height, solver_view. frame; apply keeps_modify; reflexivity.
  - apply heap_kept; [exact I|]. revert E. generalize r. revert s' . generalize s. change (keeps heap (assign_strategy ar v)).
    unfold assign_strategy. frame; apply keeps_modify; reflexivity.
  - apply heap_kept; [exact I|]. unfold on_cfg in E. destruct (assign_settings _ _ _) as [c x]. injection E as <- _. reflexivity.
  - apply heap_kept; [exact I|]. unfold on_cfg in E. destruct (validate_settings _ _) as [c x]. injection E as <- _. reflexivity.
  - apply heap_kept; [exact I|]. unfold on_cfg in E. destruct (edit_settings _ _) as [c x]. injection E as <- _. reflexivity.
  - apply (presort_any_kept (arrange orientation None) s s' r I). exact E.
  - apply (presort_any_kept (arrange None sorting_by) s s' r I). unfold presort, arrange. cbn [ca_sorting ca_orientation].
    unfold sbind. rewrite E. destruct r as [[]|e]; reflexivity.
  - apply heap_kept; [exact I|]. revert E. generalize r. revert s' . generalize s. change (keeps heap (do_solve ar sequence)).
    unfold do_solve, solver_view, put_back. frame; apply keeps_modify; reflexivity.
  - apply heap_kept; [exact I|]. revert E. generalize r. revert s' . generalize s. change (keeps heap (do_local_search ar ck throttle)).
    unfold do_local_search, solver_view, put_back. frame; apply keeps_modify; reflexivity.
  - unfold sbind at 1, sget in E. destruct (one_worker _); [|apply heap_kept; [exact I|]; injection E as <- _; reflexivity].
    unfold do_hypersearch in E.
    assert (Hp : exists s1 r1, presort (arrange orientation sorting_by) s = (s1, r1) /\ heap s' = heap s1).
    { unfold presort, arrange. cbn [ca_sorting ca_orientation]. unfold sbind at 1 in E. unfold sbind.
      destruct (do_sort ar sorting_by s) as [s1 [[]|e]]; [|eexists _, _; split; [reflexivity|]; injection E as <- _; reflexivity].
      unfold sbind at 1 in E. destruct (do_orient ar orientation s1) as [s2 [[]|e]];
        [|eexists _, _; split; [reflexivity|]; injection E as <- _; reflexivity].
      eexists _, _. split; [reflexivity|]. revert E. generalize r. revert s'. generalize s2.
      match goal with |- forall s s' r, ?m s = (s', r) -> _ => change (keeps heap m) end.
      unfold solver_view, put_back. frame; apply keeps_modify; reflexivity. }
    destruct Hp as [s1 [r1 [Hp Hh]]]. pose proof (presort_any_kept _ _ _ _ I Hp) as K.
    eapply kept_trans; [exact I|exact K|]. apply heap_kept; [|exact Hh].
    eapply star_inv; [exact I|]. eapply (presort_inv (arrange orientation sorting_by) s s1 r1 (fun _ => False) False); [exact I|exact Hp].
Qed.

Lemma leaves_all_kept (s s' : machine ar) l : mleads_to s l s' -> (forall o, In o l -> leaves_problem o) ->
  inv s -> valid_attributes s -> problem_kept s s'.
Proof.
  intros H. induction H as [s|s o s1 r l s' E _ IH]; intros Hl I A; [apply heap_kept; [exact I|reflexivity]|].
  assert (Ho : leaves_problem o) by (apply Hl; left; reflexivity).
  assert (I1 : inv s1).
  { eapply star_inv; [exact I|]. eapply (mrun_star laws vals); [|exact I|exact A|exact E].
    apply (leaves_without_ior (o :: l) Hl). left. reflexivity. }
  eapply kept_trans; [exact I|exact (leaves_kept o s s1 r I Ho E)|].
  apply IH; [intros x Hx; apply Hl; right; exact Hx|exact I1|eapply mrun_attributes; eassumption].
Qed.
End Leaving.

(** ** C73 *)

(** However long one searches, the containers stay as they were given, and the items too, up to
    their order and orientation; so does their area. *)
Theorem C73_problem_kept : forall ar, orderly ar -> forall env containers items settings width l (s s0 : machine ar),
  created env containers items settings width s0 -> mleads_to s0 l s -> (forall o, In o l -> leaves_problem o) ->
  containers_of s = containers_of s0 /\
  exists its its', items_of s0 = Some its /\ items_of s = Some its' /\ rearranged its its' /\ items_area its' = items_area its.
Proof.
  intros ar [laws vals] env containers items settings width l s s0 H0 H Hl.
  pose proof (created_inv _ _ _ _ _ _ H0) as I.
  destruct (leaves_all_kept laws vals s0 s l H Hl I (created_attributes _ _ _ _ _ _ H0)) as [K1 [its [its' [K2 [K3 K4]]]]].
  split; [exact K1|]. exists its, its'. split; [exact K2|]. split; [exact K3|]. split; [exact K4|].
  destruct (inv_view s0 I) as [cs [is_ [_ [V [_ [_ [_ [W _]]]]]]]]. rewrite K2 in V. injection V as <-.
  apply rearranged_area; [apply W|exact K4].
Qed.
Print Assumptions C73_problem_kept.

(** Every cell of a W x L container is covered. *)
Definition covered (W L : Z) (es : list entry) : Prop :=
  forall x y, 0 <= x < W -> 0 <= y < L -> exists e, In e es /\ covers e x y.

Lemma covers_dec e x y : {covers e x y} + {~ covers e x y}.
Proof.
  unfold covers. destruct (Z_le_dec (e_x e) x), (Z_lt_dec x (e_x e + e_w e)), (Z_le_dec (e_y e) y), (Z_lt_dec y (e_y e + e_l e));
    try (right; lia). left. lia.
Defined.

Lemma full_covered W L es : 0 < W -> 0 < L -> (forall e, In e es -> inside W L e) -> no_overlaps es ->
  total_area es = W * L -> covered W L es.
Proof.
  intros HW HL Hi Hn Ha x y Hx Hy.
  destruct (Exists_dec (fun e => covers e x y) es (fun e => covers_dec e x y)) as [E|E];
    [apply Exists_exists in E; exact E|exfalso].
  (* otherwise a unit square still fits *)
  assert (L1 : total_area (mkEntry x y 1 1 :: es) <= W * L).
  { apply disjoint_area; try assumption.
    - intros e [<-|He]; [unfold inside; cbn; lia|apply Hi; exact He].
    - constructor; [|exact Hn]. apply Forall_forall. intros e He [x' [y' [C1 C2]]]. unfold covers in C1. cbn in C1.
      apply E. apply Exists_exists. exists e. split; [exact He|]. assert (x' = x) by lia. assert (y' = y) by lia. subst. exact C2. }
  change (total_area (mkEntry x y 1 1 :: es)) with (1 * 1 + total_area es) in L1. lia.
Qed.

(** *** The datasets *)
Definition a_benchmark (containers items : odict dims) : bool :=
  match containers with
  | [(cid, c)] => String.eqb cid "container_0" && (0 <? dw c) && (0 <? dl c) && (items_area items =? dw c * dl c)
  | _ => false
  end &&
  match items with [] => false | _ => true end &&
  forallb (fun kd => (0 <? dw (snd kd)) && (0 <? dl (snd kd))) items.

Fixpoint distinct (l : list string) : bool :=
  match l with [] => true | a :: t => negb (existsb (String.eqb a) t) && distinct t end.
Lemma distinct_NoDup l : distinct l = true -> NoDup l.
Proof.
  induction l as [|a t IH]; cbn [distinct]; intros H; [constructor|]. apply andb_true_iff in H. destruct H as [H1 H2].
  constructor; [|auto]. intros Hin. apply negb_true_iff in H1. assert (existsb (String.eqb a) t = true).
  { apply existsb_exists. exists a. split; [exact Hin|apply String.eqb_refl]. }
  congruence.
Qed.

Lemma benchmarks_checked : forallb (fun b => a_benchmark (fst b) (snd b) && distinct (dkeys (snd b))) benchmarks = true.
Proof. vm_compute. reflexivity. Qed.

Lemma benchmark_facts cs is_ : In (cs, is_) benchmarks ->
  exists c, cs = [("container_0", c)] /\ valid_items cs /\ valid_items is_ /\ is_ <> [] /\ items_area is_ = dw c * dl c.
Proof.
  intros H. pose proof (proj1 (forallb_forall _ _) benchmarks_checked _ H) as C. cbn [fst snd] in C.
  apply andb_true_iff in C. destruct C as [C D]. unfold a_benchmark in C. apply andb_true_iff in C. destruct C as [C C3].
  apply andb_true_iff in C. destruct C as [C1 C2].
  destruct cs as [|[cid c] [|? ?]]; try discriminate. repeat rewrite andb_true_iff in C1. destruct C1 as [[[E1 E2] E3] E4].
  apply String.eqb_eq in E1. subst cid. exists c. split; [reflexivity|]. split; [|split; [|split]].
  - split; [constructor; [intros []|constructor]|]. intros i d [[= <- <-]|[]]. split; [apply Z.ltb_lt; exact E2|apply Z.ltb_lt; exact E3].
  - split; [apply distinct_NoDup; exact D|]. intros i d Hin. pose proof (proj1 (forallb_forall _ _) C3 _ Hin) as P. cbn [snd] in P.
    apply andb_true_iff in P. destruct P as [P1 P2]. split; [apply Z.ltb_lt; exact P1|apply Z.ltb_lt; exact P2].
  - intros ->. discriminate.
  - apply Z.eqb_eq. exact E4.
Qed.

Lemma dict_value k (l : odict dims) : l <> [] -> valid_items l ->
  let v := VDict (map (fun p => (VStr (fst p), VDict [(VStr (wkey k), VInt (dw (snd p))); (VStr (lkey k), VInt (dl (snd p)))])) l) in
  structure_value k v l /\ genuine v.
Proof.
  intros Hne [N P] v. split.
  - eexists. split; [reflexivity|]. split; [intros E; apply map_eq_nil in E; contradiction|].
    clear Hne N. induction l as [|[i d] l IH]; [constructor|]. cbn [map fst snd]. constructor.
    + split; [reflexivity|]. cbn [fst snd]. destruct (P i d (or_introl eq_refl)).
      eexists _, _. split; [split; [left; reflexivity|assumption]|]. split; [split; [left; reflexivity|assumption]|]. left. reflexivity.
    + apply IH. intros; eapply P; right; eassumption.
  - intros x E. unfold v in E. injection E as <-. split.
    + assert (E : forall l : odict dims, map (fun p => (VStr (fst p), VDict [(VStr (wkey k), VInt (dw (snd p))); (VStr (lkey k), VInt (dl (snd p)))])) l =
         sdict (fun d => VDict [(VStr (wkey k), VInt (dw d)); (VStr (lkey k), VInt (dl d))]) l) by reflexivity.
      rewrite E. apply distinct_sdict. exact N.
    + intros id w Hin. apply in_map_iff in Hin. destruct Hin as [[i d] [[= <- <-] _]].
      intros d' [= <-]. constructor; [constructor; [|constructor]|constructor; [constructor|constructor]]; destruct k; reflexivity.
Qed.

(** The constructor accepts every benchmark problem, with any settings it accepts. *)
Theorem C73_benchmarks_accepted : forall ar env cs is_ settings, In (cs, is_) benchmarks ->
  ((exists s : machine ar, created env (container_dict cs) (item_dict is_) settings VNone s) <->
   exists c, new_settings env settings = (c, Ok tt)) /\
  (forall s : machine ar, created env (container_dict cs) (item_dict is_) settings VNone s ->
     containers_of s = Some cs /\ items_of s = Some is_ /\ m_strip s = false).
Proof.
  intros ar env cs is_ settings H. destruct (benchmark_facts cs is_ H) as [c [E [Vc [Vi [Ne _]]]]].
  assert (Nc : cs <> []) by (rewrite E; discriminate).
  destruct (dict_value KContainers cs Nc Vc) as [S1 G1]. destruct (dict_value KItems is_ Ne Vi) as [S2 G2].
  change (structure_value KContainers (container_dict cs) cs) in S1. change (genuine (container_dict cs)) in G1.
  change (structure_value KItems (item_dict is_) is_) in S2. change (genuine (item_dict is_)) in G2.
  destruct (C31_constructor ar env _ _ settings VNone G1 G2) as [A [_ B]].
  assert (CA : containers_argument (container_dict cs) VNone cs) by (left; auto).
  split.
  - rewrite A. split; [intros [? [? [cf [_ [_ X]]]]]; eauto|]. intros [cf X]. exists cs, is_, cf. auto.
  - intros s Hs. destruct (B s cs is_ Hs CA S2) as [B1 [B2 _]]. split; [exact B1|]. split; [exact B2|].
    apply created_object in Hs. destruct Hs as [strip [height [new1 [new2 [dc [di [cf [N [_ Hs]]]]]]]]].
    destruct N as [_ [_ [_ [_ [_ [_ ->]]]]]]. cbn [m_strip]. destruct strip; [|reflexivity].
    destruct Hs as [_ [w [Hw _]]]. apply positive_int_spec in Hw. destruct Hw. discriminate.
Qed.
Print Assumptions C73_benchmarks_accepted.

(** However long one searches a benchmark problem: the solution is in [container_0], its value is at
    most 1, and 1 exactly when every item is stored; if moreover no two items overlap, the items tile
    the container. *)
Theorem C73_benchmarks : forall env cs is_ settings l (s : machine qarith), In (cs, is_) benchmarks ->
  mhistory env (container_dict cs) (item_dict is_) settings VNone l s -> (forall o, In o l -> leaves_problem o) ->
  m_sol s <> [] ->
  exists c csol obj, cs = [("container_0", c)] /\ m_sol s = [("container_0", csol)] /\ m_objs s = [("container_0", obj)] /\
    (obj <= 1)%Q /\ ((obj == 1)%Q <-> forall i, In i (dkeys is_) -> In i (dkeys csol)) /\
    ((obj == 1)%Q -> no_overlaps (entries csol) -> covered (dw c) (dl c) (entries csol)).
Proof.
  intros env cs is_ settings l s Hb Hh Hl Hne. pose proof (leaves_without_ior l Hl) as Hi.
  destruct (benchmark_facts cs is_ Hb) as [c [E [Vc [Vi [Ne Ha]]]]].
  pose proof Hh as [s0 [H0 Hd]].
  destruct (proj2 (C73_benchmarks_accepted qarith env cs is_ settings Hb) s0 H0) as [B1 [B2 B3]].
  destruct (C73_problem_kept qarith qarith_orderly _ _ _ _ _ _ _ _ H0 Hd Hl) as [K1 [its [its' [K2 [K3 [K4 K5]]]]]].
  rewrite B2 in K2. injection K2 as <-. rewrite B1 in K1.
  destruct (mhistory_good qarith_laws (proj2 qarith_orderly) _ _ _ _ _ _ _ Hh Hi) as [I _].
  assert (Hs : m_strip s = false).
  { rewrite <- B3. clear - H0 Hd Hi. pose proof (created_inv _ _ _ _ _ _ H0) as I. pose proof (created_attributes _ _ _ _ _ _ H0) as A. clear H0.
    induction Hd as [s|s o s1 r l s' E _ IH]; [reflexivity|].
    pose proof (mrun_star qarith_laws (proj2 qarith_orderly) o s s1 r (Hi o (or_introl eq_refl)) I A E) as St.
    rewrite IH; [eapply star_strip; exact St|intros x Hx; apply Hi; right; exact Hx|eapply star_inv; eassumption|eapply mrun_attributes; eassumption]. }
  destruct (C72_values_partial _ _ _ _ _ _ _ Hh Hi) as [[X _]|[cs' [X1 [X2 [X3 X4]]]]]; [contradiction|].
  rewrite K1 in X1. injection X1 as <-. subst cs.
  destruct (m_sol s) as [|[k csol] [|? ?]] eqn:Esol; try discriminate. cbn in X2. injection X2 as ->.
  destruct (m_objs s) as [|[k obj] [|? ?]] eqn:Eobj; try discriminate. cbn in X3. injection X3 as ->.
  exists c, csol, obj. split; [reflexivity|]. split; [reflexivity|]. split; [reflexivity|].
  destruct (C72_large_bin_partial env _ _ settings VNone l s its' "container_0" c csol obj Hh Hi Hs K3 K1) as [L1 L2].
  { rewrite K5, Ha. lia. }
  { rewrite Esol. reflexivity. } { rewrite Eobj. reflexivity. }
  rewrite K5 in L2.
  assert (L3 : (obj == 1)%Q <-> forall i, In i (dkeys is_) -> In i (dkeys csol)).
  { rewrite L2. destruct K4 as [P _]. split.
    - intros [_ H] i Hin. apply H. eapply Permutation_in; [exact P|exact Hin].
    - intros H. split; [exact Ha|]. intros i Hin. apply H. eapply Permutation_in; [apply Permutation_sym; exact P|exact Hin]. }
  split; [exact L1|]. split; [exact L3|]. intros H1 Hno.
  destruct (iv_fresh s I) as [F|[cs2 [is2 [F1 [F2 F3]]]]]; [rewrite Esol in F; discriminate|].
  rewrite K1 in F1. injection F1 as <-. rewrite K3 in F2. injection F2 as <-.
  destruct (proj2 Vc "container_0" c (or_introl eq_refl)) as [W1 W2].
  apply full_covered; try assumption.
  - intros e He. unfold entries in He. apply in_map_iff in He. destruct He as [[i e'] [<- He]]. rewrite Esol, Hs in F3.
    destruct F3 as [_ [_ [F3 _]]]. destruct (F3 "container_0" csol i e' (or_introl eq_refl) He) as [c' [d [G1 [_ [_ G2]]]]].
    cbn in G1. injection G1 as <-. exact G2.
  - specialize (X4 "container_0" c csol obj eq_refl eq_refl eq_refl). rewrite Hs in X4. cbn [value_of_container] in X4.
    rewrite X4 in H1. assert (HA : 0 < dw c * dl c) by nia. revert H1.
    unfold Qeq, Qdiv, Qmult, Qinv, inject_Z. destruct (dw c * dl c) as [|a|a]; cbn; lia.
Qed.
Print Assumptions C73_benchmarks.

(** The first problem, solved once: 343/400 of the container is used. *)
Example C73_demo :
  let s0 : machine qarith := fst (create qarith no_libraries (container_dict C1_containers) (item_dict C1_items_a) VNone VNone (blank qarith)) in
  created no_libraries (container_dict C1_containers) (item_dict C1_items_a) VNone VNone s0 /\
  In (C1_containers, C1_items_a) benchmarks /\ m_sol (after s0 [OpSolve None]) <> [].
Proof.
  cbv zeta. split; [apply created_fst; vm_compute; reflexivity|]. split; [left; reflexivity|]. vm_compute. discriminate.
Qed.
