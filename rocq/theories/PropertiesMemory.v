(** * C69: solving works on copies. *)
From Coq Require Import ZArith QArith String List Bool Lia Factorial.
From Verif Require Import Py ProofsPy Arith Construct LocalSearch HyperSearch ItemsManip Values Memory SpecMemory ProofsMemory
  ProofsMemorySearch ProofsMemoryItems.
Import ListNotations.
Open Scope string_scope.
Open Scope list_scope.
Open Scope Z_scope.

(** [solve]: the objects say what Construct.v computes; no object there was is changed, also when an
    exception is raised; the new solution consists of new objects. *)
Theorem C69_solve : forall ar (m : mem ar) x seq, shows m x -> dict_ids x ->
  match inst_solve ar x seq with
  | Ok x' => exists m', m_solve ar seq m = (m', Ok tt) /\ shows m' x' /\
      untouched (me_heap m) (me_heap m') /\ fresh_results (me_heap m) m' /\ same_structures m m'
  | Err e => exists m', m_solve ar seq m = (m', Err e) /\ shows m' x /\
      untouched (me_heap m) (me_heap m') /\ me_self m' = me_self m
  end.
Proof.
  intros ar m x seq Sh Sd. pose proof (solve_at m x seq Sh Sd) as R. pose proof (solve__at m x seq Sh (proj1 Sd)) as R'.
  unfold runs in R. unfold inst_solve in *. destruct (solve ar (in_pb x) seq) as [[sol objs]|e]; cbn [bind] in *.
  - destruct R as [m' [[] [R1 [R2 [R3 [R4 [R5 [R6 _]]]]]]]]. exists m'. split; [exact R1|]. split; [exact R4|]. split; [exact R2|].
    split; [eapply owns_fresh; exact R6|exact R3].
  - destruct R' as [h' [R1 R2]]. exists (mkMem h' (me_self m)). split; [unfold m_solve; rewrite (sbind_err _ _ _ _ _ R1); reflexivity|].
    split; [|split; [exact R2|reflexivity]]. apply shows_mono with (me_heap m); [exact R2|]. destruct m. exact Sh.
Qed.
Print Assumptions C69_solve.

Lemma local_search_const ar ck limit throttle start x clk :
  local_search ar ck limit throttle start x clk = local_search_fuel ar (fun _ => ls_fuel ar x) ck limit throttle start x clk.
Proof.
  unfold local_search, local_search_fuel. destruct (match start with None => _ | Some _ => _ end).
  assert (Eq : ls_fuel ar (if pb_strip (in_pb x) then set_hist x [pb_height (in_pb x)] else x) = ls_fuel ar x)
    by (destruct (pb_strip (in_pb x)); reflexivity).
  rewrite Eq. reflexivity.
Qed.

(** [local_search]. *)
Theorem C69_local_search : forall ar (m : mem ar) x ck limit throttle start clk, shows m x -> dict_ids x ->
  match local_search ar ck limit throttle start x clk with
  | Ok (x', clk', log) => exists m', m_local_search ar (ls_fuel ar x) ck limit throttle start clk m = (m', Ok (clk', log)) /\
      shows m' x' /\ untouched (me_heap m) (me_heap m') /\ fresh_results (me_heap m) m' /\ same_structures m m'
  | Err e => exists m', m_local_search ar (ls_fuel ar x) ck limit throttle start clk m = (m', Err e) /\
      untouched (me_heap m) (me_heap m')
  end.
Proof.
  intros ar m x ck limit throttle start clk Sh Sd. rewrite local_search_const.
  pose proof (local_search_at (length (me_heap m)) (ls_fuel ar x) ck limit throttle start clk m x (le_n _) Sh Sd) as R. unfold runs in R.
  match type of R with match ?q with _ => _ end => destruct q as [[[x' clk'] log]|e] end.
  - destruct R as [m' [r [R1 [R2 [R3 [R4 [R5 [-> R7]]]]]]]]. cbn [fst snd] in *. exists m'. split; [exact R1|]. split; [exact R4|]. split; [exact R2|].
    split; [eapply owns_fresh; exact R7|exact R3].
  - destruct R as [m' [R1 [R2 _]]]. eauto.
Qed.
Print Assumptions C69_local_search.

(** [hypersearch] in one process: with a sorting (the default) the instance gets a new Items object
    and nothing there was is changed. *)
Theorem C69_hypersearch : forall ar (m : mem ar) x ck limit throttle orientation by_ reverse strategies clk, shows m x -> dict_ids x ->
  match hypersearch ar ck limit throttle orientation (Some (by_, reverse)) strategies x clk with
  | Ok r => exists m', m_hypersearch ar m_ls_fuel ck limit throttle orientation (Some (by_, reverse)) strategies clk m =
        (m', Ok (hr_best_strategy r, hr_clk r, hr_log r)) /\
      shows m' (hr_inst r) /\ untouched (me_heap m) (me_heap m') /\ fresh_results (me_heap m) m'
  | Err e => exists m', m_hypersearch ar m_ls_fuel ck limit throttle orientation (Some (by_, reverse)) strategies clk m = (m', Err e) /\
      untouched (me_heap m) (me_heap m')
  end.
Proof.
  intros ar m x ck limit throttle o by_ reverse strategies clk Sh Sd.
  pose proof (hypersearch_sorted ck limit throttle o by_ reverse strategies clk m x Sh Sd) as R.
  match type of R with match ?q with _ => _ end => destruct q as [r|e] end.
  - destruct R as [m' [R1 [R2 [R3 [R4 _]]]]]. exists m'. auto.
  - destruct R as [m' [R1 [R2 _]]]. exists m'. auto.
Qed.
Print Assumptions C69_hypersearch.

(** Without a sorting, nothing but the Dimensions objects of the items is changed. *)
Theorem C69_hypersearch_unsorted : forall ar (m : mem ar) x ck limit throttle orientation strategies clk, shows m x -> dict_ids x -> unshared m ->
  match hypersearch ar ck limit throttle orientation None strategies x clk with
  | Ok r => exists m', m_hypersearch ar m_ls_fuel ck limit throttle orientation None strategies clk m =
        (m', Ok (hr_best_strategy r, hr_clk r, hr_log r)) /\
      shows m' (hr_inst r) /\ only_changes (item_dims m) (me_heap m) (me_heap m') /\ fresh_results (me_heap m) m' /\ same_structures m m'
  | Err e => exists m', m_hypersearch ar m_ls_fuel ck limit throttle orientation None strategies clk m = (m', Err e) /\
      only_changes (item_dims m) (me_heap m) (me_heap m')
  end.
Proof.
  intros ar m x ck limit throttle o strategies clk Sh Sd Un.
  pose proof (hypersearch_unsorted ck limit throttle o strategies clk m x Sh Sd Un) as R.
  match type of R with match ?q with _ => _ end => destruct q as [r|e] end.
  - destruct R as [m' [R1 [R2 [R3 [R4 [R5 _]]]]]]. exists m'. auto 10.
  - destruct R as [m' [R1 [R2 _]]]. exists m'. auto.
Qed.
Print Assumptions C69_hypersearch_unsorted.

(** [sort_items] replaces the Items object: a handle on the old one still shows the old items. *)
Theorem C69_sort_items : forall ar (m : mem ar) x by_ reverse, shows m x -> dict_ids x ->
  match sort_items ar (Some (by_, reverse)) x with
  | Ok x' => exists m', m_sort_items ar (Some (by_, reverse)) m = (m', Ok tt) /\ shows m' x' /\
      untouched (me_heap m) (me_heap m') /\ (length (me_heap m) <= se_items (me_self m'))%nat
  | Err e => exists m', m_sort_items ar (Some (by_, reverse)) m = (m', Err e) /\ untouched (me_heap m) (me_heap m') /\ same_structures m m'
  end.
Proof.
  intros ar m x by_ reverse Sh Sd. pose proof (sort_at (length (me_heap m)) m x by_ reverse (le_n _) Sh Sd) as S.
  destruct (sort_items ar (Some (by_, reverse)) x) as [x'|e].
  - destruct S as [m' [S1 [S2 [S3 [S4 [S5 [S6 S7]]]]]]]. exists m'. auto.
  - destruct S as [m' [S1 [S2 [S3 _]]]]. exists m'. auto.
Qed.
Print Assumptions C69_sort_items.

(** [orient_items] changes the Dimensions objects of the items in place, and no others. *)
Theorem C69_orient_items : forall ar (m : mem ar) x orientation, shows m x -> dict_ids x -> unshared m ->
  exists m', m_orient_items ar orientation m = (m', Ok tt) /\ shows m' (orient_items ar orientation x) /\
    only_changes (item_dims m) (me_heap m) (me_heap m') /\ same_structures m m'.
Proof.
  intros ar m x o Sh Sd Un. destruct (orient_at m x o Sh Un) as [m' [O1 [O2 [O3 [O4 _]]]]]. exists m'. split; [exact O1|]. split; [exact O3|].
  split; [apply grows_only_changes, O2|exact O4].
Qed.
Print Assumptions C69_orient_items.

(** ** Histories *)
Section History.
Context {ar : arith}.
Implicit Types (m : mem ar) (c : call).

Lemma dims_only h h' m : shows m h' -> only_changes (item_dims m) (me_heap m) h ->
  forall a o, nth_error (me_heap m) a = Some o -> (forall d, o <> ODims d) -> nth_error h a = Some o.
Proof.
  intros [_ [[t [S1 S2]] _]] O a o Ha Hd. apply O; [exact Ha|]. unfold item_dims. rewrite S1. intros F.
  assert (D : exists y, nth_error (me_heap m) a = Some (ODims y)).
  { clear - S2 F. induction S2 as [|[k0 c0] [k1 y] t0 e [_ Hy] _ IH]; [contradiction|]. destruct F as [<-|F]; eauto. }
  destruct D as [y D]. apply (Hd y). congruence.
Qed.

Lemma call_at c m : usable m ->
  let '(m', r) := run_call c m in
  usable m' /\
  (forall a o, nth_error (me_heap m) a = Some o -> (forall d, o <> ODims d) -> nth_error (me_heap m') a = Some o) /\
  (in_place c = false -> untouched (me_heap m) (me_heap m')) /\
  (r = Ok tt -> solves c = true -> fresh_results (me_heap m) m').
Proof.
  intros [[x [Sh Sd]] Un].
  assert (Q : forall m' (r : result unit), untouched (me_heap m) (me_heap m') -> (exists x', shows m' x' /\ dict_ids x') -> unshared m' ->
     (r = Ok tt -> solves c = true -> fresh_results (me_heap m) m') ->
     usable m' /\ (forall a o, nth_error (me_heap m) a = Some o -> (forall d, o <> ODims d) -> nth_error (me_heap m') a = Some o) /\
     (in_place c = false -> untouched (me_heap m) (me_heap m')) /\ (r = Ok tt -> solves c = true -> fresh_results (me_heap m) m')).
  { intros m' r U F V W. split; [split; assumption|]. split; [intros a o Ha _; apply U, Ha|]. split; [auto|exact W]. }
  destruct c as [seq|ck limit throttle|ck limit throttle o sb strategies|sb|o]; cbn [run_call].
  - pose proof (solve_at m x seq Sh Sd) as R. unfold runs in R. destruct (inst_solve ar x seq) as [x'|e].
    + destruct R as [m' [[] [R1 [R2 [R3 [R4 [R5 [R6 _]]]]]]]]. rewrite R1. apply Q; [exact R2|eauto|eapply unshared_mono; eauto|].
      intros _ _. eapply owns_fresh. exact R6.
    + destruct R as [m' [R1 [R2 [R3 R4]]]]. rewrite R1. apply Q; [exact R2|exact R4|eapply unshared_mono; eauto|discriminate].
  - pose proof (local_search_at (length (me_heap m)) (m_ls_fuel (me_self m) (length (item_dims m))) ck limit throttle None 0%nat m x (le_n _) Sh Sd) as R.
    unfold runs in R. match type of R with match ?q with _ => _ end => destruct q as [[[x' clk'] log]|e] end.
    + destruct R as [m' [r [R1 [R2 [R3 [R4 [R5 [_ R7]]]]]]]]. rewrite R1. cbn [fst snd] in *. apply Q; [exact R2|eauto|eapply unshared_mono; eauto|].
      intros _ _. eapply owns_fresh. exact R7.
    + destruct R as [m' [R1 [R2 [R3 R4]]]]. rewrite R1. cbn [fst snd]. apply Q; [exact R2|exact R4|eapply unshared_mono; eauto|discriminate].
  - destruct sb as [[by_ reverse]|].
    + pose proof (hypersearch_sorted ck limit throttle o by_ reverse strategies 0%nat m x Sh Sd) as R.
      match type of R with match ?q with _ => _ end => destruct q as [r|e] end.
      * destruct R as [m' [R1 [R2 [R3 [R4 [R5 R6]]]]]]. rewrite R1. cbn [fst snd]. apply Q; [exact R3|eauto|exact (R5 Un)|auto].
      * destruct R as [m' [R1 [R2 [R3 R4]]]]. rewrite R1. cbn [fst snd]. apply Q; [exact R2|exact R4|exact (R3 Un)|discriminate].
    + pose proof (hypersearch_unsorted ck limit throttle o strategies 0%nat m x Sh Sd Un) as R.
      match type of R with match ?q with _ => _ end => destruct q as [r|e] end.
      * destruct R as [m' [R1 [R2 [R3 [R4 [R5 [R6 R7]]]]]]]. rewrite R1. cbn [fst snd]. split; [split; [eauto|exact R6]|].
        split; [eapply dims_only; eauto|]. split; [discriminate|auto].
      * destruct R as [m' [R1 [R2 [R3 [R4 R5]]]]]. rewrite R1. cbn [fst snd]. split; [split; [exact R5|exact R4]|].
        split; [eapply dims_only; eauto|]. split; discriminate.
  - destruct sb as [[by_ reverse]|].
    + pose proof (sort_at (length (me_heap m)) m x by_ reverse (le_n _) Sh Sd) as S.
      destruct (sort_items ar (Some (by_, reverse)) x) as [x'|e].
      * destruct S as [m' [S1 [S2 [S3 [S4 [[ti [S5 [S6 S7]]] [S8 S9]]]]]]]. rewrite S1. apply Q; [exact S2|eauto| |discriminate].
        pose proof Sh as [[tc [C1 C2]] _]. exists ti, tc. split; [exact S5|]. split; [rewrite S8; apply S2, C1|]. split; [exact S6|].
        intros a Ha F. specialize (S7 a Ha). pose proof (dims_lt _ _ _ C2 a F). lia.
      * destruct S as [m' [S1 [S2 [S3 S4]]]]. rewrite S1. apply Q; [exact S2|exact S4|eapply unshared_mono; eauto|discriminate].
    + cbn [m_sort_items]. apply Q; [apply untouched_refl|eauto|exact Un|discriminate].
  - destruct (orient_at m x o Sh Un) as [m' [O1 [O2 [O3 [O4 O5]]]]]. rewrite O1.
    split; [split; [exists (orient_items ar o x); split; [exact O3|apply orient_sound, Sd]|exact O5]|].
    split; [eapply dims_only; [exact Sh|apply grows_only_changes, O2]|]. split; discriminate.
Qed.

Lemma history_at l : forall m, usable m ->
  usable (after_calls m l) /\
  (forall a o, nth_error (me_heap m) a = Some o -> (forall d, o <> ODims d) -> nth_error (me_heap (after_calls m l)) a = Some o) /\
  ((forall c, In c l -> in_place c = false) -> untouched (me_heap m) (me_heap (after_calls m l))).
Proof.
  induction l as [|c l IH]; intros m U; cbn [after_calls fold_left].
  - split; [exact U|]. split; [auto|]. intros _. apply untouched_refl.
  - pose proof (call_at c m U) as C. destruct (run_call c m) as [m1 r]. cbn [fst]. destruct C as [C1 [C2 [C3 _]]].
    destruct (IH m1 C1) as [I1 [I2 I3]]. split; [exact I1|]. split; [intros a o Ha Hd; apply I2; auto|].
    intros N. eapply untouched_trans; [apply C3, N; left; reflexivity|]. apply I3. intros c' Hc. apply N. right. exact Hc.
Qed.
Lemma after_app l1 l2 m : after_calls m (l1 ++ l2) = after_calls (after_calls m l1) l2.
Proof. unfold after_calls. apply fold_left_app. Qed.
End History.

(** At any moment of any history of calls: objects other than Dimensions never change; without an
    in-place call none does; a call that sets the solution builds it from new objects; the instance
    is usable throughout. *)
Theorem C69_history : forall ar (m : mem ar) before c, usable m ->
  let m1 := after_calls m before in
  let m2 := fst (run_call c m1) in
  usable m2 /\
  (forall a o, nth_error (me_heap m) a = Some o -> (forall d, o <> ODims d) -> nth_error (me_heap m2) a = Some o) /\
  ((forall c', In c' (before ++ [c]) -> in_place c' = false) -> untouched (me_heap m) (me_heap m2)) /\
  (snd (run_call c m1) = Ok tt -> solves c = true -> fresh_results (me_heap m1) m2).
Proof.
  intros ar m before c U. cbv zeta. pose proof (history_at (before ++ [c]) m U) as [H1 [H2 H3]]. rewrite after_app in *. cbn [after_calls fold_left] in *.
  fold (after_calls m before) in *. destruct (history_at before m U) as [U1 _]. pose proof (call_at c _ U1) as C.
  destruct (run_call c (after_calls m before)) as [m2 r]. cbn [fst snd] in *. destruct C as [_ [_ [_ C4]]]. auto.
Qed.
Print Assumptions C69_history.

(** A solution the user kept, obtained at some moment, keeps its contents whatever is called
    afterwards, and shares no object with the solution of any later successful call. *)
Theorem C69_kept_solutions : forall ar (m : mem ar) before c after a sol, usable m ->
  let m1 := after_calls m before in
  let m2 := fst (run_call c m1) in
  let m3 := after_calls m2 after in
  is_solution (me_heap m1) a sol ->
  is_solution (me_heap m3) a sol /\ solution_objects (me_heap m3) a = solution_objects (me_heap m1) a /\
  (snd (run_call c m1) = Ok tt -> solves c = true ->
   forall b, In b (solution_objects (me_heap m1) a) -> ~ In b (solution_objects (me_heap m2) (se_sol (me_self m2)))).
Proof.
  intros ar m before c after a sol U. cbv zeta. intros Hs. destruct (history_at before m U) as [U1 _]. set (m1 := after_calls m before) in *.
  pose proof (call_at c m1 U1) as C. destruct (run_call c m1) as [m2 r]. cbn [fst snd] in *. destruct C as [C1 [C2 [_ C4]]].
  destruct (history_at after m2 C1) as [_ [H2 _]]. set (m3 := after_calls m2 after) in *.
  assert (K : forall b o, nth_error (me_heap m1) b = Some o -> (forall d, o <> ODims d) -> nth_error (me_heap m3) b = Some o) by auto.
  destruct Hs as [t [S1 S2]].
  assert (Lt : forall b, In b (solution_objects (me_heap m1) a) -> (b < length (me_heap m1))%nat).
  { intros b Hb. unfold solution_objects in Hb. rewrite S1 in Hb. destruct Hb as [<-|Hb]; [eapply nth_lt; exact S1|exact (flat_lt _ _ _ S2 _ Hb)]. }
  assert (Same : forall b, In b (flat (me_heap m1) t) -> nth_error (me_heap m3) b = nth_error (me_heap m1) b).
  { intros b Hb. clear - S2 Hb K. induction S2 as [|[k x] [k' y] t s [_ [tc [Hc Hy]]] T IH]; [contradiction|].
    unfold flat in Hb. cbn [flat_map snd] in *. apply in_app_or in Hb. destruct Hb as [Hb|Hb]; [|exact (IH Hb)].
    unfold csol_objects in Hb. rewrite Hc in Hb. destruct Hb as [<-|Hb]; [rewrite Hc; apply K; [exact Hc|discriminate]|].
    clear - Hy Hb K. induction Hy as [|[k x] [k' z] t s [_ Hz] T IH]; [contradiction|]. destruct Hb as [<-|Hb]; [|exact (IH Hb)].
    cbn [snd] in Hz. cbn [snd]. rewrite Hz. apply K; [exact Hz|discriminate]. }
  assert (S3 : nth_error (me_heap m3) a = Some (OTable t)) by (apply K; [exact S1|discriminate]).
  destruct (csols_same _ _ _ _ S2 Same) as [T3 F3]. split; [exists t; auto|]. split.
  - unfold solution_objects. rewrite S1, S3. unfold flat in F3. rewrite F3. reflexivity.
  - intros Hr Hc b Hb F. destruct (C4 Hr Hc) as [_ Fr]. specialize (Fr b (or_intror F)). specialize (Lt b Hb). lia.
Qed.
Print Assumptions C69_kept_solutions.

(** ** A concrete instance: one 3 x 2 container, items of 1 x 2 and 1 x 1. *)
Definition small_self : self := mkSelf 4%nat 1%nat true default_strategy false 0 None 1 5%nat 6%nat [].
Definition small : mem qarith := mkMem
  [ODims (mkDims 3 2); OStruct [("c", 0%nat)]; ODims (mkDims 1 2); ODims (mkDims 1 1); OStruct [("a", 2%nat); ("b", 3%nat)];
   OTable []; OObjs []] small_self.
Definition small_inst : inst qarith :=
  mkInst (mkProblem [("c", mkDims 3 2)] [("a", mkDims 1 2); ("b", mkDims 1 1)] true default_strategy false 0) None 1 [] [] [].

Example C69_usable : shows small small_inst /\ dict_ids small_inst /\ unshared small.
Proof.
  split; [|split].
  - unfold shows. cbn. split; [exists [("c", 0%nat)]; split; [reflexivity|repeat constructor]|].
    split; [exists [("a", 2%nat); ("b", 3%nat)]; split; [reflexivity|repeat constructor]|]. repeat (split; [reflexivity|]).
    split; [exists []; split; [reflexivity|constructor]|]. split; reflexivity.
  - split; [|split].
    + cbn. constructor; [intros [F|[]]; discriminate|]. constructor; [intros []|constructor].
    + cbn. constructor; [intros []|constructor].
    + discriminate.
  - exists [("a", 2%nat); ("b", 3%nat)], [("c", 0%nat)]. cbn. split; [reflexivity|]. split; [reflexivity|]. split.
    + constructor; [intros [F|[]]; discriminate|]. constructor; [intros []|constructor].
    + intros a [<-|[<-|[]]] [F|[]]; discriminate.
Qed.

(** A solution, kept by the user, and a later hypersearch: both are there, in different objects. *)
Definition first_call : call := CallSolve None.
Definition second_call : call := CallHypersearch (fun _ => 0) 5 true (Some "wide") (Some ("area", true)) [default_strategy].
Example C69_history_witness :
  let m1 := after_calls small [first_call] in
  snd (run_call first_call small) = Ok tt /\ snd (run_call second_call m1) = Ok tt /\
  solution_objects (me_heap m1) (se_sol (me_self m1)) = [11; 15; 16; 17]%nat /\
  nth_error (me_heap m1) 16 = Some (OEntry (mkEntry 0 0 1 2)) /\
  (exists t, nth_error (me_heap (fst (run_call second_call m1))) (se_items (me_self (fst (run_call second_call m1)))) = Some (OStruct t) /\
     map fst t = ["a"; "b"] /\ map (fun kb => nth_error (me_heap (fst (run_call second_call m1))) (snd kb)) t = [Some (ODims (mkDims 2 1)); Some (ODims (mkDims 1 1))]) /\
  nth_error (me_heap (fst (run_call second_call m1))) 2 = Some (ODims (mkDims 1 2)).
Proof.
  cbv zeta. refine (conj _ (conj _ (conj _ (conj _ (conj _ _))))); try (vm_compute; reflexivity).
  vm_compute. exists [("a", 21%nat); ("b", 24%nat)]. auto.
Qed.

(** Turning the items without sorting them changes the objects the user holds: item "a", 1 x 2, is
    now 2 x 1. *)
Example C69_in_place :
  ~ untouched (me_heap small) (me_heap (fst (run_call (CallOrientItems (Some "wide")) small))).
Proof.
  intros U. specialize (U 2%nat (ODims (mkDims 1 2)) eq_refl). vm_compute in U. discriminate U.
Qed.
