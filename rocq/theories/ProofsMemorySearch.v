(** * The searches on objects. *)
From Coq Require Import ZArith String List Bool Lia Factorial Permutation.
From Verif Require Import Py ProofsPy Arith Construct LocalSearch HyperSearch ItemsManip Values Settings Instance Memory SpecMemory ProofsMemory.
Import ListNotations.
Open Scope Z_scope.
Open Scope sm_scope.

Section Search.
Context {ar : arith}.
Implicit Types (h : heap ar) (m : mem ar) (me : self).

(** The command [c] does what [r] says, adding objects only and keeping the structures of the
    instance. *)
Notation same := same_structures.
Notation sound := dict_ids.
Definition fine m : Prop := exists x, shows m x /\ sound x.
Definition runs {A B} (c : H ar A) m (r : result B) (Q : mem ar -> A -> B -> Prop) : Prop :=
  match r with
  | Ok b => exists m' a, c m = (m', Ok a) /\ untouched (me_heap m) (me_heap m') /\ same m m' /\ Q m' a b
  | Err e => exists m', c m = (m', Err e) /\ untouched (me_heap m) (me_heap m') /\ same m m' /\ fine m'
  end.

Lemma same_refl m : same m m.
Proof. split; reflexivity. Qed.
Lemma same_trans m1 m2 m3 : same m1 m2 -> same m2 m3 -> same m1 m3.
Proof. intros [A B] [C D]. split; congruence. Qed.

Lemma runs_bind {A A' B B'} (c : H ar A) (f : A -> H ar A') m (r : result B) (g : B -> result B') Q Q' :
  runs c m r Q -> (forall m' a b, untouched (me_heap m) (me_heap m') -> same m m' -> Q m' a b -> runs (f a) m' (g b) Q') ->
  runs (sbind c f) m (bind r g) Q'.
Proof.
  intros R K. destruct r as [b|e]; cbn [bind].
  - destruct R as [m1 [a [R1 [R2 [R3 R4]]]]]. specialize (K m1 a b R2 R3 R4). unfold runs in *. destruct (g b) as [b'|e].
    + destruct K as [m2 [a2 [K1 [K2 [K3 K4]]]]]. exists m2, a2. split; [unfold sbind; rewrite R1; exact K1|].
      split; [eapply untouched_trans; eauto|]. split; [eapply same_trans; eauto|exact K4].
    + destruct K as [m2 [K1 [K2 [K3 K4]]]]. exists m2. split; [unfold sbind; rewrite R1; exact K1|].
      split; [eapply untouched_trans; eauto|]. split; [eapply same_trans; eauto|exact K4].
  - destruct R as [m1 [R1 [R2 R3]]]. exists m1. split; [unfold sbind; rewrite R1; reflexivity|]. auto.
Qed.
(** A step the other model does not have. *)
Lemma runs_step {A A' B'} (c : H ar A) (f : A -> H ar A') m m1 a (r : result B') Q' :
  c m = (m1, Ok a) -> untouched (me_heap m) (me_heap m1) -> same m m1 -> runs (f a) m1 r Q' -> runs (sbind c f) m r Q'.
Proof.
  intros E U S K. pose proof (runs_bind c f m (Ok tt) (fun _ => r) (fun m' a' _ => m' = m1 /\ a' = a) Q') as RB. cbn [bind] in RB.
  apply RB.
  - exists m1, a. auto.
  - intros m' a' b _ _ [-> ->]. exact K.
Qed.
Lemma runs_read {A A' B'} (c : H ar A) (f : A -> H ar A') m a (r : result B') Q' :
  c m = (m, Ok a) -> runs (f a) m r Q' -> runs (sbind c f) m r Q'.
Proof. intros E K. eapply runs_step; [exact E|apply untouched_refl|apply same_refl|exact K]. Qed.
Lemma runs_ret {A B} (a : A) (b : B) m (Q : mem ar -> A -> B -> Prop) : Q m a b -> runs (sret a) m (Ok b) Q.
Proof. intros q. exists m, a. split; [reflexivity|]. split; [apply untouched_refl|]. split; [apply same_refl|exact q]. Qed.
Lemma runs_post {A B} (c : H ar A) m (r : result B) (Q Q' : mem ar -> A -> B -> Prop) :
  runs c m r Q -> (forall m' a b, untouched (me_heap m) (me_heap m') -> same m m' -> Q m' a b -> Q' m' a b) -> runs c m r Q'.
Proof.
  intros R K. destruct r as [b|e]; [|exact R]. destruct R as [m1 [a [R1 [R2 [R3 R4]]]]]. exists m1, a. auto.
Qed.
(** The same result, computed differently. *)
Lemma runs_eq {A B} (c : H ar A) m (r r' : result B) Q : r = r' -> runs c m r Q -> runs c m r' Q.
Proof. intros ->. auto. Qed.

(** ** [solve] *)
Definition result_of m : addr * addr := (se_sol (me_self m), se_objs (me_self m)).

Lemma shows_mono h h' me x : untouched h h' -> shows (mkMem h me) x -> shows (mkMem h' me) x.
Proof.
  intros U [S1 [S2 [S3 [S4 [S5 [S6 [S7 [S8 [S9 [S10 S11]]]]]]]]]]. unfold shows. cbn [me_heap me_self] in *.
  split; [eapply struct_mono; eauto|]. split; [eapply struct_mono; eauto|]. repeat (split; [assumption|]).
  split; [eapply solution_mono; eauto|]. split; [apply U, S10|exact S11].
Qed.

Lemma shows_solution n h me x r sol objs : shows (mkMem h me) x -> owns n h r (sol, objs) ->
  shows (mkMem h (se_with_solution (fst r) (snd r) me)) (set_solution x sol objs).
Proof.
  intros [S1 [S2 [S3 [S4 [S5 [S6 [S7 [S8 [S9 [S10 S11]]]]]]]]]] [O1 [O2 _]]. unfold shows. cbn [me_heap me_self] in *. cbn. tauto.
Qed.

Lemma solve_at m x seq : shows m x -> sound x ->
  runs (m_solve ar seq) m (inst_solve ar x seq) (fun m' _ x' =>
    shows m' x' /\ sound x' /\ owns (length (me_heap m)) (me_heap m') (result_of m') (in_sol x', in_objs x') /\ in_pb x' = in_pb x).
Proof.
  intros Sh Sd. unfold m_solve, inst_solve. eapply runs_bind with (Q := fun m' r v =>
    shows m' x /\ owns (length (me_heap m)) (me_heap m') r v).
  - pose proof (solve__at m x seq Sh (proj1 Sd)) as A. destruct (solve ar (in_pb x) seq) as [v|e].
    + destruct A as [h' [r [A1 [A2 A3]]]]. exists (mkMem h' (me_self m)), r. split; [exact A1|]. split; [exact A2|]. split; [split; reflexivity|].
      split; [|exact A3]. apply shows_mono with (me_heap m); [exact A2|]. destruct m. exact Sh.
    + destruct A as [h' [A1 A2]]. exists (mkMem h' (me_self m)). split; [exact A1|]. split; [exact A2|]. split; [split; reflexivity|].
      exists x. split; [|exact Sd]. apply shows_mono with (me_heap m); [exact A2|]. destruct m. exact Sh.
  - intros [h' me'] r [sol objs] U S [Sh' Ow]. cbn [me_heap me_self] in *.
    exists (mkMem h' (se_with_solution (fst r) (snd r) me')), tt. split; [reflexivity|]. split; [apply untouched_refl|].
    split; [split; reflexivity|]. split; [eapply shows_solution; eauto|]. split; [exact Sd|]. split; [|reflexivity].
    destruct r. exact Ow.
Qed.

(** ** Copies *)
Definition entry_step (csol : addr) (out : odict addr) (id : string) : H ar (odict addr) :=
  c <~ load_table csol ;;
  match dget c id with
  | Some a => e <~ load_entry a ;; n <~ alloc (OEntry e) ;; sret (dset out id n)
  | None => sret out
  end.

Lemma entries_lt h t c : table (p_entry h) t c -> forall b, In b (map snd t) -> (b < length h)%nat.
Proof.
  intros H2 b Hb. induction H2 as [|[k0 c0] [k1 x] t0 e [_ Hx] _ IH]; [contradiction|]. destruct Hb as [<-|Hb]; [eapply nth_lt; exact Hx|auto].
Qed.

Lemma copy_entries n csol c me : forall ids h t acc,
  (n <= length h)%nat -> is_csol h csol c -> table (p_entry h) t acc -> NoDup (map snd t) -> (forall a, In a (map snd t) -> (n <= a)%nat) ->
  NoDup ids -> (forall i, In i ids -> ~ In i (dkeys acc)) ->
  exists h' t', hfold (entry_step csol) ids t (mkMem h me) = (mkMem h' me, Ok t') /\ untouched h h' /\
    table (p_entry h') t' (acc ++ concat (map (fun id => match dget c id with Some e => [(id, e)] | None => [] end) ids)) /\
    NoDup (map snd t') /\ (forall a, In a (map snd t') -> (n <= a)%nat).
Proof.
  induction ids as [|i ids IH]; intros h t acc Ln Hc T ND Ge Ni Dj; cbn [hfold map concat].
  - exists h, t. rewrite app_nil_r. split; [reflexivity|]. split; [apply untouched_refl|]. auto.
  - inversion Ni as [|? ? N1 N2]; subst. pose proof Hc as [tc [C1 C2]]. pose proof (table_get _ tc c i C2) as G.
    destruct (dget tc i) as [a|] eqn:Ea, (dget c i) as [e|] eqn:Ee; try contradiction.
    + destruct G as [G _]. set (h1 := h ++ [OEntry e]).
      assert (E : entry_step csol t i (mkMem h me) = (mkMem h1 me, Ok (dset t i (length h)))).
      { unfold entry_step. rewrite (sbind_ok _ _ _ _ _ (load_table_at h me csol tc C1)). rewrite Ea.
        rewrite (sbind_ok _ _ _ _ _ (load_entry_at h me a e G)). reflexivity. }
      rewrite (sbind_ok _ _ _ _ _ E).
      assert (U1 : untouched h h1) by apply untouched_alloc.
      assert (K : dset acc i e = acc ++ [(i, e)]) by (apply dset_new, dget_None, Dj; left; reflexivity).
      destruct (IH h1 (dset t i (length h)) (acc ++ [(i, e)])) as [h' [t' [I1 [I2 [I3 [I4 I5]]]]]].
      * unfold h1. rewrite app_length. lia.
      * eapply csol_same; [|exact Hc]. intros b Hb. unfold csol_objects in Hb. rewrite C1 in Hb. unfold h1.
        apply nth_old'. destruct Hb as [<-|Hb]; [eapply nth_lt; exact C1|eapply entries_lt; [exact C2|exact Hb]].
      * rewrite <- K. apply table_set; [|unfold p_entry, h1; apply nth_new]. eapply table_mono; [exact T|]. intros b y _ Hy. apply U1, Hy.
      * apply nodup_snd_set. constructor; [|exact ND]. intros F. pose proof (entries_lt h t acc T _ F). lia.
      * intros b Hb. apply in_snd_set in Hb. destruct Hb as [->|Hb]; [lia|auto].
      * exact N2.
      * intros j Hj. unfold dkeys. rewrite map_app. intros F. apply in_app_or in F. destruct F as [F|F]; [apply (Dj j (or_intror Hj) F)|].
        destruct F as [<-|[]]. auto.
      * exists h', t'. split; [exact I1|]. split; [eapply untouched_trans; eauto|]. rewrite <- app_assoc in I3. auto.
    + assert (E : entry_step csol t i (mkMem h me) = (mkMem h me, Ok t)).
      { unfold entry_step. rewrite (sbind_ok _ _ _ _ _ (load_table_at h me csol tc C1)). rewrite Ea. reflexivity. }
      rewrite (sbind_ok _ _ _ _ _ E). cbn [app].
      apply IH; auto. intros j Hj. apply Dj. right. exact Hj.
Qed.

Lemma copy_container_at n items csol c h me : (n <= length h)%nat -> is_csol h csol c -> NoDup (dkeys items) ->
  exists h' r, m_copy_container ar (dkeys items) csol (mkMem h me) = (mkMem h' me, Ok r) /\ untouched h h' /\
    is_csol h' r (deepcopy_container items c) /\ NoDup (csol_objects h' r) /\ (forall a, In a (csol_objects h' r) -> (n <= a)%nat).
Proof.
  intros Ln Hc ND. destruct (copy_entries n csol c me (dkeys items) h [] []) as [h' [t' [I1 [I2 [I3 [I4 I5]]]]]]; auto.
  - constructor.
  - constructor.
  - intros a [].
  - unfold m_copy_container. change (fun (out : odict addr) (id : string) => _) with (entry_step csol) at 1.
    rewrite (sbind_ok _ _ _ _ _ I1). exists (h' ++ [OTable t']), (length h'). split; [reflexivity|].
    split; [eapply untouched_trans; [exact I2|apply untouched_alloc]|].
    assert (Eo : csol_objects (h' ++ [OTable t']) (length h') = length h' :: map snd t') by (unfold csol_objects; rewrite nth_new; reflexivity).
    rewrite Eo. pose proof (untouched_length _ _ I2). split.
    + exists t'. split; [apply nth_new|]. eapply table_mono; [exact I3|]. intros b y _ Hy. apply nth_old, Hy.
    + split; [constructor; [|exact I4]; intros F; pose proof (entries_lt _ _ _ I3 _ F); lia|].
      intros b [<-|Hb]; [lia|auto].
Qed.

Definition cont_step (ids : list string) (sol : addr) (out : odict addr) (cid : string) : H ar (odict addr) :=
  s <~ load_table sol ;; a <~ slift (dget_r s cid) ;; n <~ m_copy_container ar ids a ;; sret (dset out cid n).

Lemma copy_loop n items sol s me : NoDup (dkeys items) -> forall cids h t acc,
  (n <= length h)%nat -> is_solution h sol s -> table (is_csol h) t acc -> NoDup (flat h t) -> (forall a, In a (flat h t) -> (n <= a)%nat) ->
  NoDup cids -> (forall i, In i cids -> ~ In i (dkeys acc)) ->
  match rmap (fun cid => bind (dget_r s cid) (fun csol => Ok (cid, deepcopy_container items csol))) cids with
  | Ok l => exists h' t', hfold (cont_step (dkeys items) sol) cids t (mkMem h me) = (mkMem h' me, Ok t') /\ untouched h h' /\
      table (is_csol h') t' (acc ++ l) /\ NoDup (flat h' t') /\ (forall a, In a (flat h' t') -> (n <= a)%nat)
  | Err e => exists h', hfold (cont_step (dkeys items) sol) cids t (mkMem h me) = (mkMem h' me, Err e) /\ untouched h h'
  end.
Proof.
  intros NDi. induction cids as [|i ids IH]; intros h t acc Ln Hs T ND Ge Ni Dj; cbn [rmap hfold].
  - exists h, t. rewrite app_nil_r. split; [reflexivity|]. split; [apply untouched_refl|]. auto.
  - inversion Ni as [|? ? N1 N2]; subst. pose proof Hs as [ts [C1 C2]]. pose proof (table_get _ ts s i C2) as G.
    unfold dget_r at 1. destruct (dget ts i) as [a|] eqn:Ea, (dget s i) as [c|] eqn:Ee; try contradiction; cbn [bind].
    + destruct G as [G _]. destruct (copy_container_at (length h) items a c h me (le_n _) G NDi) as [h1 [r [R1 [R2 [R3 [R4 R5]]]]]].
      assert (E : cont_step (dkeys items) sol t i (mkMem h me) = (mkMem h1 me, Ok (dset t i r))).
      { unfold cont_step. rewrite (sbind_ok _ _ _ _ _ (load_table_at h me sol ts C1)), sbind_lift. unfold dget_r. rewrite Ea.
        rewrite (sbind_ok _ _ _ _ _ R1). reflexivity. }
      rewrite (sbind_ok _ _ _ _ _ E).
      pose proof (untouched_length _ _ R2) as L1. pose proof (flat_lt h t acc T) as Lf.
      destruct (csols_same h h1 t acc T) as [T1 F1].
      { intros b Hb. specialize (Lf b Hb). destruct (nth_error h b) as [o|] eqn:Eb; [apply R2, Eb|]. apply nth_error_None in Eb. lia. }
      assert (K : dset acc i (deepcopy_container items c) = acc ++ [(i, deepcopy_container items c)]) by (apply dset_new, dget_None, Dj; left; reflexivity).
      specialize (IH h1 (dset t i r) (acc ++ [(i, deepcopy_container items c)])).
      assert (P2 : is_solution h1 sol s) by (eapply solution_mono; [exact R2|exact Hs]).
      assert (P3 : table (is_csol h1) (dset t i r) (acc ++ [(i, deepcopy_container items c)])) by (rewrite <- K; apply table_set; [exact T1|exact R3]).
      assert (P4 : NoDup (flat h1 (dset t i r))).
      { apply nodup_flat_set. apply NoDup_app_iff. split; [exact R4|]. change (NoDup (flat h1 t) /\ (forall b, In b (csol_objects h1 r) -> ~ In b (flat h1 t))).
        rewrite F1. split; [exact ND|]. intros b Hb F. specialize (R5 b Hb). specialize (Lf b F). lia. }
      assert (P5 : forall b, In b (flat h1 (dset t i r)) -> (n <= b)%nat).
      { intros b Hb. apply in_flat_set in Hb. destruct Hb as [Hb|Hb]; [specialize (R5 b Hb); lia|]. apply Ge. rewrite <- F1. exact Hb. }
      assert (P7 : forall j, In j ids -> ~ In j (dkeys (acc ++ [(i, deepcopy_container items c)]))).
      { intros j Hj. unfold dkeys. rewrite map_app. intros F. apply in_app_or in F. destruct F as [F|F]; [apply (Dj j (or_intror Hj) F)|].
        destruct F as [<-|[]]. auto. }
      specialize (IH ltac:(lia) P2 P3 P4 P5 N2 P7).
      match type of IH with match ?x with _ => _ end => destruct x as [l|e] end; cbn [bind].
      * destruct IH as [h' [t' [I1 [I2 [I3 I4]]]]]. exists h', t'. split; [exact I1|]. split; [eapply untouched_trans; eauto|].
        rewrite <- app_assoc in I3. auto.
      * destruct IH as [h' [I1 I2]]. exists h'. split; [exact I1|]. eapply untouched_trans; eauto.
    + exists h. split; [|apply untouched_refl]. apply (sbind_err (cont_step (dkeys items) sol t i)).
      unfold cont_step. rewrite (sbind_ok _ _ _ _ _ (load_table_at h me sol ts C1)), sbind_lift. unfold dget_r. rewrite Ea. reflexivity.
Qed.

Lemma get_solution_at n m x : (n <= length (me_heap m))%nat -> shows m x -> sound x ->
  runs (m_get_solution ar) m (get_solution ar x) (fun m' r v => owns n (me_heap m') r v /\ shows m' x /\ me_self m' = me_self m).
Proof.
  destruct m as [h me]. cbn [me_heap me_self]. intros Ln Sh Sd. pose proof Sd as [Si [Sc _]]. pose proof Sh as [S1 [S2 [_ [_ [_ [_ [_ [_ [S9 [S10 _]]]]]]]]]]. cbn [me_heap me_self] in *.
  unfold m_get_solution, get_solution. eapply runs_bind with (Q := fun m' a s => me_self m' = me /\ is_solution (me_heap m') a s /\
     NoDup (solution_objects (me_heap m') a) /\ (forall b, In b (solution_objects (me_heap m') a) -> (n <= b)%nat)).
  - unfold m_copy_solution. eapply runs_read; [apply self_at|]. destruct S1 as [tc [C1 C2]], S2 as [ti [I1 I2]].
    eapply runs_read; [apply load_struct_at, C1|]. eapply runs_read; [apply load_struct_at, I1|].
    rewrite (table_keys _ _ _ C2), (table_keys _ _ _ I2). unfold deepcopy_solution.
    pose proof (copy_loop n (pb_items (in_pb x)) (se_sol me) (in_sol x) me Si (dkeys (pb_containers (in_pb x))) h [] [] Ln S9
      (Forall2_nil _) (NoDup_nil _) (fun a F => match F with end) Sc (fun i _ F => match F with end)) as CL.
    unfold cont_step in CL. match goal with |- runs _ _ ?r _ => destruct r as [l|e] end.
    + destruct CL as [h' [t' [L1 [L2 [L3 [L4 L5]]]]]]. exists (mkMem (h' ++ [OTable t']) me), (length h').
      split; [rewrite (sbind_ok _ _ _ _ _ L1); reflexivity|]. split; [eapply untouched_trans; [exact L2|apply untouched_alloc]|].
      split; [split; reflexivity|]. split; [reflexivity|]. cbn [me_heap].
      destruct (csols_same h' (h' ++ [OTable t']) t' _ L3) as [T1 F1].
      { intros b Hb. apply nth_old'. exact (flat_lt _ _ _ L3 b Hb). }
      assert (Eo : solution_objects (h' ++ [OTable t']) (length h') = length h' :: flat h' t').
      { unfold solution_objects. rewrite nth_new. unfold flat in F1. rewrite F1. reflexivity. }
      rewrite Eo. pose proof (untouched_length _ _ L2). split; [exists t'; split; [apply nth_new|exact T1]|]. split.
      * constructor; [|exact L4]. intros F. pose proof (flat_lt _ _ _ L3 _ F). lia.
      * intros b [<-|Hb]; [lia|auto].
    + destruct CL as [h' [L1 L2]]. exists (mkMem h' me). split; [rewrite (sbind_err _ _ _ _ _ L1); reflexivity|]. split; [exact L2|].
      split; [split; reflexivity|]. exists x. split; [apply shows_mono with h; [exact L2|exact Sh]|exact Sd].
  - intros [h1 me1] a s U Sm [E1 [E2 [E3 E4]]]. cbn [me_heap me_self] in *. subst me1.
    eapply runs_step with (m1 := mkMem (h1 ++ [OObjs (map (fun kv => kv) (in_objs x))]) me) (a := length h1).
    + unfold m_copy_objs. rewrite (sbind_ok _ _ _ _ _ (self_at h1 me)), (sbind_ok _ _ _ _ _ (load_objs_at h1 me _ _ (U _ _ S10))). reflexivity.
    + apply untouched_alloc.
    + split; reflexivity.
    + apply runs_ret. cbn [me_heap me_self fst snd]. set (h2 := h1 ++ _).
      assert (U2 : untouched h1 h2) by apply untouched_alloc.
      destruct (solution_mono h1 h2 a s U2 E2) as [M1 M2]. split; [|split; [apply shows_mono with h; [eapply untouched_trans; eauto|exact Sh]|reflexivity]].
      unfold owns. cbn [fst snd]. rewrite M2. split; [exact M1|]. split; [apply nth_new|].
      pose proof (untouched_length _ _ U). split.
      * constructor; [|exact E3]. intros F. destruct E2 as [t [E2a E2b]]. unfold solution_objects in F. rewrite E2a in F.
        destruct F as [F|F]; [apply nth_lt in E2a; lia|]. pose proof (flat_lt _ _ _ E2b _ F). lia.
      * intros b [<-|Hb]; [lia|auto].
Qed.

Lemma obj_value_at m x : shows m x -> sound x ->
  runs (m_obj_value ar) m (calculate_obj_value ar x) (fun m' v w => v = w /\ m' = m).
Proof.
  destruct m as [h me]. intros Sh Sd. pose proof Sh as [_ [_ [_ [_ [_ [_ [_ [S8 [_ [S10 _]]]]]]]]]]. cbn [me_heap me_self] in *.
  unfold m_obj_value, calculate_obj_value. eapply runs_read; [apply self_at|]. eapply runs_read; [apply load_objs_at, S10|]. rewrite S8.
  destruct (obj_value ar (in_cnum x) (dvals (in_objs x))) as [v|e].
  - exists (mkMem h me), v. split; [reflexivity|]. split; [apply untouched_refl|]. split; [apply same_refl|auto].
  - exists (mkMem h me). split; [reflexivity|]. split; [apply untouched_refl|]. split; [apply same_refl|]. exists x. auto.
Qed.

Lemma get_init_at n m x : (n <= length (me_heap m))%nat -> shows m x -> sound x ->
  runs (m_get_init_solution ar) m (get_init_solution ar x) (fun m' r v =>
    owns n (me_heap m') r (snd v) /\ shows m' (fst v) /\ sound (fst v) /\ in_pb (fst v) = in_pb x).
Proof.
  intros Ln Sh Sd. unfold m_get_init_solution, get_init_solution. eapply runs_bind; [apply solve_at; eassumption|].
  intros m1 _ x1 U S [Q1 [Q2 [Q3 Q4]]].
  pose proof (get_solution_at n m1 x1) as G. pose proof (untouched_length _ _ U). specialize (G ltac:(lia) Q1 Q2).
  destruct (get_solution ar x1) as [v|e]; cbn [bind].
  - destruct G as [m2 [r [G1 [G2 [G3 [G4 [G5 G6]]]]]]]. exists m2, r. auto 10.
  - exact G.
Qed.

Lemma compare_at m x new best : shows m x -> sound x ->
  runs (m_compare_node ar new best) m (compare_node ar x new best) (fun m' a b => a = b /\ m' = m).
Proof.
  destruct m as [h me]. intros Sh Sd. pose proof Sh as [S1 [S2 [S3 [S4 [S5 [S6 [S7 [S8 [S9 [S10 S11]]]]]]]]]]. cbn [me_heap me_self] in *.
  unfold m_compare_node, compare_node. eapply runs_read; [apply self_at|]. cbv zeta. rewrite S5. destruct (negb (pb_strip (in_pb x))); [apply runs_ret; auto|].
  rewrite S7. destruct (in_min x); [apply runs_ret; auto|]. destruct S9 as [ts [T1 T2]], S2 as [ti [I1 I2]].
  eapply runs_read; [apply load_table_at, T1|]. pose proof (table_get _ ts (in_sol x) strip_id T2) as G. unfold dget_r.
  destruct (dget ts strip_id) as [a|], (dget (in_sol x) strip_id) as [c|]; try contradiction; cbn [bind].
  - destruct G as [[tc [G1 G2]] _]. eapply runs_read; [reflexivity|]. eapply runs_read; [apply load_table_at, G1|].
    eapply runs_read; [apply load_struct_at, I1|]. apply runs_ret. unfold zlen. rewrite (table_length _ _ _ G2), (table_length _ _ _ I2). auto.
  - exists (mkMem h me). split; [reflexivity|]. split; [apply untouched_refl|]. split; [apply same_refl|]. exists x. auto.
Qed.

Lemma entries_at h me : forall t c, table (p_entry h) t c -> m_entries ar t (mkMem h me) = (mkMem h me, Ok c).
Proof.
  induction 1 as [|[k a] [k' e] t c [Ek Hp] T IH]; cbn [m_entries]; [reflexivity|]. cbn [fst snd] in *. subst k'.
  rewrite (sbind_ok _ _ _ _ _ (load_entry_at h me a e Hp)), (sbind_ok _ _ _ _ _ IH). reflexivity.
Qed.

Lemma extra_at m x : shows m x -> sound x ->
  runs (m_extra ar) m (extra_node_operations ar x) (fun m' _ x' => shows m' x' /\ sound x' /\ me_heap m' = me_heap m).
Proof.
  destruct m as [h me]. intros Sh Sd. pose proof Sh as [S1 [S2 [S3 [S4 [S5 [S6 [S7 [S8 [S9 [S10 S11]]]]]]]]]]. cbn [me_heap me_self] in *.
  unfold m_extra, extra_node_operations. eapply runs_read; [apply self_at|]. rewrite S5. destruct (pb_strip (in_pb x)) eqn:Ep; [|apply runs_ret; auto].
  pose proof S9 as S9'. destruct S9 as [ts [T1 T2]]. eapply runs_read; [apply load_table_at, T1|]. unfold new_height.
  eapply runs_bind with (Q := fun m' a b => a = b /\ m' = mkMem h me).
  - destruct T2 as [|[k a] [k' c] ts s Hk T2].
    + destruct S1 as [tc [C1 C2]]. eapply runs_read; [apply load_struct_at, C1|]. pose proof (table_get _ tc _ strip_id C2) as G. unfold dget_r.
      destruct (dget tc strip_id) as [b|], (dget (pb_containers (in_pb x)) strip_id) as [d|]; try contradiction; cbn [bind].
      * eapply runs_read; [reflexivity|]. eapply runs_read; [apply load_dims_at, G|]. apply runs_ret. auto.
      * exists (mkMem h me). split; [reflexivity|]. split; [apply untouched_refl|]. split; [apply same_refl|]. exists x. auto.
    + set (tt_ := (k, a) :: ts) in *. assert (T3 : table (is_csol h) tt_ ((k', c) :: s)) by (constructor; [exact Hk|exact T2]).
      pose proof (table_get _ tt_ _ strip_id T3) as G. unfold dget_r.
      destruct (dget tt_ strip_id) as [b|], (dget ((k', c) :: s) strip_id) as [d|]; try contradiction; cbn [bind].
      * destruct G as [[tc [G1 G2]] _]. eapply runs_read; [reflexivity|]. eapply runs_read; [apply load_table_at, G1|].
        eapply runs_read; [apply entries_at, G2|]. apply runs_ret. rewrite S7. auto.
      * exists (mkMem h me). split; [reflexivity|]. split; [apply untouched_refl|]. split; [apply same_refl|]. exists x. auto.
  - intros m' hh hh' _ _ [-> ->]. eexists (mkMem h _), tt. split; [reflexivity|]. split; [apply untouched_refl|]. split; [split; reflexivity|].
    split; [|split; [exact Sd|reflexivity]].
    unfold shows. cbn. clear Sh. repeat (split; [first [assumption|reflexivity]|]).
    split; [congruence|]. repeat (split; [first [assumption|reflexivity]|]). rewrite S11. reflexivity.
Qed.

(** ** The local search *)
Lemma swapped_at node l i j h me : nth_error h node = Some (OIds l) -> exists h' r,
  m_swapped ar node i j (mkMem h me) = (mkMem h' me, Ok r) /\ untouched h h' /\ nth_error h' r = Some (OIds (swap_at l i j)).
Proof.
  intros Hn. unfold m_swapped, swap_at. rewrite (sbind_ok _ _ _ _ _ (load_ids_at h me node l Hn)), (sbind_ok _ _ _ _ _ (alloc_at h me _)).
  set (h1 := h ++ [OIds l]). rewrite (sbind_ok _ _ _ _ _ (load_ids_at h1 me (length h) l (nth_new _ _))).
  assert (U : forall o, untouched h (list_set h1 (length h) o)).
  { intros o a x Ha. rewrite set_other; [apply nth_old, Ha|]. apply nth_lt in Ha. lia. }
  destruct (nth_error l i) as [a|]; [destruct (nth_error l j) as [b|]|].
  - rewrite (sbind_ok _ _ _ _ _ (store_at h1 me _ _)). set (h2 := list_set h1 _ _).
    assert (E2 : nth_error h2 (length h) = Some (OIds (list_set l i b))) by (unfold h2; eapply set_same; apply nth_new).
    rewrite (sbind_ok _ _ _ _ _ (load_ids_at h2 me _ _ E2)), (sbind_ok _ _ _ _ _ (store_at h2 me _ _)).
    eexists _, (length h). split; [reflexivity|]. split; [|eapply set_same; exact E2].
    intros c x Hc. rewrite set_other; [apply (U _ _ _ Hc)|]. apply nth_lt in Hc. lia.
  - exists h1, (length h). split; [reflexivity|]. split; [apply untouched_alloc|apply nth_new].
  - exists h1, (length h). split; [reflexivity|]. split; [apply untouched_alloc|apply nth_new].
Qed.

(** The variables of the two local searches. *)
Definition tracks (n : nat) m (s : mls ar) (l : ls) : Prop :=
  (n <= length (me_heap m))%nat /\ shows m (ls_st l) /\ sound (ls_st l) /\
  nth_error (me_heap m) (ml_node s) = Some (OIds (ls_node l)) /\ ml_best s = ls_best l /\
  owns n (me_heap m) (ml_ret s) (ls_ret l) /\ ml_clk s = ls_clk l.

Section Loop.
Context (oot : nat -> bool).
Notation fnode := (search_node (evaluate_node ar) (calculate_obj_value ar) (get_solution ar) (compare_node ar)
                     (extra_node_operations ar) (global_check ar) oot).
Notation floop := (search_loop (evaluate_node ar) (calculate_obj_value ar) (get_solution ar) (compare_node ar)
                     (extra_node_operations ar) (global_check ar) oot).

Lemma search_node_at n maxn : forall swaps processed m s l, tracks n m s l ->
  runs (m_search_node ar oot swaps maxn processed s) m (fnode swaps maxn processed l)
       (fun m' r r' => tracks n m' (fst r) (fst r') /\ snd r = snd r').
Proof.
  induction swaps as [|[i j] swaps IH]; intros processed m s l T; cbn [m_search_node search_node].
  - apply runs_ret. cbn [fst snd]. split; [exact T|]. destruct T as [_ [_ [_ [_ [Tb _]]]]]. rewrite Tb. reflexivity.
  - destruct T as [T0 [T1 [T2 [T3 [T4 [T5 T6]]]]]]. destruct m as [h me]. cbn [me_heap] in *.
    destruct (swapped_at (ml_node s) (ls_node l) i j h me T3) as [h1 [cur [W1 [W2 W3]]]].
    eapply runs_step; [exact W1|exact W2|split; reflexivity|].
    eapply runs_read; [apply load_ids_at, W3|]. pose proof (untouched_length _ _ W2) as L1.
    eapply runs_bind; [apply solve_at; [apply shows_mono with h; [exact W2|exact T1]|exact T2]|].
    intros m2 _ x2 U2 S2 [A1 [A2 _]]. cbn [me_heap] in U2.
    eapply runs_bind; [apply obj_value_at; [exact A1|exact A2]|]. intros m3 v v' _ _ [-> ->].
    rewrite T4. eapply runs_bind; [apply compare_at; [exact A1|exact A2]|]. intros m4 b b' _ _ [-> ->].
    pose proof (untouched_length _ _ U2) as L2.
    assert (U : untouched h (me_heap m2)) by (eapply untouched_trans; eauto).
    eapply runs_bind with (Q := fun m' s' l' => tracks n m' s' l').
    + destruct b'.
      * destruct m2 as [h2 me2]. cbn [me_heap] in *. eapply runs_read; [apply load_ids_at; apply U2, W3|].
        set (h3 := h2 ++ [OIds (swap_at (ls_node l) i j)]).
        eapply runs_step; [apply alloc_at|apply untouched_alloc|split; reflexivity|]. fold h3.
        assert (A1' : shows (mkMem h3 me2) x2) by (apply shows_mono with h2; [apply untouched_alloc|exact A1]).
        eapply runs_bind; [apply (get_solution_at n); [cbn [me_heap]; unfold h3; rewrite app_length; lia|exact A1'|exact A2]|].
        intros m5 ret v5 U5 S5 [B1 [B2 B3]].
        eapply runs_bind; [apply extra_at; [exact B2|exact A2]|]. intros m6 _ x6 U6 S6 [C1 [C2 C3]].
        apply runs_ret. cbn [me_heap] in *. pose proof (untouched_length _ _ U5) as L5.
        assert (L3 : (length h3 = S (length h2))%nat) by (unfold h3; rewrite app_length; cbn; lia).
        unfold tracks. cbn. rewrite C3. split; [lia|]. split; [exact C1|]. split; [exact C2|]. split; [apply U5; unfold h3; apply nth_new|].
        split; [reflexivity|]. split; [exact B1|exact T6].
      * apply runs_ret. unfold tracks. cbn. split; [lia|]. split; [exact A1|]. split; [exact A2|]. split; [apply U, T3|]. split; [exact T4|].
        split; [eapply owns_mono; [exact U|exact T5]|exact T6].
    + intros m5 s5 l5 U5 S5 T'. cbv zeta. pose proof T' as [Q0 [Q1 [Q2 [Q3 [Q4 [Q5 Q6]]]]]]. rewrite Q4, Q6.
      set (l6 := mkLs (ls_st l5) (ls_node l5) (ls_best l5) (ls_ret l5) (S (ls_clk l5))).
      set (s6 := mkMls (ml_node s5) (ls_best l5) (ml_ret s5) (S (ls_clk l5))).
      assert (T6' : tracks n m5 s6 l6) by (unfold tracks, s6, l6; cbn; auto 10).
      destruct (oot (ls_clk l5) || b' || b' && global_check ar (ls_best l5) || (processed + 1 >=? maxn)).
      * apply runs_ret. cbn [fst snd]. split; [exact T6'|reflexivity].
      * apply IH, T6'.
Qed.

Lemma search_loop_at n swaps maxn : forall fuel m s l, tracks n m s l ->
  runs (m_search_loop ar fuel oot swaps maxn s) m (floop fuel swaps maxn l)
       (fun m' r r' => tracks n m' (fst r) (fst r') /\ snd r = snd r').
Proof.
  induction fuel as [|k IH]; intros m s l T; cbn [m_search_loop search_loop].
  - exists m. split; [reflexivity|]. split; [apply untouched_refl|]. split; [apply same_refl|]. destruct T as [_ [T1 [T2 _]]]. exists (ls_st l). auto.
  - eapply runs_bind; [apply search_node_at, T|]. intros m1 [s1 n1] [l1 n1'] U S [T1 E]. cbn [fst snd] in *. subst n1'.
    destruct (nl_found n1 && negb (nl_oot n1) && negb (nl_global n1)).
    + eapply runs_bind; [apply IH, T1|]. intros m2 [s2 n2] [l2 n2'] U2 S2 [T2 E2]. cbn [fst snd] in *. subst n2'. apply runs_ret. auto.
    + apply runs_ret. auto.
Qed.
End Loop.

Lemma local_search_at n fuel ck limit throttle start clk m x : (n <= length (me_heap m))%nat -> shows m x -> sound x ->
  runs (m_local_search ar fuel ck limit throttle start clk) m (local_search_fuel ar (fun _ => fuel) ck limit throttle start x clk)
       (fun m' r r' => shows m' (fst (fst r')) /\ sound (fst (fst r')) /\ r = (snd (fst r'), snd r') /\
          owns n (me_heap m') (result_of m') (in_sol (fst (fst r')), in_objs (fst (fst r')))).
Proof.
  intros Ln Sh Sd. unfold m_local_search, local_search_fuel.
  destruct (match start with None => (ck clk, S clk) | Some t => (t, clk) end) as [st clk1].
  destruct m as [h me]. pose proof Sh as [S1 [S2 [S3 [S4 [S5 [S6 [S7 [S8 [S9 [S10 S11]]]]]]]]]]. cbn [me_heap me_self] in *.
  eapply runs_read; [apply self_at|].
  set (x1 := if pb_strip (in_pb x) then set_hist x [pb_height (in_pb x)] else x).
  set (me1 := if se_strip me then se_with_hist [se_height me] me else me).
  assert (Sh1 : shows (mkMem h me1) x1).
  { unfold me1, x1. rewrite S5. destruct (pb_strip (in_pb x)) eqn:Ep; [|exact Sh]. unfold shows. cbn. rewrite S6. rewrite S5, Ep. tauto. }
  assert (Sd1 : sound x1) by (unfold x1; destruct (pb_strip (in_pb x)); exact Sd).
  assert (Ei : se_items me1 = se_items me) by (unfold me1; destruct (se_strip me); reflexivity).
  eapply runs_step with (m1 := mkMem h me1) (a := tt).
  { unfold me1. destruct (se_strip me); reflexivity. }
  { apply untouched_refl. }
  { split; [exact Ei|]. unfold me1; destruct (se_strip me); reflexivity. }
  pose proof Sh1 as [_ [Hi _]]. cbn [me_heap me_self] in Hi. destruct Hi as [ti [I1 I2]]. rewrite Ei in I1.
  eapply runs_read; [apply load_struct_at, I1|].
  set (h1 := h ++ [OIds (dkeys ti)]).
  eapply runs_step; [apply alloc_at|apply untouched_alloc|split; reflexivity|]. fold h1.
  assert (Sh2 : shows (mkMem h1 me1) x1) by (apply shows_mono with h; [apply untouched_alloc|exact Sh1]).
  unfold abstract_local_search.
  match goal with |- runs _ _ (bind (bind ?a ?f) ?g) _ => apply runs_eq with (r := bind a (fun r => bind (f r) g)); [destruct a; reflexivity|] end.
  eapply runs_bind; [apply (get_init_at n); [cbn [me_heap]; unfold h1; rewrite app_length; lia|exact Sh2|exact Sd1]|].
  intros m2 ret [x2 ret'] U2 Sm2 [A1 [A2 [A3 A4]]]. cbn [fst snd me_heap] in *.
  match goal with |- runs _ _ (bind (bind ?a ?f) ?g) _ => apply runs_eq with (r := bind a (fun r => bind (f r) g)); [destruct a; reflexivity|] end.
  eapply runs_bind; [apply obj_value_at; [exact A2|exact A3]|]. intros m3 best best' _ _ [-> ->].
  destruct m2 as [h2 me2]. cbn [me_heap] in *.
  eapply runs_read; [apply load_ids_at, U2, nth_new|].
  assert (Ek : dkeys ti = dkeys (pb_items (in_pb x1))) by (eapply table_keys; exact I2). rewrite Ek.
  eapply runs_bind; [apply (search_loop_at _ n)|].
  - unfold tracks. cbn [me_heap ls_st ls_node ls_best ls_ret ls_clk ml_node ml_best ml_ret ml_clk].
    assert (L2 : (length h1 <= length h2)%nat) by (apply untouched_length, U2).
    assert (L1 : length h1 = S (length h)) by (unfold h1; rewrite app_length; cbn; lia).
    split; [lia|]. split; [exact A2|]. split; [exact A3|]. split; [apply U2; unfold h1; rewrite nth_new, Ek; reflexivity|].
    split; [reflexivity|]. split; [exact A1|reflexivity].
  - intros [h3 me3] [s log] [l log'] U3 Sm3 [T E]. cbn [fst snd] in *. subst log'.
    destruct T as [T0 [T1 [T2 [T3 [T4 [T5 T6]]]]]]. destruct (ls_ret l) as [sol objs] eqn:Er. cbn [me_heap] in *.
    eapply runs_step with (m1 := mkMem h3 (se_with_solution (fst (ml_ret s)) (snd (ml_ret s)) me3)); [reflexivity|apply untouched_refl|split; reflexivity|].
    apply runs_ret. cbn [fst snd]. split; [eapply shows_solution; [exact T1|exact T5]|]. split; [exact T2|]. split; [rewrite T6; reflexivity|].
    unfold result_of. cbn. destruct (ml_ret s). exact T5.
Qed.

(** ** The hypersearch *)
Definition follows (n : nat) m (s : mhs ar) (f : hs ar) : Prop :=
  (n <= length (me_heap m))%nat /\ shows m (hs_st f) /\ sound (hs_st f) /\ mh_best s = hs_best f /\
  owns n (me_heap m) (mh_ret s) (hs_ret f) /\ mh_strategy s = hs_strategy f /\ mh_clk s = hs_clk f.

Lemma hs_loop_at n ck limit throttle start : forall strategies m s f, follows n m s f ->
  runs (m_hs_loop ar m_ls_fuel ck limit throttle start strategies s) m (hs_loop ar ck limit throttle start strategies f)
       (fun m' r r' => follows n m' (fst r) (fst r') /\ snd r = snd r').
Proof.
  induction strategies as [|g rest IH]; intros m s f F; cbn [m_hs_loop hs_loop].
  - apply runs_ret. auto.
  - destruct F as [F0 [F1 [F2 [F3 [F4 [F5 F6]]]]]]. destruct m as [h me]. cbn [me_heap] in *.
    eapply runs_step with (m1 := mkMem h (se_with_strategy g me)); [reflexivity|apply untouched_refl|split; reflexivity|].
    assert (Sh : shows (mkMem h (se_with_strategy g me)) (set_strategy (hs_st f) g)).
    { clear - F1. destruct F1 as [S1 [S2 [S3 [S4 [S5 [S6 [S7 [S8 [S9 [S10 S11]]]]]]]]]]. unfold shows. cbn in *. tauto. }
    assert (Sd : sound (set_strategy (hs_st f) g)) by exact F2.
    eapply runs_read; [apply self_at|]. pose proof Sh as [_ [Hi [_ [_ [E5 [E6 _]]]]]]. cbn [me_heap me_self] in Hi, E5, E6. destruct Hi as [ti [I1 I2]].
    eapply runs_read; [apply load_struct_at, I1|].
    assert (Ef : m_ls_fuel (se_with_strategy g me) (length ti) = ls_fuel ar (set_strategy (hs_st f) g)).
    { unfold m_ls_fuel, ls_fuel. rewrite E5, E6, (table_length _ _ _ I2). reflexivity. }
    rewrite Ef. unfold local_search.
    assert (El : forall A (k : _ -> result A), bind (local_search_fuel ar (ls_fuel ar) ck limit throttle (Some start) (set_strategy (hs_st f) g) (hs_clk f)) k =
       bind (local_search_fuel ar (fun _ => ls_fuel ar (set_strategy (hs_st f) g)) ck limit throttle (Some start) (set_strategy (hs_st f) g) (hs_clk f)) k).
    { intros A k. f_equal. unfold local_search_fuel. f_equal.
      assert (Eq : ls_fuel ar (if pb_strip (in_pb (set_strategy (hs_st f) g)) then set_hist (set_strategy (hs_st f) g) [pb_height (in_pb (set_strategy (hs_st f) g))] else set_strategy (hs_st f) g)
                = ls_fuel ar (set_strategy (hs_st f) g)) by (destruct (pb_strip (in_pb (set_strategy (hs_st f) g))); reflexivity).
      rewrite Eq. reflexivity. }
    rewrite El, F6.
    eapply runs_bind; [apply (local_search_at n); [exact F0|exact Sh|exact Sd]|].
    intros m1 [clk1 log1] [[x1 clk1'] log1'] U1 Sm1 [A1 [A2 [A3 A4]]]. cbn [fst snd] in *. injection A3 as -> ->.
    eapply runs_bind; [apply obj_value_at; [exact A1|exact A2]|]. intros m2 v v' _ _ [-> ->]. cbv zeta. rewrite F3.
    cbn [me_heap] in U1. pose proof (untouched_length _ _ U1) as L1.
    eapply runs_bind with (Q := fun m' s' f' => follows n m' s' f' /\ mh_clk s' = clk1').
    + destruct (check_solution ar v' (hs_best f)).
      * eapply runs_bind; [apply (get_solution_at n); [lia|exact A1|exact A2]|]. intros m3 ret v3 U3 Sm3 [B1 [B2 B3]].
        apply runs_ret. pose proof (untouched_length _ _ U3). unfold follows. cbn. split; [|reflexivity].
        split; [lia|]. auto 10.
      * apply runs_ret. unfold follows. cbn. split; [|reflexivity]. split; [lia|]. split; [exact A1|]. split; [exact A2|]. split; [reflexivity|].
        split; [eapply owns_mono; [exact U1|exact F4]|auto].
    + intros m3 s3 f3 U3 Sm3 [F' Ec]. destruct F' as [G0 [G1 [G2 [G3 [G4 [G5 G6]]]]]].
      destruct (check_solution ar v' (hs_best f) && global_check ar v').
      { apply runs_ret. cbn [fst snd]. split; [|reflexivity]. unfold follows. auto 10. }
      assert (F'' : follows n m3 (mkMhs (mh_best s3) (mh_ret s3) (mh_strategy s3) (S clk1')) (mkHs (hs_st f3) (hs_best f3) (hs_ret f3) (hs_strategy f3) (S clk1')))
        by (unfold follows; cbn; auto 10).
      destruct (over_time ck start limit clk1').
      { apply runs_ret. cbn [fst snd]. split; [exact F''|reflexivity]. }
      eapply runs_bind; [apply IH, F''|]. intros m4 [s4 lg] [f4 lg'] U4 Sm4 [H1 H2]. cbn [fst snd] in *. subst lg'. apply runs_ret. auto.
Qed.

Lemma single_process_at n ck limit throttle start strategies clk m x : (n <= length (me_heap m))%nat -> shows m x -> sound x ->
  runs (m_single_process ar m_ls_fuel ck limit throttle start strategies clk) m (single_process ar ck limit throttle start strategies x clk)
       (fun m' r r' => let f := fst r' in
          shows m' (set_solution (hs_st f) (fst (hs_ret f)) (snd (hs_ret f))) /\ sound (hs_st f) /\
          owns n (me_heap m') (result_of m') (hs_ret f) /\
          mh_strategy (fst r) = hs_strategy f /\ mh_clk (fst r) = hs_clk f /\ mh_best (fst r) = hs_best f /\ snd r = snd r').
Proof.
  intros Ln Sh Sd. unfold m_single_process, single_process.
  eapply runs_bind; [apply (get_init_at n); [exact Ln|exact Sh|exact Sd]|].
  intros m1 ret [x1 ret'] U1 S1 [A1 [A2 [A3 A4]]]. cbn [fst snd] in *.
  eapply runs_bind; [apply obj_value_at; [exact A2|exact A3]|]. intros m2 best best' _ _ [-> ->].
  pose proof (untouched_length _ _ U1) as L1.
  match goal with |- runs _ _ ?q _ => apply runs_eq with (r := bind q (fun v => Ok v)); [destruct q; reflexivity|] end.
  eapply runs_bind; [apply (hs_loop_at n)|].
  - unfold follows. cbn. split; [lia|]. auto 10.
  - intros [h3 me3] [s lg] [f lg'] U3 S3 [F E]. cbn [fst snd] in *. subst lg'. destruct F as [F0 [F1 [F2 [F3 [F4 [F5 F6]]]]]]. cbn [me_heap] in *.
    eapply runs_step with (m1 := mkMem h3 (se_with_solution (fst (mh_ret s)) (snd (mh_ret s)) me3)); [reflexivity|apply untouched_refl|split; reflexivity|].
    apply runs_ret. cbn [fst snd]. split; [|split; [exact F2|]].
    + eapply shows_solution; [exact F1|]. destruct (hs_ret f). exact F4.
    + split; [unfold result_of; cbn; destruct (mh_ret s); exact F4|]. auto.
Qed.
End Search.
