(** * Items and containers as dictionaries: proofs. *)
From Coq Require Import ZArith String List Bool Lia Permutation.
From Verif Require Import Py ProofsPy Arith Construct Spec LocalSearch SpecSearch Values ProofsVal
  Settings Instance SpecInstance ProofsMachine ProofsOps ProofsRun ProofsSolver ProofsAccept ProofsHistory
  PropertiesStructures SpecMapping.
Import ListNotations.
Open Scope string_scope.
Open Scope list_scope.
Open Scope Z_scope.
Open Scope sm_scope.

(** ** The specification is deterministic *)
Lemma dims_value_fun k v d d' : dims_value k v d -> dims_value k v d' -> d = d'.
Proof.
  assert (P : forall a z z', positive_int a z -> positive_int a z' -> z = z').
  { intros a z z' [H1 _] [H2 _]. destruct H1 as [-> |[-> ->]], H2 as [H2|[H2 H3]]; congruence. }
  intros [a [b [Ha [Hb H]]]] [a' [b' [Ha' [Hb' H']]]]. destruct d as [w l], d' as [w' l']. cbn [dw dl] in *.
  pose proof (wkey_lkey k) as N.
  destruct H as [-> | ->], H' as [H'|H']; injection H'; intros; subst; try congruence;
    rewrite (P _ _ _ Ha Ha'), (P _ _ _ Hb Hb'); reflexivity.
Qed.

Lemma value_no_error k i v d e : dims_value k v d -> ~ entry_error k (VStr i) v e.
Proof.
  intros [a [b [Ha [Hb H]]]] E.
  assert (X : exists u w, v = VDict [u; w] /\ exactly_proper_keys k [u; w] /\
     forall key x, In (key, x) [u; w] -> exists z, positive_int x z).
  { destruct H as [-> | ->]; eexists; eexists; (split; [reflexivity|]); (split; [intros key; cbn; intuition congruence|]);
      intros key x [[= <- <-]|[[= <- <-]|[]]]; eauto. }
  destruct X as [u [w [-> [X1 X2]]]]. remember (VStr i) as id. remember (VDict [u; w]) as v.
  destruct E as [id v N|j v N|j|j d' N1 N2|j d' key x N1 N2 N3].
  - eapply N; exact Heqid.
  - eapply N; exact Heqv.
  - discriminate.
  - injection Heqv as ->. contradiction.
  - injection Heqv as ->. destruct (X2 _ _ N2) as [z Hz]. eapply N3; exact Hz.
Qed.

Lemma entry_error_fun k id v e e' : entry_error k id v e -> entry_error k id v e' -> e = e'.
Proof.
  intros H H'. destruct H; inversion H'; subst; try reflexivity; try congruence; try contradiction;
    try (match goal with N : forall i, _ <> _ |- _ => exfalso; eapply N; reflexivity end).
  all: match goal with P : exactly_proper_keys ?k [] |- _ =>
    assert (X : In (VStr (wkey k)) (vkeys [])) by (apply P; left; reflexivity); destruct X end.
Qed.

Lemma not_absent l i : In i (dkeys l) -> ~ absent l (VStr i).
Proof. intros H [_ A]. eapply A; [reflexivity|exact H]. Qed.

Lemma becomes_fun k locked l c l1 r1 : becomes k locked l c l1 r1 ->
  forall l2 r2, becomes k locked l c l2 r2 -> l1 = l2 /\ r1 = r2.
Proof.
  induction 1; intros l2 r2 B; inversion B; subst; try (split; reflexivity); try congruence;
    try contradiction; try (split; congruence);
    try match goal with H : absent _ _ |- _ => try (destruct H; cbn [hashable] in *; congruence) end;
    try (match goal with A : In _ (dkeys _), H : absent _ (VStr _) |- _ => destruct (not_absent _ _ A H) end).
  all: try (match goal with D : dims_value _ _ ?d, D' : dims_value _ _ ?d' |- _ =>
       rewrite (dims_value_fun _ _ _ _ D D'); split; reflexivity end).
  all: try (match goal with D : dims_value _ _ ?d, E : entry_error _ _ _ _ |- _ => destruct (value_no_error _ _ _ _ _ D E) end).
  all: try (match goal with D : entry_error _ _ _ ?d, E : entry_error _ _ _ _ |- _ =>
      rewrite (entry_error_fun _ _ _ _ _ D E); split; reflexivity end).
  all: try (cbn [hashable] in *; congruence).
  all: try (apply IHbecomes; assumption).
  all: try (match goal with H : ?l ++ [_] = ?l' ++ [_] |- _ => apply app_inj_tail in H; destruct H as [-> ->]; split; reflexivity end).
  all: try (match goal with H : _ ++ [_] = [] |- _ => destruct (app_cons_not_nil _ _ _ (eq_sym H)) end).
  all: try (match goal with H : [] = _ ++ [_] |- _ => destruct (app_cons_not_nil _ _ _ H) end).
  all: match goal with
  | H1 : becomes _ _ ?l (CSet ?id ?v) ?a (Ok tt), I : forall l2 r2, becomes _ _ ?l (CSet ?id ?v) l2 r2 -> _,
    B' : becomes _ _ ?l (CSet ?id ?v) ?b (Ok tt) |- _ => destruct (I _ _ B') as [X1 X2]; subst; try discriminate; apply IHbecomes2; assumption
  | I : forall l2 r2, becomes _ _ ?l (CSet ?id ?v) l2 r2 -> _ = _ /\ Ok tt = r2,
    B' : becomes _ _ ?l (CSet ?id ?v) _ (Err _) |- _ => destruct (I _ _ B') as [X1 X2]; discriminate
  | I : forall l2 r2, becomes _ _ ?l (CSet ?id ?v) l2 r2 -> _ = _ /\ Err _ = r2,
    B' : becomes _ _ ?l (CSet ?id ?v) _ (Ok tt) |- _ => destruct (I _ _ B') as [X1 X2]; discriminate
  | I : forall l2 r2, becomes _ _ ?l (CSet ?id ?v) l2 r2 -> _ = _ /\ Err _ = r2,
    B' : becomes _ _ ?l (CSet ?id ?v) _ (Err _) |- _ => destruct (I _ _ B') as [X1 X2]; split; congruence
  end.
Qed.

(** ** The operations *)
Section Mapping.
Context {ar : arith}.
Notation machine := (machine ar).

Lemma shown (s : machine) h o : inv s -> nth_error (m_structs s) h = Some o ->
  exists l, view_struct s h = Some l /\ length l = length (so_data o) /\ vkeys (so_data o) = map VStr (dkeys l) /\
    NoDup (dkeys l).
Proof.
  intros I Ho. destruct (view_entries_ok (m_dims s) (so_kind o) (so_data o) (iv_dims s I) (iv_structs s I _ _ Ho))
    as [l [E [[V _] [L K]]]]. exists l. unfold view_struct. rewrite Ho. auto.
Qed.

Lemma view_struct_eq (s s' : machine) h : m_structs s' = m_structs s -> m_dims s' = m_dims s ->
  view_struct s' h = view_struct s h.
Proof. intros E1 E2. unfold view_struct. rewrite E1, E2. reflexivity. Qed.

Lemma recount_structs k n (s : machine) : m_structs (recount k n s) = m_structs s.
Proof. destruct k; reflexivity. Qed.
Lemma recount_dims k n (s : machine) : m_dims (recount k n s) = m_dims s.
Proof. destruct k; reflexivity. Qed.
Lemma recount_strip k n (s : machine) : m_strip (recount k n s) = m_strip s.
Proof. destruct k; reflexivity. Qed.

(** What one call leaves: [c] is what it should do. *)
Definition does (s : machine) (h : nat) (k : kind) (c : mapping_call) (s' : machine) (r : result unit) : Prop :=
  inv s' /\ m_strip s' = m_strip s /\
  (exists o', nth_error (m_structs s') h = Some o' /\ so_kind o' = k) /\
  (forall h' l2, h' <> h -> view_struct s h' = Some l2 -> view_struct s' h' = Some l2) /\
  forall l, view_struct s h = Some l ->
  exists l', view_struct s' h = Some l' /\ becomes k (locked s k) l c l' r.

Lemma does_nothing (s : machine) h o c r : inv s -> nth_error (m_structs s) h = Some o ->
  (forall l, view_struct s h = Some l -> becomes (so_kind o) (locked s (so_kind o)) l c l r) ->
  does s h (so_kind o) c s r.
Proof.
  intros I Ho H. split; [exact I|]. split; [reflexivity|]. split; [eauto|]. split; [auto|].
  intros l Hl. exists l. auto.
Qed.

Lemma any_star (s s' : machine) (P : option nat -> Prop) Q : inv s -> star P Q s s' -> inv s' /\ m_strip s' = m_strip s.
Proof. intros I S. split; [eapply star_inv; eassumption|eapply star_strip; eassumption]. Qed.

Lemma set_does (s s' : machine) h o id v r : inv s -> nth_error (m_structs s) h = Some o -> genuine_dims v ->
  struct_set ar h id v s = (s', r) -> does s h (so_kind o) (CSet id v) s' r.
Proof.
  intros I Ho Hg H. destruct (C31_assign_key ar s h o id v Ho Hg) as [L U].
  destruct (locked s (so_kind o)) eqn:Hl.
  - assert (E : so_kind o = KContainers /\ m_strip s = true) by (unfold locked in Hl; destruct (so_kind o); [auto|discriminate]).
    destruct E as [E1 E2]. cbn [run] in L. rewrite (L E2 E1) in H. injection H as <- <-.
    apply does_nothing; [exact I|exact Ho|]. intros l _. rewrite Hl. apply b_set_locked. reflexivity.
  - assert (E : m_strip s = false \/ so_kind o = KItems) by (unfold locked in Hl; destruct (so_kind o); auto).
    destruct (U E) as [[D1 D2] D3]. cbn [run] in D1, D2, D3. destruct r as [[]|e].
    2: { pose proof (proj1 (D2 e) (ex_intro _ s' H)) as X.
         destruct (struct_set_cases _ _ _ _ _ _ H) as [[e' [_ ->]]|[Y _]]; [|discriminate].
         apply does_nothing; [exact I|exact Ho|]. intros l _. rewrite Hl. apply b_set_invalid; [reflexivity|exact X]. }
    destruct (proj1 D1 (ex_intro _ s' H)) as [i [d [Ei Hd]]].
    assert (S : inv s' /\ m_strip s' = m_strip s).
    { eapply (any_star s s' (fun _ => True) False I). eapply (safe_struct_set (fun _ => True)); [exact Logic.I|exact I|exact H]. }
    destruct S as [I' S]. split; [exact I'|]. split; [exact S|].
    destruct (struct_set_cases _ _ _ _ _ _ H) as [[e' [Y _]]|[_ [o' [j [data [Ho' [Ej [_ [_ [_ [_ Es]]]]]]]]]]]; [discriminate|].
    rewrite Ho in Ho'. injection Ho' as <-. cbv zeta in Es.
    assert (Hh : (h < length (m_structs s))%nat) by (apply nth_error_Some; congruence).
    split; [|split].
    + eexists. split; [subst s'; rewrite recount_structs; cbn [m_structs set_sol set_structs set_dims]; apply list_set_same; exact Hh|reflexivity].
    + intros h' l2 Hne Hv. subst s'. unfold view_struct in *. rewrite recount_structs, recount_dims.
      cbn [m_structs m_dims set_sol set_structs set_dims]. rewrite list_set_other by congruence.
      destruct (nth_error (m_structs s) h') as [o2|]; [|discriminate].
      eapply view_entries_more; [|exact Hv]. intros. apply nth_error_keep. assumption.
    + intros l Hv. destruct (D3 i d s' l Ei Hd H Hv) as [D4 _]. exists (dset l i d). split; [exact D4|].
      subst id. apply b_set; [rewrite Hl; reflexivity|exact Hd].
Qed.

Lemma without_none i l : ~ In i (dkeys l) -> without i l = l.
Proof.
  induction l as [|[j d] l IH]; intros H; [reflexivity|]. unfold without in *. cbn in *.
  destruct (String.eqb_spec j i) as [->|]; [tauto|]. cbn [negb]. rewrite IH by tauto. reflexivity.
Qed.

Lemma view_entries_del ds k i data : forall l, view_entries ds k data = Some l -> NoDup (dkeys l) ->
  view_entries ds k (vdel data (VStr i)) = Some (without i l).
Proof.
  induction data as [|[key v] data IH]; intros l H Hn.
  - injection H as <-. reflexivity.
  - cbn [view_entries] in H. destruct key; try discriminate. destruct v; try discriminate.
    destruct (nth_error ds h) as [o'|] eqn:Eo; [|discriminate].
    destruct (view_entries ds k data) as [rest|] eqn:Er.
    2: { destruct (do_kind o'), k, (view_dobj o'); discriminate. }
    assert (Hes : exists x, view_dobj o' = Some x /\ do_kind o' = k /\ l = (s, x) :: rest).
    { destruct (do_kind o') eqn:Ek, k; try discriminate; destruct (view_dobj o') as [x|]; try discriminate;
        injection H as <-; eauto. }
    destruct Hes as [x [Ex [Ek ->]]]. cbn [dkeys map fst] in Hn. inversion Hn as [|? ? N1 N2]; subst.
    cbn [vdel]. rewrite key_eqb_strs. unfold without. cbn [filter fst]. rewrite String.eqb_sym.
    destruct (String.eqb_spec s i) as [->|Hne]; cbn [negb].
    + fold (without i rest). rewrite Er. f_equal. symmetry. apply without_none. exact N1.
    + fold (without i rest). cbn [view_entries]. rewrite Eo, Ex, (IH _ eq_refl N2).
      destruct (do_kind o'); reflexivity.
Qed.

Lemma found_key (s : machine) h o l id : inv s -> nth_error (m_structs s) h = Some o -> view_struct s h = Some l ->
  match data_get (so_data o) id with
  | Ok _ => exists i, id = VStr i /\ In i (dkeys l)
  | Err e => (hashable id = false /\ e = TypeError) \/ (absent l id /\ e = KeyError)
  end.
Proof.
  intros I Ho Hv. unfold data_get. destruct (hashable id) eqn:Hh; cbn [negb]; [|left; auto].
  destruct (shown s h o I Ho) as [l0 [E [_ [K _]]]]. rewrite Hv in E. injection E as <-.
  destruct (vget (so_data o) id) as [x|] eqn:G.
  - assert (Hm : vmem (so_data o) id = true) by (unfold vmem; rewrite G; reflexivity).
    destruct (mem_is_str s h o id I Ho Hm) as [i [-> Hin]]. exists i. split; [reflexivity|].
    rewrite K in Hin. apply in_map_iff in Hin. destruct Hin as [j [[= ->] Hj]]. exact Hj.
  - right. split; [|reflexivity]. split; [exact Hh|]. intros i -> Hin.
    destruct (iv_structs s I _ _ Ho) as [refs [Er _]]. rewrite Er in G, K. rewrite vget_sdict in G. rewrite vkeys_sdict in K.
    assert (Hin' : In i (dkeys refs)).
    { assert (X : In (VStr i) (map VStr (dkeys refs))) by (rewrite K; apply in_map; exact Hin).
      apply in_map_iff in X. destruct X as [j [[= ->] Hj]]. exact Hj. }
    apply dget_Some_In in Hin'. destruct Hin' as [x Hx]. rewrite Hx in G. discriminate.
Qed.

Lemma del_does (s s' : machine) h o id r : inv s -> nth_error (m_structs s) h = Some o ->
  struct_del ar h id s = (s', r) -> does s h (so_kind o) (CDel id) s' r.
Proof.
  intros I Ho H. pose proof H as H0. destruct (shown s h o I Ho) as [l [Hv [Hlen [_ Hnd]]]].
  assert (Hz : zlen (so_data o) = Z.of_nat (length l)) by (unfold zlen; rewrite Hlen; reflexivity).
  unfold struct_del in H. rewrite (sbind_ok _ _ _ s o) in H by (unfold get_sobj; rewrite Ho; reflexivity).
  rewrite swhen_cases in H. destruct (Z.eqb_spec (zlen (so_data o)) 1) as [El|El].
  { injection H as <- <-. apply does_nothing; [exact I|exact Ho|]. intros l2 Hl2. rewrite Hv in Hl2. injection Hl2 as <-.
    apply b_del_last. lia. }
  pose proof (found_key s h o l id I Ho Hv) as F. unfold sbind at 1, slift at 1 in H.
  destruct (data_get (so_data o) id) as [x|e] eqn:G.
  2: { injection H as <- <-. apply does_nothing; [exact I|exact Ho|]. intros l2 Hl2. rewrite Hv in Hl2. injection Hl2 as <-.
       destruct F as [[F1 ->]|[F1 ->]]; [apply b_del_unhashable|apply b_del_absent]; try assumption; lia. }
  destruct F as [i [-> Hin]].
  destruct (struct_del_cases _ _ _ _ _ H0) as [[e [-> ->]]|[-> [o' [Ho' [_ [_ Es]]]]]].
  { exfalso. unfold sbind, put_sobj, smodify in H.
    rewrite (struct_reset_eq h _ (mkSobj (so_kind o) (vdel (so_data o) (VStr i)))) in H; [discriminate|].
    cbn [m_structs set_structs]. apply list_set_same. apply nth_error_Some. congruence. }
  rewrite Ho in Ho'. injection Ho' as <-.
  assert (S : inv s' /\ m_strip s' = m_strip s).
  { eapply (any_star s s' (fun _ => True) False I). eapply (safe_struct_del (fun _ => True)); [exact Logic.I|exact I|exact H0]. }
  destruct S as [I' S]. split; [exact I'|]. split; [exact S|].
  assert (Hh : (h < length (m_structs s))%nat) by (apply nth_error_Some; congruence).
  split; [|split].
  - eexists. split; [subst s'; rewrite recount_structs; cbn [m_structs set_sol set_structs set_dims]; apply list_set_same; exact Hh|reflexivity].
  - intros h' l2 Hne Hv2. subst s'. unfold view_struct in *. rewrite recount_structs, recount_dims.
    cbn [m_structs m_dims set_sol set_structs set_dims]. rewrite list_set_other by congruence. exact Hv2.
  - intros l2 Hl2. rewrite Hv in Hl2. injection Hl2 as <-. exists (without i l). split.
    + subst s'. unfold view_struct in *. rewrite recount_structs, recount_dims.
      cbn [m_structs m_dims set_sol set_structs set_dims]. rewrite list_set_same by exact Hh. cbn [so_kind so_data].
      rewrite Ho in Hv. apply view_entries_del; assumption.
    + apply b_del; [lia|exact Hin].
Qed.

Lemma does_as (s s' : machine) h k c c' r : does s h k c s' r ->
  (forall l l', view_struct s h = Some l -> becomes k (locked s k) l c l' r -> becomes k (locked s k) l c' l' r) ->
  does s h k c' s' r.
Proof.
  intros [D1 [D2 [D3 [D4 D5]]]] H. split; [exact D1|]. split; [exact D2|]. split; [exact D3|]. split; [exact D4|].
  intros l Hl. destruct (D5 l Hl) as [l' [E B]]. exists l'. split; [exact E|]. apply H; assumption.
Qed.

Lemma pop_does (s s' : machine) h o id default r : inv s -> nth_error (m_structs s) h = Some o ->
  struct_pop ar h id default s = (s', r) -> does s h (so_kind o) (CPop id default) s' r.
Proof.
  intros I Ho H. destruct (shown s h o I Ho) as [l [Hv _]].
  unfold struct_pop in H. rewrite (sbind_ok _ _ _ s o) in H by (unfold get_sobj; rewrite Ho; reflexivity).
  pose proof (found_key s h o l id I Ho Hv) as F. destruct (data_get (so_data o) id) as [x|e].
  - destruct F as [i [-> Hin]]. eapply does_as; [eapply del_does; eassumption|].
    intros l2 l' Hl2 B. rewrite Hv in Hl2. injection Hl2 as <-. apply b_pop; assumption.
  - destruct F as [[F1 ->]|[F1 ->]].
    + injection H as <- <-. apply does_nothing; [exact I|exact Ho|]. intros. apply b_pop_unhashable. exact F1.
    + assert (X : s' = s /\ r = if default then Ok tt else Err KeyError) by (destruct default; injection H as <- <-; auto).
      destruct X as [-> ->]. apply does_nothing; [exact I|exact Ho|]. intros l2 Hl2. rewrite Hv in Hl2. injection Hl2 as <-.
      apply b_pop_absent. exact F1.
Qed.

Lemma popitem_does (s s' : machine) h o r : inv s -> nth_error (m_structs s) h = Some o ->
  struct_popitem ar h s = (s', r) -> does s h (so_kind o) CPopitem s' r.
Proof.
  intros I Ho H. destruct (shown s h o I Ho) as [l [Hv [Hlen [K Hnd]]]].
  unfold struct_popitem in H. rewrite (sbind_ok _ _ _ s o) in H by (unfold get_sobj; rewrite Ho; reflexivity).
  destruct (so_data o) as [|[id x] data] eqn:Ed.
  - injection H as <- <-. apply does_nothing; [exact I|exact Ho|]. intros l2 Hl2. rewrite Hv in Hl2. injection Hl2 as <-.
    destruct l; [constructor|discriminate].
  - destruct l as [|[i d] l]; [discriminate|]. cbn in K. injection K as -> _.
    eapply does_as; [eapply del_does; eassumption|]. intros l2 l' Hl2 B. rewrite Hv in Hl2. injection Hl2 as <-.
    cbn in Hnd. inversion Hnd as [|? ? N1 N2]; subst. inversion B; subst.
    + unfold without. cbn [filter fst]. rewrite String.eqb_refl. cbn [negb]. fold (without i l). rewrite without_none by exact N1.
      constructor. intros ->. match goal with L : length _ <> _ |- _ => apply L; reflexivity end.
    + exfalso. match goal with A : absent _ _ |- _ => destruct A as [_ A]; eapply A; [reflexivity|left; reflexivity] end.
    + discriminate.
    + destruct l; [constructor|discriminate].
Qed.

Lemma err_last_not_key k : err_last k <> KeyError.
Proof. destruct k; discriminate. Qed.

Lemma clear_does n : forall (s s' : machine) h o r, inv s -> nth_error (m_structs s) h = Some o ->
  (length (so_data o) < n)%nat -> clear_loop ar (struct_popitem ar h) n s = (s', r) ->
  does s h (so_kind o) CClear s' r.
Proof.
  induction n as [|n IH]; intros s s' h o r I Ho Hn H; [lia|]. cbn [clear_loop] in H.
  destruct (shown s h o I Ho) as [l [Hv [Hlen _]]].
  destruct (struct_popitem ar h s) as [s1 r1] eqn:E.
  destruct (popitem_does s s1 h o r1 I Ho E) as [D1 [D2 [[o1 [D3 D3']] [D4 D5]]]].
  destruct (D5 l Hv) as [l1 [V1 B1]]. inversion B1; subst.
  - destruct (shown s1 h o1 D1 D3) as [l2 [V2 [L2 _]]]. rewrite V1 in V2. injection V2 as <-.
    destruct (IH s1 s' h o1 r D1 D3) as [G1 [G2 [G3 [G4 G5]]]]; [cbn in Hlen; lia|exact H|].
    rewrite D3' in G3, G5. split; [exact G1|]. split; [congruence|]. split; [exact G3|]. split; [intros h' l2 Hne Hw; apply G4; [exact Hne|apply D4; assumption]|].
    intros l2 Hl2. rewrite Hv in Hl2. injection Hl2 as <-. destruct (G5 l1 V1) as [l' [V' B']]. exists l'. split; [exact V'|].
    inversion B'; subst; [|congruence]. rewrite app_comm_cons. apply b_clear.
  - assert (X : s' = s1 /\ r = Err (err_last (so_kind o))) by (destruct (so_kind o); injection H as <- <-; auto).
    destruct X as [-> ->]. split; [exact D1|]. split; [exact D2|]. split; [eauto|]. split; [exact D4|].
    intros l2 Hl2. rewrite Hv in Hl2. injection Hl2 as <-. exists [p]. split; [exact V1|]. apply (b_clear _ _ [] p).
  - injection H as <- <-. split; [exact D1|]. split; [exact D2|]. split; [eauto|]. split; [exact D4|].
    intros l2 Hl2. rewrite Hv in Hl2. injection Hl2 as <-. exists []. split; [exact V1|]. constructor.
Qed.

Lemma setdefault_does (s s' : machine) h o id v r : inv s -> nth_error (m_structs s) h = Some o -> genuine_dims v ->
  struct_setdefault ar h id v s = (s', r) -> does s h (so_kind o) (CSetdefault id v) s' r.
Proof.
  intros I Ho Hg H. destruct (shown s h o I Ho) as [l [Hv _]].
  unfold struct_setdefault in H. rewrite (sbind_ok _ _ _ s o) in H by (unfold get_sobj; rewrite Ho; reflexivity).
  pose proof (found_key s h o l id I Ho Hv) as F. destruct (data_get (so_data o) id) as [x|e].
  - destruct F as [i [-> Hin]]. injection H as <- <-. apply does_nothing; [exact I|exact Ho|].
    intros l2 Hl2. rewrite Hv in Hl2. injection Hl2 as <-. apply b_setdefault_there. exact Hin.
  - destruct F as [[F1 ->]|[F1 ->]].
    + injection H as <- <-. apply does_nothing; [exact I|exact Ho|]. intros. apply b_setdefault_unhashable. exact F1.
    + eapply does_as; [eapply set_does; eassumption|]. intros l2 l' Hl2 B. rewrite Hv in Hl2. injection Hl2 as <-.
      apply b_setdefault; assumption.
Qed.

Lemma update_does pairs last : forall (s s' : machine) h o r, inv s -> nth_error (m_structs s) h = Some o ->
  (forall id w, In (id, w) pairs -> genuine_dims w) ->
  (set_all ar (struct_set ar h) pairs ;;; slift last) s = (s', r) -> does s h (so_kind o) (CUpdate pairs last) s' r.
Proof.
  induction pairs as [|[id v] pairs IH]; intros s s' h o r I Ho Hg H.
  - cbn [set_all] in H. unfold sbind, sret, slift in H. injection H as <- <-.
    apply does_nothing; [exact I|exact Ho|]. intros. constructor.
  - cbn [set_all] in H. unfold sbind at 1 2 in H. destruct (struct_set ar h id v s) as [s1 r1] eqn:E.
    assert (Hgv : genuine_dims v) by (eapply Hg; left; reflexivity).
    destruct (set_does s s1 h o id v r1 I Ho Hgv E) as [D1 [D2 [[o1 [D3 D3']] [D4 D5]]]].
    destruct r1 as [[]|e].
    + destruct (IH s1 s' h o1 r D1 D3) as [G1 [G2 [G3 [G4 G5]]]]; [intros; eapply Hg; right; eassumption|exact H|].
      rewrite D3' in G3, G5. split; [exact G1|]. split; [congruence|]. split; [exact G3|].
      split; [intros h' l2 Hne Hw; apply G4; [exact Hne|apply D4; assumption]|].
      intros l Hl. destruct (D5 l Hl) as [l1 [V1 B1]]. destruct (G5 l1 V1) as [l' [V' B']]. exists l'. split; [exact V'|].
      eapply b_update; [exact B1|]. unfold locked in *. rewrite D2 in B'. exact B'.
    + injection H as <- <-. split; [exact D1|]. split; [exact D2|]. split; [eauto|]. split; [exact D4|].
      intros l Hl. destruct (D5 l Hl) as [l1 [V1 B1]].
      assert (l1 = l) by (inversion B1; reflexivity). subst l1. exists l. split; [exact V1|]. apply b_update_stop. exact B1.
Qed.

Lemma chars_spec t : chars t = map (fun c => VStr (String c "")) (list_ascii_of_string t).
Proof. induction t; cbn; [reflexivity|]. rewrite IHt. reflexivity. Qed.

Lemma lists_iterated (s : machine) v l : lists s v l -> iterated ar s v = Some l.
Proof.
  destruct 1; cbn [iterated]; try reflexivity; try (rewrite H; reflexivity). rewrite chars_spec. reflexivity.
Qed.

Lemma pairs_of_all (s : machine) l pairs : Forall2 (pair_in s) l pairs -> forall rest,
  pairs_of ar s (l ++ rest) = (pairs ++ fst (pairs_of ar s rest), snd (pairs_of ar s rest)).
Proof.
  induction 1 as [|v [a b] l pairs P _ IH]; intros rest; cbn [app]; [apply surjective_pairing|].
  cbn [pairs_of]. unfold as_pair. rewrite (lists_iterated _ _ _ P). cbn [fst snd]. rewrite IH. reflexivity.
Qed.

Lemma hands_over_entries (s : machine) v pairs last : hands_over s v pairs last ->
  entries_of ar v s = (s, Ok (pairs, last)) \/
  (pairs = [] /\ last = Err TypeError /\ entries_of ar v s = (s, Err TypeError)).
Proof.
  intros H. destruct H; [left..|right].
  - reflexivity.
  - unfold entries_of. rewrite H. reflexivity.
  - unfold entries_of. rewrite H. reflexivity.
  - assert (X : pairs_of ar s l = (pairs, Ok tt)).
    { rewrite <- (app_nil_r l), (pairs_of_all _ _ _ H1). cbn. rewrite app_nil_r. reflexivity. }
    unfold entries_of. rewrite (lists_iterated _ _ _ H0), X. destruct v; try contradiction; reflexivity.
  - assert (X : pairs_of ar s (l1 ++ w :: l2) = (pairs, Err e)).
    { rewrite (pairs_of_all _ _ _ H1). cbn [pairs_of]. unfold as_pair. destruct H2 as [w l L N|w N].
      - rewrite (lists_iterated _ _ _ L). destruct l as [|? [|? [|? ?]]]; try (cbn; rewrite app_nil_r; reflexivity). cbn in N; lia.
      - destruct w; try contradiction; cbn; rewrite app_nil_r; reflexivity. }
    unfold entries_of. rewrite (lists_iterated _ _ _ H0), X. destruct v; try contradiction; reflexivity.
  - (* not iterable: TypeError at once *)
    destruct v; try contradiction; repeat split; reflexivity.
Qed.

Lemma call_does (s s' : machine) h o p c r : inv s -> nth_error (m_structs s) h = Some o -> is_call s h p c ->
  run p s = (s', r) -> does s h (so_kind o) c s' r.
Proof.
  intros I Ho C H. destruct C as [id v Hg|id|id default| | |id v Hg|v pairs last Hh Hg]; cbn [run] in H.
  - apply set_does; assumption.
  - apply del_does; assumption.
  - apply pop_does; assumption.
  - apply popitem_does; assumption.
  - unfold struct_clear in H. rewrite (sbind_ok _ _ _ s o) in H by (unfold get_sobj; rewrite Ho; reflexivity).
    eapply clear_does; [exact I|exact Ho| |exact H]. lia.
  - apply setdefault_does; assumption.
  - apply update_does; try assumption. unfold update in H.
    destruct (hands_over_entries s v pairs last Hh) as [E|[-> [-> E]]].
    + rewrite (sbind_ok _ _ _ s _ E) in H. exact H.
    + rewrite (sbind_err _ _ _ s _ E) in H. exact H.
Qed.

(** ** Dimensions *)
Lemma dims_key (s : machine) h o key : inv s -> nth_error (m_dims s) h = Some o ->
  match data_get (do_data o) key with
  | Ok _ => key = VStr (wkey (do_kind o)) \/ key = VStr (lkey (do_kind o))
  | Err e => (hashable key = false /\ e = TypeError) \/ (hashable key = true /\ e = KeyError)
  end.
Proof.
  intros I Ho. unfold data_get. destruct (hashable key); cbn [negb]; [|left; auto].
  destruct (iv_dims s I _ _ Ho) as [l [E [_ Hl]]]. rewrite E, vget_sdict.
  destruct key as [| | | |i| | | | | |]; try (right; auto).
  destruct (dget l i) as [v|] eqn:G; cbn [option_map]; [|right; auto].
  destruct (Hl i v (dget_In _ _ _ G)) as [[-> | ->] _]; auto.
Qed.

Lemma key_errors k key v e : key_error k key v e -> dimension_error k key v e.
Proof. destruct 1; econstructor; eassumption. Qed.
Lemma key_errors_inv k key v e : dimension_error k key v e -> key_error k key v e.
Proof. destruct 1; [apply ke_unhashable|apply ke_key|apply ke_value]; assumption. Qed.

Lemma has_data o d : view_dobj o = Some d -> do_data o <> [].
Proof. unfold view_dobj. destruct (do_data o); [discriminate|congruence]. Qed.

Lemma holds_refs (s : machine) h o refs i r : nth_error (m_structs s) h = Some o -> so_data o = sdict VDims refs ->
  holds s h i r <-> In (i, r) refs.
Proof.
  intros Ho E. split.
  - intros [o' [Ho' H]]. rewrite Ho in Ho'. injection Ho' as <-. rewrite E in H. unfold sdict in H.
    apply in_map_iff in H. destruct H as [[j q] [[= -> ->] H]]. exact H.
  - intros H. exists o. split; [exact Ho|]. rewrite E. unfold sdict. apply in_map_iff. exists (i, r). auto.
Qed.

Lemma view_changed ds r o' d k refs : nth_error ds r <> None -> (forall o, nth_error ds r = Some o -> do_kind o' = do_kind o) ->
  view_dobj o' = Some d -> NoDup (dkeys refs) -> forall l, view_entries ds k (sdict VDims refs) = Some l ->
  exists l', view_entries (list_set ds r o') k (sdict VDims refs) = Some l' /\ dkeys l' = dkeys l /\ dkeys l = dkeys refs /\
    forall i, (In (i, r) refs -> dget l' i = Some d) /\ (~ In (i, r) refs -> dget l' i = dget l i).
Proof.
  intros Hr Hk Hd. induction refs as [|[i q] refs IH]; intros Hn l H.
  - injection H as <-. exists []. split; [reflexivity|]. split; [reflexivity|]. split; [reflexivity|]. intros i. split; [intros []|reflexivity].
  - rewrite view_entries_cons in H |- *. destruct (nth_error ds q) as [o|] eqn:Eq; [|discriminate].
    destruct (view_entries ds k (sdict VDims refs)) as [rest|] eqn:Er.
    2: { destruct (do_kind o), k, (view_dobj o); discriminate. }
    assert (Hes : exists x, view_dobj o = Some x /\ do_kind o = k /\ l = (i, x) :: rest).
    { destruct (do_kind o) eqn:Ek, k; try discriminate; destruct (view_dobj o) as [x|]; try discriminate;
        injection H as <-; eauto. }
    destruct Hes as [x [Ex [Ek ->]]]. cbn [dkeys map fst] in Hn. inversion Hn as [|? ? N1 N2]; subst.
    destruct (IH N2 rest eq_refl) as [l' [V [K1 [K2 G]]]]. rewrite V.
    assert (Hl : (r < length ds)%nat) by (apply nth_error_Some; exact Hr).
    destruct (Nat.eq_dec q r) as [->|Hne].
    + rewrite list_set_same by exact Hl. rewrite Hd, (Hk o Eq).
      exists ((i, d) :: l'). split; [destruct (do_kind o); reflexivity|]. split; [cbn; f_equal; exact K1|]. split; [cbn; f_equal; exact K2|].
      intros j. cbn [dget]. destruct (String.eqb_spec j i) as [->|Hji].
      * split; [reflexivity|]. intros X. destruct X. left. reflexivity.
      * destruct (G j) as [G1 G2]. split; intros X.
        -- apply G1. destruct X as [[= -> ]|X]; [congruence|exact X].
        -- apply G2. intros Y. apply X. right. exact Y.
    + rewrite list_set_other by congruence. rewrite Eq, Ex.
      exists ((i, x) :: l'). split; [destruct (do_kind o); reflexivity|]. split; [cbn; f_equal; exact K1|]. split; [cbn; f_equal; exact K2|].
      intros j. cbn [dget]. destruct (String.eqb_spec j i) as [->|Hji].
      * split; [|reflexivity]. intros [[= ->]|X]; [congruence|]. exfalso. apply N1. unfold dkeys. apply in_map_iff.
        exists (i, r). auto.
      * destruct (G j) as [G1 G2]. split; intros X.
        -- apply G1. destruct X as [[= -> ]|X]; [congruence|exact X].
        -- apply G2. intros Y. apply X. right. exact Y.
Qed.

(** One assignment. *)
Lemma dim_set_does (s s' : machine) r o d key v : inv s -> nth_error (m_dims s) r = Some o -> view_dobj o = Some d ->
  dim_set ar r key v s = (s', Ok tt) ->
  locked s (do_kind o) = false /\ inv s' /\ m_strip s' = m_strip s /\ m_structs s' = m_structs s /\ no_solution s' /\
  exists z d', positive_int v z /\
    (key = VStr (wkey (do_kind o)) /\ d' = mkDims z (dl d) \/ key = VStr (lkey (do_kind o)) /\ d' = mkDims (dw d) z) /\
    shows_dims s' r (do_kind o) d' /\
    seen_everywhere s r d' s'.
Proof.
  intros I Ho Hd H. destruct (C31_assign_dimension ar s r o key v Ho) as [L U].
  assert (Hl : locked s (do_kind o) = false).
  { destruct (locked s (do_kind o)) eqn:E; [|reflexivity]. unfold locked in E. destruct (do_kind o) eqn:Ek; [|discriminate].
    cbn [run] in L. rewrite (L E eq_refl (has_data o d Hd)) in H. discriminate. }
  assert (E : m_strip s = false \/ do_kind o = KItems) by (unfold locked in Hl; destruct (do_kind o); auto).
  destruct (U E) as [[D1 _] D3]. cbn [run] in D1, D3.
  destruct (proj1 D1 (ex_intro _ s' H)) as [Hkey [z Hz]]. destruct (D3 z s' d Hz H Hd) as [Hn [o' [Ho' Hv']]].
  assert (S : inv s' /\ m_strip s' = m_strip s).
  { eapply (any_star s s' (fun _ => True) False I). eapply (safe_dim_set (fun _ => True)); [exact I|exact H]. }
  destruct S as [I' S]. split; [exact Hl|]. split; [exact I'|]. split; [exact S|].
  destruct (dim_set_cases _ _ _ _ _ _ H) as [[e [X _]]|[_ [o2 [Ho2 C]]]]; [discriminate|].
  rewrite Ho in Ho2. injection Ho2 as <-.
  assert (Es : s' = set_sol (set_dims s (list_set (m_dims s) r (mkDobj (do_kind o) (vset (do_data o) key v)))) [] []) by apply C.
  split; [subst s'; reflexivity|]. split; [exact Hn|].
  set (d' := if key_eqb key (VStr (wkey (do_kind o))) then mkDims z (dl d) else mkDims (dw d) z) in *.
  exists z, d'. split; [exact Hz|]. split.
  { destruct Hkey as [-> | ->]; [left|right]; split; try reflexivity; unfold d'.
    - rewrite (proj2 (key_eqb_str_l _ _)) by reflexivity. reflexivity.
    - rewrite key_eqb_strs. destruct (String.eqb_spec (lkey (do_kind o)) (wkey (do_kind o))) as [X|X]; [|reflexivity].
      exfalso. apply (wkey_lkey (do_kind o)). congruence. }
  assert (Er : nth_error (m_dims s') r = Some (mkDobj (do_kind o) (vset (do_data o) key v))).
  { subst s'. cbn [m_dims set_sol set_dims]. apply list_set_same. apply nth_error_Some. congruence. }
  rewrite Ho' in Er. injection Er as Eo'.
  split. { exists o'. split; [exact Ho'|]. split; [subst o'; reflexivity|exact Hv']. }
  intros h l Hv. unfold view_struct in Hv. destruct (nth_error (m_structs s) h) as [so|] eqn:Eh; [|discriminate].
  destruct (iv_structs s I _ _ Eh) as [refs [Ed [Nd _]]]. rewrite Ed in Hv.
  destruct (view_changed (m_dims s) r o' d' (so_kind so) refs) with (l := l) as [l' [V1 [V2 [_ V3]]]]; try assumption.
  { congruence. }
  { intros o2 Ho2. rewrite Ho in Ho2. injection Ho2 as <-. subst o'. reflexivity. }
  exists l'. split; [|split].
  - unfold view_struct. subst s'. cbn [m_structs m_dims set_sol set_dims]. rewrite Eh, Ed, <- Eo'. exact V1.
  - exact V2.
  - intros i. destruct (V3 i) as [V4 V5]. split; intros X; [apply V4|apply V5]; rewrite <- (holds_refs s h so refs i r Eh Ed); exact X.
Qed.

Lemma dim_set_error (s s' : machine) r o d key v e : nth_error (m_dims s) r = Some o -> view_dobj o = Some d ->
  dim_set ar r key v s = (s', Err e) ->
  s' = s /\ if locked s (do_kind o) then e = ContainersError C_STRIP_PACK_ONLY else key_error (do_kind o) key v e.
Proof.
  intros Ho Hd H. destruct (C31_assign_dimension ar s r o key v Ho) as [L U].
  destruct (dim_set_cases _ _ _ _ _ _ H) as [[e' [_ ->]]|[X _]]; [|discriminate]. split; [reflexivity|].
  destruct (locked s (do_kind o)) eqn:E.
  - unfold locked in E. destruct (do_kind o) eqn:Ek; [|discriminate]. cbn [run] in L.
    rewrite (L E eq_refl (has_data o d Hd)) in H. injection H as <-. reflexivity.
  - assert (E' : m_strip s = false \/ do_kind o = KItems) by (unfold locked in E; destruct (do_kind o); auto).
    destruct (U E') as [[_ D2] _]. apply key_errors_inv. apply D2. exists s. exact H.
Qed.

Lemma seen_trans (s s1 s2 : machine) r d1 d2 : m_structs s1 = m_structs s ->
  seen_everywhere s r d1 s1 -> seen_everywhere s1 r d2 s2 -> seen_everywhere s r d2 s2.
Proof.
  intros E S1 S2 h l Hl. destruct (S1 h l Hl) as [l1 [V1 [K1 G1]]]. destruct (S2 h l1 V1) as [l2 [V2 [K2 G2]]].
  exists l2. split; [exact V2|]. split; [congruence|]. intros i.
  assert (Hh : holds s1 h i r <-> holds s h i r) by (unfold holds; rewrite E; tauto).
  destruct (G1 i) as [A1 A2]. destruct (G2 i) as [B1 B2]. split; intros X.
  - apply B1. apply Hh. exact X.
  - rewrite B2 by (rewrite Hh; exact X). apply A2. exact X.
Qed.

Lemma seen_refl (s : machine) r o d : inv s -> nth_error (m_dims s) r = Some o -> view_dobj o = Some d -> seen_everywhere s r d s.
Proof.
  intros I Ho Hd h l Hl. exists l. split; [exact Hl|]. split; [reflexivity|]. intros i. split; [|reflexivity]. intros Hh.
  unfold view_struct in Hl. destruct (nth_error (m_structs s) h) as [so|] eqn:Eh; [|discriminate].
  destruct (iv_structs s I _ _ Eh) as [refs [Ed [Nd _]]]. rewrite Ed in Hl.
  destruct (view_changed (m_dims s) r o d (so_kind so) refs) with (l := l) as [l' [V1 [V2 [_ V3]]]]; try assumption.
  { congruence. } { congruence. }
  rewrite (list_set_id _ _ _ Ho) in V1. rewrite V1 in Hl. injection Hl as <-.
  apply V3. rewrite <- (holds_refs s h so refs i r Eh Ed). exact Hh.
Qed.

Lemma dim_update_does pairs last : forall (s s' : machine) r o d x, inv s -> nth_error (m_dims s) r = Some o -> view_dobj o = Some d ->
  (set_all ar (dim_set ar r) pairs ;;; slift last) s = (s', x) ->
  exists d', assigned (do_kind o) (locked s (do_kind o)) d pairs last d' x /\
    shows_dims s' r (do_kind o) d' /\ seen_everywhere s r d' s' /\
    (forall h, nth_error (m_structs s') h = nth_error (m_structs s) h).
Proof.
  induction pairs as [|[key v] pairs IH]; intros s s' r o d x I Ho Hd H.
  - cbn [set_all] in H. unfold sbind, sret, slift in H. injection H as <- <-. exists d. split; [constructor|].
    split; [exists o; auto|]. split; [eapply seen_refl; eassumption|reflexivity].
  - cbn [set_all] in H. unfold sbind at 1 2 in H. destruct (dim_set ar r key v s) as [s1 [[]|e]] eqn:E.
    + destruct (dim_set_does s s1 r o d key v I Ho Hd E) as [Hl [I1 [S1 [T1 [_ [z [d1 [Hz [Hk [[o1 [Ho1 [Hk1 Hd1]]] Hs1]]]]]]]]]].
      destruct (IH s1 s' r o1 d1 x I1 Ho1 Hd1 H) as [d' [A [B [C D]]]]. rewrite Hk1 in A, B. exists d'.
      assert (Hl1 : locked s1 (do_kind o) = locked s (do_kind o)) by (unfold locked; rewrite S1; reflexivity). rewrite Hl1 in A.
      split; [destruct Hk as [[-> ->]|[-> ->]]; econstructor; eassumption|]. split; [exact B|].
      split; [eapply seen_trans; eassumption|]. intros h. rewrite D, T1. reflexivity.
    + injection H as <- <-. destruct (dim_set_error s s1 r o d key v e Ho Hd E) as [-> He]. exists d. split.
      * destruct (locked s (do_kind o)); [subst e; apply as_locked; reflexivity|apply as_error; [reflexivity|exact He]].
      * split; [exists o; auto|]. split; [eapply seen_refl; eassumption|reflexivity].
Qed.

(** ** Copies *)
Lemma two_entries k data : good_data k data -> complete_data k data -> exists a b, posval a /\ posval b /\
  (data = [(VStr (wkey k), a); (VStr (lkey k), b)] \/ data = [(VStr (lkey k), b); (VStr (wkey k), a)]).
Proof.
  intros [l [-> [Hn H]]] [C1 C2]. unfold vmem in C1, C2. rewrite vget_sdict in C1, C2.
  destruct (dget l (wkey k)) as [a|] eqn:Ea; [|discriminate]. destruct (dget l (lkey k)) as [b|] eqn:Eb; [|discriminate].
  exists a, b. apply dget_In in Ea. apply dget_In in Eb.
  split; [apply (H _ _ Ea)|]. split; [apply (H _ _ Eb)|].
  pose proof (wkey_lkey k) as N.
  assert (L : forall i v, In (i, v) l -> i = wkey k \/ i = lkey k) by (intros i v X; apply (H i v X)).
  clear H C1 C2. destruct l as [|[i1 v1] [|[i2 v2] [|[i3 v3] l]]].
  - destruct Ea.
  - destruct Ea as [Ea|[]], Eb as [Eb|[]]. congruence.
  - destruct Ea as [Ea|[Ea|[]]], Eb as [Eb|[Eb|[]]]; try congruence.
    + injection Ea as -> ->. injection Eb as -> ->. left. reflexivity.
    + injection Ea as -> ->. injection Eb as -> ->. right. reflexivity.
  - exfalso. cbn in Hn. inversion Hn as [|? ? N1 N2]; subst. inversion N2 as [|? ? N3 N4]; subst.
    pose proof (L i1 v1 (or_introl eq_refl)) as L1. pose proof (L i2 v2 (or_intror (or_introl eq_refl))) as L2.
    pose proof (L i3 v3 (or_intror (or_intror (or_introl eq_refl)))) as L3.
    assert (i1 <> i2) by (intros ->; apply N1; left; reflexivity).
    assert (i1 <> i3) by (intros ->; apply N1; right; left; reflexivity).
    assert (i2 <> i3) by (intros ->; apply N3; left; reflexivity).
    destruct L1, L2, L3; congruence.
Qed.

Lemma copy_dims_does (s : machine) r o d : inv s -> nth_error (m_dims s) r = Some o -> view_dobj o = Some d ->
  exists data, run (OpDimCopy r) s =
    (set_sol (set_dims s (m_dims s ++ [mkDobj (do_kind o) data])) [] [],
     if locked s (do_kind o) then Err (ContainersError C_STRIP_PACK_ONLY) else Ok tt) /\
    (locked s (do_kind o) = false -> view_dobj (mkDobj (do_kind o) data) = Some d).
Proof.
  intros I Ho Hd. pose proof (iv_dims s I _ _ Ho) as G.
  assert (C : complete o).
  { unfold complete, complete_data, vmem. unfold view_dobj in Hd.
    destruct (vget (do_data o) (VStr (wkey (do_kind o)))); [|discriminate].
    destruct (vget (do_data o) (VStr (lkey (do_kind o)))); [|discriminate]. auto. }
  destruct (two_entries _ _ G C) as [a [b [Ha [Hb Ed]]]].
  pose proof (wkey_lkey (do_kind o)) as N.
  assert (P : forall key v, (key = VStr (wkey (do_kind o)) \/ key = VStr (lkey (do_kind o))) -> posval v ->
     validate_data (do_kind o) key v = Ok tt).
  { intros key v Hk Hv. apply validate_data_accepts; [apply is_proper_iff; exact Hk|exact Hv]. }
  set (n := length (m_dims s)).
  assert (Step : forall key v data sol objs, (key = VStr (wkey (do_kind o)) \/ key = VStr (lkey (do_kind o))) -> posval v ->
     dim_set ar n key v (set_sol (set_dims s (m_dims s ++ [mkDobj (do_kind o) data])) sol objs) =
     if locked s (do_kind o) && match data with [] => false | _ => true end
     then (set_sol (set_dims s (m_dims s ++ [mkDobj (do_kind o) data])) sol objs, Err (ContainersError C_STRIP_PACK_ONLY))
     else (set_sol (set_dims s (m_dims s ++ [mkDobj (do_kind o) (vset data key v)])) [] [], Ok tt)).
  { intros key v data sol objs Hk Hv. unfold dim_set.
    rewrite (sbind_ok _ _ _ (set_sol (set_dims s (m_dims s ++ [mkDobj (do_kind o) data])) sol objs) (mkDobj (do_kind o) data)).
    2: { unfold get_dobj. cbn [m_dims set_sol set_dims]. unfold n. rewrite nth_error_last. reflexivity. }
    unfold sbind at 1, sget at 1. rewrite swhen_cases. cbn [do_kind do_data m_strip set_sol set_dims].
    replace (m_strip s && match do_kind o with KContainers => true | KItems => false end) with (locked s (do_kind o)).
    2: { unfold locked. destruct (do_kind o), (m_strip s); reflexivity. }
    destruct (locked s (do_kind o) && _); [reflexivity|].
    unfold sbind, slift. rewrite P by assumption. unfold put_dobj, smodify, reset.
    cbn [m_dims set_sol set_dims]. unfold set_sol, set_dims. cbn [m_dims m_structs m_items m_containers m_strip m_height m_min m_cnum m_hist m_strategy m_best m_cfg].
    assert (L : list_set (m_dims s ++ [mkDobj (do_kind o) data]) n (mkDobj (do_kind o) (vset data key v)) =
                m_dims s ++ [mkDobj (do_kind o) (vset data key v)]).
    { unfold n. clear. induction (m_dims s) as [|x l IH]; cbn; [reflexivity|]. rewrite IH. reflexivity. }
    rewrite L. reflexivity. }
  assert (R : forall k1 v1 k2 v2, do_data o = [(k1, v1); (k2, v2)] -> key_eqb k2 k1 = false ->
     (k1 = VStr (wkey (do_kind o)) \/ k1 = VStr (lkey (do_kind o))) ->
     (k2 = VStr (wkey (do_kind o)) \/ k2 = VStr (lkey (do_kind o))) -> posval v1 -> posval v2 ->
     exists data, run (OpDimCopy r) s =
       (set_sol (set_dims s (m_dims s ++ [mkDobj (do_kind o) data])) [] [],
        if locked s (do_kind o) then Err (ContainersError C_STRIP_PACK_ONLY) else Ok tt) /\
       (locked s (do_kind o) = false -> data = do_data o)).
  { intros k1 v1 k2 v2 E Hne K1 K2 V1 V2. cbn [run]. unfold ignore, dim_copy, sbind, get_dobj, new_dobj. rewrite Ho.
    fold n. unfold update, sbind, entries_of. cbn [m_dims set_dims]. rewrite (nth_error_keep _ _ _ _ Ho). cbn [fst snd]. rewrite E.
    cbn [set_all]. unfold sbind.
    replace (set_dims s (m_dims s ++ [mkDobj (do_kind o) []])) with
       (set_sol (set_dims s (m_dims s ++ [mkDobj (do_kind o) []])) (m_sol s) (m_objs s)) by (destruct s; reflexivity).
    rewrite (Step k1 v1 [] _ _ K1 V1). rewrite andb_false_r. cbn [vset].
    rewrite (Step k2 v2 _ _ _ K2 V2). rewrite andb_true_r. destruct (locked s (do_kind o)).
    - eexists. split; [reflexivity|discriminate].
    - cbn [vset]. rewrite Hne. eexists. split; [reflexivity|]. intros _. reflexivity. }
  assert (Nk : forall i j, i <> j -> key_eqb (VStr i) (VStr j) = false).
  { intros i j X. rewrite key_eqb_strs. apply String.eqb_neq. exact X. }
  assert (Done : exists data, run (OpDimCopy r) s =
       (set_sol (set_dims s (m_dims s ++ [mkDobj (do_kind o) data])) [] [],
        if locked s (do_kind o) then Err (ContainersError C_STRIP_PACK_ONLY) else Ok tt) /\
       (locked s (do_kind o) = false -> data = do_data o)).
  { destruct Ed as [Ed|Ed].
    - apply (R _ _ _ _ Ed); [apply Nk; congruence|auto|auto|exact Ha|exact Hb].
    - apply (R _ _ _ _ Ed); [apply Nk; congruence|auto|auto|exact Hb|exact Ha]. }
  destruct Done as [data [E1 E2]]. exists data. split; [exact E1|]. intros Hl. rewrite (E2 Hl). destruct o; exact Hd.
Qed.

Lemma copy_struct_fails (s : machine) h o l : inv s -> nth_error (m_structs s) h = Some o -> view_struct s h = Some l -> l <> [] ->
  exists s', run (OpStructCopy h) s =
    (s', Err (if locked s (so_kind o) then ContainersError C_STRIP_PACK_ONLY else DimensionsError D_TYPE)) /\
    s' = set_structs s (m_structs s ++ [mkSobj (so_kind o) []]).
Proof.
  intros I Ho Hv Hne. eexists. split; [|reflexivity].
  destruct (iv_structs s I _ _ Ho) as [refs [Er _]].
  destruct (shown s h o I Ho) as [l0 [Hv0 [Hlen _]]]. rewrite Hv in Hv0. injection Hv0 as <-.
  assert (Hr : exists i r refs', refs = (i, r) :: refs').
  { destruct refs as [|[i r] refs]; [|eauto]. rewrite Er in Hlen. destruct l; [congruence|discriminate]. }
  destruct Hr as [i [r [refs' ->]]].
  cbn [run]. unfold ignore, struct_copy, sbind, get_sobj, new_sobj. rewrite Ho.
  unfold update, sbind, entries_of. cbn [m_structs set_structs]. rewrite (nth_error_keep _ _ _ _ Ho). cbn [fst snd]. rewrite Er.
  cbn [sdict map set_all fst snd]. unfold sbind, struct_set, sbind, get_sobj. cbn [m_structs set_structs].
  rewrite nth_error_last. unfold sget, swhen. cbn [so_kind m_strip set_structs].
  replace (m_strip s && match so_kind o with KContainers => true | KItems => false end) with (locked s (so_kind o)).
  2: { unfold locked. destruct (so_kind o), (m_strip s); reflexivity. }
  destruct (locked s (so_kind o)); [reflexivity|]. reflexivity.
Qed.

Lemma more_structs (s : machine) o h l : view_struct s h = Some l -> view_struct (set_structs s (m_structs s ++ [o])) h = Some l.
Proof.
  unfold view_struct. cbn [m_structs m_dims set_structs]. destruct (nth_error (m_structs s) h) as [x|] eqn:E; [|discriminate].
  rewrite (nth_error_keep _ _ _ _ E). auto.
Qed.
End Mapping.
