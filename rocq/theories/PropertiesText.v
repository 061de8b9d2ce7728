(** * C45 (text), C67: what log_solution returns, str(items), str(containers). *)
From Coq Require Import ZArith String Ascii List Bool QArith Reals Lra Lia Permutation.
From Flocq Require Import Core.
From Verif Require Import Py ProofsPy Arith Construct Spec LocalSearch ProofsLocalSearch SpecSearch Values ProofsVal
  Settings Instance SpecInstance SpecSettings ProofsMachine ProofsOps ProofsRun ProofsHistory
  PropertiesHistory ProofsPartition Report SpecReport PropertiesReport MultiProcess MultiHistory SpecMultiHistory ProofsMultiHistory PropertiesMultiHistory Utils Text SpecText ProofsText ProofsTextFloat.
Import ListNotations.
Open Scope string_scope.
Open Scope list_scope.
Open Scope Z_scope.

(** ** Sides *)
Lemma side_str_ok v z : as_int v = Some z -> 0 < z -> exists t, side_str v = Ok t /\ side_text t z.
Proof.
  intros H P. destruct v as [|b|y| | | | | | | |]; try discriminate H; cbn in H; injection H as <-.
  - destruct b; [|lia]. exists "True". split; [reflexivity|]. right. auto.
  - exists (z_str y). split; [reflexivity|]. left. apply z_str_decimal. lia.
Qed.

Section States.
Context {ar : arith}.
Notation machine := (machine ar).

Lemma dim_str_ok (s : machine) r o d : nth_error (m_dims s) r = Some o -> view_dobj o = Some d -> 0 < dw d -> 0 < dl d ->
  (exists t, dim_str s r (wkey (do_kind o)) = Ok t /\ side_text t (dw d)) /\
  (exists t, dim_str s r (lkey (do_kind o)) = Ok t /\ side_text t (dl d)).
Proof.
  intros H V P1 P2. unfold dim_str. rewrite H. unfold view_dobj in V.
  destruct (vget (do_data o) (VStr (wkey (do_kind o)))) as [w|]; [|discriminate].
  destruct (vget (do_data o) (VStr (lkey (do_kind o)))) as [l|]; [|discriminate].
  destruct (as_int w) as [w'|] eqn:Ew; [|discriminate]. destruct (as_int l) as [l'|] eqn:El; [|discriminate]. injection V as <-.
  split; apply side_str_ok; assumption.
Qed.

Lemma view_lookup ds k d : forall es id c, view_entries ds k d = Some es -> dget es id = Some c ->
  exists r o, vget d (VStr id) = Some (VDims r) /\ nth_error ds r = Some o /\ do_kind o = k /\ view_dobj o = Some c.
Proof.
  induction d as [|[key v] d IH]; intros es id c H G; cbn in H; [injection H as <-; discriminate G|].
  destruct key as [| | | |i| | | | | |]; try discriminate. destruct v as [| | | | | | | | |r|]; try discriminate.
  destruct (nth_error ds r) as [o|] eqn:Eo; [|discriminate].
  assert (K : do_kind o = k) by (destruct (do_kind o), k; try reflexivity; discriminate H).
  assert (H' : match view_dobj o, view_entries ds k d with Some x, Some rest => Some ((i, x) :: rest) | _, _ => None end = Some es)
    by (destruct (do_kind o), k; try discriminate H; exact H). clear H.
  destruct (view_dobj o) as [x|] eqn:Ex; [|discriminate]. destruct (view_entries ds k d) as [rest|] eqn:Er; [|discriminate]. injection H' as <-.
  cbn [dget] in G. cbn [vget]. cbn [key_eqb]. destruct (String.eqb_spec id i) as [->|N].
  - injection G as <-. exists r, o. rewrite ?String.eqb_refl. auto.
  - destruct (String.eqb_spec i id) as [E|_]; [congruence|]. exact (IH _ _ _ eq_refl G).
Qed.

(** ** C67: the text of a structure *)
Lemma entry_strs_ok (s : machine) k d : forall es, view_entries (m_dims s) k d = Some es -> (forall i c, In (i, c) es -> 0 < dw c /\ 0 < dl c) ->
  exists ts, entry_strs s k d = Ok ts /\
    Forall2 (entry_text (match k with KContainers => negb (m_strip s) | KItems => true end)) es (map (String (ascii_of_nat 10)) ts).
Proof.
  induction d as [|[key v] d IH]; intros es H P; cbn in H; [injection H as <-; exists []; split; [reflexivity|constructor]|].
  destruct key as [| | | |i| | | | | |]; try discriminate. destruct v as [| | | | | | | | |r|]; try discriminate.
  destruct (nth_error (m_dims s) r) as [o|] eqn:Eo; [|discriminate].
  assert (K : do_kind o = k) by (destruct (do_kind o), k; try reflexivity; discriminate H).
  assert (H' : match view_dobj o, view_entries (m_dims s) k d with Some x, Some rest => Some ((i, x) :: rest) | _, _ => None end = Some es)
    by (destruct (do_kind o), k; try discriminate H; exact H). clear H.
  destruct (view_dobj o) as [x|] eqn:Ex; [|discriminate]. destruct (view_entries (m_dims s) k d) as [rest|] eqn:Er; [|discriminate]. injection H' as <-.
  destruct (P i x (or_introl eq_refl)) as [P1 P2]. destruct (dim_str_ok s r o x Eo Ex P1 P2) as [[w [W1 W2]] [l [L1 L2]]]. rewrite K in W1, L1.
  destruct (IH rest eq_refl) as [ts [E1 E2]]; [intros j c Hin; apply (P j c); right; exact Hin|].
  cbn [entry_strs]. unfold entry_str. rewrite W1, L1. cbn [bind]. rewrite E1. cbn [bind]. eexists. split; [reflexivity|].
  cbn [map]. constructor; [|exact E2]. exists w, l. split; [exact W2|]. split; [exact L2|]. cbn [fst].
  unfold newline, nl. destruct k; [destruct (m_strip s)|]; cbn [append negb]; rewrite ?sapp_nil_r; reflexivity.
Qed.

Lemma join_nl t l : join nl (t :: l) = (t ++ String.concat "" (map (String (ascii_of_nat 10)) l))%string.
Proof.
  unfold join. revert t. induction l as [|x l IH]; intros t; [cbn; rewrite sapp_nil_r; reflexivity|].
  change (String.concat nl (t :: x :: l)) with (t ++ nl ++ String.concat nl (x :: l))%string. rewrite IH. f_equal.
  destruct l as [|y l]; [cbn; rewrite sapp_nil_r; reflexivity|].
  change (map (String (ascii_of_nat 10)) (x :: y :: l)) with (String (ascii_of_nat 10) x :: map (String (ascii_of_nat 10)) (y :: l)).
  set (r := map (String (ascii_of_nat 10)) (y :: l)). assert (N : r <> []) by discriminate.
  clearbody r. destruct r as [|z r]; [congruence|]. reflexivity.
Qed.

(** What is shown of a structure can be printed, and the text is the right one. *)
Theorem C67_text : forall (s : machine) h o es, nth_error (m_structs s) h = Some o -> view_struct s h = Some es -> valid_items es ->
  exists t, struct_str s h = Ok t /\
    match so_kind o with
    | KContainers => structure_text "Containers" (negb (m_strip s)) es t
    | KItems => structure_text "Items" true es t
    end.
Proof.
  intros s h o es H V P. unfold view_struct in V. rewrite H in V. unfold struct_str. rewrite H.
  destruct (entry_strs_ok s (so_kind o) (so_data o) es V) as [ts [E F]]; [intros i c Hin; apply (proj2 P i c Hin)|].
  rewrite E. cbn [bind]. rewrite join_nl. eexists. split; [reflexivity|].
  destruct (so_kind o); eexists; (split; [exact F|reflexivity]).
Qed.

(** ** The text of the log *)
Lemma container_dim_ok (s : machine) cs cid c : containers_of s = Some cs -> dget cs cid = Some c -> 0 < dw c -> 0 < dl c ->
  (exists o, nth_error (m_structs s) (m_containers s) = Some o /\ so_kind o = KContainers) ->
  (exists t, container_dim s cid (wkey KContainers) = Ok t /\ side_text t (dw c)) /\
  (exists t, container_dim s cid (lkey KContainers) = Ok t /\ side_text t (dl c)).
Proof.
  intros V G P1 P2 [o [Ho Hk]]. unfold containers_of, view_struct in V. unfold container_dim. rewrite Ho in *. rewrite Hk in V.
  destruct (view_lookup _ _ _ _ _ _ V G) as [r [d [E1 [E2 [E3 E4]]]]]. rewrite E1.
  destruct (dim_str_ok s r d c E2 E4 P1 P2) as [A B]. rewrite E3 in A, B. auto.
Qed.

Lemma area_bound (csol : odict entry) W L : 0 < W -> 0 < L -> (forall i e, In (i, e) csol -> 0 < e_w e <= W /\ 0 < e_l e <= L) ->
  0 <= total_area (entries csol) <= zlen csol * (W * L).
Proof.
  intros HW HL H. unfold entries. induction csol as [|[i e] csol IH]; [unfold zlen; cbn; lia|].
  destruct IH as [I1 I2]; [intros j f Hin; apply (H j f); right; exact Hin|]. destruct (H i e (or_introl eq_refl)) as [A B].
  unfold total_area in *. cbn [dvals map snd fold_right] in *. unfold entry_area in *. unfold zlen in *. cbn [length]. rewrite Nat2Z.inj_succ. nia.
Qed.

Lemma ratio_bound a b n : 0 <= a -> 0 < b -> 0 <= n < 2 ^ 990 -> a <= n * b ->
  (IZR (a * 100) / IZR b < bpow radix2 1000)%R.
Proof.
  intros Ha Hb Hn H. assert (Pb : (0 < IZR b)%R) by (apply IZR_lt; exact Hb).
  apply Rle_lt_trans with (IZR (n * 100)).
  - apply Rmult_le_reg_r with (IZR b); [exact Pb|]. unfold Rdiv. rewrite Rmult_assoc, Rinv_l, Rmult_1_r by lra. rewrite <- mult_IZR. apply IZR_le. nia.
  - rewrite pow_R by lia. apply IZR_lt. change (2 ^ 1000) with (2 ^ 990 * 1024). lia.
Qed.

Lemma container_text (s : machine) (x : inst ar) cs cid c csol :
  containers_of s = Some cs -> pb_containers (in_pb x) = cs -> pb_strip (in_pb x) = m_strip s -> in_sol x = m_sol s ->
  m_sol s <> [] -> dget cs cid = Some c -> dget (m_sol s) cid = Some csol -> 0 < dw c -> 0 < dl c ->
  (exists o, nth_error (m_structs s) (m_containers s) = Some o /\ so_kind o = KContainers) ->
  (forall i e, In (i, e) csol -> 0 < e_w e <= dw c /\ 0 < e_l e /\ 0 <= e_y e) ->
  (m_strip s = false -> forall i e, In (i, e) csol -> e_l e <= dl c) ->
  zlen csol < 2 ^ 990 ->
  let h := shown_height (m_strip s) (in_min x) c csol in
  (h = 0 -> container_lines s x cid = Err ZeroDivisionError) /\
  (0 < h -> exists ls ts, log_container x cid = Ok ls /\ container_lines s x cid = Ok ts /\ Forall2 line_text ls ts).
Proof.
  intros V X1 X2 X3 Hs G1 G2 P1 P2 Ho He Hb Hn h.
  destruct (view_height x cid c csol) as [E1 E2]; [rewrite X3; exact Hs|rewrite X1; exact G1|rewrite X3; exact G2|intros i e Hin; specialize (He i e Hin); lia|].
  rewrite X2 in E1. fold h in E1.
  destruct (container_dim_ok s cs cid c V G1 P1 P2 Ho) as [[wt [W1 W2]] [lt [L1 L2]]].
  assert (LT : h = 0 \/ 0 < h -> exists lt', (if m_strip s then Ok (z_str h) else container_dim s cid (lkey KContainers)) = Ok lt' /\ side_text lt' h).
  { intros Hh. destruct (m_strip s) eqn:Es.
    - eexists. split; [reflexivity|]. left. apply z_str_decimal. lia.
    - exists lt. split; [exact L1|]. exact L2. }
  unfold container_lines, log_container. rewrite E1. cbn [bind]. unfold dget_r. rewrite X1, X3, G1, G2. cbn [bind]. rewrite W1. split; intros Hh.
  - destruct (LT (or_introl Hh)) as [lt' [-> _]]. cbn [bind]. rewrite Hh. unfold true_div. rewrite Z.mul_0_r. reflexivity.
  - destruct (LT (or_intror Hh)) as [lt' [-> LT']]. cbn [bind].
    assert (PB : 0 < dw c * h) by nia. rewrite quotient_ok by lia. cbn [bind]. rewrite stored_area_eq.
    assert (AB : 0 <= total_area (entries csol) <= zlen csol * (dw c * h)).
    { apply area_bound; [exact P1|exact Hh|]. intros i e Hin. destruct (He i e Hin) as [H1 [H2 H3]]. split; [exact H1|]. split; [exact H2|].
      unfold h, shown_height. destruct (m_strip s) eqn:Es; [|apply (Hb eq_refl i e Hin)].
      assert (S : e_y e + e_l e <= stack_height (entries csol)).
      { unfold entries. clear - Hin. induction csol as [|[j f] l IH]; [contradiction|]. cbn [dvals map snd stack_height fold_right].
        destruct Hin as [[= -> ->]|Hin]; [lia|]. specialize (IH Hin). cbn [dvals] in IH. unfold stack_height in IH. cbn in *. lia. }
      destruct (in_min x); lia. }
    destruct (util_shown (total_area (entries csol) * 100) (dw c * h) ltac:(lia) PB) as [z [Z1 Z2]].
    { eapply ratio_bound with (n := zlen csol); [lia|exact PB|unfold zlen in *; lia|lia]. }
    rewrite Z1. cbn [bind]. eexists. eexists. split; [reflexivity|]. split; [reflexivity|]. rewrite X2.
    cbn [app]. constructor; [constructor; assumption|]. constructor; [apply lt_util; exact Z2|].
    destruct (m_strip s); [|constructor]. constructor; [|constructor]. apply lt_height. apply z_str_decimal.
    rewrite E2. apply ProofsConstruct.stack_height_nonneg.
Qed.

Lemma containers_text (s : machine) (x : inst ar) (l : odict dims) :
  (forall cid c, In (cid, c) l -> exists ls ts, log_container x cid = Ok ls /\ container_lines s x cid = Ok ts /\ Forall2 line_text ls ts) ->
  exists ls ts, log_containers x (dkeys l) = Ok ls /\ containers_lines s x (dkeys l) = Ok ts /\ Forall2 line_text ls ts.
Proof.
  induction l as [|[cid c] l IH]; intros H; [exists [], []; split; [reflexivity|]; split; [reflexivity|constructor]|].
  destruct (H cid c (or_introl eq_refl)) as [a [b [E1 [E2 E3]]]]. destruct IH as [ls [ts [F1 [F2 F3]]]]; [intros; eapply H; right; eassumption|].
  cbn [dkeys map fst log_containers containers_lines]. change (map fst l) with (dkeys l). rewrite E1, E2. cbn [bind]. rewrite F1, F2. cbn [bind].
  eexists. eexists. split; [reflexivity|]. split; [reflexivity|]. apply Forall2_app; assumption.
Qed.

Lemma text_cases (s : machine) : inv s -> m_sol s <> [] ->
  exists cs is_, containers_of s = Some cs /\ items_of s = Some is_ /\
    (zlen is_ < 2 ^ 990 ->
     ((empty_strip s /\ log_text s = Err ZeroDivisionError) \/
      (~ empty_strip s /\ exists ls ts, good_log cs is_ (m_strip s) (m_min s) (m_sol s) ls /\
         Forall2 line_text ls ts /\ log_text s = Ok (Some (String.concat newline ts))))).
Proof.
  intros I Hs. destruct (log_cases s I Hs) as [cs [is_ [V1 [V2 D]]]]. exists cs, is_. split; [exact V1|]. split; [exact V2|]. intros Hn.
  destruct (inv_view s I) as [cs' [is' [V1' [V2' [V3 [V4 [V5 [V6 V7]]]]]]]].
  rewrite V1 in V1'. injection V1' as <-. rewrite V2 in V2'. injection V2' as <-.
  destruct (iv_fresh s I) as [F|[cs' [is' [F1 [F2 F3]]]]]; [contradiction|].
  rewrite V1 in F1. injection F1 as <-. rewrite V2 in F2. injection F2 as <-.
  unfold log_text. unfold log_solution in D. destruct (m_sol s) as [|p0 l0] eqn:Esol; [congruence|]. rewrite <- Esol in *. rewrite V7 in *.
  match goal with |- context [containers_lines s ?v] => set (x := v) in * end.
  assert (X1 : pb_containers (in_pb x) = cs) by reflexivity. assert (X2 : pb_items (in_pb x) = is_) by reflexivity.
  assert (X3 : in_sol x = m_sol s) by reflexivity. assert (X4 : pb_strip (in_pb x) = m_strip s) by reflexivity.
  assert (X5 : in_min x = m_min s) by reflexivity. clearbody x.
  assert (Ho : exists o, nth_error (m_structs s) (m_containers s) = Some o /\ so_kind o = KContainers).
  { destruct (iv_containers s I) as [o [H1 [H2 _]]]. exists o. auto. }
  assert (Sub : incl (stored_ids (m_sol s)) (dkeys is_)).
  { intros i Hi. unfold stored_ids in Hi. apply in_concat in Hi. destruct Hi as [k [K1 K2]]. apply in_map_iff in K1.
    destruct K1 as [[cid csol] [<- K1]]. cbn in K2. apply in_map_iff in K2. destruct K2 as [[i' e] [<- K2]].
    destruct F3 as [_ [_ [F3 _]]]. destruct (F3 _ _ _ _ K1 K2) as [_ [d [_ [G _]]]]. cbn. apply dget_Some_In. eauto. }
  assert (Len : Z.of_nat (length (stored_ids (m_sol s))) <= zlen is_).
  { destruct F3 as [_ [F3 _]]. pose proof (NoDup_incl_length F3 Sub) as B. unfold dkeys in B. rewrite map_length in B. unfold zlen. lia. }
  assert (Pn : 0 < zlen is_) by (destruct is_; [congruence|]; unfold zlen; cbn; lia).
  assert (C : forall cid c, In (cid, c) cs -> exists csol, dget (m_sol s) cid = Some csol /\
     let h := shown_height (m_strip s) (in_min x) c csol in
     (h = 0 -> container_lines s x cid = Err ZeroDivisionError) /\
     (0 < h -> exists ls ts, log_container x cid = Ok ls /\ container_lines s x cid = Ok ts /\ Forall2 line_text ls ts)).
  { intros cid c Hin. destruct (packed_container _ _ _ _ cid c F3 V5 Hin) as [P1 [csol [P2 [P3 P4]]]]. exists csol. split; [exact P2|].
    destruct (proj2 V5 cid c Hin) as [W1 W2].
    assert (In1 : forall i e, In (i, e) csol -> e_w e <= dw c /\ (m_strip s = false -> e_l e <= dl c)).
    { intros i e He. destruct F3 as [_ [_ [F3 _]]]. destruct (F3 _ _ _ _ P3 He) as [c' [d [G1 [_ [_ G]]]]]. rewrite P1 in G1. injection G1 as <-.
      destruct (m_strip s); [split; [lia|discriminate]|]. unfold inside in G. split; [lia|intros _; lia]. }
    apply (container_text s x cs cid c csol); auto.
    - intros i e He. specialize (P4 i e He). specialize (In1 i e He). lia.
    - intros E i e He. apply (In1 i e He). exact E.
    - assert (L : Z.of_nat (length (dkeys csol)) <= Z.of_nat (length (stored_ids (m_sol s)))).
      { apply inj_le. unfold stored_ids. clear - P3. induction (m_sol s) as [|[k c0] l IH]; [contradiction|]. cbn [map concat snd]. rewrite app_length.
        destruct P3 as [[= -> ->]|P3]; [lia|]. specialize (IH P3). lia. }
      unfold dkeys in L. rewrite map_length in L. unfold zlen in *. lia. }
  destruct (percent_shown (stored_count (m_sol s)) (zlen is_)) as [z [Z1 Z2]]; [rewrite stored_count_eq; lia|exact Pn|].
  rewrite X1, X2, X3. rewrite Z1. cbn [bind].
  destruct D as [[D _]|[D [ls [E G]]]].
  - left. split; [exact D|]. destruct D as [D1 [D2 D3]]. pose proof (inv_strip_keys s cs I D1 V1) as K.
    destruct cs as [|[cid c] [|? ?]]; try discriminate K. injection K as ->.
    destruct (C strip_id c (or_introl eq_refl)) as [csol [P2 [Q _]]].
    assert (H0 : shown_height (m_strip s) (in_min x) c csol = 0).
    { rewrite X5, D1, D3. unfold shown_height. destruct csol as [|[i e] csol]; [reflexivity|]. exfalso.
      assert (In i (stored_ids (m_sol s))); [|rewrite D2 in *; contradiction]. unfold stored_ids. apply in_concat.
      exists (dkeys ((i, e) :: csol)). split; [apply in_map_iff; exists (strip_id, (i, e) :: csol); split; [reflexivity|apply dget_In; exact P2]|left; reflexivity]. }
    cbn [dkeys map fst containers_lines]. rewrite (Q H0). reflexivity.
  - right. split; [exact D|].
    assert (HC : forall cid c, In (cid, c) cs -> exists ls ts, log_container x cid = Ok ls /\ container_lines s x cid = Ok ts /\ Forall2 line_text ls ts).
    { intros cid c Hin. destruct (C cid c Hin) as [csol [P2 [Q1 Q2]]]. apply Q2. destruct G as [pc [parts [rem [_ [_ [G _]]]]]].
      assert (GG : exists ls', container_log (m_strip s) (m_min s) (m_sol s) (cid, c) ls').
      { clear - G Hin. induction G as [|a b l l' Hab _ IH]; [contradiction|]. destruct Hin as [->|Hin]; [eauto|auto]. }
      destruct GG as [ls' [csol' [u [H1 [_ [_ H2]]]]]]. cbn [fst snd] in H1, H2. rewrite P2 in H1. injection H1 as <-. rewrite X5.
      destruct (proj2 V5 cid c Hin) as [W1 _]. nia. }
    destruct (containers_text s x cs HC) as [lc [tc [E1 [E2 E3]]]]. rewrite E2. cbn [bind].
    unfold log_view in E. rewrite X1, X2, X3, E1, quotient_ok in E by lia. cbn [bind] in E. injection E as E.
    eexists. eexists. split; [exact G|]. split; [|reflexivity]. rewrite <- E.
    cbn [app]. constructor; [constructor|]. constructor; [constructor; exact Z2|]. apply Forall2_app; [exact E3|]. constructor; [|constructor].
    apply (lt_remaining (remaining_items x) (repr_list (remaining_items x))). apply reads_repr.
Qed.
End States.

Print Assumptions C67_text.

(** ** C45: the text of the log, also after calls with several processes *)
Theorem C45_text : forall ar, orderly ar -> forall env containers items settings width l (s : machine ar),
  mhistory env containers items settings width l s -> mwithout_ior l -> m_sol s <> [] ->
  exists cs is_, containers_of s = Some cs /\ items_of s = Some is_ /\
    (Z.of_nat (length is_) < 2 ^ 990 -> ~ empty_strip s ->
     exists ls ts, good_log cs is_ (m_strip s) (m_min s) (m_sol s) ls /\ Forall2 line_text ls ts /\
       log_text s = Ok (Some (String.concat newline ts))).
Proof.
  intros ar [laws vals] env containers items settings width l s H Hl Hs.
  destruct (mhistory_good laws vals _ _ _ _ _ _ _ H Hl) as [I _]. destruct (text_cases s I Hs) as [cs [is_ [V1 [V2 D]]]].
  exists cs, is_. split; [exact V1|]. split; [exact V2|]. intros Hn He. destruct (D Hn) as [[D1 _]|[_ D1]]; [contradiction|exact D1].
Qed.
Print Assumptions C45_text.

(** Without a solution there is no text, and only then; an empty strip raises. *)
Theorem C45_text_otherwise : forall ar, orderly ar -> forall env containers items settings width l (s : machine ar),
  mhistory env containers items settings width l s -> mwithout_ior l ->
  (m_sol s = [] <-> log_text s = Ok None) /\
  (forall is_, items_of s = Some is_ -> Z.of_nat (length is_) < 2 ^ 990 -> m_sol s <> [] -> empty_strip s -> log_text s = Err ZeroDivisionError).
Proof.
  intros ar [laws vals] env containers items settings width l s H Hl.
  destruct (mhistory_good laws vals _ _ _ _ _ _ _ H Hl) as [I _]. split; [split|].
  - intros E. unfold log_text. rewrite E. reflexivity.
  - intros E. unfold log_text in E. destruct (m_sol s) as [|p q]; [reflexivity|]. destruct (view s) as [x|]; [|discriminate E].
    destruct (true_div _ _); [|discriminate E]. cbn [bind] in E. destruct (containers_lines _ _ _); discriminate E.
  - intros is_ V Hn Hs He. destruct (text_cases s I Hs) as [cs [is' [V1 [V2 D]]]]. rewrite V in V2. injection V2 as <-.
    destruct (D Hn) as [[_ D1]|[D1 _]]; [exact D1|contradiction].
Qed.
Print Assumptions C45_text_otherwise.

(** ** C67: printing in every history *)
Theorem C67_always : forall ar, orderly ar -> forall env containers items settings width l (s : machine ar),
  mhistory env containers items settings width l s -> mwithout_ior l ->
  exists cs is_ tc ti, containers_of s = Some cs /\ items_of s = Some is_ /\
    struct_str s (m_containers s) = Ok tc /\ structure_text "Containers" (negb (m_strip s)) cs tc /\
    struct_str s (m_items s) = Ok ti /\ structure_text "Items" true is_ ti.
Proof.
  intros ar [laws vals] env containers items settings width l s H Hl.
  destruct (mhistory_good laws vals _ _ _ _ _ _ _ H Hl) as [I _]. destruct (inv_view s I) as [cs [is_ [V1 [V2 [V3 [V4 [V5 [V6 V7]]]]]]]].
  destruct (iv_containers s I) as [oc [C1 [C2 _]]]. destruct (iv_items s I) as [oi [I1 [I2 _]]].
  destruct (C67_text s _ oc cs C1 V1 V5) as [tc [T1 T2]]. rewrite C2 in T2.
  destruct (C67_text s _ oi is_ I1 V2 V6) as [ti [T3 T4]]. rewrite I2 in T4.
  exists cs, is_, tc, ti. auto 8.
Qed.
Print Assumptions C67_always.

(** The text determines what is printed, if no identifier has a line break. *)
Lemma concat_cons (a : string) l : String.concat "" (a :: l) = (a ++ String.concat "" l)%string.
Proof. destruct l; cbn; [rewrite sapp_nil_r|]; reflexivity. Qed.

Theorem C67_unambiguous : forall title wl es es' t,
  (forall i c, In (i, c) es -> one_line i) -> (forall i c, In (i, c) es' -> one_line i) ->
  structure_text title wl es t -> structure_text title wl es' t ->
  map fst es = map fst es' /\ map (fun p => dw (snd p)) es = map (fun p => dw (snd p)) es' /\ (wl = true -> es = es').
Proof.
  intros title wl es es' t O O' [ts [F ->]] [ts' [F' E]]. apply sapp_inj in E. revert es' ts' F' E O O'.
  assert (NE : forall p a, entry_text wl p a -> a <> "") by (intros p a [w [l [_ [_ ->]]]]; discriminate).
  induction F as [|p a es ts Hp F IH]; intros es' ts' F' E O O'.
  - destruct F' as [|q b es' ts' Hq F']; [auto|]. rewrite concat_cons in E. exfalso. apply (NE _ _ Hq).
    destruct b; [reflexivity|discriminate E].
  - destruct F' as [|q b es' ts' Hq F'].
    { rewrite concat_cons in E. exfalso. apply (NE _ _ Hp). destruct a; [reflexivity|discriminate E]. }
    rewrite !concat_cons in E. destruct p as [i c], q as [j d].
    destruct (entry_text_split wl (i, c) (j, d) a b _ _ (O i c (or_introl eq_refl)) (O' j d (or_introl eq_refl)) Hp Hq E) as [E1 [E2 [E3 E4]]].
    destruct (IH es' ts' F' E4) as [G1 [G2 G3]]; [intros x y Hin; apply (O x y); right; exact Hin|intros x y Hin; apply (O' x y); right; exact Hin|].
    cbn [fst snd map] in *. subst j. split; [f_equal; exact G1|]. split; [f_equal; [exact E2|exact G2]|].
    intros Hw. rewrite (G3 Hw). specialize (E3 Hw). destruct c, d. cbn in *. subst. reflexivity.
Qed.
Print Assumptions C67_unambiguous.

(** A strip is never printed like containers with lengths. *)
Lemma strip_or_not title es es' t : es <> [] -> es' <> [] ->
  (forall i c, In (i, c) es -> one_line i) -> (forall i c, In (i, c) es' -> one_line i) ->
  structure_text title true es t -> structure_text title false es' t -> False.
Proof.
  intros N N' O O' [ts [F ->]] [ts' [F' E]]. apply sapp_inj in E.
  destruct F as [|[i c] a es ts Hp F]; [congruence|]. destruct F' as [|[j d] b es' ts' Hq F']; [congruence|]. rewrite !concat_cons in E.
  destruct Hp as [w [l [W [L ->]]]]. destruct Hq as [w' [l' [W' [L' ->]]]]. unfold newline in E. cbn [fst snd] in *. rewrite ?sapp_assoc in E.
  cbn [append] in E. injection E as E. apply line_split in E; [|apply (O i c); left; reflexivity|apply (O' j d); left; reflexivity].
  destruct E as [_ E]. cbn [append] in E. injection E as E.
  apply line_split in E; [|eapply side_one_line; eassumption|eapply side_one_line; eassumption]. destruct E as [_ E]. rewrite ?sapp_assoc in E. cbn [append] in E.
  destruct F' as [|q b es'' ts'' Hq F']; [discriminate E|]. rewrite concat_cons in E. destruct Hq as [w2 [l2 [_ [_ ->]]]]. discriminate E.
Qed.

(** Two problems, after any work on them, that print alike show the same items and containers (of
    strips, only the width is printed). *)
Theorem C67_same_text : forall ar, orderly ar ->
  forall env containers items settings width l (s : machine ar) env' containers' items' settings' width' l' (s' : machine ar),
  mhistory env containers items settings width l s -> mwithout_ior l ->
  mhistory env' containers' items' settings' width' l' s' -> mwithout_ior l' ->
  exists cs is_ cs' is', containers_of s = Some cs /\ items_of s = Some is_ /\ containers_of s' = Some cs' /\ items_of s' = Some is' /\
    ((forall i c, In (i, c) is_ -> one_line i) -> (forall i c, In (i, c) is' -> one_line i) ->
     struct_str s (m_items s) = struct_str s' (m_items s') -> is_ = is') /\
    ((forall i c, In (i, c) cs -> one_line i) -> (forall i c, In (i, c) cs' -> one_line i) ->
     struct_str s (m_containers s) = struct_str s' (m_containers s') ->
     m_strip s = m_strip s' /\ map fst cs = map fst cs' /\ map (fun p => dw (snd p)) cs = map (fun p => dw (snd p)) cs' /\
     (m_strip s = false -> cs = cs')).
Proof.
  intros ar o env containers items settings width l s env' containers' items' settings' width' l' s' H Hl H' Hl'.
  pose proof (C32_well_formed_processes_partial ar o _ _ _ _ _ _ _ H Hl) as [cs0 [is0 [A1 [A2 [A3 _]]]]].
  pose proof (C32_well_formed_processes_partial ar o _ _ _ _ _ _ _ H' Hl') as [cs1 [is1 [B1 [B2 [B3 _]]]]].
  destruct (C67_always ar o _ _ _ _ _ _ _ H Hl) as [cs [is_ [tc [ti [V1 [V2 [V3 [V4 [V5 V6]]]]]]]]].
  destruct (C67_always ar o _ _ _ _ _ _ _ H' Hl') as [cs' [is' [tc' [ti' [W1 [W2 [W3 [W4 [W5 W6]]]]]]]]].
  rewrite V1 in A1. injection A1 as <-. rewrite W1 in B1. injection B1 as <-.
  exists cs, is_, cs', is'. repeat (split; [assumption|]). split.
  - intros O O' E. rewrite V5, W5 in E. injection E as <-. destruct (C67_unambiguous _ _ _ _ _ O O' V6 W6) as [_ [_ G]]. auto.
  - intros O O' E. rewrite V3, W3 in E. injection E as <-.
    destruct (m_strip s) eqn:E1, (m_strip s') eqn:E2; cbn [negb] in *.
    + destruct (C67_unambiguous _ _ _ _ _ O O' V4 W4) as [G1 [G2 _]]. repeat (split; [auto|]). discriminate.
    + exfalso. eapply strip_or_not; [exact B3|exact A3|exact O'|exact O|exact W4|exact V4].
    + exfalso. eapply strip_or_not; [exact A3|exact B3|exact O|exact O'|exact V4|exact W4].
    + destruct (C67_unambiguous _ _ _ _ _ O O' V4 W4) as [G1 [G2 G3]]. repeat (split; [auto|]). auto.
Qed.
Print Assumptions C67_same_text.

(** Line breaks in identifiers can make two different problems look alike. *)
Definition forged : string := ("a" ++ newline ++ "    width: 1" ++ newline ++ "    length: 2" ++ newline ++ newline ++ "  - id: b")%string.
Definition one_item : machine qarith :=
  fst (create qarith no_libraries two_containers (VDict [(VStr forged, py_dims KItems 3 4)]) VNone VNone (blank qarith)).
Definition two_items : machine qarith :=
  fst (create qarith no_libraries two_containers (VDict [(VStr "a", py_dims KItems 1 2); (VStr "b", py_dims KItems 3 4)]) VNone VNone (blank qarith)).
Theorem C67_line_breaks :
  created no_libraries two_containers (VDict [(VStr forged, py_dims KItems 3 4)]) VNone VNone one_item /\
  created no_libraries two_containers (VDict [(VStr "a", py_dims KItems 1 2); (VStr "b", py_dims KItems 3 4)]) VNone VNone two_items /\
  struct_str one_item (m_items one_item) = struct_str two_items (m_items two_items) /\
  items_of one_item <> items_of two_items.
Proof.
  split; [apply created_fst; vm_compute; reflexivity|]. split; [apply created_fst; vm_compute; reflexivity|].
  split; [vm_compute; reflexivity|]. vm_compute. discriminate.
Qed.
Print Assumptions C67_line_breaks.

Definition lines (l : list string) : string := String.concat newline l.
Example C67_demo :
  struct_str two_items (m_items two_items) =
    Ok (lines ["Items"; "  - id: a"; "    width: 1"; "    length: 2"; ""; "  - id: b"; "    width: 3"; "    length: 4"; ""]) /\
  struct_str strip (m_containers strip) = Ok (lines ["Containers"; "  - id: strip-pack-container"; "    width: 5"; ""]) /\
  (forall i c, In (i, c) [("a", mkDims 1 2); ("b", mkDims 3 4)] -> one_line i).
Proof.
  split; [vm_compute; reflexivity|]. split; [vm_compute; reflexivity|].
  intros i c [[= <- <-]|[[= <- <-]|[]]]; cbn; intros [H|[]]; discriminate H.
Qed.
Print Assumptions C67_demo.
Example C45_text_otherwise_demo :
  log_text bins = Ok None /\ log_text (after narrow_strip [OpSolve None]) = Err ZeroDivisionError /\
  empty_strip (after narrow_strip [OpSolve None]).
Proof.
  split; [vm_compute; reflexivity|]. split; [vm_compute; reflexivity|].
  split; [vm_compute; reflexivity|]. split; vm_compute; reflexivity.
Qed.
Example C45_text_demo :
  log_text (after bins [OpSolve (Some ["a"; "b"])]) =
    Ok (Some (lines [""; "Solution Log:"; "Percent total items stored : 66.6667%"; "Container: C1 4x4"; (tab ++ "[util%] : 62.5000%")%string;
                     "Container: C2 5x3"; (tab ++ "[util%] : 0.0000%")%string; ""; "Remaining items : ['c']"])) /\
  m_sol (after bins [OpSolve (Some ["a"; "b"])]) <> [] /\ ~ empty_strip (after bins [OpSolve (Some ["a"; "b"])]).
Proof.
  split; [vm_compute; reflexivity|]. split; [vm_compute; discriminate|]. intros [H _]. vm_compute in H. discriminate H.
Qed.
Print Assumptions C45_text_demo.
