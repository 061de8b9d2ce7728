(** * C47: generate_problem_data. *)
From Coq Require Import ZArith String List Bool Lia SpecFloat Floats.
From Verif Require Import Py Arith Construct Spec LocalSearch Values ProofsVal Settings Instance SpecInstance SpecSettings
  ProofsVersions ProofsHistory ProofsAccept PropertiesStructures PropertiesHistory Utils ProofsUtils.
Import ListNotations.
Open Scope string_scope.
Open Scope list_scope.
Open Scope Z_scope.

(** ** Vocabulary *)

(** Positive parameters (or their defaults). *)
Definition positive_parameters (kw : kwargs) : Prop :=
  1 <= containers_num kw /\ 1 <= containers_length kw /\ 1 <= containers_width kw /\
  1 <= items_num kw /\ 1 <= items_length kw /\ 1 <= items_width kw.

(** Sizes for which multiplying by the doubles 0.1 and 0.6 and rounding gives the exact tenth and six
    tenths rounded. The numbers of containers and items are not bounded. *)
Definition moderate_parameters (kw : kwargs) : Prop :=
  containers_length kw <= 2 ^ 48 /\ containers_width kw <= 2 ^ 48 /\ items_length kw <= 2 ^ 48 /\ items_width kw <= 2 ^ 48.

(** [HyperPack(containers, items)] succeeds with the generated data. *)
Definition accepted (ar : arith) (env : environment) (data : result (pyval * pyval)) : Prop :=
  exists containers items (s : machine ar), data = Ok (containers, items) /\
    created env containers items VNone VNone s.

(** ** Lemmas *)

(** The generator with exact products. *)
Definition generate_exact (kw : kwargs) (u v : nat -> Z) : result (pyval * pyval) :=
  let cw := containers_width kw in
  let deviation_W := round_div cw 10 in
  let cl := containers_length kw in
  let deviation_H := round_div cl 10 in
  bind (draw_entries "container-" "W" "L" (cw - deviation_W) (cw + deviation_W) (cl - deviation_H) (cl + deviation_H)
                     u 0 (Z.to_nat (containers_num kw))) (fun containers =>
  let iw := items_width kw in
  let deviation_w := Z.max (round_div (6 * items_length kw) 10) 1 in
  let deviation_h := Z.max (round_div (6 * iw) 10) 1 in
  bind (draw_entries "item-" "w" "l" (iw - deviation_w) (iw + deviation_w) (iw - deviation_h) (iw + deviation_h)
                     v 0 (Z.to_nat (items_num kw * containers_num kw))) (fun items =>
  Ok (VDict containers, VDict items))).
Lemma generate_eq kw u v : positive_parameters kw -> moderate_parameters kw -> generate kw u v = generate_exact kw u v.
Proof.
  intros [P1 [P2 [P3 [P4 [P5 P6]]]]] [M1 [M2 [M3 M4]]]. unfold generate, generate_exact. cbv zeta.
  rewrite !round_tenth, !round_six by lia. reflexivity.
Qed.

Lemma round_div_spec a b : 0 < b -> 2 * a - b <= 2 * b * round_div a b <= 2 * a + b.
Proof.
  intros Hb. unfold round_div. pose proof (Z.div_mod a b ltac:(lia)) as E. pose proof (Z.mod_pos_bound a b Hb) as B.
  set (q := a / b) in *. set (r := a mod b) in *. clearbody q r. subst a.
  destruct (Z.ltb_spec (2 * r) b); [nia|]. destruct (Z.ltb_spec b (2 * r)); [nia|]. destruct (Z.even q); nia.
Qed.

Lemma randint_ok u lo hi : lo <= hi -> exists z, randint u lo hi = Ok z /\ lo <= z <= hi.
Proof.
  intros H. unfold randint. destruct (Z.ltb_spec hi lo); [lia|]. eexists. split; [reflexivity|].
  pose proof (Z.mod_pos_bound u (hi - lo + 1)). lia.
Qed.
Lemma randint_any lo hi z : lo <= z <= hi -> randint (z - lo) lo hi = Ok z.
Proof.
  intros H. unfold randint. destruct (Z.ltb_spec hi lo); [lia|]. f_equal. rewrite Z.mod_small; lia.
Qed.

Lemma append_inj_r a b c : (a ++ b = a ++ c)%string -> b = c.
Proof. induction a as [|x a IH]; cbn; [auto|]. intros [= H]. auto. Qed.
Lemma numbered_inj prefix a b : numbered prefix a = numbered prefix b -> a = b.
Proof. unfold numbered. intros H. apply append_inj_r in H. apply dec_inj. exact H. Qed.

Lemma draw_entries_spec prefix wk lk wlo whi llo lhi u count : wlo <= whi -> llo <= lhi -> forall n,
  exists l entries, draw_entries prefix wk lk wlo whi llo lhi u n count = Ok l /\
    map fst l = map (fun i => VStr (numbered prefix i)) (seq n count) /\
    Forall2 (fun p q => fst p = VStr (fst q) /\ snd p = VDict [(VStr wk, VInt (dw (snd q))); (VStr lk, VInt (dl (snd q)))] /\
                        wlo <= dw (snd q) <= whi /\ llo <= dl (snd q) <= lhi) l entries /\
    dkeys entries = map (numbered prefix) (seq n count).
Proof.
  intros Hw Hl. induction count as [|count IH]; intros n; [exists [], []; repeat (split; [constructor|]); constructor|].
  destruct (randint_ok (u (2 * n)%nat) wlo whi Hw) as [w [E1 B1]]. destruct (randint_ok (u (2 * n + 1)%nat) llo lhi Hl) as [h [E2 B2]].
  destruct (IH (S n)) as [l [entries [E3 [E4 [E5 E6]]]]]. cbn [draw_entries]. rewrite E1. cbn [bind]. rewrite E2. cbn [bind]. rewrite E3.
  cbn [bind]. eexists. exists ((numbered prefix n, mkDims w h) :: entries). split; [reflexivity|]. cbn [map fst seq dkeys]. rewrite E4.
  split; [reflexivity|]. split; [constructor; [cbn; auto|assumption]|]. f_equal. exact E6.
Qed.

Lemma distinct_numbered prefix l : forall n count, map fst l = map (fun i => VStr (numbered prefix i)) (seq n count) -> distinct_keys l.
Proof.
  unfold distinct_keys. induction l as [|p l IH]; intros n count H; [constructor|]. destruct count as [|count]; [discriminate|].
  cbn in H. injection H as H1 H2. constructor; [|eapply IH; exact H2].
  apply Forall_forall. intros q Hq. assert (K : In (fst q) (map fst l)) by (apply in_map; assumption). rewrite H2 in K.
  apply in_map_iff in K. destruct K as [i [<- Ki]]. apply in_seq in Ki. rewrite H1. cbn. apply String.eqb_neq. intros E. apply numbered_inj in E. lia.
Qed.

Definition rectangle (k : kind) (d : dims) : pyval := VDict [(VStr (wkey k), VInt (dw d)); (VStr (lkey k), VInt (dl d))].

Lemma genuine_drawn k prefix l entries n count :
  map fst l = map (fun i => VStr (numbered prefix i)) (seq n count) ->
  Forall2 (fun p q => fst p = VStr (fst q) /\ snd p = rectangle k (snd q)) l entries -> genuine (VDict l).
Proof.
  intros H1 H2 l' [= <-]. split; [eapply distinct_numbered; exact H1|].
  intros id w Hin. assert (K : exists d, w = rectangle k d).
  { clear H1. induction H2 as [|p q l entries [G1 G2] F IH]; [contradiction|]. destruct Hin as [->|Hin]; [cbn in G2; eauto|auto]. }
  destruct K as [d ->]. intros d' [= <-]. constructor; [constructor; [destruct k; reflexivity|constructor]|]. constructor; [constructor|constructor].
Qed.

Lemma structure_drawn k l (entries : odict dims) : l <> [] ->
  Forall2 (fun p q => fst p = VStr (fst q) /\ snd p = rectangle k (snd q)) l entries ->
  (forall i d, In (i, d) entries -> 0 < dw d /\ 0 < dl d) -> structure_value k (VDict l) entries.
Proof.
  intros Hne H Hp. exists l. split; [reflexivity|]. split; [assumption|]. clear Hne.
  induction H as [|p [i d] l entries [G1 G2] F IH]; [constructor|]. constructor; [|apply IH; intros; eapply Hp; right; eassumption].
  split; [assumption|]. destruct (Hp i d (or_introl eq_refl)) as [P1 P2]. exists (VInt (dw d)), (VInt (dl d)).
  split; [split; [left; reflexivity|assumption]|]. split; [split; [left; reflexivity|assumption]|]. left. exact G2.
Qed.

Lemma drawn_positive k l (entries : odict dims) other : Forall2 (fun p q => fst p = VStr (fst q) /\ snd p = rectangle k (snd q)) l entries ->
  structure_value k (VDict l) other -> forall i d, In (i, d) entries -> 0 < dw d /\ 0 < dl d.
Proof.
  intros H [l' [[= <-] [_ S]]]. revert other S. induction H as [|p [i0 d0] l entries [G1 G2] F IH]; intros other S i d Hin; [contradiction|].
  inversion S as [|p' q' l' o' [S1 S2] S3]; subst. destruct Hin as [[= -> ->]|Hin]; [|eapply IH; eassumption].
  destruct S2 as [a [b [A [B C]]]]. rewrite G2 in C. unfold rectangle in C. cbn [snd] in C.
  assert (P : forall z v, positive_int v z -> forall z', v = VInt z' -> 0 < z').
  { intros z v [[->|[-> _]] Hz] z' E; [injection E as <-; assumption|discriminate E]. }
  destruct C as [C|C]; injection C; intros; subst.
  - split; [eapply P; [exact A|reflexivity]|eapply P; [exact B|reflexivity]].
  - destruct k; discriminate.
Qed.

(** What is generated. *)
Definition deviation_within (centre bound z : Z) : Prop := 10 * Z.abs (z - centre) <= bound.

Lemma generate_cases kw u v : positive_parameters kw -> moderate_parameters kw -> exists c i cs is_,
  generate kw u v = Ok (VDict c, VDict i) /\ genuine (VDict c) /\ genuine (VDict i) /\
  Forall2 (fun p q => fst p = VStr (fst q) /\ snd p = rectangle KContainers (snd q)) c cs /\
  Forall2 (fun p q => fst p = VStr (fst q) /\ snd p = rectangle KItems (snd q)) i is_ /\
  dkeys cs = map (numbered "container-") (seq 0 (Z.to_nat (containers_num kw))) /\
  dkeys is_ = map (numbered "item-") (seq 0 (Z.to_nat (items_num kw * containers_num kw))) /\
  (forall k d, In (k, d) cs ->
     deviation_within (containers_width kw) (containers_width kw + 5) (dw d) /\
     deviation_within (containers_length kw) (containers_length kw + 5) (dl d)) /\
  (forall k d, In (k, d) is_ ->
     Z.abs (dw d - items_width kw) <= Z.max (round_div (6 * items_length kw) 10) 1 /\
     Z.abs (dl d - items_width kw) <= Z.max (round_div (6 * items_width kw) 10) 1).
Proof.
  intros P0 M0. rewrite (generate_eq kw u v P0 M0). destruct P0 as [P1 [P2 [P3 [P4 [P5 P6]]]]]. unfold generate_exact. cbv zeta.
  pose proof (round_div_spec (containers_width kw) 10 ltac:(lia)) as R1.
  pose proof (round_div_spec (containers_length kw) 10 ltac:(lia)) as R2.
  set (dW := round_div (containers_width kw) 10) in *. set (dH := round_div (containers_length kw) 10) in *.
  set (dw_ := Z.max (round_div (6 * items_length kw) 10) 1). set (dh := Z.max (round_div (6 * items_width kw) 10) 1).
  destruct (draw_entries_spec "container-" "W" "L" (containers_width kw - dW) (containers_width kw + dW) (containers_length kw - dH)
              (containers_length kw + dH) u (Z.to_nat (containers_num kw)) ltac:(lia) ltac:(lia) 0) as [c [cs [E1 [E2 [E3 E4]]]]].
  destruct (draw_entries_spec "item-" "w" "l" (items_width kw - dw_) (items_width kw + dw_) (items_width kw - dh)
              (items_width kw + dh) v (Z.to_nat (items_num kw * containers_num kw)) ltac:(lia) ltac:(lia) 0) as [i [is_ [F1 [F2 [F3 F4]]]]].
  exists c, i, cs, is_. rewrite E1. cbn [bind]. rewrite F1. split; [reflexivity|].
  assert (E5 : Forall2 (fun p q => fst p = VStr (fst q) /\ snd p = rectangle KContainers (snd q)) c cs).
  { clear - E3. induction E3 as [|p q c cs H T IH]; [constructor|]. constructor; [split; apply H|assumption]. }
  assert (F5 : Forall2 (fun p q => fst p = VStr (fst q) /\ snd p = rectangle KItems (snd q)) i is_).
  { clear - F3. induction F3 as [|p q c cs H T IH]; [constructor|]. constructor; [split; apply H|assumption]. }
  split; [eapply genuine_drawn; eassumption|]. split; [eapply genuine_drawn; eassumption|]. split; [assumption|]. split; [assumption|].
  split; [assumption|]. split; [assumption|]. split.
  - intros k d Hin. clear - E3 Hin R1 R2. induction E3 as [|p q c cs H T IH]; [contradiction|]. destruct Hin as [->|Hin]; [|auto].
    cbn [snd] in H. unfold deviation_within. lia.
  - intros k d Hin. clear - F3 Hin. induction F3 as [|p q c cs H T IH]; [contradiction|]. destruct Hin as [->|Hin]; [|auto].
    cbn [snd] in H. lia.
Qed.

Lemma Forall2_head {A B} (P : A -> B -> Prop) a b l l' : Forall2 P (a :: l) (b :: l') -> P a b.
Proof. intros H. inversion H. assumption. Qed.

Lemma default_settings env : exists c, new_settings env VNone = (c, Ok tt).
Proof. eexists. unfold new_settings. vm_compute. reflexivity. Qed.

Lemma accepted_iff ar env kw u v : positive_parameters kw -> moderate_parameters kw ->
  (accepted ar env (generate kw u v) <->
   exists i is_, (exists c, generate kw u v = Ok (c, VDict i)) /\
     Forall2 (fun p q => fst p = VStr (fst q) /\ snd p = rectangle KItems (snd q)) i is_ /\
     forall k d, In (k, d) is_ -> 0 < dw d /\ 0 < dl d).
Proof.
  intros P M. pose proof P as [P1 [P2 [P3 [P4 [P5 P6]]]]].
  destruct (generate_cases kw u v P M) as [c [i [cs [is_ [E [Gc [Gi [Fc [Fi [Kc [Ki [Dc Di]]]]]]]]]]]].
  assert (Sc : structure_value KContainers (VDict c) cs).
  { apply structure_drawn; [|assumption|].
    - intros ->. inversion Fc; subst. destruct (Z.to_nat (containers_num kw)) eqn:En; [lia|discriminate Kc].
    - intros k d Hin. destruct (Dc k d Hin) as [D1 D2]. unfold deviation_within in *. lia. }
  assert (Ni : i <> []).
  { intros ->. inversion Fi; subst. assert (1 <= items_num kw * containers_num kw) by nia.
    destruct (Z.to_nat (items_num kw * containers_num kw)) eqn:En; [lia|discriminate Ki]. }
  destruct (C31_constructor ar env (VDict c) (VDict i) VNone VNone Gc Gi) as [C _]. split.
  - intros [c' [i' [s [E' H]]]]. rewrite E in E'. injection E' as <- <-. exists i, is_. split; [eauto|]. split; [assumption|].
    destruct (proj1 C (ex_intro _ s H)) as [_ [o [_ [_ [So _]]]]]. eapply drawn_positive; eassumption.
  - intros [i' [o [[c' E'] [F' Hp]]]]. rewrite E in E'. injection E' as <- <-.
    destruct (default_settings env) as [cf Hcf].
    destruct (proj2 C) as [s Hs]; [|exists (VDict c), (VDict i), s; auto].
    exists cs, o, cf. split; [left; auto|]. split; [apply structure_drawn; assumption|assumption].
Qed.

(** ** C47 *)

(** Accepted whatever is drawn, for items that are not too narrow. *)
Theorem C47_accepted_partial : forall ar env kw, positive_parameters kw -> moderate_parameters kw ->
  2 <= items_width kw -> 6 * items_length kw + 5 < 10 * items_width kw ->
  forall u v, accepted ar env (generate kw u v).
Proof.
  intros ar env kw P M H1 H2 u v. apply accepted_iff; [assumption|assumption|].
  destruct (generate_cases kw u v P M) as [c [i [cs [is_ [E [Gc [Gi [Fc [Fi [Kc [Ki [Dc Di]]]]]]]]]]]].
  exists i, is_. split; [eauto|]. split; [assumption|]. intros k d Hin. destruct (Di k d Hin) as [D1 D2].
  pose proof (round_div_spec (6 * items_length kw) 10 ltac:(lia)). pose proof (round_div_spec (6 * items_width kw) 10 ltac:(lia)). lia.
Qed.
Print Assumptions C47_accepted_partial.

(** In particular with the default parameters. *)
Theorem C47_defaults_accepted : forall ar env kw, positive_parameters kw -> moderate_parameters kw ->
  kw_items_width kw = None -> kw_items_length kw = None -> forall u v, accepted ar env (generate kw u v).
Proof.
  intros ar env kw P M H1 H2. apply C47_accepted_partial; [assumption|assumption|..]; unfold items_width, items_length; rewrite ?H1, ?H2; cbn; lia.
Qed.
Print Assumptions C47_defaults_accepted.

(** The condition is exact: otherwise some draws give an item that is rejected. *)
Theorem C47_accepted_exactly : forall ar env kw, positive_parameters kw -> moderate_parameters kw ->
  ((forall u v, accepted ar env (generate kw u v)) <->
   2 <= items_width kw /\ 6 * items_length kw + 5 < 10 * items_width kw).
Proof.
  intros ar env kw P M. split; [|intros [H1 H2]; apply C47_accepted_partial; assumption].
  intros H. specialize (H (fun _ => 0) (fun _ => 0)). apply accepted_iff in H; [|assumption|assumption].
  destruct H as [i [is_ [[c E] [F Hp]]]]. pose proof P as [P1 [P2 [P3 [P4 [P5 P6]]]]].
  rewrite (generate_eq kw _ _ P M) in E. unfold generate_exact in E. cbv zeta in E.
  match type of E with bind ?a _ = _ => destruct a as [l|]; [|discriminate E] end. cbn [bind] in E.
  assert (N : 1 <= items_num kw * containers_num kw) by nia.
  destruct (Z.to_nat (items_num kw * containers_num kw)) as [|n] eqn:En; [lia|]. cbn [draw_entries] in E.
  set (a := Z.max (round_div (6 * items_length kw) 10) 1) in *. set (b := Z.max (round_div (6 * items_width kw) 10) 1) in *.
  assert (RA : randint 0 (items_width kw - a) (items_width kw + a) = Ok (items_width kw - a)).
  { unfold randint. destruct (Z.ltb_spec (items_width kw + a) (items_width kw - a)); [lia|]. rewrite Z.mod_0_l by lia. f_equal. lia. }
  assert (RB : randint 0 (items_width kw - b) (items_width kw + b) = Ok (items_width kw - b)).
  { unfold randint. destruct (Z.ltb_spec (items_width kw + b) (items_width kw - b)); [lia|]. rewrite Z.mod_0_l by lia. f_equal. lia. }
  rewrite RA in E. cbn [bind] in E. rewrite RB in E. cbn [bind] in E.
  match type of E with bind (bind ?r _) _ = _ => destruct r as [rest|]; [|discriminate E] end. cbn [bind] in E. injection E as <- <-.
  destruct is_ as [|[k d] is_]; [inversion F|].
  assert (G2 := Forall2_head _ _ _ _ _ F). destruct G2 as [_ G2]. cbn [snd] in G2. injection G2 as Ga Gb.
  destruct (Hp k d (or_introl eq_refl)) as [Q1 Q2].
  pose proof (round_div_spec (6 * items_length kw) 10 ltac:(lia)). pose proof (round_div_spec (6 * items_width kw) 10 ltac:(lia)). lia.
Qed.
Print Assumptions C47_accepted_exactly.

(** What is generated: numbered ids, as many as asked for, in ranges around the averages. The
    lengths of the items spread around the average width: [items_length] has no part in it. *)
Theorem C47_generated : forall kw u v, positive_parameters kw -> moderate_parameters kw -> exists c i cs is_,
  generate kw u v = Ok (VDict c, VDict i) /\
  Forall2 (fun p q => fst p = VStr (fst q) /\ snd p = rectangle KContainers (snd q)) c cs /\
  Forall2 (fun p q => fst p = VStr (fst q) /\ snd p = rectangle KItems (snd q)) i is_ /\
  Z.of_nat (length cs) = containers_num kw /\ NoDup (dkeys cs) /\
  Z.of_nat (length is_) = items_num kw * containers_num kw /\ NoDup (dkeys is_) /\
  (forall k d, In (k, d) cs -> deviation_within (containers_width kw) (containers_width kw + 5) (dw d) /\
                               deviation_within (containers_length kw) (containers_length kw + 5) (dl d)) /\
  (forall k d, In (k, d) is_ -> deviation_within (items_width kw) (Z.max (6 * items_length kw + 5) 10) (dw d) /\
                                deviation_within (items_width kw) (Z.max (6 * items_width kw + 5) 10) (dl d)).
Proof.
  intros kw u v P M. destruct (generate_cases kw u v P M) as [c [i [cs [is_ [E [Gc [Gi [Fc [Fi [Kc [Ki [Dc Di]]]]]]]]]]]].
  destruct P as [P1 [P2 [P3 [P4 [P5 P6]]]]].
  assert (ND : forall prefix n, NoDup (map (numbered prefix) (seq 0 n))).
  { intros prefix n. apply FinFun.Injective_map_NoDup; [intros a b; apply numbered_inj|apply seq_NoDup]. }
  assert (LN : forall (d : odict dims) prefix n, dkeys d = map (numbered prefix) (seq 0 n) -> length d = n).
  { intros d prefix n H. apply (f_equal (@length _)) in H. unfold dkeys in H. rewrite !map_length, seq_length in H. assumption. }
  exists c, i, cs, is_. split; [assumption|]. split; [assumption|]. split; [assumption|].
  split; [rewrite (LN _ _ _ Kc); lia|]. split; [rewrite Kc; apply ND|]. split; [rewrite (LN _ _ _ Ki); nia|]. split; [rewrite Ki; apply ND|].
  split; [assumption|]. intros k d Hin. destruct (Di k d Hin) as [D1 D2]. unfold deviation_within.
  pose proof (round_div_spec (6 * items_length kw) 10 ltac:(lia)). pose proof (round_div_spec (6 * items_width kw) 10 ltac:(lia)). lia.
Qed.
Print Assumptions C47_generated.

(** The exact ranges: a tenth of the average for the containers; for the items six tenths of
    [items_length] around the average width, and of the width itself for the lengths. *)
Theorem C47_ranges : forall kw u v, positive_parameters kw -> moderate_parameters kw -> forall c i, generate kw u v = Ok (VDict c, VDict i) ->
  forall a b p q, nearest (containers_width kw) 10 a -> nearest (containers_length kw) 10 b ->
  nearest (6 * items_length kw) 10 p -> nearest (6 * items_width kw) 10 q ->
  (forall k x, In (k, x) c -> exists d, x = rectangle KContainers d /\
     Z.abs (dw d - containers_width kw) <= a /\ Z.abs (dl d - containers_length kw) <= b) /\
  (forall k x, In (k, x) i -> exists d, x = rectangle KItems d /\
     Z.abs (dw d - items_width kw) <= Z.max p 1 /\ Z.abs (dl d - items_width kw) <= Z.max q 1).
Proof.
  intros kw u v P M c i G a b p q Ha Hb Hp Hq. rewrite (generate_eq kw u v P M) in G. destruct P as [P1 [P2 [P3 [P4 [P5 P6]]]]].
  assert (T : 0 < 10) by lia.
  pose proof (nearest_unique _ _ _ _ T Ha (round_div_nearest _ _ T)) as ->. pose proof (nearest_unique _ _ _ _ T Hb (round_div_nearest _ _ T)) as ->.
  pose proof (nearest_unique _ _ _ _ T Hp (round_div_nearest _ _ T)) as ->. pose proof (nearest_unique _ _ _ _ T Hq (round_div_nearest _ _ T)) as ->.
  unfold generate_exact in G. cbv zeta in G.
  pose proof (round_div_spec (containers_width kw) 10 T) as R1. pose proof (round_div_spec (containers_length kw) 10 T) as R2.
  set (dW := round_div (containers_width kw) 10) in *. set (dH := round_div (containers_length kw) 10) in *.
  set (dw_ := Z.max (round_div (6 * items_length kw) 10) 1) in *. set (dh := Z.max (round_div (6 * items_width kw) 10) 1) in *.
  destruct (draw_entries_spec "container-" "W" "L" (containers_width kw - dW) (containers_width kw + dW) (containers_length kw - dH)
              (containers_length kw + dH) u (Z.to_nat (containers_num kw)) ltac:(lia) ltac:(lia) 0) as [c' [cs [E1 [E2 [E3 E4]]]]].
  destruct (draw_entries_spec "item-" "w" "l" (items_width kw - dw_) (items_width kw + dw_) (items_width kw - dh)
              (items_width kw + dh) v (Z.to_nat (items_num kw * containers_num kw)) ltac:(lia) ltac:(lia) 0) as [i' [is_ [F1 [F2 [F3 F4]]]]].
  rewrite E1 in G. cbn [bind] in G. rewrite F1 in G. cbn [bind] in G. injection G as <- <-. split; intros k x Hin.
  - clear - E3 Hin. induction E3 as [|y z c cs H _ IH]; [contradiction|]. destruct Hin as [->|Hin]; [|auto]. exists (snd z). split; [apply H|lia].
  - clear - F3 Hin. induction F3 as [|y z c cs H _ IH]; [contradiction|]. destruct Hin as [->|Hin]; [|auto]. exists (snd z). split; [apply H|lia].
Qed.
Print Assumptions C47_ranges.
(** 25 / 10 is rounded to 2: widths from 23 to 27. *)
Example C47_ranges_demo : nearest 25 10 2 /\ nearest 35 10 4 /\
  generate (mkKw (Some 2) (Some 35) (Some 25) (Some 1) None None) (fun n => match n with 0%nat | 1%nat => 0 | 2%nat => 4 | _ => 8 end) (fun _ => 0) =
    Ok (VDict [(VStr "container-0", rectangle KContainers (mkDims 23 31)); (VStr "container-1", rectangle KContainers (mkDims 27 39))],
        VDict [(VStr "item-0", rectangle KItems (mkDims 3 2)); (VStr "item-1", rectangle KItems (mkDims 3 2))]).
Proof. split; [split; [cbn; lia|reflexivity]|]. split; [split; [cbn; lia|reflexivity]|]. vm_compute. reflexivity. Qed.

(** Every rectangle of the documented kind can be drawn; concretely [items_width=1], and
    [items_length=10] with the default width, may give items that HyperPack rejects. *)
Definition narrow : kwargs := mkKw None None None (Some 1) None (Some 1).
Definition long : kwargs := mkKw None None None (Some 1) (Some 10) None.
Theorem C47_refuted :
  positive_parameters narrow /\ moderate_parameters narrow /\ positive_parameters long /\ moderate_parameters long /\
  generate narrow (fun _ => 0) (fun _ => 0) =
    Ok (VDict [(VStr "container-0", rectangle KContainers (mkDims 45 45))], VDict [(VStr "item-0", rectangle KItems (mkDims (-1) 0))]) /\
  generate long (fun _ => 0) (fun _ => 0) =
    Ok (VDict [(VStr "container-0", rectangle KContainers (mkDims 45 45))], VDict [(VStr "item-0", rectangle KItems (mkDims (-1) 2))]) /\
  snd (create qarith no_libraries (VDict [(VStr "container-0", rectangle KContainers (mkDims 45 45))])
         (VDict [(VStr "item-0", rectangle KItems (mkDims (-1) 2))]) VNone VNone (blank qarith)) = Err (DimensionsError D_VALUE).
Proof.
  refine (conj _ (conj _ (conj _ (conj _ (conj _ (conj _ _)))))); try (vm_compute; reflexivity);
    unfold positive_parameters, moderate_parameters, containers_num, containers_length, containers_width, items_num, items_length, items_width; cbn; lia.
Qed.
Print Assumptions C47_refuted.

Example C47_witness :
  positive_parameters (mkKw (Some 2) None (Some 7) (Some 1) (Some 5) (Some 4)) /\
  moderate_parameters (mkKw (Some 2) None (Some 7) (Some 1) (Some 5) (Some 4)) /\
  generate (mkKw (Some 2) None (Some 7) (Some 1) (Some 5) (Some 4)) (fun n => Z.of_nat n) (fun n => Z.of_nat (3 * n)) =
    Ok (VDict [(VStr "container-0", rectangle KContainers (mkDims 6 46)); (VStr "container-1", rectangle KContainers (mkDims 8 48))],
        VDict [(VStr "item-0", rectangle KItems (mkDims 1 5)); (VStr "item-1", rectangle KItems (mkDims 7 6))]).
Proof.
  do 2 (split; [unfold positive_parameters, moderate_parameters, containers_num, containers_length, containers_width, items_num, items_length, items_width; cbn; lia|]).
  vm_compute. reflexivity.
Qed.
Print Assumptions C47_witness.

(** Outside the moderate sizes: an average that no double is near to raises OverflowError, and just
    above 2^53 the average is first rounded to a double, so that six tenths of it come out one less. *)
Definition enormous : kwargs := mkKw None None (Some (2 ^ 1024)) None None None.
Theorem C47_huge_refuted :
  positive_parameters enormous /\ (forall u v, generate enormous u v = Err OverflowError) /\
  tenth = Prim2SF 0.1%float /\ six_tenths = Prim2SF 0.6%float /\
  round_times (2 ^ 53 + 1) six_tenths = Ok (round_div (6 * (2 ^ 53 + 1)) 10 - 1).
Proof.
  split; [unfold positive_parameters, containers_num, containers_length, containers_width, items_num, items_length, items_width, enormous; cbn; lia|].
  split; [intros u v; unfold generate; vm_compute; reflexivity|]. vm_compute. auto.
Qed.
Print Assumptions C47_huge_refuted.

(** ** C60: positive parameters of any size *)

(** At most [tenths] tenths of [size], rounded: half a unit more, and a relative error below
    [10 / 2^50]. *)
Definition near (tenths size centre z : Z) : Prop :=
  2 ^ 50 * (10 * Z.abs (z - centre) - tenths * size - 5) <= 10 * size.

(** An integer too large for a double: 2^1024 - 2^970 and more. *)
Definition some_size_too_large (kw : kwargs) : Prop :=
  too_large (containers_width kw) \/ too_large (containers_length kw) \/ too_large (items_length kw) \/ too_large (items_width kw).

Theorem C60_any_size : forall kw u v, positive_parameters kw ->
  (some_size_too_large kw /\ generate kw u v = Err OverflowError) \/
  (~ some_size_too_large kw /\ exists c i cs is_,
  generate kw u v = Ok (VDict c, VDict i) /\
  Forall2 (fun p q => fst p = VStr (fst q) /\ snd p = rectangle KContainers (snd q)) c cs /\
  Forall2 (fun p q => fst p = VStr (fst q) /\ snd p = rectangle KItems (snd q)) i is_ /\
  Z.of_nat (length cs) = containers_num kw /\ NoDup (dkeys cs) /\
  Z.of_nat (length is_) = items_num kw * containers_num kw /\ NoDup (dkeys is_) /\
  (forall k d, In (k, d) cs -> near 1 (containers_width kw) (containers_width kw) (dw d) /\
                               near 1 (containers_length kw) (containers_length kw) (dl d)) /\
  (forall k d, In (k, d) is_ ->
     (Z.abs (dw d - items_width kw) <= 1 \/ near 6 (items_length kw) (items_width kw) (dw d)) /\
     (Z.abs (dl d - items_width kw) <= 1 \/ near 6 (items_width kw) (items_width kw) (dl d)))).
Proof.
  intros kw u v [P1 [P2 [P3 [P4 [P5 P6]]]]]. unfold generate. cbv zeta.
  destruct (round_tenth_any (containers_width kw) P3) as [[T ->]|[T1 [dW [-> [A1 B1]]]]]; [left; split; [left; exact T|reflexivity]|].
  cbn [bind].
  destruct (round_tenth_any (containers_length kw) P2) as [[T ->]|[T2 [dH [-> [A2 B2]]]]]; [left; split; [right; left; exact T|reflexivity]|].
  cbn [bind].
  destruct (draw_entries_spec "container-" "W" "L" (containers_width kw - dW) (containers_width kw + dW) (containers_length kw - dH)
              (containers_length kw + dH) u (Z.to_nat (containers_num kw)) ltac:(lia) ltac:(lia) 0) as [c [cs [E1 [E2 [E3 E4]]]]].
  rewrite E1. cbn [bind].
  destruct (round_six_any (items_length kw) P5) as [[T ->]|[T3 [rw [-> [A3 B3]]]]]; [left; split; [right; right; left; exact T|reflexivity]|].
  cbn [bind].
  destruct (round_six_any (items_width kw) P6) as [[T ->]|[T4 [rh [-> [A4 B4]]]]]; [left; split; [right; right; right; exact T|reflexivity]|].
  cbn [bind]. set (dw_ := Z.max rw 1). set (dh := Z.max rh 1).
  destruct (draw_entries_spec "item-" "w" "l" (items_width kw - dw_) (items_width kw + dw_) (items_width kw - dh)
              (items_width kw + dh) v (Z.to_nat (items_num kw * containers_num kw)) ltac:(lia) ltac:(lia) 0) as [i [is_ [F1 [F2 [F3 F4]]]]].
  rewrite F1. cbn [bind]. right. split; [unfold some_size_too_large; tauto|].
  assert (ND : forall prefix n, NoDup (map (numbered prefix) (seq 0 n))).
  { intros prefix n. apply FinFun.Injective_map_NoDup; [intros a b; apply numbered_inj|apply seq_NoDup]. }
  assert (LN : forall (d : odict dims) prefix n, dkeys d = map (numbered prefix) (seq 0 n) -> length d = n).
  { intros d prefix n H. apply (f_equal (@length _)) in H. unfold dkeys in H. rewrite !map_length, seq_length in H. assumption. }
  exists c, i, cs, is_. split; [reflexivity|].
  split; [clear - E3; induction E3 as [|p q c cs H T IH]; [constructor|]; constructor; [split; apply H|assumption]|].
  split; [clear - F3; induction F3 as [|p q c cs H T IH]; [constructor|]; constructor; [split; apply H|assumption]|].
  split; [rewrite (LN _ _ _ E4); lia|]. split; [rewrite E4; apply ND|]. split; [rewrite (LN _ _ _ F4); nia|]. split; [rewrite F4; apply ND|].
  split; intros k d Hin.
  - clear - E3 Hin A1 B1 A2 B2. induction E3 as [|p q c cs H T IH]; [contradiction|]. destruct Hin as [->|Hin]; [|auto].
    cbn [snd] in H. unfold near. lia.
  - clear - F3 Hin A3 B3 A4 B4. induction F3 as [|p q c cs H T IH]; [contradiction|]. destruct Hin as [->|Hin]; [|auto].
    cbn [snd] in H. unfold near. lia.
Qed.
Print Assumptions C60_any_size.
Example C60_any_size_demo : let kw := mkKw None None (Some (2 ^ 53 + 1)) (Some 1) None None in
  positive_parameters kw /\ ~ some_size_too_large kw /\
  generate kw (fun _ => 0) (fun _ => 0) =
    Ok (VDict [(VStr "container-0", rectangle KContainers (mkDims 8106479329266894 45))], VDict [(VStr "item-0", rectangle KItems (mkDims 3 2))]) /\
  near 1 (2 ^ 53 + 1) (2 ^ 53 + 1) 8106479329266894 /\ ~ near 1 (2 ^ 53 + 1) (2 ^ 53 + 1) 8106479329266800.
Proof.
  cbv zeta. split; [unfold positive_parameters, containers_num, containers_length, containers_width, items_num, items_length, items_width; cbn; lia|].
  split; [intros [H|[H|[H|H]]]; apply H; vm_compute; reflexivity|].
  split; [vm_compute; reflexivity|]. unfold near. split; [vm_compute; discriminate|]. intros H. apply H. vm_compute. reflexivity.
Qed.
