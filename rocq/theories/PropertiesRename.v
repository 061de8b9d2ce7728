(** * C77: the result depends on the dimensions and their order, not on the ids. *)
From Coq Require Import ZArith String List Bool Lia QArith FinFun.
From Verif Require Import Py ProofsPy Arith Construct Spec LocalSearch SpecSearch ItemsManip HyperSearch
  ProofsHyper PropertiesSolve PropertiesSearch PropertiesHyper PropertiesLonger FloatArith FloatLaws
  ProofsAgain ProofsRename.
Import ListNotations.
Open Scope string_scope.
Open Scope list_scope.
Open Scope Z_scope.

(** ** What is compared *)
(** The same dimensions in the same order and the same settings; the ids are free. (A strip has
    one container, whose id is a constant of the library.) *)
Record same_but_names (pb pb' : problem) : Prop := {
  sbn_containers : dvals (pb_containers pb') = dvals (pb_containers pb);
  sbn_items : dvals (pb_items pb') = dvals (pb_items pb);
  sbn_rotation : pb_rotation pb' = pb_rotation pb;
  sbn_strategy : pb_strategy pb' = pb_strategy pb;
  sbn_strip : pb_strip pb' = pb_strip pb;
  sbn_height : pb_height pb' = pb_height pb
}.

Definition same_but_names_inst {ar} (x x' : inst ar) : Prop :=
  same_but_names (in_pb x) (in_pb x') /\ in_min x' = in_min x /\ in_cnum x' = in_cnum x.

(** [solution[cid][iid]], if present. *)
Definition place (sol : solution) (cid iid : string) : option entry :=
  match dget sol cid with Some csol => dget csol iid | None => None end.

(** The i-th item is in the c-th container at the same place, or in neither. *)
Definition same_places (pb pb' : problem) (sol sol' : solution) : Prop :=
  forall c i cid cid' iid iid',
    nth_error (dkeys (pb_containers pb)) c = Some cid -> nth_error (dkeys (pb_containers pb')) c = Some cid' ->
    nth_error (dkeys (pb_items pb)) i = Some iid -> nth_error (dkeys (pb_items pb')) i = Some iid' ->
    place sol' cid' iid' = place sol cid iid.

(** [sequence] names the items at these positions. *)
Definition names_at (pb : problem) (positions : list nat) (sequence : list string) : Prop :=
  map (nth_error (dkeys (pb_items pb))) positions = map Some sequence.

(** Items with equal sorting keys have their ids in the same alphabetical order in both. *)
Definition same_ties (ar : arith) (sorting_by : option (string * bool)) (pb pb' : problem) : Prop :=
  match sorting_by with
  | None => True
  | Some (by_, _) =>
      forall lt, key_lt ar by_ = Some lt ->
      forall i j a b a' b' da db,
        nth_error (pb_items pb) i = Some (a, da) -> nth_error (pb_items pb) j = Some (b, db) ->
        nth_error (dkeys (pb_items pb')) i = Some a' -> nth_error (dkeys (pb_items pb')) j = Some b' ->
        lt da db = false -> lt db da = false -> String.ltb a' b' = String.ltb a b
  end.

(** ** The renaming behind two such problems *)
Lemma renaming pb pb' : same_but_names pb pb' -> valid_problem pb -> valid_problem pb' ->
  (pb_strip pb = true -> dkeys (pb_containers pb) = [strip_id] /\ dkeys (pb_containers pb') = [strip_id]) ->
  exists f g, Injective f /\ Injective g /\ (pb_strip pb = true -> g strip_id = strip_id) /\ pb' = ren_pb f g pb.
Proof.
  intros [H1 H2 H3 H4 H5 H6] [[V1 _] [[V2 _] _]] [[V1' _] [[V2' _] _]] Hs.
  assert (LEN : forall A (d d' : odict A), dvals d' = dvals d -> length (dkeys d) = length (dkeys d')).
  { intros A d d' E. apply (f_equal (@length A)) in E. unfold dvals, dkeys in *. rewrite !map_length in *. congruence. }
  destruct (renaming_exists _ _ V1 V1' (LEN _ _ _ H2)) as [f [If Ef]].
  destruct (renaming_exists _ _ V2 V2' (LEN _ _ _ H1)) as [g [Ig Eg]].
  exists f, g. split; [exact If|]. split; [exact Ig|]. split.
  - intros S0. destruct (Hs S0) as [A B]. rewrite A, B in Eg. simpl in Eg. congruence.
  - destruct pb'. unfold ren_pb. simpl in *. rewrite <- (ren_of _ _ _ Eg (eq_sym H1)), <- (ren_of _ _ _ Ef (eq_sym H2)).
    congruence.
Qed.

Lemma places_ren f g pb sol : Injective f -> Injective g -> same_places pb (ren_pb f g pb) sol (ren_sol f g sol).
Proof.
  intros If Ig c i cid cid' iid iid' H1 H2 H3 H4. cbn [ren_pb pb_containers pb_items] in H2, H4.
  rewrite dkeys_ren, nth_error_map, H1 in H2. rewrite dkeys_ren, nth_error_map, H3 in H4. simpl in H2, H4.
  injection H2 as <-. injection H4 as <-. unfold place. rewrite (dget_ren_sol f g Ig).
  destruct (dget sol cid) as [csol|]; [|reflexivity]. apply (dget_ren f If).
Qed.

Lemma names_ren f g pb positions seq seq' :
  names_at pb positions seq -> names_at (ren_pb f g pb) positions seq' -> seq' = map f seq.
Proof.
  unfold names_at. cbn [ren_pb pb_items]. rewrite dkeys_ren. revert seq seq'.
  induction positions as [|p ps IH]; intros [|a seq] [|a' seq'] H H'; simpl in *; try discriminate; [reflexivity|].
  injection H as Ha H. injection H' as Ha' H'. rewrite nth_error_map, Ha in Ha'. simpl in Ha'.
  injection Ha' as <-. f_equal. apply IH; assumption.
Qed.

(** ** solve *)
Theorem C77_solve : forall ar pb pb', valid_problem pb -> valid_problem pb' -> same_but_names pb pb' ->
  (pb_strip pb = true -> dkeys (pb_containers pb) = [strip_id] /\ dkeys (pb_containers pb') = [strip_id]) ->
  forall sol objs, solve ar pb None = Ok (sol, objs) ->
  exists sol' objs', solve ar pb' None = Ok (sol', objs') /\ dvals objs' = dvals objs /\ same_places pb pb' sol sol'.
Proof.
  intros ar pb pb' V V' H Hs sol objs E. destruct (renaming _ _ H V V' Hs) as [f [g [If [Ig [_ ->]]]]].
  pose proof (solve_ren ar f g If Ig pb None) as R. cbn [option_map] in R. rewrite E in R. cbn [rres] in R.
  exists (ren_sol f g sol), (ren g objs). split; [exact R|]. split; [apply dvals_ren|]. apply places_ren; assumption.
Qed.
Print Assumptions C77_solve.

(** With a given order of evaluation, also of some of the items only. *)
Theorem C77_solve_sequence : forall ar pb pb', valid_problem pb -> valid_problem pb' -> same_but_names pb pb' ->
  (pb_strip pb = true -> dkeys (pb_containers pb) = [strip_id] /\ dkeys (pb_containers pb') = [strip_id]) ->
  forall positions sequence sequence', names_at pb positions sequence -> names_at pb' positions sequence' ->
  forall sol objs, solve ar pb (Some sequence) = Ok (sol, objs) ->
  exists sol' objs', solve ar pb' (Some sequence') = Ok (sol', objs') /\ dvals objs' = dvals objs /\
    same_places pb pb' sol sol'.
Proof.
  intros ar pb pb' V V' H Hs ps sq sq' N N' sol objs E. destruct (renaming _ _ H V V' Hs) as [f [g [If [Ig [_ ->]]]]].
  rewrite (names_ren _ _ _ _ _ _ N N').
  pose proof (solve_ren ar f g If Ig pb (Some sq)) as R. cbn [option_map] in R. rewrite E in R. cbn [rres] in R.
  exists (ren_sol f g sol), (ren g objs). split; [exact R|]. split; [apply dvals_ren|]. apply places_ren; assumption.
Qed.
Print Assumptions C77_solve_sequence.

(** ** local_search *)
Lemma renaming_inst ar (x x' : inst ar) : valid_inst ar x -> valid_inst ar x' -> same_but_names_inst x x' ->
  exists f g, Injective f /\ Injective g /\ strip_kept ar g x /\ in_pb x' = ren_pb f g (in_pb x) /\
              like (ren_inst ar f g x) x'.
Proof.
  intros [V S0] [V' S1] [H [Hm Hc]].
  destruct (renaming _ _ H V V') as [f [g [If [Ig [Hg E]]]]].
  { intros Hs. split; [apply S0; exact Hs|]. apply S1. rewrite (sbn_strip _ _ H). exact Hs. }
  exists f, g. split; [exact If|]. split; [exact Ig|]. split; [exact Hg|]. split; [exact E|].
  split; [|split; [intros _; symmetry; exact Hm|symmetry; exact Hc]]. rewrite E. repeat split.
Qed.

Theorem C77_local_search : forall ar (x x' : inst ar), valid_inst ar x -> valid_inst ar x' ->
  same_but_names_inst x x' ->
  forall ck limit throttle start clk y c log,
  local_search ar ck limit throttle start x clk = Ok (y, c, log) ->
  exists y', local_search ar ck limit throttle start x' clk = Ok (y', c, log) /\
    calculate_obj_value ar y' = calculate_obj_value ar y /\
    dvals (in_objs y') = dvals (in_objs y) /\
    (pb_strip (in_pb x) = true -> pb_height (in_pb y') = pb_height (in_pb y)) /\
    same_places (in_pb x) (in_pb x') (in_sol y) (in_sol y').
Proof.
  intros ar x x' V V' H ck limit throttle start clk y c log E.
  destruct (renaming_inst ar x x' V V' H) as [f [g [If [Ig [K [Ep L]]]]]].
  pose proof (local_search_ren ar f g If Ig ck limit throttle start x clk K) as R. rewrite E in R. cbn [rres ren_out] in R.
  pose proof (local_search_again ck ck limit limit throttle start start (ren_inst ar f g x) x' clk clk L
                (fun n => eq_refl)) as A.
  rewrite R in A. destruct (local_search ar ck limit throttle start x' clk) as [[[y' c'] log']|]; [|contradiction].
  cbn [agree fst snd] in A. destruct A as [A [<- [n [T1 T2]]]].
  exists y'. split; [do 2 f_equal; f_equal; congruence|].
  rewrite <- (value_alike _ _ A), calculate_obj_value_ren. split; [reflexivity|].
  destruct A as [A [As Ao]]. rewrite <- Ao, <- As. cbn [ren_inst in_objs in_sol]. rewrite dvals_ren. split; [reflexivity|].
  split.
  - intros Hs. destruct A as [[_ [_ [_ [_ [_ A]]]]] _]. rewrite <- A; [reflexivity|].
    cbn [ren_inst in_pb ren_pb pb_strip]. rewrite (local_search_strip _ _ _ _ _ _ _ _ _ _ E). exact Hs.
  - rewrite Ep. apply places_ren; assumption.
Qed.
Print Assumptions C77_local_search.

(** ** hypersearch *)
Theorem C77_hypersearch_partial : forall ar (x x' : inst ar), valid_inst ar x -> valid_inst ar x' ->
  same_but_names_inst x x' ->
  forall ck limit throttle orientation sorting_by strategies clk r, same_ties ar sorting_by (in_pb x) (in_pb x') ->
  hypersearch ar ck limit throttle orientation sorting_by strategies x clk = Ok r ->
  exists r', hypersearch ar ck limit throttle orientation sorting_by strategies x' clk = Ok r' /\
    calculate_obj_value ar (hr_inst r') = calculate_obj_value ar (hr_inst r) /\
    dvals (in_objs (hr_inst r')) = dvals (in_objs (hr_inst r)) /\
    hr_best_strategy r' = hr_best_strategy r /\
    same_places (in_pb x) (in_pb x') (in_sol (hr_inst r)) (in_sol (hr_inst r')).
Proof.
  intros ar x x' V V' H ck limit throttle o sb strategies clk r Ht E.
  destruct (renaming_inst ar x x' V V' H) as [f [g [If [Ig [K [Ep L]]]]]].
  assert (T : ties_kept ar f sb (pb_items (in_pb x))).
  { unfold ties_kept, same_ties in *. destruct sb as [[by_ rv]|]; [|exact I]. destruct (key_lt ar by_) as [lt|]; [|exact I].
    intros [a da] [b db] Ha Hb. apply In_nth_error in Ha. apply In_nth_error in Hb.
    destruct Ha as [i Ha]. destruct Hb as [j Hb].
    apply (Ht lt eq_refl i j a b (f a) (f b) da db Ha Hb); rewrite Ep; cbn [ren_pb pb_items]; rewrite dkeys_ren, nth_error_map;
      unfold dkeys; rewrite nth_error_map; [rewrite Ha|rewrite Hb]; reflexivity. }
  pose proof (hypersearch_ren ar f g If Ig ck limit throttle o sb strategies x clk K T) as R. rewrite E in R. cbn [rres] in R.
  pose proof (hypersearch_again ck ck limit limit throttle o sb strategies (ren_inst ar f g x) x' clk clk L
                (conj (fun n => eq_refl) (fun n => eq_refl))) as A.
  rewrite R in A. destruct (hypersearch ar ck limit throttle o sb strategies x' clk) as [r'|]; [|contradiction].
  cbn [agree] in A. destruct A as [A [B _]]. exists r'. split; [reflexivity|].
  rewrite <- (value_alike _ _ A). cbn [ren_hr hr_inst hr_best_strategy] in *. rewrite calculate_obj_value_ren. split; [reflexivity|].
  destruct A as [_ [As Ao]]. rewrite <- Ao, <- As. cbn [ren_inst in_objs in_sol]. rewrite dvals_ren. split; [reflexivity|].
  split; [symmetry; exact B|]. rewrite Ep. apply places_ren; assumption.
Qed.
Print Assumptions C77_hypersearch_partial.

(** Without sorting nothing is asked of the ids. *)
Corollary C77_hypersearch_unsorted : forall ar (x x' : inst ar), valid_inst ar x -> valid_inst ar x' ->
  same_but_names_inst x x' ->
  forall ck limit throttle orientation strategies clk r,
  hypersearch ar ck limit throttle orientation None strategies x clk = Ok r ->
  exists r', hypersearch ar ck limit throttle orientation None strategies x' clk = Ok r' /\
    calculate_obj_value ar (hr_inst r') = calculate_obj_value ar (hr_inst r) /\
    dvals (in_objs (hr_inst r')) = dvals (in_objs (hr_inst r)) /\
    hr_best_strategy r' = hr_best_strategy r /\
    same_places (in_pb x) (in_pb x') (in_sol (hr_inst r)) (in_sol (hr_inst r')).
Proof. intros ar x x' V V' H ck limit throttle o strategies clk r. apply (C77_hypersearch_partial ar x x' V V' H). exact I. Qed.
Print Assumptions C77_hypersearch_unsorted.

(** ** With sorting, equal keys are ordered by id (mixins.py:1049-1063 sorts [\[key, id\]]) *)
Definition tied_bin (first second : string) : inst qarith := fresh {|
  pb_containers := [("bin", mkDims 5 5)];
  pb_items := [(first, mkDims 3 2); (second, mkDims 2 3); ("c", mkDims 5 1); ("d", mkDims 3 1); ("e", mkDims 2 2)];
  pb_rotation := false; pb_strategy := default_strategy; pb_strip := false; pb_height := 0 |} None.

Theorem C77_hypersearch_refuted :
  valid_inst qarith (tied_bin "a" "b") /\ valid_inst qarith (tied_bin "b" "a") /\
  same_but_names_inst (tied_bin "a" "b") (tied_bin "b" "a") /\
  exists r r' v v',
    hypersearch qarith every_second_second 4 true None (Some ("area", true)) (get_strategies false []) (tied_bin "a" "b") 0 = Ok r /\
    hypersearch qarith every_second_second 4 true None (Some ("area", true)) (get_strategies false []) (tied_bin "b" "a") 0 = Ok r' /\
    calculate_obj_value qarith (hr_inst r) = Ok v /\ calculate_obj_value qarith (hr_inst r') = Ok v' /\ (v' < v)%Q.
Proof.
  split; [split; [valid_demo|discriminate]|]. split; [split; [valid_demo|discriminate]|].
  split; [split; [constructor; reflexivity|split; reflexivity]|].
  assert (G1 : value_of (hypersearch qarith every_second_second 4 true None (Some ("area", true)) (get_strategies false []) (tied_bin "a" "b") 0) = Some (24 # 25)%Q) by (vm_compute; reflexivity).
  assert (G2 : value_of (hypersearch qarith every_second_second 4 true None (Some ("area", true)) (get_strategies false []) (tied_bin "b" "a") 0) = Some (4 # 5)%Q) by (vm_compute; reflexivity).
  destruct (hypersearch qarith every_second_second 4 _ _ _ _ (tied_bin "a" "b") _) as [r|]; [|discriminate G1].
  destruct (hypersearch qarith every_second_second 4 _ _ _ _ (tied_bin "b" "a") _) as [r'|]; [|discriminate G2].
  cbn [value_of] in G1, G2.
  destruct (calculate_obj_value qarith (hr_inst r)) as [w|] eqn:E1; [|discriminate G1].
  destruct (calculate_obj_value qarith (hr_inst r')) as [w'|] eqn:E2; [|discriminate G2].
  injection G1 as ->. injection G2 as ->. exists r, r', (24 # 25)%Q, (4 # 5)%Q. repeat (split; [reflexivity || assumption|]).
  reflexivity.
Qed.
Print Assumptions C77_hypersearch_refuted.

(** ** Non-vacuity *)
Definition named (c i1 i2 i3 : string) : inst qarith := fresh {|
  pb_containers := [(c, mkDims 4 4); ("z", mkDims 3 3)];
  pb_items := [(i1, mkDims 3 2); (i2, mkDims 2 2); (i3, mkDims 3 3)];
  pb_rotation := true; pb_strategy := default_strategy; pb_strip := false; pb_height := 0 |} None.

Definition shown (x : inst qarith) : option (solution * option Q) :=
  match hypersearch qarith seconds 100 true (Some "wide") (Some ("area", true)) (get_strategies false []) x 0 with
  | Ok r => Some (in_sol (hr_inst r), match calculate_obj_value qarith (hr_inst r) with Ok v => Some v | Err _ => None end)
  | Err _ => None
  end.

Example C77_witness :
  let x := named "A" "one" "two" "three" in let x' := named "B" "q" "p" "one" in
  valid_inst qarith x /\ valid_inst qarith x' /\ same_but_names_inst x x' /\
  same_ties qarith (Some ("area", true)) (in_pb x) (in_pb x') /\
  shown x = Some ([("A", [("one", mkEntry 0 0 3 2); ("two", mkEntry 0 2 2 2)]); ("z", [("three", mkEntry 0 0 3 3)])], Some (53 # 40)%Q) /\
  shown x' = Some ([("B", [("q", mkEntry 0 0 3 2); ("p", mkEntry 0 2 2 2)]); ("z", [("one", mkEntry 0 0 3 3)])], Some (53 # 40)%Q).
Proof.
  cbv zeta. split; [split; [valid_demo|discriminate]|]. split; [split; [valid_demo|discriminate]|].
  split; [split; [constructor; reflexivity|split; reflexivity]|].
  split.
  { cbn. intros lt [= <-] i j a b a' b' da db H1 H2 H3 H4 H5 H6.
    destruct i as [|[|[|i]]]; cbn in H1, H3; try discriminate; [| | |destruct i; discriminate];
    (destruct j as [|[|[|j]]]; cbn in H2, H4; try discriminate; [| | |destruct j; discriminate]);
    injection H1 as <- <-; injection H2 as <- <-; injection H3 as <-; injection H4 as <-; cbn in H5, H6; try discriminate; reflexivity. }
  split; vm_compute; reflexivity.
Qed.
