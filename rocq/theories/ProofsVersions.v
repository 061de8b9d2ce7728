(** * Version numbers and their comparison as strings. *)
From Coq Require Import ZArith String Ascii List Bool Lia Decimal DecimalString DecimalFacts DecimalNat.
From Verif Require Import Py Values Settings SpecInstance SpecSettings ProofsSettings.
Import ListNotations.
Open Scope string_scope.
Open Scope list_scope.
Open Scope nat_scope.

Lemma to_uint_nonnil n : Nat.to_uint n <> Nil.
Proof.
  intros H. pose proof (Unsigned.to_of (Nat.to_uint n)) as E. rewrite Unsigned.of_to in E. rewrite H in E. discriminate E.
Qed.

Lemma nzhead_first u : forall w, nzhead u <> D0 w.
Proof. induction u; cbn; try discriminate. exact IHu. Qed.

Lemma dec_inj a b : dec a = dec b -> a = b.
Proof.
  unfold dec. intros H. apply (f_equal NilZero.uint_of_string) in H.
  rewrite !NilZero.usu in H by apply to_uint_nonnil.
  injection H as H. apply (f_equal Nat.of_uint) in H. rewrite !Unsigned.of_to in H. exact H.
Qed.

Definition digits : list ascii := list_ascii_of_string "0123456789".
Lemma nilempty_digits u c : In c (list_ascii_of_string (NilEmpty.string_of_uint u)) -> In c digits.
Proof.
  induction u; cbn [NilEmpty.string_of_uint list_ascii_of_string]; intros H; [destruct H|..];
    (destruct H as [<-|H]; [cbn; auto 20|apply IHu; exact H]).
Qed.
Lemma dec_digits n c : In c (list_ascii_of_string (dec n)) -> In c digits.
Proof.
  unfold dec, NilZero.string_of_uint. destruct (Nat.to_uint n) eqn:E; [cbn; tauto|..]; apply nilempty_digits.
Qed.
Lemma dec_no_dot n : no_dot (dec n).
Proof. intros H. apply dec_digits in H. cbn in H. intuition discriminate. Qed.

Lemma dec_norm n : Nat.to_uint n = unorm (Nat.to_uint n).
Proof. rewrite <- (Unsigned.of_to n) at 1. apply Unsigned.to_of. Qed.

Lemma dec_first n : n <> 0 -> exists c r, dec n = String c r /\ In c (list_ascii_of_string "123456789").
Proof.
  intros Hn. unfold dec, NilZero.string_of_uint. pose proof (dec_norm n) as E. pose proof (to_uint_nonnil n) as N.
  assert (Z0 : Nat.to_uint n <> zero).
  { intros Z0. apply Hn. rewrite <- (Unsigned.of_to n), Z0. reflexivity. }
  destruct (Nat.to_uint n) as [|u|u|u|u|u|u|u|u|u|u]; cbn [NilEmpty.string_of_uint];
    try (eexists; eexists; split; [reflexivity|cbn; auto 20]; fail).
  exfalso. cbn in E. unfold unorm in E. cbn in E. destruct (nzhead u) as [|w|w|w|w|w|w|w|w|w|w] eqn:Z; try discriminate E.
  - injection E as ->. congruence.
  - exact (nzhead_first _ _ Z).
Qed.

Lemma split_version a b c suffix :
  firstn 3 (split_dots (version_string a b c suffix)) = [dec a; dec b; dec c].
Proof.
  assert (C : forall x y l, String.concat "." (x :: y :: l) = (x ++ String "." (String.concat "." (y :: l)))%string) by reflexivity.
  unfold version_string. rewrite !C, !split_dots_plain by apply dec_no_dot. cbn [firstn]. do 2 f_equal.
  destruct suffix as [|x suffix].
  - cbn [String.concat]. rewrite split_dots_last by apply dec_no_dot. reflexivity.
  - rewrite C, split_dots_plain by apply dec_no_dot. reflexivity.
Qed.

Lemma version_string_inj a b c suffix a' b' c' suffix' :
  version_string a b c suffix = version_string a' b' c' suffix' -> a = a' /\ b = b' /\ c = c'.
Proof.
  intros H. apply (f_equal (fun s => firstn 3 (split_dots s))) in H. rewrite !split_version in H.
  injection H as H1 H2 H3. apply dec_inj in H1, H2, H3. auto.
Qed.

Definition earlierb (u v : nat * nat * nat) : bool :=
  let '(a, b, c) := u in let '(a', b', c') := v in
  (a <? a') || (a =? a') && ((b <? b') || (b =? b') && (c <? c')).
Lemma earlierb_spec u v : earlierb u v = true <-> earlier u v.
Proof.
  destruct u as [[a b] c], v as [[a' b'] c']. unfold earlierb, earlier. rewrite orb_true_iff, andb_true_iff, orb_true_iff, andb_true_iff, !Nat.ltb_lt, !Nat.eqb_eq.
  reflexivity.
Qed.

Lemma last_not_below_0 n : strings_ltb [dec n] ["0"] = false.
Proof.
  destruct n as [|n]; [reflexivity|]. destruct (dec_first (S n) ltac:(discriminate)) as [c [r [E H]]].
  cbn [strings_ltb]. rewrite E. cbn in H. destruct H as [<-|[<-|[<-|[<-|[<-|[<-|[<-|[<-|[<-|[]]]]]]]]]]; reflexivity.
Qed.
Lemma last_below_1 n : strings_ltb [dec n] ["1"] = (n <? 1).
Proof.
  destruct n as [|n]; [reflexivity|]. destruct (dec_first (S n) ltac:(discriminate)) as [c [r [E H]]].
  cbn [strings_ltb]. rewrite E. cbn in H. destruct H as [<-|[<-|[<-|[<-|[<-|[<-|[<-|[<-|[<-|[]]]]]]]]]]; try reflexivity.
  destruct r; reflexivity.
Qed.

(** Two parts that decide the comparison or are equal. *)
Definition two_parts (lo : string * string) (lo' : nat * nat) (a b : nat) : bool :=
  if (a =? fst lo') && (b =? snd lo')
  then String.eqb (dec a) (fst lo) && String.eqb (dec b) (snd lo)
  else let by_string := if String.eqb (dec a) (fst lo)
                        then if String.eqb (dec b) (snd lo) then None else Some (String.ltb (dec b) (snd lo))
                        else Some (String.ltb (dec a) (fst lo)) in
       match by_string with
       | Some x => Bool.eqb x ((a <? fst lo') || (a =? fst lo') && (b <? snd lo'))
       | None => false
       end.

Lemma two_parts_spec lo lo' a b c w c' :
  two_parts lo lo' a b = true ->
  (a = fst lo' -> b = snd lo' -> strings_ltb [dec c] [w] = (c <? c')) ->
  strings_ltb [dec a; dec b; dec c] [fst lo; snd lo; w] = earlierb (a, b, c) (fst lo', snd lo', c').
Proof.
  unfold two_parts. intros H G. unfold earlierb.
  destruct ((a =? fst lo') && (b =? snd lo')) eqn:E.
  - apply andb_true_iff in E. destruct E as [E1 E2]. apply andb_true_iff in H. destruct H as [H1 H2].
    cbn [strings_ltb] in *. rewrite H1, H2. rewrite G by (apply Nat.eqb_eq; assumption). rewrite E1, E2.
    apply Nat.eqb_eq in E1, E2. subst. rewrite !Nat.ltb_irrefl. reflexivity.
  - change (strings_ltb [dec a; dec b; dec c] [fst lo; snd lo; w]) with
      (if String.eqb (dec a) (fst lo) then
         if String.eqb (dec b) (snd lo) then strings_ltb [dec c] [w] else String.ltb (dec b) (snd lo)
       else String.ltb (dec a) (fst lo)).
    destruct (String.eqb (dec a) (fst lo)), (String.eqb (dec b) (snd lo)); try discriminate H;
      apply Bool.eqb_prop in H; rewrite H; destruct (a =? fst lo'), (b =? snd lo'); try discriminate E;
      rewrite ?andb_false_l, ?andb_true_l, ?andb_false_r, ?orb_false_r; reflexivity.
Qed.

Lemma two_parts_all lo lo' n m k :
  forallb (fun a => forallb (fun b => two_parts lo lo' a b) (seq m k)) (seq 0 n) = true ->
  forall a b, a < n -> m <= b < m + k -> two_parts lo lo' a b = true.
Proof.
  intros H a b Ha Hb. rewrite forallb_forall in H. specialize (H a ltac:(apply in_seq; lia)). rewrite forallb_forall in H.
  apply H. apply in_seq. lia.
Qed.

Lemma plotly_range a b c suffix : a < 10 -> 10 <= b < 100 ->
  version_ok (version_string a b c suffix) ["5"; "14"; "0"] ["6"; "0"; "0"] = true <->
  ~ earlier (a, b, c) (5, 14, 0) /\ earlier (a, b, c) (6, 0, 0).
Proof.
  intros Ha Hb. unfold version_ok. rewrite split_version.
  pose proof (two_parts_spec ("5", "14") (5, 14) a b c "0" 0) as X; cbn [fst snd] in X; rewrite X; clear X.
  - pose proof (two_parts_spec ("6", "0") (6, 0) a b c "0" 0) as X; cbn [fst snd] in X; rewrite X; clear X.
    + rewrite andb_true_iff, negb_true_iff, <- not_true_iff_false, !earlierb_spec. reflexivity.
    + apply (two_parts_all _ _ 10 10 90); [vm_compute; reflexivity|lia|lia].
    + intros _ _. apply last_not_below_0.
  - apply (two_parts_all _ _ 10 10 90); [vm_compute; reflexivity|lia|lia].
  - intros _ _. apply last_not_below_0.
Qed.

Lemma kaleido_range a b c suffix : a < 10 -> b < 10 ->
  version_ok (version_string a b c suffix) ["0"; "2"; "1"] ["0"; "3"; "0"] = true <->
  ~ earlier (a, b, c) (0, 2, 1) /\ earlier (a, b, c) (0, 3, 0).
Proof.
  intros Ha Hb. unfold version_ok. rewrite split_version.
  pose proof (two_parts_spec ("0", "2") (0, 2) a b c "1" 1) as X; cbn [fst snd] in X; rewrite X; clear X.
  - pose proof (two_parts_spec ("0", "3") (0, 3) a b c "0" 0) as X; cbn [fst snd] in X; rewrite X; clear X.
    + rewrite andb_true_iff, negb_true_iff, <- not_true_iff_false, !earlierb_spec. reflexivity.
    + apply (two_parts_all _ _ 10 0 10); [vm_compute; reflexivity|lia|lia].
    + intros _ _. apply last_not_below_0.
  - apply (two_parts_all _ _ 10 0 10); [vm_compute; reflexivity|lia|lia].
  - intros _ _. apply last_below_1.
Qed.
