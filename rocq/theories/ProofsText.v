(** * Lemmas on texts. *)
From Coq Require Import ZArith String Ascii List Bool Lia Decimal DecimalString DecimalPos DecimalN DecimalFacts.
From Verif Require Import Py Arith Construct Spec LocalSearch Values ProofsVal Settings Instance SpecInstance ProofsVersions Utils Text SpecText.
Import ListNotations.
Open Scope string_scope.
Open Scope list_scope.
Open Scope Z_scope.

(** ** Strings *)
Lemma sapp_assoc (a b c : string) : ((a ++ b) ++ c = a ++ (b ++ c))%string.
Proof. induction a as [|x a IH]; cbn; [reflexivity|]. rewrite IH. reflexivity. Qed.
Lemma sapp_nil_r (a : string) : (a ++ "" = a)%string.
Proof. induction a as [|x a IH]; cbn; [reflexivity|]. rewrite IH. reflexivity. Qed.
Lemma sapp_inj a b c : (a ++ b = a ++ c)%string -> b = c.
Proof. induction a as [|x a IH]; cbn; [auto|]. intros [= H]. auto. Qed.
Lemma list_ascii_app a b : list_ascii_of_string (a ++ b) = list_ascii_of_string a ++ list_ascii_of_string b.
Proof. induction a as [|x a IH]; cbn; [reflexivity|]. rewrite IH. reflexivity. Qed.

(** ** Decimals *)
Lemma digits_value_app a b acc : digits_value acc (a ++ b) = match digits_value acc a with Some z => digits_value z b | None => None end.
Proof.
  revert acc. induction a as [|c a IH]; intros acc; cbn; [reflexivity|]. destruct (digit_value c); [apply IH|reflexivity].
Qed.

Lemma uint_value_acc u : forall acc,
  digits_value (Zpos acc) (NilEmpty.string_of_uint u) = Some (Zpos (Pos.of_uint_acc u acc)).
Proof.
  induction u; intros acc; [reflexivity|..]; cbn [NilEmpty.string_of_uint digits_value Pos.of_uint_acc];
    match goal with |- context [digit_value ?c] => let v := eval vm_compute in (digit_value c) in change (digit_value c) with v end;
    cbv iota beta; rewrite <- IHu; f_equal; lia.
Qed.
Lemma uint_value u : digits_value 0 (NilEmpty.string_of_uint u) = Some (Z.of_N (Pos.of_uint u)).
Proof.
  induction u; [reflexivity|..]; cbn [NilEmpty.string_of_uint digits_value Pos.of_uint];
    match goal with |- context [digit_value ?c] => let v := eval vm_compute in (digit_value c) in change (digit_value c) with v end;
    cbv iota beta; change (10 * 0 + ?d) with d; cbn [Z.mul Z.add];
    first [exact IHu|apply uint_value_acc].
Qed.

Lemma to_uint_first p u : Pos.to_uint p = D0 u -> False.
Proof.
  intros H. pose proof (DecimalN.Unsigned.to_of (N.to_uint (Npos p))) as E. rewrite DecimalN.Unsigned.of_to in E.
  cbn [N.to_uint] in E. rewrite H in E. unfold unorm in E. cbn [nzhead] in E.
  destruct (nzhead u) eqn:En; try discriminate E; [|exact (nzhead_first u _ En)].
  assert (Z0 : Pos.of_uint (Pos.to_uint p) = N0) by (rewrite H; injection E as ->; reflexivity).
  rewrite DecimalPos.Unsigned.of_to in Z0. discriminate Z0.
Qed.

Lemma z_str_decimal z : 0 <= z -> decimal (z_str z) z.
Proof.
  intros Hz. destruct z as [|p|p]; [|..]; try lia.
  - split; [reflexivity|]. split; [discriminate|]. intros u H. unfold z_str in H. cbn in H. injection H as <-. reflexivity.
  - unfold z_str. cbn [Z.to_int NilZero.string_of_int]. unfold decimal.
    assert (E : NilZero.string_of_uint (Pos.to_uint p) = NilEmpty.string_of_uint (Pos.to_uint p)).
    { unfold NilZero.string_of_uint. destruct (Pos.to_uint p) eqn:E; try reflexivity. exfalso. exact (DecimalPos.Unsigned.to_uint_nonnil p E). }
    rewrite E, uint_value, DecimalPos.Unsigned.of_to. split; [reflexivity|]. split.
    + destruct (Pos.to_uint p) eqn:E'; try discriminate.
    + intros u H. destruct (Pos.to_uint p) eqn:E'; try discriminate H. exfalso. exact (to_uint_first p _ E').
Qed.

Lemma decimal_unique t y z : decimal t y -> decimal t z -> y = z.
Proof. intros [H _] [H' _]. rewrite H in H'. injection H' as <-. reflexivity. Qed.
Lemma side_unique t y z : side_text t y -> side_text t z -> y = z.
Proof.
  intros [H|[-> ->]] [H'|[E ->]]; try reflexivity; [eapply decimal_unique; eassumption|..].
  - subst t. destruct H as [H _]. discriminate H.
  - destruct H' as [H' _]. discriminate H'.
Qed.

Lemma digits_one_line t : forall acc z, digits_value acc t = Some z -> one_line t.
Proof.
  induction t as [|c t IH]; intros acc z H; [intros []|]. cbn [digits_value] in H. destruct (digit_value c) as [d|] eqn:E; [|discriminate].
  intros [->|Hin]; [discriminate E|]. exact (IH _ _ H Hin).
Qed.
Lemma side_one_line t z : side_text t z -> one_line t.
Proof.
  intros [[H _]|[-> _]]; [eapply digits_one_line; exact H|]. cbn. intros H. repeat (destruct H as [H|H]; [discriminate H|]). exact H.
Qed.

(** ** Digits *)
Lemma digit_text k : 0 <= k < 10 -> exists c, digit k = String c "" /\ digit_value c = Some k.
Proof.
  intros H. exists (ascii_of_nat (48 + Z.to_nat k)). split; [reflexivity|].
  assert (C : k = 0 \/ k = 1 \/ k = 2 \/ k = 3 \/ k = 4 \/ k = 5 \/ k = 6 \/ k = 7 \/ k = 8 \/ k = 9) by lia.
  repeat (destruct C as [->|C]; [reflexivity|]). subst k. reflexivity.
Qed.

Lemma fixed4_text n : 0 <= n -> exists a b, fixed4 n = (a ++ "." ++ b)%string /\ String.length b = 4%nat /\ a <> "" /\
  digits_value 0 (a ++ b)%string = Some n.
Proof.
  intros Hn. unfold fixed4.
  destruct (digit_text (n / 1000 mod 10) ltac:(apply Z.mod_pos_bound; lia)) as [c1 [E1 V1]].
  destruct (digit_text (n / 100 mod 10) ltac:(apply Z.mod_pos_bound; lia)) as [c2 [E2 V2]].
  destruct (digit_text (n / 10 mod 10) ltac:(apply Z.mod_pos_bound; lia)) as [c3 [E3 V3]].
  destruct (digit_text (n mod 10) ltac:(apply Z.mod_pos_bound; lia)) as [c4 [E4 V4]].
  rewrite E1, E2, E3, E4. exists (z_str (n / 10000)), (String c1 (String c2 (String c3 (String c4 "")))).
  split; [reflexivity|]. split; [reflexivity|].
  destruct (z_str_decimal (n / 10000) ltac:(apply Z.div_pos; lia)) as [D1 [D2 _]]. split; [exact D2|].
  rewrite digits_value_app, D1. cbn [digits_value]. rewrite V1, V2, V3, V4. f_equal.
  pose proof (Z.div_mod n 10 ltac:(lia)). pose proof (Z.div_mod (n / 10) 10 ltac:(lia)). pose proof (Z.div_mod (n / 100) 10 ltac:(lia)).
  pose proof (Z.div_mod (n / 1000) 10 ltac:(lia)).
  rewrite (Z.div_div n 10 10) in * by lia. rewrite (Z.div_div n 100 10) in * by lia. rewrite (Z.div_div n 1000 10) in * by lia.
  change (10 * 10) with 100 in *. change (100 * 10) with 1000 in *. change (1000 * 10) with 10000 in *. lia.
Qed.

(** ** Literals *)
Lemma hex_value_hex n : (n < 16)%nat -> hex_value (hex n) = Some n.
Proof.
  intros H. do 16 (destruct n as [|n]; [reflexivity|]). lia.
Qed.

Lemma read_escaped quote c t v rest : nat_of_ascii quote = 39%nat \/ nat_of_ascii quote = 34%nat ->
  read_literal quote t = Some (v, rest) ->
  read_literal quote (escaped quote c ++ t) = Some (String c v, rest).
Proof.
  intros Q H. unfold escaped.
  assert (Qb : Ascii.eqb (ascii_of_nat 92) quote = false).
  { apply Ascii.eqb_neq. intros <-. cbn in Q. lia. }
  assert (BB : forall d, Ascii.eqb d backslash = (nat_of_ascii d =? 92)%nat).
  { intros d. apply eq_true_iff_eq. rewrite Ascii.eqb_eq, Nat.eqb_eq. split; [intros ->; reflexivity|].
    intros E. rewrite <- (ascii_nat_embedding d), E. reflexivity. }
  assert (NE : forall a b, nat_of_ascii a <> nat_of_ascii b -> Ascii.eqb a b = false).
  { intros a b N. apply Ascii.eqb_neq. intros ->. apply N. reflexivity. }
  destruct (Ascii.eqb c quote || (nat_of_ascii c =? 92)%nat) eqn:E1.
  - cbn [append read_literal]. rewrite Qb. rewrite BB. change (nat_of_ascii (ascii_of_nat 92) =? 92)%nat with true. cbv iota.
    assert (C : nat_of_ascii c = 39%nat \/ nat_of_ascii c = 34%nat \/ nat_of_ascii c = 92%nat).
    { apply orb_true_iff in E1. destruct E1 as [E1|E1]; [apply Ascii.eqb_eq in E1; subst c; tauto|apply Nat.eqb_eq in E1; tauto]. }
    rewrite !NE by (change (nat_of_ascii "n") with 110%nat || change (nat_of_ascii "r") with 114%nat || change (nat_of_ascii "t") with 116%nat || change (nat_of_ascii "x") with 120%nat; lia).
    rewrite H. reflexivity.
  - apply orb_false_iff in E1. destruct E1 as [E1 E1'].
    destruct (Nat.eqb_spec (nat_of_ascii c) 9) as [E2|E2].
    { cbn [append read_literal]. rewrite Qb, BB. change (nat_of_ascii (ascii_of_nat 92) =? 92)%nat with true. cbv iota.
      change (Ascii.eqb "t" "n") with false. change (Ascii.eqb "t" "r") with false. change (Ascii.eqb "t" "t") with true. cbv iota.
      rewrite H, <- E2, ascii_nat_embedding. reflexivity. }
    destruct (Nat.eqb_spec (nat_of_ascii c) 10) as [E3|E3].
    { cbn [append read_literal]. rewrite Qb, BB. change (nat_of_ascii (ascii_of_nat 92) =? 92)%nat with true. cbv iota.
      change (Ascii.eqb "n" "n") with true. cbv iota. rewrite H, <- E3, ascii_nat_embedding. reflexivity. }
    destruct (Nat.eqb_spec (nat_of_ascii c) 13) as [E4|E4].
    { cbn [append read_literal]. rewrite Qb, BB. change (nat_of_ascii (ascii_of_nat 92) =? 92)%nat with true. cbv iota.
      change (Ascii.eqb "r" "n") with false. change (Ascii.eqb "r" "r") with true. cbv iota. rewrite H, <- E4, ascii_nat_embedding. reflexivity. }
    destruct ((nat_of_ascii c <? 32)%nat || (nat_of_ascii c =? 127)%nat) eqn:E5.
    { cbn [append read_literal]. rewrite Qb, BB. change (nat_of_ascii (ascii_of_nat 92) =? 92)%nat with true. cbv iota.
      change (Ascii.eqb "x" "n") with false. change (Ascii.eqb "x" "r") with false. change (Ascii.eqb "x" "t") with false. change (Ascii.eqb "x" "x") with true. cbv iota.
      pose proof (nat_ascii_bounded c) as Bd.
      rewrite !hex_value_hex by (apply Nat.mod_upper_bound || apply Nat.div_lt_upper_bound; lia).
      rewrite <- Nat.div_mod by lia. rewrite H, ascii_nat_embedding. reflexivity. }
    cbn [append read_literal]. rewrite E1, BB, E1'. rewrite H. reflexivity.
Qed.

Lemma read_escape quote s rest : nat_of_ascii quote = 39%nat \/ nat_of_ascii quote = 34%nat ->
  read_literal quote (escape quote s ++ String quote rest) = Some (s, rest).
Proof.
  intros Q. induction s as [|c s IH]; cbn [escape append].
  - cbn [read_literal]. rewrite Ascii.eqb_refl. reflexivity.
  - rewrite sapp_assoc. apply read_escaped; assumption.
Qed.

Lemma quote_of_case s : quote_of s = ascii_of_nat 39 \/ quote_of s = ascii_of_nat 34.
Proof. unfold quote_of, single, double. destruct (_ && _); auto. Qed.

Lemma quote_of_right s : right_quote (quote_of s) s = true.
Proof.
  unfold right_quote, quote_of. change (has_char single s) with (contains (ascii_of_nat 39) s).
  change (has_char double s) with (contains (ascii_of_nat 34) s). destruct (_ && _); reflexivity.
Qed.

Lemma read_repr_list l : forall fuel, l <> [] -> (length l <= fuel)%nat ->
  read_strings fuel (join ", " (map repr_str l) ++ "]") = Some l.
Proof.
  induction l as [|s l IH]; intros fuel N F; [congruence|]. destruct fuel as [|fuel]; [cbn in F; lia|].
  assert (Qs : nat_of_ascii (quote_of s) = 39%nat \/ nat_of_ascii (quote_of s) = 34%nat) by (destruct (quote_of_case s) as [-> | ->]; [left|right]; reflexivity).
  assert (Qb : Ascii.eqb (quote_of s) (ascii_of_nat 39) || Ascii.eqb (quote_of s) (ascii_of_nat 34) = true) by (destruct (quote_of_case s) as [-> | ->]; reflexivity).
  destruct l as [|s' l].
  - cbn [map join String.concat]. unfold repr_str. cbn [append]. rewrite sapp_assoc. cbn [read_strings append]. rewrite Qb.
    rewrite read_escape by exact Qs. rewrite quote_of_right. reflexivity.
  - specialize (IH fuel ltac:(discriminate) ltac:(cbn in F |- *; lia)).
    change (join ", " (map repr_str (s :: s' :: l))) with (repr_str s ++ ", " ++ join ", " (map repr_str (s' :: l)))%string.
    set (r := join ", " (map repr_str (s' :: l))) in *. clearbody r. unfold repr_str. rewrite !sapp_assoc. cbn [append read_strings]. rewrite Qb.
    rewrite read_escape by exact Qs. rewrite quote_of_right, IH. reflexivity.
Qed.

Lemma concat_length_ge l : (length l <= String.length (join ", " (map repr_str l)))%nat.
Proof.
  induction l as [|s [|s' l] IH]; [cbn; lia|cbn; lia|].
  change (join ", " (map repr_str (s :: s' :: l))) with (repr_str s ++ ", " ++ join ", " (map repr_str (s' :: l)))%string.
  set (r := join ", " (map repr_str (s' :: l))) in *. clearbody r.
  assert (A : forall a b : string, String.length (a ++ b) = (String.length a + String.length b)%nat) by (induction a as [|x a IHa]; intros b; cbn; [reflexivity|rewrite IHa; reflexivity]).
  rewrite !A. cbn in *. lia.
Qed.

Lemma reads_repr l : reads_as (repr_list l) l.
Proof.
  unfold reads_as, repr_list. destruct l as [|s l]; [left; auto|]. right.
  eexists. split; [reflexivity|]. apply read_repr_list; [discriminate|].
  assert (A : forall a b : string, String.length (a ++ b) = (String.length a + String.length b)%nat) by (induction a as [|x a IHa]; intros b; cbn; [reflexivity|rewrite IHa; reflexivity]).
  rewrite !A. pose proof (concat_length_ge (s :: l)). cbn [String.length]. lia.
Qed.

(** ** Lines *)
Lemma line_split a b r r' : one_line a -> one_line b ->
  (a ++ String (ascii_of_nat 10) r = b ++ String (ascii_of_nat 10) r')%string -> a = b /\ r = r'.
Proof.
  revert b. induction a as [|c a IH]; intros b Ha Hb H; destruct b as [|d b]; cbn in H.
  - injection H as H. auto.
  - injection H as <- H. exfalso. apply Hb. left. reflexivity.
  - injection H as -> H. exfalso. apply Ha. left. reflexivity.
  - injection H as <- H. destruct (IH b) as [-> ->]; [intros K; apply Ha; right; exact K|intros K; apply Hb; right; exact K|exact H|auto].
Qed.

Lemma entry_text_split wl p q a b r r' : one_line (fst p) -> one_line (fst q) ->
  entry_text wl p a -> entry_text wl q b -> (a ++ r = b ++ r')%string ->
  fst p = fst q /\ dw (snd p) = dw (snd q) /\ (wl = true -> dl (snd p) = dl (snd q)) /\ r = r'.
Proof.
  intros O1 O2 [w [l [W [L ->]]]] [w' [l' [W' [L' ->]]]] H. unfold newline in H. rewrite ?sapp_assoc in H.
  cbn [append] in H. injection H as H. rewrite ?sapp_assoc in H. cbn [append] in H.
  apply line_split in H; [|assumption|assumption]. destruct H as [Hid H]. cbn [append] in H. injection H as H.
  rewrite ?sapp_assoc in H. cbn [append] in H.
  apply line_split in H; [|eapply side_one_line; eassumption|eapply side_one_line; eassumption]. destruct H as [-> H].
  assert (Ew : dw (snd p) = dw (snd q)) by (eapply side_unique; eassumption).
  destruct wl; [|split; [exact Hid|]; split; [exact Ew|]; split; [discriminate|exact H]].
  cbn [append] in H. injection H as H. rewrite ?sapp_assoc in H. cbn [append] in H.
  apply line_split in H; [|eapply side_one_line; eassumption|eapply side_one_line; eassumption]. destruct H as [-> ->].
  split; [exact Hid|]. split; [exact Ew|]. split; [intros _; eapply side_unique; eassumption|reflexivity].
Qed.
