(** * The validation of settings. *)
From Coq Require Import ZArith String Ascii List Bool QArith Lia Decimal DecimalString.
From Verif Require Import Py Values ProofsVal Settings SpecInstance SpecSettings.
Import ListNotations.
Open Scope string_scope.
Open Scope list_scope.
Open Scope Z_scope.
Open Scope sm_scope.

(** ** Values *)
Lemma as_int_an_int v z : as_int v = Some z <-> an_int v z.
Proof.
  unfold an_int. destruct v; cbn; split; try discriminate; try (intros [E|[[E _]|[E _]]]; discriminate).
  - destruct b; intros [= <-]; auto.
  - intros [E|[[[= ->] ->]|[[= ->] ->]]]; [discriminate|reflexivity..].
  - intros [= ->]. left. reflexivity.
  - intros [[= ->]|[[E _]|[E _]]]; [reflexivity|discriminate..].
Qed.
Lemma positive_an_int v z : positive_int v z <-> an_int v z /\ 1 <= z.
Proof.
  unfold positive_int, an_int. split.
  - intros [[->|[-> ->]] H]; split; auto; lia.
  - intros [[->|[[-> ->]|[-> ->]]] H]; split; auto; lia.
Qed.
Lemma an_int_fun v z z' : an_int v z -> an_int v z' -> z = z'.
Proof. rewrite <- !as_int_an_int. congruence. Qed.
Lemma not_positive_spec v : not_positive_int v = true <-> ~ is_positive_int v.
Proof.
  unfold not_positive_int, is_positive_int. destruct (as_int v) as [z|] eqn:E.
  - apply as_int_an_int in E. rewrite Z.leb_le. split.
    + intros H [z' H']. apply positive_an_int in H'. destruct H' as [H1 H2]. pose proof (an_int_fun _ _ _ E H1). lia.
    + intros H. destruct (Z.le_gt_cases z 0) as [G|G]; [assumption|]. exfalso. apply H. exists z. apply positive_an_int.
      split; [assumption|lia].
  - split; [|reflexivity]. intros _ [z H]. apply positive_an_int in H. destruct H as [H _]. apply as_int_an_int in H. congruence.
Qed.
Lemma positive_number_spec v : positive_number v = true <-> is_positive_int v \/ positive_float v.
Proof.
  unfold positive_number, is_positive_int, positive_float. split.
  - destruct v as [|b|z|f|s|l|l|d|h|h|n]; cbn; try discriminate.
    + destruct b; [|discriminate]. intros _. left. exists 1. apply positive_an_int. split; [right; left; auto|lia].
    + intros H. apply negb_true_iff in H. left. exists z. apply positive_an_int. split; [left; reflexivity|].
      destruct (Z.le_gt_cases z 0) as [G|G]; [|lia]. exfalso. unfold Qle_bool in H. cbn in H. rewrite Z.mul_1_r in H.
      apply Z.leb_gt in H. lia.
    + destruct f as [|[]|q]; try discriminate; intros H; right; [left; reflexivity|]. right. exists q. split; [reflexivity|].
      apply negb_true_iff in H. apply Qnot_le_lt. intros G. apply Qle_bool_iff in G. congruence.
  - intros [[z H]|[->|[q [-> H]]]]; cbn; [|reflexivity|].
    + apply positive_an_int in H. destruct H as [[->|[[-> ->]|[-> ->]]] H]; cbn; try reflexivity; [|lia].
      apply negb_true_iff. unfold Qle_bool. cbn. apply Z.leb_gt. lia.
    + apply negb_true_iff. destruct (Qle_bool q 0) eqn:E; [|reflexivity]. apply Qle_bool_iff in E.
      exfalso. apply (Qlt_not_le _ _ H E).
Qed.

Lemma vget_str_none d k : vget_str d k = VNone <-> absent_or_none d k.
Proof.
  unfold vget_str, absent_or_none, absent. destruct (vget d (VStr k)) as [v|]; split; auto.
  - intros ->. auto.
  - intros [E|[= ->]]; [discriminate|reflexivity].
Qed.
Lemma vget_str_some d k v : vget_str d k = v -> v <> VNone -> has d k v.
Proof. unfold vget_str, has. destruct (vget d (VStr k)); congruence. Qed.

(** ** File names *)
Lemma name_char_spec c : name_char c = true <-> In c name_class.
Proof.
  split.
  - assert (G : forall n, (n < 256)%nat -> name_char (ascii_of_nat n) = true -> In (ascii_of_nat n) name_class).
    { assert (H : forallb (fun n => implb (name_char (ascii_of_nat n)) (existsb (Ascii.eqb (ascii_of_nat n)) name_class)) (seq 0 256) = true)
        by (vm_compute; reflexivity).
      rewrite forallb_forall in H. intros n Hn Hc. specialize (H n ltac:(apply in_seq; lia)). rewrite Hc in H. cbn [implb] in H.
      apply existsb_exists in H. destruct H as [x [Hx E]]. apply Ascii.eqb_eq in E. rewrite E. assumption. }
    rewrite <- (ascii_nat_embedding c). apply G. apply nat_ascii_bounded.
  - assert (H : forallb name_char name_class = true) by (vm_compute; reflexivity). rewrite forallb_forall in H. apply H.
Qed.

Lemma name_match_spec s : forall taken room, (1 <= taken + String.length s)%nat \/ True ->
  name_match s taken room = true <->
  exists t, (s = t \/ s = (t ++ line_feed)%string) /\ (1 <= taken + String.length t)%nat /\
    (String.length t <= room)%nat /\ forall c, In c (list_ascii_of_string t) -> In c name_class.
Proof.
  induction s as [|c s IH]; intros taken room _; cbn [name_match].
  - rewrite Nat.leb_le. split.
    + intros H. exists "". split; [left; reflexivity|]. cbn. split; [lia|]. split; [lia|intros ? []].
    + intros [t [[<-|E] [H _]]]; [cbn in H; lia|]. destruct t; discriminate.
  - destruct (name_char c) eqn:Ec.
    + apply name_char_spec in Ec. destruct room as [|room].
      * split; [discriminate|]. intros [t [E [H1 [H2 H3]]]]. destruct t as [|a t]; [|cbn in H2; lia].
        destruct E as [E|E]; [discriminate|]. injection E as -> ->. vm_compute in Ec. intuition discriminate.
      * rewrite IH by (right; exact I). split.
        -- intros [t [E [H1 [H2 H3]]]]. exists (String c t). cbn [String.length list_ascii_of_string]. split.
           ++ destruct E as [->| ->]; auto.
           ++ split; [lia|]. split; [lia|]. intros x Hx. cbn [In] in Hx. destruct Hx as [<-|Hx]; auto.
        -- intros [t [E [H1 [H2 H3]]]]. destruct t as [|a t].
           ++ destruct E as [E|E]; [discriminate|]. injection E as -> ->. vm_compute in Ec. intuition discriminate.
           ++ assert (a = c /\ (s = t \/ s = (t ++ line_feed)%string)) as [-> E'] by (destruct E as [[= -> ->]|[= -> ->]]; auto).
              cbn [String.length list_ascii_of_string] in H1, H2, H3. exists t. split; [assumption|]. split; [lia|]. split; [lia|]. intros x Hx. apply H3. right. assumption.
    + assert (Ec' : ~ In c name_class) by (rewrite <- name_char_spec; congruence).
      rewrite !andb_true_iff, Ascii.eqb_eq, String.eqb_eq, Nat.leb_le. split.
      * intros [[-> ->] H]. exists "". split; [right; reflexivity|]. cbn. split; [lia|]. split; [lia|intros ? []].
      * intros [t [E [H1 [H2 H3]]]]. destruct t as [|a t].
        -- destruct E as [E|E]; [discriminate|]. injection E as -> ->. cbn in H1. split; [split; reflexivity|lia].
        -- exfalso. apply Ec'. apply H3. destruct E as [[= -> ->]|[= -> ->]]; left; reflexivity.
Qed.

Lemma file_name_spec s : file_name_ok s = true <-> proper_name_or_newline s.
Proof.
  unfold file_name_ok. rewrite name_match_spec by (right; exact I). unfold proper_name_or_newline, proper_name. split.
  - intros [t [[<-| ->] [H1 [H2 H3]]]]; [left|right; exists t]; repeat split; auto.
  - intros [[[H1 H2] H3]|[t [[[H1 H2] H3] ->]]]; [exists s|exists t]; repeat split; auto.
Qed.

(** ** Versions *)
Lemma split_dots_concat s : Forall no_dot (split_dots s) /\ s = String.concat "." (split_dots s) /\ split_dots s <> [].
Proof.
  induction s as [|c s [IH1 [IH2 IH3]]]; [split; [constructor; [intros []|constructor]|split; [reflexivity|discriminate]]|].
  cbn [split_dots]. destruct (Ascii.eqb_spec c ".") as [->|Hc].
  - split; [constructor; [intros []|assumption]|]. split; [|discriminate].
    destruct (split_dots s) as [|h r] eqn:E; [congruence|]. rewrite IH2 at 1. reflexivity.
  - destruct (split_dots s) as [|h r] eqn:E; [congruence|]. pose proof (Forall_inv IH1) as N1. pose proof (Forall_inv_tail IH1) as N2. split; [|split; [|discriminate]].
    + constructor; [|assumption]. unfold no_dot. cbn. intros [G|G]; [congruence|exact (N1 G)].
    + rewrite IH2 at 1. destruct r; reflexivity.
Qed.

Lemma split_dots_plain a s : no_dot a -> split_dots (a ++ String "." s) = a :: split_dots s.
Proof.
  induction a as [|c a IH]; intros H; [reflexivity|]. cbn. destruct (Ascii.eqb_spec c ".") as [->|Hc]; [exfalso; apply H; left; reflexivity|].
  rewrite IH; [reflexivity|]. intros G. apply H. right. assumption.
Qed.
Lemma split_dots_last a : no_dot a -> split_dots a = [a].
Proof.
  induction a as [|c a IH]; intros H; [reflexivity|]. cbn. destruct (Ascii.eqb_spec c ".") as [->|Hc]; [exfalso; apply H; left; reflexivity|].
  rewrite IH; [reflexivity|]. intros G. apply H. right. assumption.
Qed.
Lemma split_dots_of parts : parts <> [] -> Forall no_dot parts -> split_dots (String.concat "." parts) = parts.
Proof.
  induction parts as [|a parts IH]; [congruence|]. intros _ H. inversion H as [|? ? H1 H2]; subst.
  destruct parts as [|b parts]; [apply split_dots_last; assumption|].
  change (String.concat "." (a :: b :: parts)) with (a ++ String "." (String.concat "." (b :: parts)))%string.
  rewrite split_dots_plain by assumption. rewrite IH; [reflexivity|discriminate|assumption].
Qed.

Lemma strings_ltb_spec a : forall b, strings_ltb a b = true <-> before a b.
Proof.
  induction a as [|x a IH]; intros [|y b]; cbn [strings_ltb]; split; try discriminate; try (intros H; inversion H; fail).
  - intros _. constructor.
  - reflexivity.
  - destruct (String.eqb_spec x y) as [->|Hxy]; [intros H; apply before_later, IH, H|]. intros H. apply before_here.
    unfold String.ltb in H. destruct (String.compare x y); congruence.
  - intros H. destruct (String.eqb_spec x y) as [->|Hxy].
    + apply IH. inversion H as [|? ? ? ? G|]; subst; [|assumption]. exfalso.
      assert (String.compare y y = Eq); [|congruence].
      clear. induction y as [|c y IHy]; [reflexivity|]. cbn. replace (Ascii.compare c c) with Eq; [assumption|].
      unfold Ascii.compare. symmetry. apply N.compare_refl.
    + inversion H as [|? ? ? ? G|]; subst; [|congruence]. unfold String.ltb. rewrite G. reflexivity.
Qed.

Lemma version_ok_spec v lo hi : version_ok v lo hi = true <-> parts_between v lo hi.
Proof.
  unfold version_ok, parts_between. rewrite andb_true_iff, negb_true_iff. rewrite <- not_true_iff_false, !strings_ltb_spec. split.
  - intros [H1 H2]. destruct (split_dots_concat v) as [S1 [S2 S3]]. exists (split_dots v). auto.
  - intros [parts [P1 [P2 [-> [P3 P4]]]]]. rewrite split_dots_of by assumption. auto.
Qed.

Lemma plotly_ok_spec env : plotly_ok env = true <-> plotly_by_code env.
Proof.
  unfold plotly_ok, plotly_by_code. destruct (env_plotly env) as [v|].
  - rewrite version_ok_spec. split; [eauto|]. intros [v' [[= <-] H]]. assumption.
  - split; [discriminate|]. intros [v' [[=] _]].
Qed.
Lemma kaleido_ok_spec env : kaleido_ok env = true <-> kaleido_by_code env.
Proof.
  unfold kaleido_ok, kaleido_by_code. destruct (env_kaleido env) as [v|].
  - rewrite version_ok_spec. split; [eauto|]. intros [v' [[= <-] H]]. assumption.
  - split; [discriminate|]. intros [v' [[=] _]].
Qed.

(** ** Hoare triples *)
Definition tri (P : cfg -> Prop) (m : SM cfg unit) (Q : cfg -> Prop) (B : cfg -> settings_msg -> Prop) : Prop :=
  forall c, P c -> match m c with
                   | (c', Ok _) => Q c'
                   | (c', Err (SettingsError e)) => B c' e
                   | _ => False
                   end.

Lemma tri_bind P m R k Q B : tri P m R B -> tri R (k tt) Q B -> tri P (sbind m k) Q B.
Proof.
  intros H1 H2 c Hc. specialize (H1 c Hc). unfold sbind. destruct (m c) as [c1 [[]|e]]; [apply H2; assumption|].
  destruct e; try contradiction. assumption.
Qed.
Lemma tri_get P (k : cfg -> SM cfg unit) Q B : (forall c0, tri (fun c => P c /\ c = c0) (k c0) Q B) -> tri P (sbind sget k) Q B.
Proof. intros H c Hc. unfold sbind, sget. apply (H c c). auto. Qed.
Lemma tri_ret (P : cfg -> Prop) B : tri P (sret tt) P B.
Proof. intros c Hc. exact Hc. Qed.
Lemma tri_ret' (P Q : cfg -> Prop) B : (forall c, P c -> Q c) -> tri P (sret tt) Q B.
Proof. intros H c Hc. apply H, Hc. Qed.
Lemma tri_raise (P Q : cfg -> Prop) m (B : cfg -> settings_msg -> Prop) : (forall c, P c -> B c m) -> tri P (sraise (serr m)) Q B.
Proof. intros H c Hc. apply H, Hc. Qed.
Lemma tri_when (P : cfg -> Prop) b m (B : cfg -> settings_msg -> Prop) : (forall c, b = true -> P c -> B c m) ->
  tri P (swhen b (serr m)) (fun c => P c /\ b = false) B.
Proof. intros H c Hc. destruct b; cbn; auto. Qed.
Lemma tri_modify (P Q : cfg -> Prop) f B : (forall c, P c -> Q (f c)) -> tri P (smodify f) Q B.
Proof. intros H c Hc. apply H, Hc. Qed.
Lemma tri_weaken (P P' Q Q' : cfg -> Prop) m B : (forall c, P' c -> P c) -> (forall c, Q c -> Q' c) -> tri P m Q B -> tri P' m Q' B.
Proof.
  intros H1 H2 H c Hc. specialize (H c (H1 c Hc)). destruct (m c) as [c' [[]|e]]; [auto|assumption].
Qed.
Lemma tri_pure (P Q : cfg -> Prop) m B (X : Prop) : (forall c, P c -> X) -> (X -> tri P m Q B) -> tri P m Q B.
Proof. intros H1 H2 c Hc. exact (H2 (H1 c Hc) c Hc). Qed.

Section Validation.
Variables (env : environment) (v : pyval) (c0 : cfg).

(** Where every attribute is the old one or a valid new one. *)
Definition rotation_from (c : cfg) : Prop :=
  c_rotation c = c_rotation c0 \/ exists d, v = VDict d /\ rotation_is d (c_rotation c).
Definition limit_from (c : cfg) : Prop :=
  c_limit c = c_limit c0 \/ exists d, v = VDict d /\ max_time_is d (c_limit c).
Definition workers_from (c : cfg) : Prop :=
  c_workers c = c_workers c0 \/ exists d, v = VDict d /\ any_workers_is d (c_workers c).
Definition libs_env (c : cfg) : Prop :=
  c_plotly c = installed (env_plotly env) /\ c_plotly_ok c = plotly_ok env /\
  c_kaleido c = installed (env_kaleido env) /\ c_kaleido_ok c = kaleido_ok env.
Definition libs_old (c : cfg) : Prop :=
  c_plotly c = c_plotly c0 /\ c_plotly_ok c = c_plotly_ok c0 /\
  c_kaleido c = c_kaleido c0 /\ c_kaleido_ok c = c_kaleido_ok c0.
Definition mixed (c : cfg) : Prop :=
  (c_settings c = v \/ default_name_inserted v (c_settings c)) /\
  rotation_from c /\ limit_from c /\ workers_from c /\ (libs_old c \/ libs_env c).

Definition bad (c : cfg) (m : settings_msg) : Prop := mixed c /\ reason env v m.

(** After the rotation; after the solver settings. *)
Definition solver_done (d : vdict) (c : cfg) : Prop :=
  c_settings c = v /\ rotation_is d (c_rotation c) /\ max_time_is d (c_limit c) /\
  any_workers_is d (c_workers c) /\ libs_old c.

Definition start (c : cfg) : Prop := c = with_settings c0 v.

Lemma start_mixed c : start c -> mixed c.
Proof.
  intros ->. unfold mixed, rotation_from, limit_from, workers_from, libs_old. cbn. auto 10.
Qed.

Lemma validate_rotation_tri : tri start validate_rotation
  (fun c => exists d, v = VDict d /\ c_settings c = v /\ rotation_is d (c_rotation c) /\
            c_limit c = c_limit c0 /\ c_workers c = c_workers c0 /\ libs_old c) bad.
Proof.
  unfold validate_rotation. apply tri_get. intros c1. apply (tri_pure _ _ _ _ (start c1)); [intros c [H <-]; exact H|]. intros E1.
  assert (Es : c_settings c1 = v) by (rewrite E1; reflexivity). rewrite Es.
  assert (Bd : forall m c, reason env v m -> start c /\ c = c1 -> bad c m) by (intros m c Hr [Hc _]; split; [apply start_mixed; exact Hc|exact Hr]).
  assert (Md : forall b d, v = VDict d -> rotation_is d b ->
    tri (fun c => start c /\ c = c1) (smodify (fun c => with_rotation c b))
     (fun c => exists d, v = VDict d /\ c_settings c = v /\ rotation_is d (c_rotation c) /\
            c_limit c = c_limit c0 /\ c_workers c = c_workers c0 /\ libs_old c) bad).
  { intros b d Hd Hb. apply tri_modify. intros c [-> _]. exists d. cbn. unfold libs_old. cbn. auto 10. }
  destruct v as [|b|z|f|s|l|l|d|h|h|n] eqn:Ev; try (apply tri_raise; intros c; apply Bd; cbn; discriminate).
  assert (R : tri (fun c => start c /\ c = c1) 
      match vget_str d "rotation" with
      | VNone => smodify (fun c => with_rotation c rotation_default)
      | VBool b => smodify (fun c => with_rotation c b)
      | _ => sraise (serr S_ROTATION_TYPE)
      end (fun c => exists d, v = VDict d /\ c_settings c = v /\ rotation_is d (c_rotation c) /\
            c_limit c = c_limit c0 /\ c_workers c = c_workers c0 /\ libs_old c) bad).
  { destruct (vget_str d "rotation") as [|b|z|f|s|l|l|d'|h|h|n] eqn:Er;
      try (apply tri_raise; intros c; apply Bd; cbn; exists d; eexists; split; [reflexivity|];
           split; [apply vget_str_some; [exact Er|discriminate]|split; [discriminate|discriminate]]).
    - rewrite Ev. apply (Md _ d eq_refl). left. split; [apply vget_str_none; assumption|reflexivity].
    - rewrite Ev. apply (Md _ d eq_refl). right. apply vget_str_some; [assumption|discriminate]. }
  destruct d as [|p d']; [|rewrite Ev in R; exact R].
  rewrite <- Ev. rewrite Ev. apply (Md _ [] eq_refl). left. split; [left; reflexivity|reflexivity].
Qed.

Lemma any_workers_cases d : 
  (exists w, vget_str d "workers_num" = VNone /\ w = VInt 1 /\ any_workers_is d w) \/
  (exists w, vget_str d "workers_num" = w /\ w <> VNone /\ has d "workers_num" w).
Proof.
  destruct (vget_str d "workers_num") as [|b|z|f|s|l|l|d'|h|h|n] eqn:E;
    try (right; eexists; split; [reflexivity|]; split; [discriminate|apply vget_str_some; [exact E|discriminate]]).
  left. exists (VInt 1). split; [reflexivity|]. split; [reflexivity|]. left. split; [apply vget_str_none; assumption|reflexivity].
Qed.

Lemma validate_solver_tri : tri start validate_solver (fun c => exists d, v = VDict d /\ solver_done d c) bad.
Proof.
  unfold validate_solver. eapply tri_bind; [apply validate_rotation_tri|]. apply tri_get. intros c1.
  set (R := fun c => exists d, v = VDict d /\ c_settings c = v /\ rotation_is d (c_rotation c) /\
            c_limit c = c_limit c0 /\ c_workers c = c_workers c0 /\ libs_old c).
  apply (tri_pure _ _ _ _ (R c1)); [intros c [H <-]; exact H|]. intros [d [Ev [Es _]]].
  assert (Es' : c_settings c1 = VDict d) by congruence. rewrite Es'. clear Es'.
  set (body := 
    (match as_int (match vget d (VStr "max_time_in_seconds") with Some v => v | None => VInt limit_default end) with
      | None => sraise (serr S_MAX_TIME_TYPE)
      | Some z => swhen (z <? 1) (serr S_MAX_TIME_VALUE) ;;; smodify (fun c => with_limit c z)
      end ;;;
      match vget_str d "workers_num" with
      | VNone => smodify (fun c => with_workers c workers_default)
      | w => swhen (negb (positive_number w)) (serr S_WORKERS_VALUE) ;;;
             smodify (fun c => with_workers c w)
      end)).
  assert (G : tri (fun c => R c /\ c = c1) body (fun c => exists d, v = VDict d /\ solver_done d c) bad).
  { unfold body. apply (tri_bind _ _ (fun c => c_settings c = v /\ rotation_is d (c_rotation c) /\ max_time_is d (c_limit c) /\
                              c_workers c = c_workers c0 /\ libs_old c)).
    - assert (Rm : forall c m, reason env v m -> R c /\ c = c1 -> bad c m).
      { intros c m Hr [[d' [Ed [H1 [H2 [H3 [H4 H5]]]]]] _]. split; [|assumption].
        split; [left; assumption|]. split; [right; exists d'; auto|]. split; [left; assumption|]. split; [left; assumption|].
        left. assumption. }
      assert (Md : forall z, max_time_is d z -> forall c, R c /\ c = c1 ->
         c_settings (with_limit c z) = v /\ rotation_is d (c_rotation (with_limit c z)) /\ max_time_is d (c_limit (with_limit c z)) /\
                              c_workers (with_limit c z) = c_workers c0 /\ libs_old (with_limit c z)).
      { intros z Hz c [[d' [Ed [H1 [H2 [H3 [H4 H5]]]]]] _]. assert (d' = d) by congruence. subst d'. cbn. auto 10. }
      destruct (vget d (VStr "max_time_in_seconds")) as [t|] eqn:Et.
      + destruct (as_int t) as [z|] eqn:Ez.
        * apply as_int_an_int in Ez. eapply tri_bind; [apply tri_when|].
          -- intros c Hz Hc. apply Rm; [|assumption]. rewrite Ev. cbn. exists d, t, z. apply Z.ltb_lt in Hz. auto.
          -- apply tri_modify. intros c [Hc Hz]. apply Z.ltb_ge in Hz. apply Md; [|assumption]. right. exists t. split; [assumption|].
             apply positive_an_int. auto.
        * apply tri_raise. intros c Hc. apply Rm; [|assumption]. rewrite Ev. cbn. exists d, t. split; [reflexivity|]. split; [assumption|].
          intros z Hz. apply as_int_an_int in Hz. congruence.
      + cbn [as_int]. eapply tri_bind; [apply tri_when; discriminate|]. apply tri_modify. intros c [Hc _]. apply Md; [|assumption].
        left. auto.
    - set (R2 := fun c => c_settings c = v /\ rotation_is d (c_rotation c) /\ max_time_is d (c_limit c) /\
                              c_workers c = c_workers c0 /\ libs_old c).
      assert (Md : forall w, any_workers_is d w -> forall c, R2 c -> exists d, v = VDict d /\ solver_done d (with_workers c w)).
      { intros w Hw c [H1 [H2 [H3 [H4 H5]]]]. exists d. split; [assumption|]. unfold solver_done. cbn. auto 10. }
      assert (Bm : forall c m, reason env v m -> R2 c -> bad c m).
      { intros c m Hr [H1 [H2 [H3 [H4 H5]]]]. split; [|assumption]. split; [left; assumption|]. split; [right; exists d; auto|].
        split; [right; exists d; auto|]. split; [left; assumption|]. left. assumption. }
      destruct (any_workers_cases d) as [[w [E [Ew Hw]]]|[w [E [Nw Hw]]]].
      + rewrite E. apply tri_modify. intros c Hc. subst w. apply Md; assumption.
      + rewrite E. assert (T : tri R2 (swhen (negb (positive_number w)) (serr S_WORKERS_VALUE) ;;; smodify (fun c => with_workers c w))
                            (fun c => exists d, v = VDict d /\ solver_done d c) bad).
        { eapply tri_bind; [apply tri_when|].
          - intros c Hn Hc. apply Bm; [|assumption]. rewrite Ev. cbn. exists d, w. split; [reflexivity|]. split; [assumption|].
            split; [assumption|]. apply negb_true_iff in Hn. rewrite <- not_true_iff_false, positive_number_spec in Hn. tauto.
          - apply tri_modify. intros c [Hc Hp]. apply negb_false_iff in Hp. apply Md; [|assumption]. right. split; [assumption|].
            apply positive_number_spec. assumption. }
        destruct w; try exact T. congruence. }
  destruct d as [|p d']; [|exact G].
  (* the empty dictionary *)
  apply tri_modify. intros c [[d [Ed [H1 [H2 [H3 [H4 H5]]]]]] _]. assert (d = []) by congruence. subst d. exists [].
  split; [assumption|]. unfold solver_done. cbn. split; [assumption|]. split; [assumption|]. split; [left; split; reflexivity|].
  split; [left; split; [left; reflexivity|reflexivity]|assumption].
Qed.

Definition figure_done (d : vdict) (c : cfg) : Prop :=
  (c_settings c = v \/ default_name_inserted v (c_settings c)) /\ rotation_is d (c_rotation c) /\ max_time_is d (c_limit c) /\
  any_workers_is d (c_workers c) /\ libs_env c.

Lemma figure_mixed d c : v = VDict d -> figure_done d c -> mixed c.
Proof.
  intros Ev [H1 [H2 [H3 [H4 H5]]]]. split; [assumption|]. split; [right; exists d; auto|]. split; [right; exists d; auto|].
  split; [right; exists d; auto|]. right. assumption.
Qed.

Lemma is_string_spec w s : is_string w s = true <-> w = VStr s.
Proof.
  unfold is_string. split; [|intros ->; apply key_eqb_str_l; reflexivity]. destruct w; cbn; try discriminate.
  intros H. apply String.eqb_eq in H. congruence.
Qed.
Lemma in_strings_spec w l : in_strings w l = true <-> exists s, w = VStr s /\ In s l.
Proof.
  unfold in_strings. rewrite existsb_exists. split.
  - intros [s [H1 H2]]. apply is_string_spec in H2. eauto.
  - intros [s [-> H]]. exists s. split; [assumption|apply is_string_spec; reflexivity].
Qed.
Lemma is_none_spec w : is_none w = true <-> w = VNone.
Proof. destruct w; cbn; split; congruence. Qed.

Ltac by_bool := repeat match goal with
  | H : negb _ = true |- _ => apply negb_true_iff in H
  | H : negb _ = false |- _ => apply negb_false_iff in H
  | H : _ && _ = true |- _ => apply andb_true_iff in H; destruct H
  end.

Lemma validate_export_tri d f e w :
  v = VDict d -> has d "figure" (VDict f) -> has f "export" w -> (forall e', w = VDict e' -> e' = e) ->
  tri (fun c => figure_done d c /\ c_settings c = v) (validate_export env w)
      (fun c => figure_done d c /\ w = VDict e /\ export_rules proper_name_or_newline kaleido_by_code false env e) bad.
Proof.
  intros Ev Hf Hw He. unfold validate_export.
  assert (FH : forall w', w = w' -> figure_has v "export" (Some w')) by (intros w' <-; exists d, f; auto).
  destruct w as [| | | | | | |e'| | |];
    try (apply tri_raise; intros c [Hc _]; split; [apply (figure_mixed d); assumption|]; cbn; eexists; split; [apply FH; reflexivity|discriminate]).
  rewrite (He e' eq_refl) in *. clear e' He.
  assert (XH : forall k o, vget e (VStr k) = o -> export_has v k o) by (intros k o <-; exists e; split; [apply FH; reflexivity|reflexivity]).
  assert (XL : forall k, vget_str e k = VNone -> export_lacks v k).
  { intros k H. apply vget_str_none in H. destruct H as [H|H]; [left|right]; apply XH, H. }
  assert (XS : forall k w', vget_str e k = w' -> w' <> VNone -> export_has v k (Some w')).
  { intros k w' H N. apply XH. apply vget_str_some; assumption. }
  set (P := fun c => figure_done d c /\ c_settings c = v).
  assert (Bm : forall c m, P c -> reason env v m -> bad c m) by (intros c m [Hc _] Hr; split; [apply (figure_mixed d); assumption|exact Hr]).
  set (ty := vget_str e "type") in *.
  eapply tri_bind; [apply (tri_when P)|].
  { intros c Hb Hc. apply Bm; [assumption|]. apply is_none_spec in Hb. cbn. apply XL. exact Hb. }
  eapply tri_bind; [apply tri_when|].
  { intros c Hb [Hc Hn]. apply Bm; [assumption|]. by_bool. cbn. exists ty. split; [apply XS; [reflexivity|]|].
    - intros E. apply is_none_spec in E. congruence.
    - rewrite <- not_true_iff_false, in_strings_spec in Hb. split; intros E; apply Hb; rewrite E; eexists; (split; [reflexivity|cbn; auto]). }
  apply (tri_pure _ _ _ _ (ty = VStr "html" \/ ty = VStr "image")).
  { intros c [_ Hb]. by_bool. apply in_strings_spec in Hb. destruct Hb as [s [E [<-|[<-|[]]]]]; auto. }
  intros Hty.
  apply (tri_weaken P _ (fun c => figure_done d c /\ VDict e = VDict e /\ export_rules proper_name_or_newline kaleido_by_code false env e) _);
    [intros c [[Hc _] _]; exact Hc|intros c Hc; exact Hc|].
  (* the path *)
  apply (tri_bind _ _ (fun c => P c /\ exists p, has e "path" (VStr p) /\ directory env p)).
  { destruct (vget_str e "path") as [| | | |p| | | | | |] eqn:Ep;
      try (apply tri_raise; intros c Hc; apply Bm; [assumption|]; cbn; eexists; split; [apply (XS _ _ Ep); discriminate|discriminate]).
    - apply tri_raise. intros c Hc. apply Bm; [assumption|]. cbn. apply XL. assumption.
    - assert (Hp : has e "path" (VStr p)) by (apply vget_str_some; [assumption|discriminate]).
      eapply tri_bind; [apply tri_when|].
      { intros c Hb Hc. apply Bm; [assumption|]. by_bool. cbn. exists p. split; [apply XH, Hp|assumption]. }
      eapply tri_weaken; [intros c Hc; exact Hc| |apply tri_when].
      + cbn. intros c [[Hc H1] H2]. by_bool. split; [assumption|]. exists p. split; [assumption|split; assumption].
      + intros c Hb [Hc _]. apply Bm; [assumption|]. by_bool. cbn. exists p. split; [apply XH, Hp|assumption]. }
  apply (tri_pure _ _ _ _ (exists p, has e "path" (VStr p) /\ directory env p)); [intros c [_ H]; exact H|]. intros Hpath.
  apply (tri_weaken P _ (fun c => figure_done d c /\ VDict e = VDict e /\ export_rules proper_name_or_newline kaleido_by_code false env e) _);
    [intros c [Hc _]; exact Hc|intros c Hc; exact Hc|].
  set (fmt := vget_str e "format") in *.
  (* the format *)
  eapply tri_bind; [apply (tri_when P)|].
  { intros c Hb Hc. apply Bm; [assumption|]. by_bool. cbn. split.
    - apply XS; [|discriminate]. destruct Hty as [E|E]; [|exact E]. exfalso.
      assert (is_string ty "html" = true) by (apply is_string_spec; exact E). congruence.
    - apply XL. apply is_none_spec. assumption. }
  eapply tri_bind; [apply tri_when|].
  { intros c Hb [Hc Hn]. apply Bm; [assumption|]. by_bool. cbn. split.
    - apply XS; [|discriminate]. destruct Hty as [E|E]; [|exact E]. exfalso.
      assert (is_string ty "html" = true) by (apply is_string_spec; exact E). congruence.
    - exists fmt. split.
      + apply XS; [reflexivity|]. intros E. apply is_none_spec in E. rewrite E in Hn. rewrite H in Hn. discriminate.
      + intros x Ex. rewrite Ex in H0. discriminate. }
  eapply tri_bind; [apply tri_when|].
  { intros c Hb [[Hc Hn] Hs]. apply Bm; [assumption|]. by_bool. cbn. apply is_string_spec in H. split.
    - apply XS; [assumption|discriminate].
    - rewrite H in Hs. change (is_string (VStr "image") "html") with false in Hs. cbn in Hs. apply negb_false_iff in Hs.
      destruct fmt as [| | | |x| | | | | |] eqn:Ex; try discriminate. exists x. split; [apply XS; [exact Ex|discriminate]|].
      intros Hin. rewrite <- not_true_iff_false, in_strings_spec in H0. apply H0. exists x. split; [reflexivity|exact Hin]. }
  apply (tri_pure _ _ _ _ (ty = VStr "html" \/ ty = VStr "image" /\ exists x, has e "format" (VStr x) /\ In x ["pdf"; "png"; "jpeg"; "webp"; "svg"])).
  { intros c [[[_ H1] H2] H3]. destruct Hty as [E|E]; [left; assumption|]. right. split; [assumption|]. rewrite E in H3.
    change (is_string (VStr "image") "image") with true in H3. cbn [andb] in H3. apply negb_false_iff in H3. apply in_strings_spec in H3.
    destruct H3 as [x [Ex Hx]]. exists x. split; [|exact Hx]. apply vget_str_some; [exact Ex|discriminate]. }
  intros Hfmt.
  (* the name *)
  apply (tri_bind _ _ (fun c => figure_done d c /\ (absent_or_none e "file_name" \/ exists n, has e "file_name" (VStr n) /\ proper_name_or_newline n))).
  { apply (tri_weaken P _ (fun c => figure_done d c /\ (absent_or_none e "file_name" \/ exists n, has e "file_name" (VStr n) /\ proper_name_or_newline n)) _);
      [intros c [[[Hc _] _] _]; exact Hc|intros c Hc; exact Hc|].
    destruct (vget_str e "file_name") as [| | | |n| | | | | |] eqn:En;
      try (apply tri_raise; intros c Hc; apply Bm; [assumption|]; cbn; eexists; split; [apply (XS _ _ En); discriminate|split; discriminate]).
    - apply vget_str_none in En. apply tri_modify. intros c [[H1 H2] Hc]. split; [|left; assumption].
      unfold insert_file_name. rewrite Hc, Ev. unfold has in Hf, Hw. rewrite Hf, Hw. unfold figure_done, libs_env. cbn.
      split; [right|exact H2]. exists d, f, e. auto 10.
    - assert (Hn : has e "file_name" (VStr n)) by (apply vget_str_some; [assumption|discriminate]).
      eapply tri_weaken; [intros c Hc; exact Hc| |apply tri_when].
      + cbn. intros c [[Hc _] H]. by_bool. apply file_name_spec in H. split; [exact Hc|]. right. eauto.
      + intros c Hb Hc. apply Bm; [assumption|]. by_bool. cbn. exists n. split; [apply XH, Hn|]. intros G. apply file_name_spec in G. congruence. }
  apply (tri_pure _ _ _ _ (absent_or_none e "file_name" \/ exists n, has e "file_name" (VStr n) /\ proper_name_or_newline n));
    [intros c [_ H]; exact H|]. intros Hname.
  apply (tri_weaken (figure_done d) _ (fun c => figure_done d c /\ VDict e = VDict e /\ export_rules proper_name_or_newline kaleido_by_code false env e) _);
    [intros c [Hc _]; exact Hc|intros c Hc; exact Hc|].
  destruct (is_string ty "image") eqn:Eim.
  - (* images *)
    apply is_string_spec in Eim. destruct Hfmt as [E|[_ Hfmt]]; [congruence|].
    assert (Ti : export_has v "type" (Some (VStr "image"))) by (apply XS; [assumption|discriminate]).
    assert (Bd : forall c m, figure_done d c -> reason env v m -> bad c m) by (intros c m Hc Hr; split; [apply (figure_mixed d); assumption|exact Hr]).
    apply tri_get. intros c1. apply (tri_pure _ _ _ _ (figure_done d c1)); [intros c [H <-]; exact H|].
    intros [_ [_ [_ [_ [_ [_ [L1 L2]]]]]]]. rewrite L1, L2.
    apply (tri_weaken (figure_done d) _ (fun c => figure_done d c /\ VDict e = VDict e /\ export_rules proper_name_or_newline kaleido_by_code false env e) _);
      [intros c [Hc _]; exact Hc|intros c Hc; exact Hc|].
    eapply tri_bind; [apply (tri_when (figure_done d))|].
    { intros c Hb Hc. apply Bd; [assumption|]. by_bool. cbn. split; [assumption|]. destruct (env_kaleido env); [discriminate|reflexivity]. }
    eapply tri_bind; [apply tri_when|].
    { intros c Hb [Hc Hi]. apply Bd; [assumption|]. by_bool. cbn. split; [assumption|]. split.
      - destruct (env_kaleido env); [discriminate|discriminate Hi].
      - intros G. apply kaleido_ok_spec in G. congruence. }
    eapply tri_bind; [apply tri_when|].
    { intros c Hb [[Hc _] _]. apply Bd; [assumption|]. by_bool. cbn. split; [assumption|]. exists (vget_str e "width").
      assert (vget_str e "width" <> VNone) by (intros E; apply is_none_spec in E; congruence).
      split; [apply XS; [reflexivity|assumption]|]. split; [assumption|]. apply not_positive_spec. assumption. }
    eapply tri_weaken; [intros c Hc; exact Hc| |apply tri_when].
    + cbn. intros c [[[[Hc K1] K2] W] Hh]. by_bool. split; [assumption|]. split; [reflexivity|].
      assert (SZ : forall k, negb (is_none (vget_str e k)) && not_positive_int (vget_str e k) = false -> size_ok e k).
      { intros k H. destruct (is_none (vget_str e k)) eqn:Ek; [left; apply vget_str_none, is_none_spec; exact Ek|].
        right. exists (vget_str e k). split; [apply vget_str_some; [reflexivity|intros E; apply is_none_spec in E; congruence]|].
        cbn [negb andb] in H. unfold not_positive_int in H. destruct (as_int (vget_str e k)) as [z|] eqn:Az; [|discriminate].
        apply as_int_an_int in Az. apply Z.leb_gt in H. exists z. apply positive_an_int. split; [assumption|lia]. }
      split; [right|split; assumption]. split; [apply vget_str_some; [exact Eim|discriminate]|]. split; [apply SZ; assumption|].
      split; [apply SZ; assumption|]. split; [apply kaleido_ok_spec; assumption|assumption].
    + intros c Hb [[[Hc _] _] _]. apply Bd; [assumption|]. by_bool. cbn. split; [assumption|]. exists (vget_str e "height").
      assert (vget_str e "height" <> VNone) by (intros E; apply is_none_spec in E; congruence).
      split; [apply XS; [reflexivity|assumption]|]. split; [assumption|]. apply not_positive_spec. assumption.
  - apply tri_ret'. intros c Hc. split; [assumption|]. split; [reflexivity|]. split; [left|split; assumption].
    destruct Hty as [E|E]; [|rewrite E in Eim; discriminate Eim]. split; [apply vget_str_some; [exact E|discriminate]|discriminate].
Qed.

Lemma validate_figure_tri d : v = VDict d ->
  tri (solver_done d) (validate_figure env) (fun c => figure_done d c /\ figure_by_code env d) bad.
Proof.
  intros Ev. unfold validate_figure, check_versions.
  apply (tri_bind _ _ (fun c => figure_done d c /\ c_settings c = v)).
  { apply tri_modify. intros c [H1 [H2 [H3 [H4 _]]]]. unfold figure_done, libs_env. cbn. auto 10. }
  set (P := fun c => figure_done d c /\ c_settings c = v).
  assert (Bm : forall c m, P c -> reason env v m -> bad c m) by (intros c m [Hc _] Hr; split; [apply (figure_mixed d); assumption|exact Hr]).
  apply tri_get. intros c1. apply (tri_pure _ _ _ _ (P c1)); [intros c [H <-]; exact H|]. intros [[_ [_ [_ [_ [L1 [L2 _]]]]]] Es].
  assert (Es' : c_settings c1 = VDict d) by congruence. rewrite Es', L1, L2. clear Es'.
  apply (tri_weaken P _ (fun c => figure_done d c /\ figure_by_code env d) _); [intros c [Hc _]; exact Hc|intros c Hc; exact Hc|].
  destruct (vget d (VStr "figure")) as [fig|] eqn:Ef; [|apply tri_ret'; intros c [Hc _]; split; [exact Hc|left; exact Ef]].
  destruct fig as [| | | | | | |f| | |];
    try (apply tri_raise; intros c Hc; apply Bm; [assumption|]; rewrite Ev; cbn; exists d; eexists; split; [reflexivity|]; split; [exact Ef|discriminate]).
  destruct f as [|p f0] eqn:Ef0; [apply tri_ret'; intros c [Hc _]; split; [exact Hc|right; exists []; auto]|].
  assert (FW : figure_wanted v) by (exists d, f; subst f; repeat split; [assumption|exact Ef|discriminate]).
  rewrite <- Ef0 in *. clear p f0 Ef0.
  eapply tri_bind; [apply (tri_when P)|].
  { intros c Hb Hc. apply Bm; [assumption|]. by_bool. cbn. split; [exact FW|]. destruct (env_plotly env); [discriminate|reflexivity]. }
  eapply tri_bind; [apply tri_when|].
  { intros c Hb [Hc Hi]. apply Bm; [assumption|]. by_bool. cbn. split; [exact FW|]. split.
    - destruct (env_plotly env); [discriminate|discriminate Hi].
    - intros G. apply plotly_ok_spec in G. congruence. }
  apply (tri_pure _ _ _ _ (plotly_by_code env)).
  { intros c [_ H]. by_bool. apply plotly_ok_spec. assumption. }
  intros Hp.
  apply (tri_weaken P _ (fun c => figure_done d c /\ figure_by_code env d) _); [intros c [[Hc _] _]; exact Hc|intros c Hc; exact Hc|].
  apply (tri_bind _ _ (fun c => figure_done d c /\
    (absent f "export" \/ exists e, has f "export" (VDict e) /\ export_rules proper_name_or_newline kaleido_by_code false env e))).
  { destruct (vget f (VStr "export")) as [w|] eqn:Ew; [|apply tri_ret'; intros c [Hc _]; split; [exact Hc|left; exact Ew]].
    pose (e := match w with VDict e => e | _ => [] end).
    eapply tri_weaken; [intros c Hc; exact Hc| |apply (validate_export_tri d f e w Ev Ef Ew)].
    - cbn. intros c [Hc [Hw He]]. split; [assumption|]. right. exists e. split; [|assumption]. rewrite <- Hw. exact Ew.
    - intros e' ->. reflexivity. }
  apply (tri_pure _ _ _ _ (absent f "export" \/ exists e, has f "export" (VDict e) /\ export_rules proper_name_or_newline kaleido_by_code false env e));
    [intros c [_ H]; exact H|]. intros He.
  assert (Bd : forall c m, figure_done d c -> reason env v m -> bad c m) by (intros c m Hc Hr; split; [apply (figure_mixed d); assumption|exact Hr]).
  destruct (vget f (VStr "show")) as [w|] eqn:Ew.
  - assert (B : (exists b, w = VBool b) \/ forall b, w <> VBool b) by (destruct w; try (right; discriminate); left; eauto).
    destruct B as [[b ->]|B].
    + apply tri_ret'. intros c [Hc _]. split; [exact Hc|]. right. exists f. split; [exact Ef|]. right. split; [assumption|]. split; [assumption|]. right. exists b. exact Ew.
    + assert (T : tri (fun c => figure_done d c /\ (absent f "export" \/ exists e, has f "export" (VDict e) /\ export_rules proper_name_or_newline kaleido_by_code false env e))
        (sraise (serr S_FIGURE_SHOW_VALUE)) (fun c => figure_done d c /\ figure_by_code env d) bad).
      { apply tri_raise. intros c [Hc _]. apply Bd; [assumption|]. cbn. exists w. split; [|exact B]. exists d, f. auto. }
      destruct w; try exact T. exfalso. exact (B b eq_refl).
  - apply tri_ret'. intros c [Hc _]. split; [exact Hc|]. right. exists f. split; [exact Ef|]. right. split; [assumption|]. split; [assumption|]. left. exact Ew.
Qed.

Theorem validate_settings_tri :
  tri start (validate_settings env) (fun c => exists d, v = VDict d /\ figure_done d c /\ figure_by_code env d) bad.
Proof.
  unfold validate_settings. eapply tri_bind; [apply validate_solver_tri|]. intros c [d [Ev Hc]].
  pose proof (validate_figure_tri d Ev c Hc) as H. destruct (validate_figure env c) as [c' [[]|e]]; [|exact H].
  exists d. split; [assumption|exact H].
Qed.

(** A message and its absence of reason. *)
Lemma figure_has_fun k w d f : v = VDict d -> has d "figure" (VDict f) -> figure_has v k w -> vget f (VStr k) = w.
Proof.
  intros Ev Hf [d' [f' [E1 [E2 E3]]]]. assert (d' = d) by congruence. subst d'. unfold has in *. assert (f' = f) by congruence. subst f'. assumption.
Qed.
Lemma export_has_fun k w d f e : v = VDict d -> has d "figure" (VDict f) -> has f "export" (VDict e) -> export_has v k w -> vget e (VStr k) = w.
Proof.
  intros Ev Hf He [e' [E1 E2]]. pose proof (figure_has_fun _ _ d f Ev Hf E1) as E. unfold has in *. assert (e' = e) by congruence. subst e'. assumption.
Qed.

Lemma export_lacks_fun k d f e : v = VDict d -> has d "figure" (VDict f) -> has f "export" (VDict e) -> export_lacks v k -> absent_or_none e k.
Proof. intros Ev Hf He [H|H]; [left|right]; apply (export_has_fun _ _ d f e Ev Hf He H). Qed.

Lemma has_export k w d : v = VDict d -> figure_by_code env d -> export_has v k w ->
  exists e, (forall k w, export_has v k w -> vget e (VStr k) = w) /\ export_rules proper_name_or_newline kaleido_by_code false env e.
Proof.
  intros Ev F [e [[d' [f [E1 [E2 E3]]]] E4]]. assert (d' = d) by congruence. subst d'. unfold has in *.
  destruct F as [F|[f' [F1 F2]]]; [unfold absent in F; congruence|]. unfold has in *. assert (f' = f) by congruence. subst f'.
  destruct F2 as [->|[_ [[F2|[e' [F2 F3]]] _]]]; [discriminate E3|unfold absent in F2; congruence|].
  exists e'. split; [|assumption]. intros k' w' H. apply (export_has_fun _ _ d f e' Ev E2 F2 H).
Qed.

Lemma is_image e : export_rules proper_name_or_newline kaleido_by_code false env e -> vget e (VStr "type") = Some (VStr "image") ->
  size_ok e "width" /\ size_ok e "height" /\ kaleido_by_code env /\ exists f, has e "format" (VStr f) /\ In f ["pdf"; "png"; "jpeg"; "webp"; "svg"].
Proof. intros [[[T _]|[_ H]] _] E; [unfold has in T; congruence|exact H]. Qed.

Lemma size_bad e k w : size_ok e k -> vget e (VStr k) = Some w -> w <> VNone -> ~ is_positive_int w -> False.
Proof.
  intros [[S|S]|[w' [S Hw]]] E N P; unfold absent, has in S; [congruence|congruence|]. assert (w' = w) by congruence. subst. tauto.
Qed.

Lemma reason_excludes d m b z w : v = VDict d -> reason env v m ->
  rotation_is d b -> max_time_is d z -> any_workers_is d w -> figure_by_code env d -> False.
Proof.
  intros Ev R Hr Ht Hw F. destruct m; cbn [reason] in R; try contradiction.
  - exact (R d Ev).
  - destruct R as [d' [t [E [H1 H2]]]]. assert (d' = d) by congruence. subst d'.
    destruct Ht as [[Ht _]|[t' [Ht Ht']]]; unfold absent, has in *; [congruence|]. assert (t' = t) by congruence. subst t'.
    apply positive_an_int in Ht'. exact (H2 z (proj1 Ht')).
  - destruct R as [d' [t [z' [E [H1 [H2 H3]]]]]]. assert (d' = d) by congruence. subst d'.
    destruct Ht as [[Ht _]|[t' [Ht Ht']]]; unfold absent, has in *; [congruence|]. assert (t' = t) by congruence. subst t'.
    apply positive_an_int in Ht'. destruct Ht' as [G1 G2]. pose proof (an_int_fun _ _ _ H2 G1). lia.
  - destruct R as [d' [t [E [H1 [H2 [H3 H4]]]]]]. assert (d' = d) by congruence. subst d'.
    destruct Hw as [[[Hw|Hw] _]|[Hw Hw']]; unfold absent, has in *; [congruence..|]. assert (t = w) by congruence. subst t. tauto.
  - destruct R as [d' [t [E [H1 [H2 H3]]]]]. assert (d' = d) by congruence. subst d'.
    destruct Hr as [[[Hr|Hr] _]|Hr]; unfold absent, has in *; [congruence|congruence|]. apply (H3 b). congruence.
  - destruct R as [d' [t [E [H1 H2]]]]. assert (d' = d) by congruence. subst d'.
    destruct F as [F|[f [F _]]]; unfold absent, has in *; [congruence|]. apply (H2 f). congruence.
  - destruct R as [[d' [f [E [H1 H2]]]] H3]. assert (d' = d) by congruence. subst d'.
    destruct F as [F|[f' [F1 F2]]]; unfold absent, has in *; [congruence|]. assert (f' = f) by congruence. subst f'.
    destruct F2 as [F2|[[x [F2 _]] _]]; [tauto|congruence].
  - destruct R as [[d' [f [E [H1 H2]]]] [_ H3]]. assert (d' = d) by congruence. subst d'.
    destruct F as [F|[f' [F1 F2]]]; unfold absent, has in *; [congruence|]. assert (f' = f) by congruence. subst f'.
    destruct F2 as [F2|[F2 _]]; tauto.
  - destruct R as [t [[d' [f [E1 [E2 E3]]]] H]]. assert (d' = d) by congruence. subst d'. unfold has in *.
    destruct F as [F|[f' [F1 F2]]]; unfold absent, has in *; [congruence|]. assert (f' = f) by congruence. subst f'.
    destruct F2 as [->|[_ [[F2|[e' [F2 F3]]] _]]]; [discriminate E3|congruence|]. apply (H e'). congruence.
  - assert (X : exists o, export_has v "type" o) by (destruct R; eauto). destruct X as [o X].
    destruct (has_export _ _ _ Ev F X) as [e [G1 G2]]. destruct R as [R|R]; apply G1 in R;
      destruct G2 as [[[T _]|[T _]] _]; unfold has in T; congruence.
  - destruct R as [t [R [N1 N2]]]. destruct (has_export _ _ _ Ev F R) as [e [G1 G2]]. apply G1 in R.
    destruct G2 as [[[T _]|[T _]] _]; unfold has in T; congruence.
  - assert (X : exists o, export_has v "path" o) by (destruct R; eauto). destruct X as [o X].
    destruct (has_export _ _ _ Ev F X) as [e [G1 G2]]. destruct R as [R|R]; apply G1 in R;
      destruct G2 as [_ [[p [T _]] _]]; unfold has in T; congruence.
  - destruct R as [t [R N]]. destruct (has_export _ _ _ Ev F R) as [e [G1 G2]]. apply G1 in R.
    destruct G2 as [_ [[p [T _]] _]]; unfold has in T. apply (N p). congruence.
  - destruct R as [t [R N]]. destruct (has_export _ _ _ Ev F R) as [e [G1 G2]]. apply G1 in R.
    destruct G2 as [_ [[p [T [D1 D2]]] _]]; unfold has in T. assert (p = t) by congruence. congruence.
  - destruct R as [t [R N]]. destruct (has_export _ _ _ Ev F R) as [e [G1 G2]]. apply G1 in R.
    destruct G2 as [_ [[p [T [D1 D2]]] _]]; unfold has in T. assert (p = t) by congruence. congruence.
  - destruct R as [R0 R]. destruct (has_export _ _ _ Ev F R0) as [e [G1 G2]]. apply G1 in R0.
    destruct (is_image e G2 R0) as [_ [_ [_ [x [X1 X2]]]]]. unfold has in X1. destruct R as [R|R]; apply G1 in R; congruence.
  - destruct R as [R0 [t [R N]]]. destruct (has_export _ _ _ Ev F R0) as [e [G1 G2]]. apply G1 in R0. apply G1 in R.
    destruct (is_image e G2 R0) as [_ [_ [_ [x [X1 X2]]]]]. unfold has in X1. apply (N x). congruence.
  - destruct R as [R0 [t [R N]]]. destruct (has_export _ _ _ Ev F R0) as [e [G1 G2]]. apply G1 in R0. apply G1 in R.
    destruct (is_image e G2 R0) as [_ [_ [_ [x [X1 X2]]]]]. unfold has in X1. assert (x = t) by congruence. congruence.
  - destruct R as [t [R [N1 N]]]. destruct (has_export _ _ _ Ev F R) as [e [G1 G2]]. pose proof (G1 _ _ R) as R'.
    destruct G2 as [_ [_ [[T|T]|[n [T _]]]]]; unfold absent, has in T; [congruence|apply N1; congruence|apply (N n); congruence].
  - destruct R as [n [R N]]. destruct (has_export _ _ _ Ev F R) as [e [G1 G2]]. apply G1 in R.
    destruct G2 as [_ [_ [[T|T]|[n' [T T']]]]]; unfold absent, has in T; [congruence|congruence|]. assert (n' = n) by congruence. subst. tauto.
  - destruct R as [R0 R]. destruct (has_export _ _ _ Ev F R0) as [e [G1 G2]]. apply G1 in R0.
    destruct (is_image e G2 R0) as [_ [_ [[x [X _]] _]]]. congruence.
  - destruct R as [R0 [_ R]]. destruct (has_export _ _ _ Ev F R0) as [e [G1 G2]]. apply G1 in R0.
    destruct (is_image e G2 R0) as [_ [_ [X _]]]. tauto.
  - destruct R as [R0 [t [R [N1 N2]]]]. destruct (has_export _ _ _ Ev F R0) as [e [G1 G2]]. apply G1 in R0. apply G1 in R.
    destruct (is_image e G2 R0) as [S1 _]. exact (size_bad _ _ _ S1 R N1 N2).
  - destruct R as [R0 [t [R [N1 N2]]]]. destruct (has_export _ _ _ Ev F R0) as [e [G1 G2]]. apply G1 in R0. apply G1 in R.
    destruct (is_image e G2 R0) as [_ [S1 _]]. exact (size_bad _ _ _ S1 R N1 N2).
  - destruct R as [t [[d' [f [E1 [E2 E3]]]] H]]. assert (d' = d) by congruence. subst d'. unfold has in *.
    destruct F as [F|[f' [F1 F2]]]; unfold absent, has in *; [congruence|]. assert (f' = f) by congruence. subst f'.
    destruct F2 as [->|[_ [_ [F2|[x F2]]]]]; [discriminate E3|congruence|]. apply (H x). congruence.
Qed.
End Validation.
