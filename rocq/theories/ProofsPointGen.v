(** * PointGenPack is HyperPack on what both offer. *)
From Coq Require Import ZArith String List Bool Lia.
From Verif Require Import Py ProofsPy Arith Construct LocalSearch Values ProofsVal Settings Instance SpecInstance
  Report Text PointGen SpecPointGen.
Import ListNotations.
Open Scope string_scope.
Open Scope list_scope.
Open Scope Z_scope.

(** ** Dictionaries *)
Lemma vget_keep d k : k <> "max_time_in_seconds" -> k <> "workers_num" -> vget (keep_settings d) (VStr k) = vget d (VStr k).
Proof.
  intros H1 H2. unfold keep_settings. induction d as [|[k' v] d IH]; [reflexivity|]. cbn [filter fst].
  destruct (search_setting k') eqn:S; cbn [negb vget].
  - destruct (key_eqb (VStr k) k') eqn:E; [|exact IH]. apply key_eqb_str_l in E. subst k'. exfalso.
    unfold search_setting in S. rewrite !key_eqb_strs in S. apply orb_true_iff in S. destruct S as [S|S]; apply String.eqb_eq in S; auto.
  - destruct (key_eqb (VStr k) k'); [reflexivity|exact IH].
Qed.

Lemma vget_keep_gone d k : k = "max_time_in_seconds" \/ k = "workers_num" -> vget (keep_settings d) (VStr k) = None.
Proof.
  intros H. unfold keep_settings. induction d as [|[k' v] d IH]; [reflexivity|]. cbn [filter fst].
  destruct (search_setting k') eqn:S; cbn [negb vget]; [exact IH|].
  destruct (key_eqb (VStr k) k') eqn:E; [|exact IH]. apply key_eqb_str_l in E. subst k'. exfalso.
  destruct H; subst k; discriminate S.
Qed.

Lemma vset_keep d k v : k <> "max_time_in_seconds" -> k <> "workers_num" -> keep_settings (vset d (VStr k) v) = vset (keep_settings d) (VStr k) v.
Proof.
  intros H1 H2. assert (K : search_setting (VStr k) = false).
  { unfold search_setting. rewrite !key_eqb_strs. apply orb_false_iff. split; apply String.eqb_neq; assumption. }
  unfold keep_settings. induction d as [|[k' w] d IH]; cbn [vset filter fst]; [rewrite K; reflexivity|].
  destruct (key_eqb (VStr k) k') eqn:E.
  - apply key_eqb_str_l in E. subst k'. cbn [filter fst]. rewrite K. cbn [negb vset]. rewrite (proj2 (key_eqb_str_l k (VStr k)) eq_refl). reflexivity.
  - cbn [filter fst]. destruct (search_setting k'); cbn [negb vset]; [exact IH|]. rewrite E, IH. reflexivity.
Qed.

(** ** Validation *)
Definition common_cfg (c : cfg) : cfg := with_settings c (common_settings (c_settings c)).
(** The attributes of the searches have their default. *)
Definition plain (c : cfg) : Prop := c_limit c = limit_default /\ c_workers c = workers_default.

Lemma rotation_common c c1 r : validate_rotation c = (c1, r) ->
  validate_rotation (common_cfg c) = (common_cfg c1, r) /\ c_settings c1 = c_settings c /\ (plain c -> plain c1) /\
  (r = Ok tt -> exists d, c_settings c = VDict d).
Proof.
  unfold validate_rotation, sbind, sget, smodify, sraise, common_cfg. intros E.
  destruct (c_settings c) as [| | | | | | |d| | |] eqn:Ec;
    try (injection E as <- <-; rewrite Ec; cbn; rewrite ?Ec; split; [reflexivity|split; [first [reflexivity|assumption]|split; [auto|discriminate]]]; fail).
  assert (E' : (match vget_str d "rotation" with
                | VNone => (with_rotation c rotation_default, Ok tt)
                | VBool b => (with_rotation c b, Ok tt)
                | _ => (c, Err (serr S_ROTATION_TYPE)) end) = (c1, r)).
  { destruct d; [exact E|]. destruct (vget_str _ _); exact E. }
  assert (G : (let '(c2, r2) := (match vget_str d "rotation" with
                | VNone => (with_rotation (with_settings c (common_settings (VDict d))) rotation_default, Ok tt)
                | VBool b => (with_rotation (with_settings c (common_settings (VDict d))) b, Ok tt)
                | _ => (with_settings c (common_settings (VDict d)), Err (serr S_ROTATION_TYPE)) end) in
                (c2, r2)) = (with_settings c1 (common_settings (c_settings c1)), r) /\ c_settings c1 = c_settings c /\ (plain c -> plain c1)).
  { destruct (vget_str d "rotation"); injection E' as <- <-; cbn [c_settings with_rotation]; rewrite Ec; (split; [reflexivity|split; [reflexivity|auto]]). }
  destruct G as [G1 [G2 G3]]. split; [|split; [congruence|split; [exact G3|eauto]]]. rewrite <- G1. clear G1.
  cbn [common_settings c_settings with_settings].
  assert (R : vget_str (keep_settings d) "rotation" = vget_str d "rotation") by (unfold vget_str; rewrite vget_keep by discriminate; reflexivity).
  destruct (keep_settings d) as [|q t] eqn:K.
  - rewrite <- R. reflexivity.
  - rewrite <- R. destruct (vget_str (q :: t) "rotation"); reflexivity.
Qed.

Lemma solver_common c d : c_settings c = VDict d -> plain c ->
  validate_solver (common_cfg c) = validate_rotation (common_cfg c).
Proof.
  intros Hd [P1 P2]. unfold validate_solver, sbind at 1.
  destruct (validate_rotation c) as [c1 r] eqn:E. destruct (rotation_common _ _ _ E) as [F1 [F2 [F3 _]]]. rewrite F1.
  destruct r as [[]|e]; [|reflexivity]. unfold sbind, sget. unfold common_cfg at 1. cbn [with_settings c_settings].
  rewrite F2, Hd. cbn [common_settings]. destruct (F3 (conj P1 P2)) as [Q1 Q2].
  assert (Q : common_cfg c1 = with_limit (common_cfg c1) limit_default) by (unfold with_limit, common_cfg, with_settings; rewrite <- Q1; destruct c1; reflexivity).
  assert (Q' : common_cfg c1 = with_workers (common_cfg c1) workers_default) by (unfold with_workers, common_cfg, with_settings; rewrite <- Q2; destruct c1; reflexivity).
  destruct (keep_settings d) as [|q t] eqn:K.
  - unfold smodify. rewrite <- Q, <- Q'. reflexivity.
  - rewrite <- K. rewrite (vget_keep_gone d "max_time_in_seconds") by auto. unfold vget_str. rewrite (vget_keep_gone d "workers_num") by auto.
    cbn [as_int]. change (limit_default <? 1) with false. unfold swhen, sret, smodify. cbv beta iota. rewrite <- Q, <- Q'. reflexivity.
Qed.

Lemma insert_common c : insert_file_name (common_cfg c) = common_cfg (insert_file_name c).
Proof.
  unfold insert_file_name, common_cfg. cbn [c_settings with_settings].
  destruct (c_settings c) as [| | | | | | |d| | |] eqn:Ec; try (rewrite Ec; reflexivity). cbn [common_settings]. rewrite vget_keep by discriminate.
  destruct (vget d (VStr "figure")) as [[| | | | | | |f| | |]|]; try (rewrite Ec; reflexivity).
  destruct (vget f (VStr "export")) as [[| | | | | | |e| | |]|]; try (rewrite Ec; reflexivity).
  cbn [c_settings with_settings common_settings]. rewrite vset_keep by discriminate. reflexivity.
Qed.

(** A computation on the settings that does the same on the common ones. *)
Definition cmn {A} (m : SM cfg A) : Prop := forall c,
  m (common_cfg c) = (common_cfg (fst (m c)), snd (m c)) /\ (plain c -> plain (fst (m c))).

Lemma cmn_ret {A} (a : A) : cmn (sret a).
Proof. intros c. split; [reflexivity|auto]. Qed.
Lemma cmn_raise {A} e : cmn (sraise (A := A) e).
Proof. intros c. split; [reflexivity|auto]. Qed.
Lemma cmn_when b e : cmn (swhen b e).
Proof. destruct b; [apply cmn_raise|apply cmn_ret]. Qed.
Lemma cmn_bind {A B} (m : SM cfg A) (f : A -> SM cfg B) : cmn m -> (forall a, cmn (f a)) -> cmn (sbind m f).
Proof.
  intros H1 H2 c. unfold sbind. destruct (H1 c) as [E1 P1]. rewrite E1. destruct (m c) as [c1 [a|e]]; cbn [fst snd] in *.
  - destruct (H2 a c1) as [E2 P2]. rewrite E2. destruct (f a c1) as [c2 r]; cbn [fst snd] in *. split; [reflexivity|auto].
  - split; [reflexivity|auto].
Qed.
Lemma cmn_get {B} (f : cfg -> SM cfg B) : (forall c, f (common_cfg c) = f c) -> (forall c, cmn (f c)) -> cmn (sbind sget f).
Proof.
  intros H1 H2 c. unfold sbind, sget. rewrite H1. apply H2.
Qed.

Lemma cmn_versions env : cmn (check_versions env).
Proof. intros c. split; [reflexivity|auto]. Qed.

Lemma cmn_export env v : cmn (validate_export env v).
Proof.
  unfold validate_export. destruct v as [| | | | | | |e| | |]; try apply cmn_raise. cbv zeta.
  repeat (apply cmn_bind; [apply cmn_when|intros _]). apply cmn_bind.
  { destruct (vget_str e "path"); try apply cmn_raise. apply cmn_bind; [apply cmn_when|intros _; apply cmn_when]. }
  intros _. repeat (apply cmn_bind; [apply cmn_when|intros _]). apply cmn_bind.
  { destruct (vget_str e "file_name"); try apply cmn_raise; [|apply cmn_when].
    intros c. unfold smodify. cbn [fst snd]. rewrite insert_common. split; [reflexivity|].
    intros P. unfold insert_file_name. destruct (c_settings c) as [| | | | | | |d| | |]; try exact P.
    destruct (vget d (VStr "figure")) as [[| | | | | | |f| | |]|]; try exact P.
    destruct (vget f (VStr "export")) as [[| | | | | | |e'| | |]|]; exact P. }
  intros _. destruct (is_string _ _); [|apply cmn_ret]. apply cmn_get; [reflexivity|]. intros c.
  repeat (apply cmn_bind; [apply cmn_when|intros _]). apply cmn_when.
Qed.

Lemma cmn_figure env : cmn (validate_figure env).
Proof.
  unfold validate_figure. apply cmn_bind; [apply cmn_versions|intros _]. apply cmn_get.
  - intros c. cbv zeta. unfold common_cfg. cbn [c_settings with_settings c_plotly c_plotly_ok].
    destruct (c_settings c) as [| | | | | | |d| | |]; try reflexivity. cbn [common_settings]. rewrite vget_keep by discriminate. reflexivity.
  - intros c. cbv zeta.
    destruct (match c_settings c with VDict d => match vget d (VStr "figure") with Some v => v | None => VDict [] end | _ => VDict [] end)
      as [| | | | | | |f| | |]; try apply cmn_raise. destruct f as [|q f]; [apply cmn_ret|].
    repeat (apply cmn_bind; [apply cmn_when|intros _]). apply cmn_bind.
    + destruct (vget _ _); [apply cmn_export|apply cmn_ret].
    + intros _. destruct (vget _ (VStr "show")) as [[]|]; try apply cmn_raise; apply cmn_ret.
Qed.

Lemma validate_common env c : plain c ->
  validate_settings env (common_cfg c) = (common_cfg (fst (pg_validate_settings env c)), snd (pg_validate_settings env c)) /\
  plain (fst (pg_validate_settings env c)).
Proof.
  intros P. unfold validate_settings, pg_validate_settings, sbind.
  destruct (validate_rotation c) as [c1 r] eqn:E. destruct (rotation_common _ _ _ E) as [F1 [F2 [F3 F4]]].
  assert (S : validate_solver (common_cfg c) = (common_cfg c1, r)).
  { destruct (c_settings c) as [| | | | | | |d| | |] eqn:Ec; try (unfold validate_solver, sbind at 1; rewrite F1; destruct r as [[]|e]; [|reflexivity];
      destruct (F4 eq_refl) as [d Hd]; discriminate Hd). rewrite (solver_common c d Ec P). exact F1. }
  rewrite S. destruct r as [[]|e]; cbn [fst snd]; [|split; [reflexivity|auto]].
  destruct (cmn_figure env c1) as [G1 G2]. rewrite G1. split; [reflexivity|auto].
Qed.

(** ** Operations that do not touch the settings *)
Section Machine.
Context {ar : arith}.
Notation machine := (machine ar).

Definition framed {A} (m : M ar A) : Prop := forall s c, c_rotation c = c_rotation (m_cfg s) ->
  m (set_cfg s c) = (set_cfg (fst (m s)) c, snd (m s)) /\ m_cfg (fst (m s)) = m_cfg s.

Lemma framed_pure {A} (g : machine -> result A) : (forall s c, c_rotation c = c_rotation (m_cfg s) -> g (set_cfg s c) = g s) ->
  framed (fun s => (s, g s)).
Proof. intros H s c Hc. cbn [fst snd]. rewrite (H s c Hc). auto. Qed.
Lemma framed_ret {A} (a : A) : framed (sret a).
Proof. intros s c _. split; reflexivity. Qed.
Lemma framed_raise {A} e : framed (sraise (A := A) e).
Proof. intros s c _. split; reflexivity. Qed.
Lemma framed_lift {A} (r : result A) : framed (slift r).
Proof. intros s c _. split; reflexivity. Qed.
Lemma framed_when b e : framed (swhen b e).
Proof. destruct b; [apply framed_raise|apply framed_ret]. Qed.
Lemma framed_bind {A B} (m : M ar A) (f : A -> M ar B) : framed m -> (forall a, framed (f a)) -> framed (sbind m f).
Proof.
  intros H1 H2 s c Hc. unfold sbind. destruct (H1 s c Hc) as [E1 P1]. rewrite E1. destruct (m s) as [s1 [a|e]]; cbn [fst snd] in *.
  - destruct (H2 a s1 c) as [E2 P2]; [congruence|]. rewrite E2. destruct (f a s1) as [s2 r]; cbn [fst snd] in *. split; [reflexivity|congruence].
  - split; [reflexivity|assumption].
Qed.
Lemma framed_get {B} (f : machine -> M ar B) :
  (forall s c, c_rotation c = c_rotation (m_cfg s) -> f (set_cfg s c) = f s) -> (forall s, framed (f s)) -> framed (sbind sget f).
Proof. intros H1 H2 s c Hc. unfold sbind, sget. rewrite (H1 s c Hc). apply H2, Hc. Qed.
Lemma framed_modify (g : machine -> machine) : (forall s c, g (set_cfg s c) = set_cfg (g s) c) -> (forall s, m_cfg (g s) = m_cfg s) ->
  framed (smodify g).
Proof. intros H1 H2 s c _. unfold smodify. cbn [fst snd]. rewrite H1. auto. Qed.

Lemma framed_get_dobj h : framed (get_dobj ar h).
Proof. apply framed_pure. reflexivity. Qed.
Lemma framed_get_sobj h : framed (get_sobj ar h).
Proof. apply framed_pure. reflexivity. Qed.
Lemma framed_put_dobj h d : framed (put_dobj ar h d).
Proof. apply framed_modify; reflexivity. Qed.
Lemma framed_put_sobj h d : framed (put_sobj ar h d).
Proof. apply framed_modify; reflexivity. Qed.
Lemma framed_new_dobj d : framed (new_dobj ar d).
Proof. intros s c _. split; reflexivity. Qed.
Lemma framed_new_sobj d : framed (new_sobj ar d).
Proof. intros s c _. split; reflexivity. Qed.
Lemma framed_reset : framed (reset ar).
Proof. apply framed_modify; reflexivity. Qed.

Lemma pairs_frame s c l : pairs_of ar (set_cfg s c) l = pairs_of ar s l.
Proof. induction l as [|v l IH]; [reflexivity|]. cbn [pairs_of]. rewrite IH. reflexivity. Qed.

Lemma framed_entries v : framed (entries_of ar v).
Proof. apply framed_pure. intros s c _. destruct v; try reflexivity; cbn [iterated]; rewrite pairs_frame; reflexivity. Qed.

Lemma framed_solver_view : framed (solver_view ar).
Proof. apply framed_pure. intros s c Hc. unfold view. cbn [m_cfg set_cfg]. rewrite Hc. reflexivity. Qed.

Ltac fr :=
  repeat lazymatch goal with
    | |- framed (sret _) => apply framed_ret
    | |- framed (sraise _) => apply framed_raise
    | |- framed (slift _) => apply framed_lift
    | |- framed (swhen _ _) => apply framed_when
    | |- framed (get_dobj _ _) => apply framed_get_dobj
    | |- framed (get_sobj _ _) => apply framed_get_sobj
    | |- framed (put_dobj _ _ _) => apply framed_put_dobj
    | |- framed (put_sobj _ _ _) => apply framed_put_sobj
    | |- framed (new_dobj _ _) => apply framed_new_dobj
    | |- framed (new_sobj _ _) => apply framed_new_sobj
    | |- framed (reset _) => apply framed_reset
    | |- framed (entries_of _ _) => apply framed_entries
    | |- framed (solver_view _) => apply framed_solver_view
    | |- framed (sbind sget _) => apply framed_get; [reflexivity|intros ?]
    | |- framed (sbind _ _) => apply framed_bind; [|intros ?]
    | |- framed (smodify _) => apply framed_modify; [reflexivity|reflexivity]
    end.

Lemma framed_new_dimensions k v : framed (new_dimensions ar k v).
Proof. unfold new_dimensions. destruct v as [| | | | | | |d| | |]; fr. destruct d as [|q d]; fr. Qed.
Lemma framed_dim_set h key v : framed (dim_set ar h key v).
Proof. unfold dim_set. fr. Qed.
Lemma framed_get_dimensions k id v : framed (get_dimensions ar k id v).
Proof. unfold get_dimensions. apply framed_bind; [fr|intros _]. apply framed_new_dimensions. Qed.
Lemma framed_fill k d : forall data, framed (fill_struct ar k d data).
Proof.
  induction d as [|[id v] d IH]; intros data; cbn [fill_struct]; [fr|]. apply framed_bind; [apply framed_get_dimensions|intros h; apply IH].
Qed.
Lemma framed_new_structure k v : framed (new_structure ar k v).
Proof.
  unfold new_structure. destruct v as [| | | | | | |d| | |]; fr. destruct d as [|q d]; [fr|].
  apply framed_bind; [apply framed_fill|intros data; fr].
Qed.
Lemma framed_struct_reset h : framed (struct_reset ar h).
Proof. unfold struct_reset. fr. destruct (so_kind _); fr. Qed.
Lemma framed_struct_set h id v : framed (struct_set ar h id v).
Proof.
  unfold struct_set. fr. apply framed_get_dimensions. apply framed_struct_reset.
Qed.
Lemma framed_struct_del h id : framed (struct_del ar h id).
Proof. unfold struct_del. fr. apply framed_struct_reset. Qed.
Lemma framed_set_all set l : (forall k v, framed (set k v)) -> framed (set_all ar set l).
Proof. intros H. induction l as [|[k v] l IH]; cbn [set_all]; [fr|]. apply framed_bind; [apply H|intros _; exact IH]. Qed.
Lemma framed_update set v : (forall k v, framed (set k v)) -> framed (update ar set v).
Proof. intros H. unfold update. fr. apply framed_set_all, H. Qed.
Lemma framed_struct_ior h v : framed (struct_ior ar h v).
Proof. unfold struct_ior. fr. destruct (merge _ _) as [data r]. fr. Qed.
Lemma framed_dim_ior h v : framed (dim_ior ar h v).
Proof. unfold dim_ior. fr. destruct (merge _ _) as [data r]. fr. Qed.
Lemma framed_clear_loop pop n : framed pop -> framed (clear_loop ar pop n).
Proof.
  intros H. induction n as [|n IH]; intros s c Hc; cbn [clear_loop]; [split; reflexivity|].
  destruct (H s c Hc) as [E P]. rewrite E. destruct (pop s) as [s1 [a|e]]; cbn [fst snd] in *.
  - destruct (IH s1 c) as [E2 P2]; [congruence|]. rewrite E2. split; [reflexivity|congruence].
  - destruct e; cbn [fst snd]; auto.
Qed.
Lemma framed_struct_popitem h : framed (struct_popitem ar h).
Proof. unfold struct_popitem. fr. destruct (so_data _) as [|[]]; fr. apply framed_struct_del. Qed.
Lemma framed_dim_popitem h : framed (dim_popitem ar h).
Proof. unfold dim_popitem. fr. destruct (do_data _) as [|[]]; fr. apply framed_raise. Qed.
Lemma framed_assign_items v : framed (assign_items ar v).
Proof. unfold assign_items. fr. apply framed_new_structure. Qed.
Lemma framed_put_back y : framed (put_back ar y).
Proof. apply framed_modify; reflexivity. Qed.

(** Every operation offered that is not about the settings. *)
Definition on_settings (o : op) : bool :=
  match o with OpSetSettings _ _ | OpValidateSettings _ | OpEditSettings _ => true | _ => false end.

Lemma framed_run o : offered o = true -> on_settings o = false -> framed (run (ar := ar) o).
Proof.
  intros H1 H2. destruct o; try discriminate H1; try discriminate H2; cbn [run]; fr.
  - apply framed_assign_items.
  - unfold assign_containers. fr. apply framed_new_structure.
  - unfold assign_height. destruct (as_int v); fr.
  - unfold assign_min_height. destruct (as_int v); fr. destruct (m_height _); fr.
  - unfold reset_height. fr. destruct (m_strip _); fr.
  - unfold assign_strategy. destruct v; fr.
  - apply framed_struct_set.
  - apply framed_struct_del.
  - unfold struct_pop. fr. destruct (data_get _ _) as [|[]]; fr; try (apply framed_struct_del); destruct default; fr.
  - apply framed_struct_popitem.
  - unfold struct_clear. fr. apply framed_clear_loop, framed_struct_popitem.
  - apply framed_update. intros. apply framed_struct_set.
  - unfold struct_setdefault. fr. destruct (data_get _ _) as [|[]]; fr; apply framed_struct_set.
  - apply framed_struct_ior.
  - unfold ignore, struct_copy. fr. apply framed_update. intros. apply framed_struct_set.
  - unfold ignore, struct_copy_copy. fr.
  - apply framed_dim_set.
  - apply framed_raise.
  - unfold dim_pop, dim_del. fr. destruct (data_get _ _) as [|[]]; fr; destruct default; fr.
  - apply framed_dim_popitem.
  - unfold dim_clear. fr. apply framed_clear_loop, framed_dim_popitem.
  - apply framed_update. intros. apply framed_dim_set.
  - unfold dim_setdefault. fr. destruct (data_get _ _) as [|[]]; fr; apply framed_dim_set.
  - apply framed_dim_ior.
  - unfold ignore, dim_copy. fr. apply framed_update. intros. apply framed_dim_set.
  - unfold ignore, dim_copy_copy. fr.
  - unfold do_solve. fr. apply framed_put_back.
Qed.

(** ** The simulation *)
Definition twin (p : machine) : machine := set_cfg p (common_cfg (m_cfg p)).
Definition idle (p : machine) : Prop := plain (m_cfg p).

Lemma step_twin o p : idle p -> offered o = true ->
  run (common_op o) (twin p) = (twin (fst (pg_run ar o p)), snd (pg_run ar o p)) /\ idle (fst (pg_run ar o p)).
Proof.
  intros P H. destruct (on_settings o) eqn:S.
  - destruct o; try discriminate S; cbn [run common_op pg_run]; unfold on_cfg, twin; cbn [m_cfg set_cfg].
    + unfold assign_settings, pg_assign_settings, sbind, smodify.
      pose proof (validate_common env (with_settings (m_cfg p) v) P) as [V1 V2].
      change (with_settings (common_cfg (m_cfg p)) (common_settings v)) with (common_cfg (with_settings (m_cfg p) v)).
      rewrite V1. destruct (pg_validate_settings env (with_settings (m_cfg p) v)) as [c r]; cbn [fst snd] in *. split; [reflexivity|exact V2].
    + destruct (validate_common env (m_cfg p) P) as [V1 V2]. rewrite V1.
      destruct (pg_validate_settings env (m_cfg p)) as [c r]; cbn [fst snd] in *. split; [reflexivity|exact V2].
    + unfold edit_settings, sbind, sget. cbn [common_cfg with_settings c_settings].
      destruct (c_settings (m_cfg p)) as [| | | | | | |d'| | |] eqn:Ec; cbn [common_settings smodify sraise fst snd];
        (split; [|exact P]); unfold smodify, sraise, set_cfg, common_cfg; cbn [with_settings c_settings fst snd m_cfg]; rewrite ?Ec; reflexivity.
  - assert (R : common_op o = o) by (destruct o; try discriminate S; reflexivity). rewrite R.
    assert (G : pg_run ar o p = run o p) by (destruct o; try discriminate S; try discriminate H; reflexivity). rewrite G.
    destruct (framed_run o H S p (common_cfg (m_cfg p)) eq_refl) as [F1 F2]. unfold twin at 1. rewrite F1. split; [|unfold idle; rewrite F2; exact P].
    f_equal. unfold twin. rewrite F2. reflexivity.
Qed.

Lemma play_twin l : forall p, idle p -> forallb offered l = true ->
  play run (map common_op l) (twin p) = (twin (fst (play (pg_run ar) l p)), snd (play (pg_run ar) l p)).
Proof.
  induction l as [|o l IH]; intros p P H; cbn [play map]; [reflexivity|]. cbn [forallb] in H. apply andb_true_iff in H. destruct H as [Ho Hl].
  destruct (step_twin o p P Ho) as [E P']. rewrite E. destruct (pg_run ar o p) as [p1 r]; cbn [fst snd] in *.
  rewrite (IH p1 P' Hl). destruct (play (pg_run ar) l p1) as [p2 rs]. reflexivity.
Qed.

(** ** The constructor *)
Definition first_part (containers items width : pyval) : M ar unit := (
  match width with
  | VNone => smodify (fun s => set_heights (set_strip s false) None None)
  | _ =>
      match as_int width with
      | None => sraise (DimensionsError D_VALUE)
      | Some w =>
          sbind (swhen (w <=? 0) (DimensionsError D_VALUE)) (fun _ =>
          sbind (smodify (fun s => set_heights (set_strip s true) (Some (max_w_l_ratio * w)) None)) (fun _ =>
          sbind (new_structure ar KContainers
                 (VDict [(VStr strip_id, VDict [(VStr "W", width); (VStr "L", VInt (2 ^ 100))])])) (fun h =>
          smodify (fun s => set_containers_ref s h))))
      end
  end).
Definition build (new : cfg * result unit) (containers items width : pyval) : M ar unit :=
  sbind (first_part containers items width) (fun _ =>
  sbind sget (fun s =>
  sbind (if negb (m_strip s)
   then sbind (new_structure ar KContainers containers) (fun h => smodify (fun s => set_containers_ref s h))
   else match containers with VNone => sret tt | _ => sraise strip_only end) (fun _ =>
  sbind (new_structure ar KItems items) (fun h =>
  sbind (smodify (fun s => set_items_ref s h)) (fun _ =>
  sbind (fun s => let '(c, r) := new in (set_cfg s c, r)) (fun _ =>
  sbind sget (fun s =>
  sbind (get_sobj ar (m_containers s)) (fun d =>
  smodify (fun s => set_sol (set_cnum (set_pp_strategy s default_strategy) (zlen (so_data d))) [] (m_objs s)))))))))).

Lemma create_build env containers items settings width :
  create ar env containers items settings width = build (new_settings env settings) containers items width.
Proof. reflexivity. Qed.
Lemma pg_create_build env containers items settings width :
  pg_create ar env containers items settings width = build (pg_new_settings env settings) containers items width.
Proof. reflexivity. Qed.

Lemma new_common env v : plain (fst (pg_new_settings env v)) /\
  new_settings env (common_settings v) = (common_cfg (fst (pg_new_settings env v)), snd (pg_new_settings env v)).
Proof.
  unfold new_settings, pg_new_settings.
  set (c0 := mkCfg (if truthy v then v else VDict []) rotation_default limit_default workers_default false false false false).
  replace (mkCfg (if truthy (common_settings v) then common_settings v else VDict []) rotation_default limit_default workers_default false false false false)
    with (common_cfg c0).
  - destruct (validate_common env c0) as [V1 V2]; [split; reflexivity|]. rewrite V1. auto.
  - unfold common_cfg, c0, with_settings. cbn [c_settings c_rotation c_limit c_workers c_plotly c_plotly_ok c_kaleido c_kaleido_ok]. f_equal.
    destruct v as [| |z|[| |]|t|[|]|[|]|[|[k w] d]| | |]; try reflexivity; cbn [truthy common_settings keep_settings filter];
      try (destruct b; reflexivity); try (destruct (z =? 0); reflexivity);
      try (destruct (String.eqb t ""); reflexivity).
    { match goal with |- context[negb ?x] => destruct x; reflexivity end. }
    cbn [fst]. destruct (negb (search_setting k)); [reflexivity|]. unfold keep_settings. destruct (filter _ d); reflexivity.
Qed.

Lemma framed_first containers items width : framed (first_part containers items width).
Proof.
  unfold first_part. destruct width; fr; destruct (as_int _); fr; try apply framed_new_structure.
Qed.

Definition agree (x y : machine * result unit) : Prop :=
  snd y = snd x /\ (snd x = Ok tt -> fst y = twin (fst x) /\ idle (fst x)).
Lemma agree_bind {A} (m : M ar A) (f g : A -> M ar unit) s :
  (forall s1 a, agree (f a s1) (g a s1)) -> agree (sbind m f s) (sbind m g s).
Proof.
  intros H. unfold sbind. destruct (m s) as [s1 [a|e]]; [apply H|]. split; [reflexivity|discriminate].
Qed.

Lemma create_twin env containers items settings width :
  agree (pg_create ar env containers items settings width (blank ar))
        (create ar env containers items (common_settings settings) width (blank ar)).
Proof.
  rewrite create_build, pg_create_build. destruct (new_common env settings) as [P N]. rewrite N. unfold build.
  do 5 (apply agree_bind; intros ? ?). unfold sbind at 1 4.
  destruct (pg_new_settings env settings) as [c r]. cbn [fst snd] in *.
  destruct r as [[]|e]; [|split; [reflexivity|discriminate]].
  unfold sbind, sget, get_sobj. cbn [m_containers m_structs set_cfg].
  destruct (nth_error _ _) as [d|]; [|split; [reflexivity|discriminate]].
  unfold smodify. split; [reflexivity|]. intros _. split; [reflexivity|exact P].
Qed.

(** ** Reports *)
Lemma view_twin p : view (twin p) = view p.
Proof. reflexivity. Qed.

Lemma figure_twin writes show p : create_figure (ar := ar) writes show (twin p) = create_figure writes show p.
Proof.
  unfold create_figure. cbn [m_sol twin set_cfg m_cfg common_cfg with_settings c_settings c_plotly c_plotly_ok].
  destruct (m_sol p); [reflexivity|]. destruct (negb (c_plotly (m_cfg p))); [reflexivity|]. destruct (negb (c_plotly_ok (m_cfg p))); [reflexivity|].
  destruct (c_settings (m_cfg p)) as [| | | | | | |d| | |]; try reflexivity. cbn [common_settings]. rewrite vget_keep by discriminate. reflexivity.
Qed.

End Machine.
