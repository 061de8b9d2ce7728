(** * Which attributes an operation leaves alone. *)
From Coq Require Import ZArith String List Bool Lia.
From Verif Require Import Py Arith Construct LocalSearch ItemsManip HyperSearch Values ProofsVal Settings Instance.
Import ListNotations.
Open Scope list_scope.
Open Scope Z_scope.
Open Scope sm_scope.

Section Frame.
Context {ar : arith} {T : Type} (f : machine ar -> T).
Notation machine := (machine ar).

Definition keeps {A} (m : M ar A) : Prop := forall s s' r, m s = (s', r) -> f s' = f s.

Lemma keeps_bind {A B} (m : M ar A) (k : A -> M ar B) :
  keeps m -> (forall a, keeps (k a)) -> keeps (sbind m k).
Proof.
  intros H1 H2 s s' r H. apply sbind_inv in H. destruct H as [[s1 [a [E1 E2]]]|[e [E1 _]]].
  - rewrite (H2 _ _ _ _ E2). eapply H1. exact E1.
  - eapply H1. exact E1.
Qed.
Lemma keeps_pure {A} (g : machine -> result A) : keeps (fun s => (s, g s)).
Proof. intros s s' r [= <- _]. reflexivity. Qed.
Lemma keeps_ret {A} (a : A) : keeps (sret a).
Proof. apply keeps_pure. Qed.
Lemma keeps_raise {A} e : keeps (sraise (A := A) e).
Proof. apply keeps_pure. Qed.
Lemma keeps_get : keeps sget.
Proof. intros s s' r [= <- _]. reflexivity. Qed.
Lemma keeps_lift {A} (x : result A) : keeps (slift x).
Proof. apply (keeps_pure (fun _ => x)). Qed.
Lemma keeps_when b e : keeps (swhen b e).
Proof. destruct b; [apply keeps_raise|apply keeps_ret]. Qed.
Lemma keeps_modify g : (forall s, f (g s) = f s) -> keeps (smodify g).
Proof. intros H s s' r [= <- _]. apply H. Qed.
Lemma keeps_set_all set l : (forall k v, keeps (set k v)) -> keeps (set_all ar set l).
Proof. intros H. induction l as [|[k v] l IH]; [apply keeps_ret|]. apply keeps_bind; [apply H|]. intros. exact IH. Qed.
Lemma keeps_clear pop n : keeps pop -> keeps (clear_loop ar pop n).
Proof.
  intros H. induction n as [|n IH]; intros s s' r E; [injection E as <- _; reflexivity|].
  cbn [clear_loop] in E. destruct (pop s) as [s1 [a|e]] eqn:E1.
  - rewrite (IH _ _ _ E). eapply H. exact E1.
  - destruct e; injection E as <- _; eapply H; exact E1.
Qed.
End Frame.

Ltac frame :=
  repeat match goal with
  | |- keeps _ (sbind _ _) => apply keeps_bind; [|intros ?]
  | |- keeps _ (sret _) => apply keeps_ret
  | |- keeps _ (sraise _) => apply keeps_raise
  | |- keeps _ sget => apply keeps_get
  | |- keeps _ (slift _) => apply keeps_lift
  | |- keeps _ (swhen _ _) => apply keeps_when
  | |- keeps _ (fun _ => _) => apply keeps_pure
  | |- keeps _ (set_all _ _ _) => apply keeps_set_all; intros ? ?
  | |- keeps _ (clear_loop _ _ _) => apply keeps_clear
  | |- keeps _ (match ?x with _ => _ end) => destruct x
  end.

(** [op]'s that assign the strategy, the settings, run the solver. *)
Definition sets_strategy (o : op) : Prop := match o with OpSetStrategy _ => True | _ => False end.
Definition sets_settings (o : op) : Prop :=
  match o with OpSetSettings _ _ | OpValidateSettings _ | OpEditSettings _ => True | _ => False end.
Definition solves (o : op) : Prop :=
  match o with OpSolve _ | OpLocalSearch _ _ | OpHypersearch _ _ _ _ _ => True | _ => False end.

Section Ops.
Context {ar : arith} {T : Type} (f : machine ar -> T).
Notation machine := (machine ar).

(** [f] does not look at the heap, the solution or the number of containers. *)
Hypothesis f_dims : forall s d, f (set_dims s d) = f s.
Hypothesis f_structs : forall s d, f (set_structs s d) = f s.
Hypothesis f_sol : forall s a b, f (set_sol s a b) = f s.
Hypothesis f_cnum : forall s n, f (set_cnum s n) = f s.

Lemma k_new_dobj d : keeps f (new_dobj ar d).
Proof. intros s s' r [= <- _]. apply f_dims. Qed.
Lemma k_new_sobj d : keeps f (new_sobj ar d).
Proof. intros s s' r [= <- _]. apply f_structs. Qed.
Lemma k_put_dobj h d : keeps f (put_dobj ar h d).
Proof. intros s s' r [= <- _]. apply f_dims. Qed.
Lemma k_put_sobj h d : keeps f (put_sobj ar h d).
Proof. intros s s' r [= <- _]. apply f_structs. Qed.
Lemma k_reset : keeps f (reset ar).
Proof. intros s s' r [= <- _]. apply f_sol. Qed.
Lemma k_get_dobj h : keeps f (get_dobj ar h).
Proof. apply keeps_pure. Qed.
Lemma k_get_sobj h : keeps f (get_sobj ar h).
Proof. apply keeps_pure. Qed.
Lemma k_entries v : keeps f (entries_of ar v).
Proof. intros s s' r [= <- _]. reflexivity. Qed.
Lemma k_new_dimensions k v : keeps f (new_dimensions ar k v).
Proof. unfold new_dimensions. frame; first [apply k_reset|apply k_new_dobj]. Qed.
Lemma k_get_dimensions k id v : keeps f (get_dimensions ar k id v).
Proof. unfold get_dimensions. frame. apply k_new_dimensions. Qed.
Lemma k_struct_reset h : keeps f (struct_reset ar h).
Proof.
  unfold struct_reset. frame; try apply k_reset; try apply k_get_sobj.
  apply keeps_modify. intros. apply f_cnum.
Qed.
Lemma k_dim_set h key v : keeps f (dim_set ar h key v).
Proof. unfold dim_set. frame; first [apply k_get_dobj|apply k_put_dobj|apply k_reset]. Qed.
Lemma k_struct_set h id v : keeps f (struct_set ar h id v).
Proof.
  unfold struct_set. frame; first [apply k_get_sobj|apply k_get_dimensions|apply k_put_sobj|apply k_struct_reset].
Qed.
Lemma k_struct_del h id : keeps f (struct_del ar h id).
Proof. unfold struct_del. frame; first [apply k_get_sobj|apply k_put_sobj|apply k_struct_reset]. Qed.
Lemma k_update set v : (forall k v, keeps f (set k v)) -> keeps f (update ar set v).
Proof. intros H. unfold update. frame; first [apply k_entries|apply H]. Qed.
Lemma k_struct_popitem h : keeps f (struct_popitem ar h).
Proof. unfold struct_popitem. frame; first [apply k_get_sobj|apply k_struct_del]. Qed.
Lemma k_dim_popitem h : keeps f (dim_popitem ar h).
Proof. unfold dim_popitem, dim_del. frame; apply k_get_dobj. Qed.
Lemma k_fill_struct k d : forall data, keeps f (fill_struct ar k d data).
Proof.
  induction d as [|[id v] d IH]; intros data; cbn [fill_struct]; [apply keeps_ret|].
  apply keeps_bind; [apply k_get_dimensions|]. intros. apply IH.
Qed.
Lemma k_new_structure k v : keeps f (new_structure ar k v).
Proof. unfold new_structure. frame; first [apply k_fill_struct|apply k_new_sobj]. Qed.
Lemma k_orient_each turn h ids : keeps f (orient_each ar turn h ids).
Proof.
  induction ids as [|id t IH]; cbn [orient_each]; [apply keeps_ret|]. apply keeps_bind; [|intros; exact IH].
  unfold orient_one. frame; first [apply k_get_sobj|apply k_get_dobj|apply k_dim_set].
Qed.
Lemma k_orient o : keeps f (do_orient ar o).
Proof. unfold do_orient. frame; first [apply k_get_sobj|apply k_orient_each]. Qed.

Hypothesis f_items : forall s h, f (set_items_ref s h) = f s.
Lemma k_assign_items v : keeps f (assign_items ar v).
Proof. unfold assign_items. frame; [apply k_new_structure|]. apply keeps_modify. intros. apply f_items. Qed.
Lemma k_sort sb : keeps f (do_sort ar sb).
Proof.
  unfold do_sort, solver_view. frame; first [apply k_get_sobj|apply k_assign_items].
Qed.

Hypothesis f_containers : forall s h, f (set_containers_ref s h) = f s.
Hypothesis f_heights : forall s h m, f (set_heights s h m) = f s.

Lemma k_ior_struct h v : keeps f (struct_ior ar h v).
Proof. unfold struct_ior. frame; first [apply k_entries|apply k_get_sobj|apply k_put_sobj]. Qed.
Lemma k_ior_dim h v : keeps f (dim_ior ar h v).
Proof. unfold dim_ior. frame; first [apply k_entries|apply k_get_dobj|apply k_put_dobj]. Qed.

Lemma k_run o : (forall g, ~ sets_strategy o \/ forall s, f (set_pp_strategy s g) = f s) ->
  (forall c, ~ sets_settings o \/ forall s, f (set_cfg s c) = f s) ->
  ~ solves o -> keeps f (run o).
Proof.
  intros H1 H2 H3.
  destruct o; cbn [run sets_strategy sets_settings solves] in *; try tauto; unfold ignore.
  - apply k_assign_items.
  - unfold assign_containers. frame; [apply k_new_structure|]. apply keeps_modify. intros. rewrite f_cnum. apply f_containers.
  - frame.
  - frame.
  - unfold assign_height. frame. apply keeps_modify. intros. apply f_heights.
  - unfold assign_min_height. frame. apply keeps_modify. intros. apply f_heights.
  - frame.
  - frame.
  - unfold reset_height, solver_view. frame. apply keeps_modify. intros. apply f_heights.
  - unfold assign_strategy. frame. apply keeps_modify. intros. destruct (H1 a) as [X|X]; [tauto|apply X].
  - frame.
  - intros s s' r E. unfold on_cfg in E. destruct (assign_settings env v (m_cfg s)) as [c x]. injection E as <- _.
    destruct (H2 c) as [X|X]; [tauto|apply X].
  - frame.
  - intros s s' r E. unfold on_cfg in E. destruct (validate_settings env (m_cfg s)) as [c x]. injection E as <- _.
    destruct (H2 c) as [X|X]; [tauto|apply X].
  - intros s s' r E. unfold on_cfg in E. destruct (edit_settings d (m_cfg s)) as [c x]. injection E as <- _.
    destruct (H2 c) as [X|X]; [tauto|apply X].
  - apply k_struct_set.
  - apply k_struct_del.
  - unfold struct_pop. frame; first [apply k_get_sobj|apply k_struct_del].
  - apply k_struct_popitem.
  - unfold struct_clear. frame; first [apply k_get_sobj|apply k_struct_popitem].
  - apply k_update. intros. apply k_struct_set.
  - unfold struct_setdefault. frame; first [apply k_get_sobj|apply k_struct_set].
  - apply k_ior_struct.
  - unfold struct_copy. frame; first [apply k_get_sobj|apply k_new_sobj|apply k_update; intros; apply k_struct_set].
  - unfold struct_copy_copy. frame; first [apply k_get_sobj|apply k_new_sobj].
  - apply k_dim_set.
  - unfold dim_del. frame.
  - unfold dim_pop, dim_del. frame; apply k_get_dobj.
  - apply k_dim_popitem.
  - unfold dim_clear. frame; first [apply k_get_dobj|apply k_dim_popitem].
  - apply k_update. intros. apply k_dim_set.
  - unfold dim_setdefault. frame; first [apply k_get_dobj|apply k_dim_set].
  - apply k_ior_dim.
  - unfold dim_copy. frame; first [apply k_get_dobj|apply k_new_dobj|apply k_update; intros; apply k_dim_set].
  - unfold dim_copy_copy. frame; first [apply k_get_dobj|apply k_new_dobj].
  - apply k_orient.
  - apply k_sort.
Qed.
End Ops.
