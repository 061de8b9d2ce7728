(** * What "false" and "unhashable" mean in the statements (C40, C46, C63). *)
From Coq Require Import ZArith QArith String List Bool Lia.
From Verif Require Import Py ProofsPy Arith Construct Spec LocalSearch ProofsLocalSearch SpecSearch Values ProofsVal SpecValues
  Settings Instance SpecInstance SpecSettings ProofsMachine ProofsOps ProofsRun ProofsHistory
  PropertiesHistory ProofsRefine ProofsSettings PropertiesSettings Report SpecReport ProofsFigure PropertiesReport.
Import ListNotations.
Open Scope string_scope.
Open Scope list_scope.
Open Scope Z_scope.

Theorem C40_false_values : forall v, truthy v = false <-> false_value v.
Proof.
  split.
  - destruct v as [|[]|z|[| |q]|s|[|]|[|]|[|]| | |]; cbn; try discriminate; intros H; try constructor.
    + apply negb_false_iff, Z.eqb_eq in H. subst. constructor.
    + apply negb_false_iff in H. apply Qeq_bool_iff, H.
    + apply negb_false_iff, String.eqb_eq in H. subst. constructor.
  - destruct 1 as [| | |q H| | | |]; try reflexivity. cbn. apply Qeq_bool_iff in H. rewrite H. reflexivity.
Qed.
Print Assumptions C40_false_values.

Fixpoint size (v : pyval) : nat :=
  match v with VTuple l => S (fold_right (fun x n => size x + n)%nat O l) | _ => O end.
Lemma size_in l x : In x l -> (size x <= fold_right (fun x n => size x + n)%nat O l)%nat.
Proof. induction l as [|y l IH]; cbn; intros []; [subst; lia|specialize (IH H); lia]. Qed.

Theorem C63_unhashable_values : forall v, hashable v = false <-> unhashable_value v.
Proof.
  assert (H : forall n v, (size v <= n)%nat -> (hashable v = false <-> unhashable_value v)).
  2:{ intros v. apply (H (size v)). reflexivity. }
  assert (E : forall l, hashable (VTuple l) = forallb hashable l).
  { induction l as [|x l IH]; [reflexivity|]. cbn [forallb]. rewrite <- IH. reflexivity. }
  assert (T : forall l, (forall x, In x l -> (hashable x = false <-> unhashable_value x)) ->
     (hashable (VTuple l) = false <-> unhashable_value (VTuple l))).
  { intros l Hl. rewrite E. split.
    - intros F. assert (X : exists x, In x l /\ hashable x = false).
      { clear - F. induction l as [|x l IH]; [discriminate F|]. cbn in F. destruct (hashable x) eqn:Ex; [|exists x; split; [left; reflexivity|exact Ex]].
        destruct (IH F) as [y [Y1 Y2]]. exists y. split; [right; exact Y1|exact Y2]. }
      destruct X as [x [X1 X2]]. apply (uh_tuple l x X1), Hl; assumption.
    - intros U. remember (VTuple l) as v eqn:Ev. destruct U as [| | | |l' x X1 X2]; try discriminate Ev. injection Ev as ->.
      apply Hl in X2; [|exact X1]. destruct (forallb hashable l) eqn:Ef; [|reflexivity].
      rewrite forallb_forall in Ef. rewrite Ef in X2 by exact X1. discriminate X2. }
  induction n as [|n IH]; intros v Hn; destruct v;
    first [split; [intros; first [apply uh_list|apply uh_dict|apply uh_struct|apply uh_dims]|intros; reflexivity]
          |split; [discriminate|intros U; exfalso; inversion U]
          |idtac]; cbn [size] in Hn; [lia|].
  apply T. intros x Hx. apply IH. pose proof (size_in l x Hx). lia.
Qed.
Print Assumptions C63_unhashable_values.

(** ** create_figure with settings that were edited in place, without validation *)

(** An ["export"] that does not say where, or for an image, in which format. *)
Inductive cannot_export : pyval -> Prop :=
| ce_no_dict v : ~ false_value v -> (forall e, v <> VDict e) -> cannot_export v
| ce_no_path e : e <> [] -> (forall p, ~ has e "path" (VStr p)) -> cannot_export (VDict e)
| ce_no_format e p : has e "path" (VStr p) -> (absent e "file_name" \/ exists n, has e "file_name" (VStr n)) ->
    has e "type" (VStr "image") -> absent e "format" -> cannot_export (VDict e).
(** Neither html nor an image. *)
Definition other_export (e : vdict) : Prop :=
  (exists p, has e "path" (VStr p)) /\ (absent e "file_name" \/ exists n, has e "file_name" (VStr n)) /\
  exists ty, has e "type" ty /\ ty <> VStr "html" /\ ty <> VStr "image".

(** The figures that can be drawn. *)
Definition drawable {ar} (s : machine ar) (cs : odict dims) : Prop :=
  containers_of s = Some cs /\ moderate_sides (m_strip s) (m_min s) (m_sol s) cs /\
  forall cid csol, dget (m_sol s) cid = Some csol -> (length csol <= 1000)%nat.

Lemma drawn {ar} (s : machine ar) cs : inv s -> m_sol s <> [] -> drawable s cs ->
  exists x, view s = Some x /\ pb_containers (in_pb x) = cs /\ cs <> [] /\
    forall k e, In (k, e) cs -> exists f, draw_container x k = Ok f /\ good_figure (m_strip s) (m_min s) (m_sol s) (k, e) f.
Proof.
  intros I Hs [Hcs [Hm Hb]].
  destruct (inv_view s I) as [cs0 [is_ [V1 [V2 [V3 [V4 [V5 [V6 V7]]]]]]]]. rewrite Hcs in V1. injection V1 as <-.
  destruct (iv_fresh s I) as [F|[cs' [is' [F1 [F2 F3]]]]]; [contradiction|].
  rewrite Hcs in F1. injection F1 as <-. rewrite V2 in F2. injection F2 as <-.
  eexists. split; [exact V7|]. match type of V7 with _ = Some ?y => set (i := y) end.
  assert (X1 : pb_containers (in_pb i) = cs) by reflexivity. assert (X3 : in_sol i = m_sol s) by reflexivity.
  assert (X4 : pb_strip (in_pb i) = m_strip s) by reflexivity. assert (X5 : in_min i = m_min s) by reflexivity. clearbody i.
  split; [exact X1|]. split; [assumption|].
  intros k e Hin. destruct (packed_container _ _ _ _ k e F3 V5 Hin) as [P1 [csol [P2 [P3 P4]]]].
  destruct (Hm k e csol Hin P2) as [M1 M2]. destruct (proj2 V5 k e Hin) as [W1 W2].
  assert (N : 0 <= shown_height (m_strip s) (m_min s) e csol).
  { unfold shown_height. pose proof (ProofsConstruct.stack_height_nonneg (entries csol)). destruct (m_strip s); [destruct (m_min s); lia|lia]. }
  destruct (draw_container_ok i k e csol) as [G _]; rewrite ?X1, ?X3, ?X4, ?X5; auto. rewrite X4, X5, X3 in G.
  apply G. eapply Hb. eassumption.
Qed.

Definition not_a_mapping (v : pyval) : Prop :=
  (forall d, v <> VDict d) /\ (forall h, v <> VStruct h) /\ (forall h, v <> VDims h).

(** Settings, or a figure entry, that are no dictionary: AttributeError, nothing drawn. *)
Theorem C46_no_settings : forall ar (s : machine ar) writes show, m_sol s <> [] -> plotly_usable s ->
  (not_a_mapping (settings_of s) -> create_figure writes show s = ([], Err AttributeError)) /\
  (forall d v, settings_of s = VDict d -> has d "figure" v -> not_a_mapping v -> create_figure writes show s = ([], Err AttributeError)).
Proof.
  intros ar s writes show Hs [P1 P2]. unfold create_figure, settings_of. destruct (m_sol s); [congruence|]. rewrite P1, P2. cbn [negb]. split.
  - intros [N1 [N2 N3]]. destruct (c_settings (m_cfg s)); try reflexivity; [destruct (N1 _ eq_refl)|destruct (N2 _ eq_refl)|destruct (N3 _ eq_refl)].
  - intros d v -> Hv [N1 [N2 N3]]. unfold has in Hv. rewrite Hv. destruct v; try reflexivity; [destruct (N1 _ eq_refl)|destruct (N2 _ eq_refl)|destruct (N3 _ eq_refl)].
Qed.
Print Assumptions C46_no_settings.

Definition wants_show (f : vdict) (show : bool) : Prop :=
  show = true \/ exists v, has f "show" v /\ ~ false_value v.

Lemma wants_show_iff f show :
  truthy (match vget f (VStr "show") with Some v => v | None => VNone end) || show = true <-> wants_show f show.
Proof.
  unfold wants_show, has. rewrite orb_true_iff. split.
  - intros [H|H]; [right|left; exact H]. destruct (vget f (VStr "show")) as [v|]; [|discriminate H]. exists v. split; [reflexivity|].
    intros F. apply C40_false_values in F. congruence.
  - intros [H|[v [Hv F]]]; [right; exact H|left]. rewrite Hv. destruct (truthy v) eqn:E; [reflexivity|]. apply C40_false_values in E. contradiction.
Qed.

Lemma cannot_export_truthy v : cannot_export v -> truthy v = true.
Proof.
  intros H. destruct (truthy v) eqn:E; [reflexivity|]. exfalso. destruct H as [v H _|e H _|e p H _ _ _].
  - apply H, C40_false_values, E.
  - destruct e; [apply H; reflexivity|discriminate E].
  - destruct e; [discriminate H|discriminate E].
Qed.

Lemma cannot_export_fails writes v cid f : cannot_export v -> export_figure writes v cid f = Err FigureExportError.
Proof.
  unfold export_figure. destruct 1 as [v _ H|e _ H|e p H1 H2 H3 H4]; unfold has, absent in *.
  - destruct v; try reflexivity. destruct (H _ eq_refl).
  - destruct (vget e (VStr "path")) as [[]|]; try reflexivity. destruct (H _ eq_refl).
  - rewrite H1, H3, H4. destruct H2 as [H2|[n H2]]; rewrite H2; reflexivity.
Qed.

(** An export that cannot work: FigureExportError at the first container, nothing written or shown;
    an unknown type: nothing is written, without an error; a false value: as if absent, but no
    warning. *)
Theorem C46_edited_settings : forall ar, arith_laws ar ->
  forall env containers items settings width l (s : machine ar) d f v show writes cs,
  history env containers items settings width l s -> without_ior l -> m_sol s <> [] ->
  plotly_usable s -> drawable s cs -> settings_of s = VDict d -> has d "figure" (VDict f) -> has f "export" v ->
  (cannot_export v -> create_figure writes show s = ([], Err FigureExportError)) /\
  (false_value v \/ (exists e, v = VDict e /\ other_export e) ->
   exists figs, Forall2 (good_figure (m_strip s) (m_min s) (m_sol s)) cs figs /\
     (wants_show f show -> create_figure writes show s = (map Shown figs, Ok tt)) /\
     (~ wants_show f show -> create_figure writes show s = ([], Ok tt))).
Proof.
  intros ar laws env containers items settings width l s d f v show writes cs H Hl Hs [P1 P2] Hd Hset Hf Hv.
  pose proof (history_inv laws _ _ _ _ _ _ _ H Hl) as I. destruct (drawn s cs I Hs Hd) as [x [X1 [X2 [X3 X4]]]].
  unfold create_figure. destruct (m_sol s) as [|p0 l0] eqn:Es; [congruence|]. rewrite P1, P2. unfold settings_of in Hset. rewrite Hset.
  unfold has in Hf, Hv. rewrite Hf, Hv. cbn [negb]. rewrite X1. set (sh := truthy _ || show). rewrite X2.
  assert (S : sh = true <-> wants_show f show) by apply wants_show_iff.
  split.
  - intros C. assert (N : is_none v = false). { pose proof (cannot_export_truthy v C) as T. destruct v; try reflexivity. discriminate T. }
    rewrite N, andb_false_r. destruct cs as [|[cid c] cs]; [congruence|]. cbn [dkeys map fst figures_of].
    destruct (X4 cid c (or_introl eq_refl)) as [g [G1 _]]. unfold figure_of. rewrite G1, (cannot_export_truthy v C), (cannot_export_fails writes v cid g C).
    reflexivity.
  - intros C.
    assert (W : forall cid g, (if truthy v then export_figure writes v cid g else Ok []) = Ok []).
    { intros cid g. destruct C as [C|[e [-> [[p E1] [E2 [ty [E3 [E4 E5]]]]]]]].
      - apply C40_false_values in C. rewrite C. reflexivity.
      - unfold has, absent in *. destruct e as [|e0 e]; [discriminate E1|]. cbn [truthy]. unfold export_figure. rewrite E1, E3.
        assert (T : match ty with VStr t => if String.eqb t "html" then false else if String.eqb t "image" then false else true | _ => true end = true).
        { destruct ty; try reflexivity. destruct (String.eqb_spec s0 "html"); [subst; congruence|]. destruct (String.eqb_spec s0 "image"); [subst; congruence|reflexivity]. }
        destruct E2 as [E2|[n E2]]; rewrite E2; destruct ty; try reflexivity; destruct (String.eqb s0 "html"); try discriminate T;
          destruct (String.eqb s0 "image"); try discriminate T; reflexivity. }
    assert (D : exists figs, Forall2 (good_figure (m_strip s) (m_min s) (p0 :: l0)) cs figs /\
       figures_of writes v sh x (dkeys cs) = ((if sh then map Shown figs else []), Ok tt)).
    { clear - W X4. induction cs as [|[cid c] cs IH]; [exists []; split; [constructor|destruct sh; reflexivity]|].
      destruct (X4 cid c (or_introl eq_refl)) as [g [G1 G2]]. destruct IH as [figs [I1 I2]]; [intros; apply X4; right; assumption|].
      exists (g :: figs). split; [constructor; assumption|]. cbn [dkeys map fst figures_of]. unfold figure_of. rewrite G1, W.
      unfold dkeys in I2. rewrite I2. destruct sh; reflexivity. }
    destruct D as [figs [D1 D2]]. exists figs. split; [exact D1|]. split.
    + intros Hw. apply S in Hw. rewrite Hw in *. cbn [negb andb]. exact D2.
    + intros Hw. destruct sh; [destruct (Hw (proj1 S eq_refl))|]. cbn [negb andb]. destruct (is_none v); [reflexivity|exact D2].
Qed.
Print Assumptions C46_edited_settings.

(** The export entry is replaced in place by one without a path. *)
Example C46_edited_settings_witness :
  let s := after plotted [OpSolve None; OpEditSettings [(VStr "figure", VDict [(VStr "export", VDict [(VStr "type", VStr "pdf")])])]] in
  plotly_usable s /\ cannot_export (VDict [(VStr "type", VStr "pdf")]) /\
  settings_of s = VDict [(VStr "figure", VDict [(VStr "export", VDict [(VStr "type", VStr "pdf")])])] /\
  create_figure everything_works true s = ([], Err FigureExportError) /\
  (let s' := after s [OpEditSettings [(VStr "figure", VDict [(VStr "export", VDict [(VStr "type", VStr "pdf"); (VStr "path", VStr "/figures")])])]] in
   map (fun e => match e with Wrote _ _ _ _ => "?" | Shown f => fg_title f end) (fst (create_figure everything_works true s')) = ["C1"; "C2"] /\
   snd (create_figure everything_works true s') = Ok tt).
Proof.
  cbv zeta. refine (conj (conj _ _) (conj _ (conj _ (conj _ (conj _ _))))); try (vm_compute; reflexivity).
  apply ce_no_path; [discriminate|]. intros p F. discriminate F.
Qed.
