(** * Newly created objects and histories. *)
From Coq Require Import ZArith String List Bool Lia Permutation.
From Verif Require Import Py ProofsPy Arith Construct Spec LocalSearch SpecSearch Values ProofsVal
  Settings Instance SpecInstance ProofsMachine ProofsOps ProofsRun ProofsSolver ProofsAccept.
Import ListNotations.
Open Scope string_scope.
Open Scope list_scope.
Open Scope Z_scope.
Open Scope sm_scope.

Section History.
Context {ar : arith}.
Notation machine := (machine ar).

Definition new_object (s : machine) (strip : bool) (height : option Z) (new1 new2 : list dobj)
           (dc di : vdict) (c : cfg) : Prop :=
  Forall good_dobj new1 /\ Forall good_dobj new2 /\
  entries_ok new1 KContainers dc /\ entries_ok (new1 ++ new2) KItems di /\ dc <> [] /\ di <> [] /\
  s = mkM (new1 ++ new2) [mkSobj KContainers dc; mkSobj KItems di] 1 0 strip height None (zlen dc)
          [] [] [] default_strategy None c.

Lemma create_rest (env : environment) items settings (s0 s : machine) new1 dc strip height :
  s0 = mkM new1 [mkSobj KContainers dc] 0 0 strip height None 0 [] [] [] default_strategy None
           (mkCfg VNone true 0 VNone false false false false) ->
  Forall good_dobj new1 -> entries_ok new1 KContainers dc -> dc <> [] ->
  (h <~ new_structure ar KItems items ;;
   smodify (fun s => set_items_ref s h) ;;;
   (fun s => let '(c, r) := new_settings env settings in (set_cfg s c, r)) ;;;
   s <~ sget ;;
   d <~ get_sobj ar (m_containers s) ;;
   smodify (fun s => set_sol (set_cnum (set_pp_strategy s default_strategy) (zlen (so_data d))) [] (m_objs s)))
  s0 = (s, Ok tt) ->
  exists new2 di c, new_object s strip height new1 new2 dc di c /\ new_settings env settings = (c, Ok tt) /\
    exists s1, new_structure ar KItems items s0 = (s1, Ok 1%nat) /\
       items_of s = view_struct s1 1 /\ containers_of s = view_struct s1 0.
Proof.
  intros -> G1 G2 G3 H. apply sbind_inv in H. destruct H as [[s1 [h [E1 E2]]]|[e [_ E]]]; [|discriminate].
  pose proof E1 as E1'. apply new_structure_cases in E1.
  destruct E1 as [[e [? [? [X _]]]]|[di [new2 [d [[= Eh] [_ [_ [F [He [Hne [_ Es1]]]]]]]]]]]; [discriminate|].
  cbn in Eh, He, Es1. subst h.
  unfold sbind, smodify, sget, get_sobj in E2. destruct (new_settings env settings) as [c r] eqn:Ec.
  destruct r as [[]|e]; [|discriminate]. subst s1. cbn in E2. injection E2 as <-.
  exists new2, di, c. split; [|split; [reflexivity|]].
  - split; [assumption|]. split; [assumption|]. split; [assumption|]. split; [exact He|].
    split; [assumption|]. split; [assumption|]. reflexivity.
  - eexists. split; [exact E1'|]. split; reflexivity.
Qed.

Lemma created_object env containers items settings width (s : machine) :
  created env containers items settings width s ->
  exists strip height new1 new2 dc di c, new_object s strip height new1 new2 dc di c /\
    new_settings env settings = (c, Ok tt) /\
    if strip
    then containers = VNone /\ exists w, positive_int width w /\ height = Some (max_w_l_ratio * w) /\
           containers_of s = Some [(strip_id, mkDims w (2 ^ 100))] /\
           exists r, dc = [(VStr strip_id, VDims r)]
    else width = VNone /\ height = None.
Proof.
  intros H. unfold created, create in H. apply sbind_inv in H.
  destruct H as [[s1 [[] [E1 E2]]]|[e [_ E]]]; [|discriminate].
  assert (D : width = VNone \/ width <> VNone) by (destruct width; auto; right; discriminate).
  destruct D as [->|D].
  - injection E1 as <-. unfold sbind at 1, sget at 1 in E2. cbn [m_strip set_heights set_strip negb] in E2.
    apply sbind_inv in E2. destruct E2 as [[s2 [[] [E2 E3]]]|[e [_ E]]]; [|discriminate].
    apply sbind_inv in E2. destruct E2 as [[s3 [h [E4 E5]]]|[e [_ E]]]; [|discriminate].
    apply new_structure_cases in E4.
    destruct E4 as [[e [? [? [X _]]]]|[dc [new1 [d [[= Eh] [_ [_ [F [He [Hne [_ Es1]]]]]]]]]]]; [discriminate|].
    cbn in Eh, He, Es1. subst h s3. injection E5 as <-.
    destruct (create_rest env items settings _ s new1 dc false None eq_refl F He Hne E3)
      as [new2 [di [c [N [Hc _]]]]].
    exists false, None, new1, new2, dc, di, c. split; [exact N|]. split; [exact Hc|]. auto.
  - assert (E1' : match as_int width with
      | None => sraise (DimensionsError D_VALUE)
      | Some w =>
          swhen (w <=? 0) (DimensionsError D_VALUE) ;;;
          smodify (fun s => set_heights (set_strip s true) (Some (max_w_l_ratio * w)) None) ;;;
          h <~ new_structure ar KContainers
                 (VDict [(VStr strip_id, VDict [(VStr "W", width); (VStr "L", VInt (2 ^ 100))])]) ;;
          smodify (fun s => set_containers_ref s h)
      end (blank ar) = (s1, Ok tt)) by (destruct width; try exact E1; congruence).
    clear E1. destruct (as_int width) as [w|] eqn:Ew; [|discriminate]. rewrite swhen_cases in E1'.
    destruct (Z.leb_spec w 0) as [|Hw]; [discriminate|].
    assert (Hp : positive_int width w) by (apply positive_int_spec; auto).
    unfold sbind at 1, smodify at 1 in E1'.
    set (s2 := set_heights _ _ _) in E1'.
    assert (Hsv : structure_value KContainers (VDict [(VStr strip_id, VDict [(VStr "W", width); (VStr "L", VInt (2 ^ 100))])])
              [(strip_id, mkDims w (2 ^ 100))]).
    { eexists. split; [reflexivity|]. split; [discriminate|]. constructor; [|constructor]. split; [reflexivity|].
      exists width, (VInt (2 ^ 100)). split; [exact Hp|]. split; [|left; reflexivity].
      split; [left; reflexivity|reflexivity]. }
    assert (Hg : genuine (VDict [(VStr strip_id, VDict [(VStr "W", width); (VStr "L", VInt (2 ^ 100))])])).
    { intros l [= <-]. split; [repeat constructor|]. intros id v [[= <- <-]|[]]. intros d [= <-].
      repeat constructor. }
    destruct (new_structure_accepts KContainers _ _ s2 Hg Hsv) as [s3 [F1 [F2 F3]]].
    rewrite (sbind_ok _ _ _ _ _ F1) in E1'. pose proof F1 as F1'. apply new_structure_cases in F1'.
    destruct F1' as [[e [? [? [X _]]]]|[dc [new1 [d [_ [_ [_ [F [He [Hne [_ Es1]]]]]]]]]]]; [discriminate|].
    cbn in He, Es1, F2. injection E1' as <-.
    unfold sbind at 1, sget at 1 in E2. rewrite Es1 in E2. cbn [m_strip set_containers_ref set_structs set_dims set_sol s2 set_heights set_strip negb blank] in E2.
    apply sbind_inv in E2. destruct E2 as [[s4 [[] [E2 E3]]]|[e [_ E]]]; [|discriminate].
    assert (Hn : containers = VNone /\ s4 = set_containers_ref s3 0%nat).
    { rewrite Es1. destruct containers; try discriminate. injection E2 as <-. auto. }
    clear E2. destruct Hn as [-> ->]. rewrite Es1 in E3.
    destruct (create_rest env items settings _ s new1 dc true (Some (max_w_l_ratio * w)) eq_refl F He Hne E3)
      as [new2 [di [c [N [Hc [s5 [J1 [J2 J3]]]]]]]].
    exists true, (Some (max_w_l_ratio * w)), new1, new2, dc, di, c. split; [exact N|]. split; [exact Hc|].
    split; [reflexivity|]. exists w. split; [exact Hp|]. split; [reflexivity|].
    rewrite Es1 in F2. unfold view_struct in F2. cbn in F2.
    split.
    + destruct N as [_ [_ [_ [_ [_ [_ ->]]]]]]. unfold containers_of, view_struct. cbn [m_structs m_containers m_dims nth_error so_kind so_data]. etransitivity; [|exact F2].
      destruct He as [l [-> [_ [_ Hl]]]]. apply view_entries_ext. intros id r Hin.
      destruct (Hl id r Hin) as [o [Ho _]]. rewrite Ho. apply nth_error_keep. assumption.
    + destruct (view_entries_ok new1 KContainers dc) as [v [V1 [_ [_ V4]]]].
      * intros r o Ho. rewrite Forall_forall in F. apply F. eapply nth_error_In. eassumption.
      * exact He.
      * rewrite V1 in F2. injection F2 as ->. destruct He as [l [-> _]]. rewrite vkeys_sdict in V4.
        destruct l as [|[i r] [|]]; try discriminate. cbn in V4. injection V4 as ->. exists r. reflexivity.
Qed.

Lemma created_inv env containers items settings width (s : machine) :
  created env containers items settings width s -> inv s.
Proof.
  intros H. apply created_object in H.
  destruct H as [strip [height [new1 [new2 [dc [di [c [N [_ H]]]]]]]]].
  destruct N as [F1 [F2 [E1 [E2 [N1 [N2 ->]]]]]]. constructor; cbn.
  - intros h o Ho. apply nth_error_In in Ho. rewrite Forall_forall in F1, F2.
    apply in_app_or in Ho. destruct Ho; auto.
  - intros [|[|h]] o Ho; cbn in Ho.
    + injection Ho as <-. cbn. apply entries_ok_app. assumption.
    + injection Ho as <-. exact E2.
    + destruct h; discriminate.
  - eexists. split; [reflexivity|]. auto.
  - eexists. split; [reflexivity|]. auto.
  - intros ->. destruct H as [_ [w [_ [_ [_ [r ->]]]]]]. eauto.
  - intros Hs. cbn in Hs. subst strip. destruct H as [_ [w [Hw [-> _]]]]. apply positive_int_spec in Hw.
    unfold max_w_l_ratio. eexists. split; [reflexivity|]. split; [lia|discriminate].
  - left. reflexivity.
  - left. split; reflexivity.
Qed.

Lemma run_star (laws : arith_laws ar) o (s s' : machine) r :
  uses_ior o = false -> inv s -> run o s = (s', r) -> star (touches o) (runs_solver o) s s'.
Proof. intros Ho I H. eapply (safe_run laws o Ho); eassumption. Qed.

Lemma leads_to_inv (laws : arith_laws ar) (s : machine) l s' :
  without_ior l -> inv s -> leads_to s l s' -> inv s'.
Proof.
  intros Hl I H. induction H as [s|s o s1 r l s' E _ IH]; [assumption|].
  apply IH; [intros x Hx; apply Hl; right; assumption|].
  eapply star_inv; [exact I|]. eapply run_star; [exact laws| |exact I|exact E]. apply Hl. left. reflexivity.
Qed.

Lemma history_inv (laws : arith_laws ar) env containers items settings width l (s : machine) :
  history env containers items settings width l s -> without_ior l -> inv s.
Proof. intros [s0 [H1 H2]] Hl. eapply leads_to_inv; try eassumption. eapply created_inv. eassumption. Qed.
End History.
