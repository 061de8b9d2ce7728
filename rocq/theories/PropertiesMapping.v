(** * C63: items, containers and dimensions behave like dictionaries that check what they get. *)
From Coq Require Import ZArith String List Bool Lia Permutation.
From Verif Require Import Py ProofsPy Arith Construct Spec LocalSearch SpecSearch Values ProofsVal
  Settings Instance SpecInstance ProofsMachine ProofsOps ProofsRun ProofsSolver ProofsAccept ProofsHistory
  PropertiesStructures PropertiesHistory SpecMapping ProofsMapping.
Import ListNotations.
Open Scope string_scope.
Open Scope list_scope.
Open Scope Z_scope.
Open Scope sm_scope.

(** [becomes] leaves no choice. *)
Theorem C63_one_outcome : forall k locked l c l1 r1 l2 r2,
  becomes k locked l c l1 r1 -> becomes k locked l c l2 r2 -> l1 = l2 /\ r1 = r2.
Proof. intros k locked l c l1 r1 l2 r2 H1 H2. exact (becomes_fun _ _ _ _ _ _ H1 _ _ H2). Qed.
Print Assumptions C63_one_outcome.

(** After any history without [|=], a call on an Items or Containers object does what it should to
    the entries of that object, and changes no other. *)
Theorem C63_calls : forall ar, arith_laws ar ->
  forall env containers items settings width ops (s : machine ar),
  history env containers items settings width ops s -> without_ior ops ->
  forall h o l p c s' r, nth_error (m_structs s) h = Some o -> view_struct s h = Some l ->
  is_call s h p c -> run p s = (s', r) ->
  (exists l', view_struct s' h = Some l' /\ becomes (so_kind o) (locked s (so_kind o)) l c l' r) /\
  (forall h' l2, h' <> h -> view_struct s h' = Some l2 -> view_struct s' h' = Some l2).
Proof.
  intros ar laws env containers items settings width ops s H Hi h o l p c s' r Ho Hl Hc Hr.
  pose proof (history_inv laws _ _ _ _ _ _ _ H Hi) as I.
  destruct (call_does s s' h o p c r I Ho Hc Hr) as [_ [_ [_ [D4 D5]]]]. split; [apply D5; exact Hl|exact D4].
Qed.
Print Assumptions C63_calls.

(** Every object there is shows entries. *)
Theorem C63_shown : forall ar, arith_laws ar ->
  forall env containers items settings width ops (s : machine ar),
  history env containers items settings width ops s -> without_ior ops ->
  forall h o, nth_error (m_structs s) h = Some o -> exists l, view_struct s h = Some l /\ NoDup (dkeys l).
Proof.
  intros ar laws env containers items settings width ops s H Hi h o Ho.
  pose proof (history_inv laws _ _ _ _ _ _ _ H Hi) as I. destruct (shown s h o I Ho) as [l [H1 [_ [_ H2]]]]. eauto.
Qed.
Print Assumptions C63_shown.

(** A call on [p.items]: the three items of the example and a fourth, taken away, popped, cleared. *)
Definition mapping_work : list op :=
  [OpStructSet 1 (VStr "d") (py_dims KItems 1 2); OpStructDel 1 (VStr "a"); OpStructSet 1 (VStr "b") (py_dims KItems 7 7)].
Example C63_calls_demo :
  let s := after bins mapping_work in
  history no_libraries two_containers three_items VNone VNone mapping_work s /\ without_ior mapping_work /\
  view_struct s 1 = Some [("b", mkDims 7 7); ("c", mkDims 3 3); ("d", mkDims 1 2)] /\
  view_struct (next (OpStructPopitem 1) s) 1 = Some [("c", mkDims 3 3); ("d", mkDims 1 2)] /\
  (outcome (OpStructClear 1) s = Err (ItemsError I_CANT_DELETE_STRUCTURE) /\
   view_struct (next (OpStructClear 1) s) 1 = Some [("d", mkDims 1 2)]) /\
  (let update := OpStructUpdate 1 (VList [VTuple [VStr "x"; py_dims KItems 2 2]; VStr "yz"; VNone]) in
   outcome update s = Err (DimensionsError D_TYPE) /\
   view_struct (next update s) 1 = Some [("b", mkDims 7 7); ("c", mkDims 3 3); ("d", mkDims 1 2); ("x", mkDims 2 2)]).
Proof.
  split; [apply bins_history|]. split; [intros o [<-|[<-|[<-|[]]]]; reflexivity|].
  refine (conj _ (conj _ (conj (conj _ _) (conj _ _)))); vm_compute; reflexivity.
Qed.
(** The same in the specification. *)
Example C63_becomes_demo :
  let l := [("b", mkDims 7 7); ("c", mkDims 3 3); ("d", mkDims 1 2)] in
  becomes KItems false l (CPop (VStr "c") false) [("b", mkDims 7 7); ("d", mkDims 1 2)] (Ok tt) /\
  becomes KItems false l (CPop (VInt 3) false) l (Err KeyError) /\
  becomes KItems false l CClear [("d", mkDims 1 2)] (Err (ItemsError I_CANT_DELETE_STRUCTURE)) /\
  becomes KItems false l (CUpdate [(VStr "x", py_dims KItems 2 2); (VStr "y", VStr "z")] (Err TypeError))
    (l ++ [("x", mkDims 2 2)]) (Err (DimensionsError D_TYPE)).
Proof.
  intros l. split; [|split; [|split]].
  - apply b_pop; [cbn; auto|]. apply (b_del KItems false l "c"); [discriminate|cbn; auto].
  - apply (b_pop_absent KItems false l (VInt 3) false). split; [reflexivity|discriminate].
  - apply (b_clear KItems false [("b", mkDims 7 7); ("c", mkDims 3 3)] ("d", mkDims 1 2)).
  - eapply b_update.
    + apply (b_set KItems false l "x" _ (mkDims 2 2)); [reflexivity|]. exists (VInt 2), (VInt 2).
      split; [split; [left; reflexivity|reflexivity]|]. split; [split; [left; reflexivity|reflexivity]|]. left. reflexivity.
    + apply (b_update_stop KItems false (l ++ [("x", mkDims 2 2)])). apply b_set_invalid; [reflexivity|]. constructor. discriminate.
Qed.

(** ** Dimensions *)

(** Nothing is ever deleted from the dimensions of an item or container; its two keys are there,
    all others are refused. *)
Inductive refuses (k : kind) (locked : bool) (r : nat) : op -> result unit -> Prop :=
| re_del key : refuses k locked r (OpDimDel r key) (Err (DimensionsError D_CANT_DELETE))
| re_popitem : refuses k locked r (OpDimPopitem r) (Err (DimensionsError D_CANT_DELETE))
| re_clear : refuses k locked r (OpDimClear r) (Err (DimensionsError D_CANT_DELETE))
| re_pop key default : key = VStr (wkey k) \/ key = VStr (lkey k) ->
    refuses k locked r (OpDimPop r key default) (Err (DimensionsError D_CANT_DELETE))
| re_pop_other key default : hashable key = true -> key <> VStr (wkey k) -> key <> VStr (lkey k) ->
    refuses k locked r (OpDimPop r key default) (if default then Ok tt else Err KeyError)
| re_pop_unhashable key default : hashable key = false ->
    refuses k locked r (OpDimPop r key default) (Err TypeError)
| re_default key v : key = VStr (wkey k) \/ key = VStr (lkey k) ->
    refuses k locked r (OpDimSetdefault r key v) (Ok tt)
| re_default_other key v : hashable key = true -> key <> VStr (wkey k) -> key <> VStr (lkey k) ->
    refuses k locked r (OpDimSetdefault r key v)
      (Err (if locked then ContainersError C_STRIP_PACK_ONLY else DimensionsError D_KEYS))
| re_default_unhashable key v : hashable key = false ->
    refuses k locked r (OpDimSetdefault r key v) (Err TypeError).

Theorem C63_dimensions_keep_keys : forall ar, arith_laws ar ->
  forall env containers items settings width ops (s : machine ar),
  history env containers items settings width ops s -> without_ior ops ->
  forall r k d p x, shows_dims s r k d -> refuses k (locked s k) r p x -> run p s = (s, x).
Proof.
  intros ar laws env containers items settings width ops s H Hi r k d p x [o [Ho [Hk Hd]]] Hr.
  pose proof (history_inv laws _ _ _ _ _ _ _ H Hi) as I. subst k.
  assert (G : get_dobj ar r s = (s, Ok o)) by (unfold get_dobj; rewrite Ho; reflexivity).
  assert (There : forall key, key = VStr (wkey (do_kind o)) \/ key = VStr (lkey (do_kind o)) -> exists v, data_get (do_data o) key = Ok v).
  { intros key Hkey. unfold view_dobj in Hd. unfold data_get.
    destruct (vget (do_data o) (VStr (wkey (do_kind o)))) eqn:Ew; [|discriminate].
    destruct (vget (do_data o) (VStr (lkey (do_kind o)))) eqn:El; [|discriminate].
    destruct Hkey as [-> | ->]; cbn [hashable negb]; rewrite ?Ew, ?El; eauto. }
  assert (Other : forall key, hashable key = true -> key <> VStr (wkey (do_kind o)) -> key <> VStr (lkey (do_kind o)) ->
    data_get (do_data o) key = Err KeyError).
  { intros key Hh N1 N2. pose proof (dims_key s r o key I Ho) as F. destruct (data_get (do_data o) key); [tauto|].
    destruct F as [[F _]|[_ ->]]; [congruence|reflexivity]. }
  assert (Bad : forall key, hashable key = false -> data_get (do_data o) key = Err TypeError).
  { intros key Hh. unfold data_get. rewrite Hh. reflexivity. }
  pose proof (has_data o d Hd) as Ne.
  assert (PI : dim_popitem ar r s = (s, Err (DimensionsError D_CANT_DELETE))).
  { unfold dim_popitem. rewrite (sbind_ok _ _ _ s o G). destruct (do_data o) as [|[key v] t]; [congruence|reflexivity]. }
  destruct Hr as [key| | |key default Hkey|key default Hh N1 N2|key default Hh|key v Hkey|key v Hh N1 N2|key v Hh]; cbn [run].
  - reflexivity.
  - exact PI.
  - unfold dim_clear. rewrite (sbind_ok _ _ _ s o G). cbn [clear_loop]. rewrite PI. reflexivity.
  - unfold dim_pop. rewrite (sbind_ok _ _ _ s o G). destruct (There key Hkey) as [v ->]. reflexivity.
  - unfold dim_pop. rewrite (sbind_ok _ _ _ s o G), Other by assumption. destruct default; reflexivity.
  - unfold dim_pop. rewrite (sbind_ok _ _ _ s o G), Bad by assumption. reflexivity.
  - unfold dim_setdefault. rewrite (sbind_ok _ _ _ s o G). destruct (There key Hkey) as [w ->]. reflexivity.
  - unfold dim_setdefault. rewrite (sbind_ok _ _ _ s o G), Other by assumption.
    destruct (dim_set ar r key v s) as [s' [[]|e]] eqn:E.
    + exfalso. destruct (dim_set_does s s' r o d key v I Ho Hd E) as [_ [_ [_ [_ [_ [z [d' [_ [[[X _]|[X _]] _]]]]]]]]]; congruence.
    + destruct (dim_set_error s s' r o d key v e Ho Hd E) as [-> He]. destruct (locked s (do_kind o)); [rewrite He; reflexivity|].
      destruct He as [key v X|key v _ _ _|key v [X|X] _]; try congruence; reflexivity.
  - unfold dim_setdefault. rewrite (sbind_ok _ _ _ s o G), Bad by assumption. reflexivity.
Qed.
Print Assumptions C63_dimensions_keep_keys.

(** [x[key] = v] is [x.update({key: v})] on dimensions [x]; every structure that holds the object
    shows the change, and in the entries that hold it only. *)
Inductive dims_call {ar} (s : machine ar) (r : nat) : op -> list (pyval * pyval) -> result unit -> Prop :=
| dc_set key v : dims_call s r (OpDimSet r key v) [(key, v)] (Ok tt)
| dc_update v pairs last : hands_over s v pairs last -> dims_call s r (OpDimUpdate r v) pairs last.

Theorem C63_dimensions_assigned : forall ar, arith_laws ar ->
  forall env containers items settings width ops (s : machine ar),
  history env containers items settings width ops s -> without_ior ops ->
  forall r k d p pairs last s' x, shows_dims s r k d -> dims_call s r p pairs last -> run p s = (s', x) ->
  exists d', assigned k (locked s k) d pairs last d' x /\ shows_dims s' r k d' /\ seen_everywhere s r d' s'.
Proof.
  intros ar laws env containers items settings width ops s H Hi r k d p pairs last s' x [o [Ho [Hk Hd]]] Hc Hr.
  pose proof (history_inv laws _ _ _ _ _ _ _ H Hi) as I. subst k.
  enough (E : (set_all ar (dim_set ar r) pairs ;;; slift last) s = (s', x)).
  { destruct (dim_update_does pairs last s s' r o d x I Ho Hd E) as [d' [A [B [C _]]]]. eauto. }
  destruct Hc as [key v|v pairs last Hh]; cbn [run] in Hr.
  - cbn [set_all]. unfold sbind. rewrite Hr. destruct x as [[]|e]; reflexivity.
  - unfold update in Hr. destruct (hands_over_entries s v pairs last Hh) as [E|[-> [-> E]]].
    + rewrite (sbind_ok _ _ _ s _ E) in Hr. exact Hr.
    + rewrite (sbind_err _ _ _ s _ E) in Hr. exact Hr.
Qed.
Print Assumptions C63_dimensions_assigned.

(** ** Copies *)

(** [copy.copy(x)] is a new object with the same Dimensions objects. *)
Theorem C63_copy_shares : forall ar (s : machine ar) h o, nth_error (m_structs s) h = Some o ->
  let n := length (m_structs s) in
  exists s', run (OpStructCopyCopy h) s = (s', Ok tt) /\ view_struct s' n = view_struct s h /\
    (forall i r, holds s' n i r <-> holds s h i r) /\
    (forall h' l, view_struct s h' = Some l -> view_struct s' h' = Some l) /\ m_sol s' = m_sol s.
Proof.
  intros ar s h o Ho n. exists (set_structs s (m_structs s ++ [o])). split; [|split; [|split; [|split]]].
  - cbn [run]. unfold ignore, struct_copy_copy, sbind, get_sobj. rewrite Ho. reflexivity.
  - unfold view_struct. cbn [m_structs m_dims set_structs]. unfold n. rewrite nth_error_last, Ho. reflexivity.
  - intros i r. unfold holds. cbn [m_structs set_structs]. unfold n. rewrite nth_error_last, Ho. reflexivity.
  - intros h' l Hl. apply more_structs. exact Hl.
  - reflexivity.
Qed.
Print Assumptions C63_copy_shares.

(** [x.copy()] on items or containers always fails; nothing is changed. *)
Theorem C63_copy_fails : forall ar, arith_laws ar ->
  forall env containers items settings width ops (s : machine ar),
  history env containers items settings width ops s -> without_ior ops ->
  forall h o l, nth_error (m_structs s) h = Some o -> view_struct s h = Some l -> l <> [] ->
  exists s', run (OpStructCopy h) s =
    (s', Err (if locked s (so_kind o) then ContainersError C_STRIP_PACK_ONLY else DimensionsError D_TYPE)) /\
    (forall h' l2, view_struct s h' = Some l2 -> view_struct s' h' = Some l2) /\ m_sol s' = m_sol s.
Proof.
  intros ar laws env containers items settings width ops s H Hi h o l Ho Hl Hne.
  pose proof (history_inv laws _ _ _ _ _ _ _ H Hi) as I.
  destruct (copy_struct_fails s h o l I Ho Hl Hne) as [s' [E ->]]. eexists. split; [exact E|].
  split; [|reflexivity]. intros h' l2 H2. apply more_structs. exact H2.
Qed.
Print Assumptions C63_copy_fails.

(** [x.copy()] on dimensions gives a new object with the same values but loses the solution; on
    those of a strip it loses the solution and raises. *)
Theorem C63_copy_dimensions : forall ar, arith_laws ar ->
  forall env containers items settings width ops (s : machine ar),
  history env containers items settings width ops s -> without_ior ops ->
  forall r k d, shows_dims s r k d ->
  exists s', run (OpDimCopy r) s = (s', if locked s k then Err (ContainersError C_STRIP_PACK_ONLY) else Ok tt) /\
    (locked s k = false -> shows_dims s' (length (m_dims s)) k d) /\
    (forall h l, view_struct s h = Some l -> view_struct s' h = Some l) /\ no_solution s'.
Proof.
  intros ar laws env containers items settings width ops s H Hi r k d [o [Ho [Hk Hd]]].
  pose proof (history_inv laws _ _ _ _ _ _ _ H Hi) as I. subst k.
  destruct (copy_dims_does s r o d I Ho Hd) as [data [E V]]. eexists. split; [exact E|]. split; [|split; [|split; reflexivity]].
  - intros Hl. eexists. split; [cbn [m_dims set_sol set_dims]; apply nth_error_last|]. split; [reflexivity|apply V; exact Hl].
  - intros h l Hl. rewrite <- Hl.
    rewrite <- (view_struct_dims s (m_dims s ++ [mkDobj (do_kind o) data]) h I).
    + apply view_struct_eq; reflexivity.
    + intros q x Hx. apply nth_error_keep. exact Hx.
Qed.
Print Assumptions C63_copy_dimensions.

(** A change seen through a copy; copying the dimensions of a strip loses the solution. *)
Example C63_copies_demo :
  (let s := after bins [OpStructCopyCopy 1; OpDimSet 2 (VStr "w") (VInt 9)] in
   items_of s = Some [("a", mkDims 9 3); ("b", mkDims 4 1); ("c", mkDims 3 3)] /\ view_struct s 2 = items_of s) /\
  (let s := after strip [OpSolve None] in
   m_sol s <> [] /\ outcome (OpDimCopy 0) s = Err (ContainersError C_STRIP_PACK_ONLY) /\
   m_sol (next (OpDimCopy 0) s) = []) /\
  (let s := after bins [OpSolve None] in
   m_sol s <> [] /\ outcome (OpStructCopy 1) s = Err (DimensionsError D_TYPE) /\ outcome (OpDimCopy 2) s = Ok tt).
Proof.
  refine (conj (conj _ _) (conj (conj _ (conj _ _)) (conj _ (conj _ _)))); vm_compute; try reflexivity; discriminate.
Qed.
Example C63_dimensions_demo :
  let s := after bins some_work in
  history no_libraries two_containers three_items VNone VNone some_work s /\ without_ior some_work /\
  shows_dims bins 2 KItems (mkDims 2 3) /\ refuses KItems false 2 (OpDimPop 2 (VStr "w") true) (Err (DimensionsError D_CANT_DELETE)) /\
  dims_call bins 2 (OpDimUpdate 2 (VList [VTuple [VStr "w"; VInt 8]; VInt 3])) [(VStr "w", VInt 8)] (Err TypeError) /\
  assigned KItems false (mkDims 2 3) [(VStr "w", VInt 8)] (Err TypeError) (mkDims 8 3) (Err TypeError) /\
  outcome (OpDimUpdate 2 (VList [VTuple [VStr "w"; VInt 8]; VInt 3])) bins = Err TypeError /\
  items_of (next (OpDimUpdate 2 (VList [VTuple [VStr "w"; VInt 8]; VInt 3])) bins) =
    Some [("a", mkDims 8 3); ("b", mkDims 4 1); ("c", mkDims 3 3)].
Proof.
  split; [apply bins_history|]. split; [intros o [<-|[<-|[<-|[<-|[<-|[<-|[]]]]]]]; reflexivity|].
  split. { exists (mkDobj KItems [(VStr "w", VInt 2); (VStr "l", VInt 3)]). refine (conj _ (conj _ _)); vm_compute; reflexivity. }
  split. { apply re_pop. left. reflexivity. }
  split.
  { apply dc_update. apply (ho_broken _ _ [VTuple [VStr "w"; VInt 8]] (VInt 3) []); [exact I|constructor| |apply np_type; exact I].
    constructor; [apply (li_tuple _ [VStr "w"; VInt 8])|constructor]. }
  split. { apply (as_width KItems false _ (VInt 8) 8 []); [reflexivity|split; [left; reflexivity|reflexivity]|constructor]. }
  split; vm_compute; reflexivity.
Qed.

(** ** [|=]: the inner dictionary changes without any check, and nothing else does *)
Lemma vget_vset_str d k v i : vget (vset d k v) (VStr i) =
  match k with VStr j => if String.eqb i j then Some v else vget d (VStr i) | _ => vget d (VStr i) end.
Proof.
  assert (Hne : forall k0, (forall j, k0 <> VStr j) -> key_eqb (VStr i) k0 = false).
  { intros k0 H. destruct (key_eqb (VStr i) k0) eqn:E; [|reflexivity]. apply key_eqb_str_l in E. destruct (H i E). }
  induction d as [|[k' v'] t IH].
  - cbn [vset vget]. destruct k; try (rewrite Hne by discriminate; reflexivity). rewrite key_eqb_strs.
    destruct (String.eqb i s); reflexivity.
  - cbn [vset]. destruct (key_eqb k k') eqn:E.
    + cbn [vget]. destruct k as [| | | |j| | | | | |].
      5:{ apply key_eqb_str_l in E. subst k'. rewrite key_eqb_strs. destruct (String.eqb i j); reflexivity. }
      all: rewrite !Hne; try reflexivity; intros j ->; apply key_eqb_str_r in E; discriminate.
    + cbn [vget]. rewrite IH. destruct k as [| | | |j| | | | | |]; try reflexivity.
      destruct (String.eqb_spec i j) as [->|N]; [|reflexivity]. rewrite E. reflexivity.
Qed.

Lemma merge_merged pairs : forall d last, 
  merged d pairs last (fst (merge d pairs)) (match snd (merge d pairs) with Ok _ => last | Err e => Err e end).
Proof.
  induction pairs as [|[k v] t IH]; intros d last; cbn [merge].
  - exists [], []. split; [reflexivity|]. split; [intros p []|]. split; [left; auto|]. reflexivity.
  - destruct (hashable k) eqn:Eh.
    + destruct (IH (vset d k v) last) as [good [rest [-> [H1 [H2 H3]]]]].
      exists ((k, v) :: good), rest. split; [reflexivity|]. split; [intros p [<-|Hp]; [exact Eh|apply H1; exact Hp]|].
      split; [exact H2|]. intros i. rewrite H3, vget_vset_str. unfold last_given. cbn [fold_left fst snd].
      assert (G : forall l (o : option pyval),
        fold_left (fun o p => match fst p with VStr j => if String.eqb i j then Some (snd p) else o | _ => o end) l o =
        match fold_left (fun o p => match fst p with VStr j => if String.eqb i j then Some (snd p) else o | _ => o end) l None
        with Some w => Some w | None => o end).
      { clear. induction l as [|p l IH]; intros o; [reflexivity|]. cbn [fold_left]. rewrite IH.
        rewrite (IH (match fst p with VStr j => if String.eqb i j then Some (snd p) else None | _ => None end)).
        destruct (fold_left _ l None); [reflexivity|]. destruct (fst p); try reflexivity. destruct (String.eqb i s); reflexivity. }
      rewrite (G good (match k with VStr j => if String.eqb i j then Some v else None | _ => None end)).
      destruct (fold_left _ good None); [reflexivity|]. destruct k; try reflexivity. destruct (String.eqb i s); reflexivity.
    + exists [], ((k, v) :: t). split; [reflexivity|]. split; [intros p []|].
      split; [right; exists (k, v), t; auto|]. reflexivity.
Qed.

Theorem C63_merge_structure : forall ar (s s' : machine ar) h o v pairs last r,
  nth_error (m_structs s) h = Some o -> hands_over s v pairs last -> run (OpStructIor h v) s = (s', r) ->
  exists data, merged (so_data o) pairs last data r /\
    (s' = set_structs s (list_set (m_structs s) h (mkSobj (so_kind o) data)) \/ s' = s /\ data = so_data o).
Proof.
  intros ar s s' h o v pairs last r Ho Hh H. cbn [run] in H. unfold struct_ior in H.
  destruct (hands_over_entries s v pairs last Hh) as [E|[-> [-> E]]].
  - rewrite (sbind_ok _ _ _ s _ E) in H. rewrite (sbind_ok _ _ _ s o) in H by (unfold get_sobj; rewrite Ho; reflexivity).
    cbn [fst snd] in H. pose proof (merge_merged pairs (so_data o) last) as M.
    destruct (merge (so_data o) pairs) as [data q]. cbn [fst snd] in M.
    destruct q as [[]|e]; cbn in H; destruct last as [[]|e']; injection H as <- <-; exists data; split; auto.
  - rewrite (sbind_err _ _ _ s _ E) in H. injection H as <- <-. exists (so_data o). split; [|auto].
    exact (merge_merged [] (so_data o) (Err TypeError)).
Qed.
Print Assumptions C63_merge_structure.

Theorem C63_merge_dimensions : forall ar (s s' : machine ar) h o v pairs last r,
  nth_error (m_dims s) h = Some o -> hands_over s v pairs last -> run (OpDimIor h v) s = (s', r) ->
  exists data, merged (do_data o) pairs last data r /\
    (s' = set_dims s (list_set (m_dims s) h (mkDobj (do_kind o) data)) \/ s' = s /\ data = do_data o).
Proof.
  intros ar s s' h o v pairs last r Ho Hh H. cbn [run] in H. unfold dim_ior in H.
  destruct (hands_over_entries s v pairs last Hh) as [E|[-> [-> E]]].
  - rewrite (sbind_ok _ _ _ s _ E) in H. rewrite (sbind_ok _ _ _ s o) in H by (unfold get_dobj; rewrite Ho; reflexivity).
    cbn [fst snd] in H. pose proof (merge_merged pairs (do_data o) last) as M.
    destruct (merge (do_data o) pairs) as [data q]. cbn [fst snd] in M.
    destruct q as [[]|e]; cbn in H; destruct last as [[]|e']; injection H as <- <-; exists data; split; auto.
  - rewrite (sbind_err _ _ _ s _ E) in H. injection H as <- <-. exists (do_data o). split; [|auto].
    exact (merge_merged [] (do_data o) (Err TypeError)).
Qed.
Print Assumptions C63_merge_dimensions.

(** [items |= (("z", items["a"]), ([], 1), ("b", 2))]: the first pair is stored, then a TypeError. *)
Example C63_merge_demo :
  let v := VTuple [VTuple [VStr "z"; VDims 2]; VTuple [VList []; VInt 1]; VTuple [VStr "b"; VInt 2]] in
  hands_over bins v [(VStr "z", VDims 2); (VList [], VInt 1); (VStr "b", VInt 2)] (Ok tt) /\
  outcome (OpStructIor 1 v) bins = Err TypeError /\
  items_of (next (OpStructIor 1 v) bins) =
    Some [("a", mkDims 2 3); ("b", mkDims 4 1); ("c", mkDims 3 3); ("z", mkDims 2 3)].
Proof.
  split.
  - eapply ho_pairs; [exact I|constructor|]. repeat constructor.
  - split; vm_compute; reflexivity.
Qed.
