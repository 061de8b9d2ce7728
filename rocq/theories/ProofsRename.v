(** * Renaming the ids of items and containers (for C77).

    Every operation of the solver commutes with an injective renaming: ids are only compared for
    equality, except in [sort_items], which breaks ties by id. *)
From Coq Require Import ZArith String List Bool Lia FinFun.
From Verif Require Import Py Arith Construct ProofsPy LocalSearch ItemsManip HyperSearch.
Import ListNotations.
Open Scope string_scope.
Open Scope list_scope.
Open Scope Z_scope.
Open Scope res_scope.

Definition rres {A B} (h : A -> B) (r : result A) : result B :=
  match r with Ok a => Ok (h a) | Err e => Err e end.

Definition ren {A} (f : string -> string) (d : odict A) : odict A :=
  map (fun kv => (f (fst kv), snd kv)) d.

Lemma rres_bind {A B C D} (h : A -> B) (k : C -> D) (r : result A) (F : A -> result C) (G : B -> result D) :
  (forall a, r = Ok a -> G (h a) = rres k (F a)) -> bind (rres h r) G = rres k (bind r F).
Proof. destruct r; simpl; auto. Qed.

Lemma bind_rres_same {A C D} (k : C -> D) (r : result A) (F : A -> result C) (G : A -> result D) :
  (forall a, r = Ok a -> G a = rres k (F a)) -> bind r G = rres k (bind r F).
Proof. destruct r; simpl; auto. Qed.

Section Dict.
Context (f : string -> string) (Hf : Injective f).

Lemma eqb_ren a b : String.eqb (f a) (f b) = String.eqb a b.
Proof.
  destruct (String.eqb_spec a b) as [->|N].
  - apply String.eqb_refl.
  - apply String.eqb_neq. intros E. apply N, Hf, E.
Qed.

Context {A : Type}.
Implicit Types d : odict A.

Lemma dget_ren d k : dget (ren f d) (f k) = dget d k.
Proof.
  induction d as [|[k' v] t IH]; simpl; [reflexivity|]. rewrite eqb_ren, IH. reflexivity.
Qed.

Lemma dget_r_ren d k : dget_r (ren f d) (f k) = dget_r d k.
Proof. unfold dget_r. rewrite dget_ren. reflexivity. Qed.

Lemma dset_ren d k v : dset (ren f d) (f k) v = ren f (dset d k v).
Proof.
  induction d as [|[k' v'] t IH]; simpl; [reflexivity|]. rewrite eqb_ren.
  destruct (String.eqb k k'); simpl; [reflexivity|]. rewrite IH. reflexivity.
Qed.

Lemma ddel_ren d k : ddel (ren f d) (f k) = ren f (ddel d k).
Proof.
  induction d as [|[k' v'] t IH]; simpl; [reflexivity|]. rewrite eqb_ren.
  destruct (String.eqb k k'); simpl; [reflexivity|]. rewrite IH. reflexivity.
Qed.

Lemma dkeys_ren d : dkeys (ren f d) = map f (dkeys d).
Proof. unfold dkeys, ren. rewrite !map_map. reflexivity. Qed.

Lemma dvals_ren d : dvals (ren f d) = dvals d.
Proof. unfold dvals, ren. rewrite map_map. reflexivity. Qed.

Lemma ren_length d : length (ren f d) = length d.
Proof. apply map_length. Qed.

Lemma lremove_ren l x : lremove (map f l) (f x) = map f (lremove l x).
Proof.
  induction l as [|h t IH]; simpl; [reflexivity|]. rewrite eqb_ren.
  destruct (String.eqb x h); simpl; [reflexivity|]. rewrite IH. reflexivity.
Qed.
End Dict.

Lemma ren_map {A B} f (h : A -> B) (d : odict A) :
  map (fun kv => (fst kv, h (snd kv))) (ren f d) = ren f (map (fun kv => (fst kv, h (snd kv))) d).
Proof. unfold ren. rewrite !map_map. reflexivity. Qed.

(** ** The construction *)
Section Construct.
Context (ar : arith) (f g : string -> string) (Hf : Injective f) (Hg : Injective g).

Definition ren_found (o : option (string * dims * bool)) : option (string * dims * bool) :=
  match o with Some (i, it, r) => Some (f i, it, r) | None => None end.

Lemma first_fit_ren W L Xo Yo rot gr items ids :
  first_fit W L Xo Yo rot gr (ren f items) (map f ids) =
  rres ren_found (first_fit W L Xo Yo rot gr items ids).
Proof.
  induction ids as [|i ids IH]; simpl; [reflexivity|].
  rewrite (dget_r_ren f Hf). apply bind_rres_same. intros it _.
  apply bind_rres_same. intros [] _; [reflexivity|].
  destruct rot; [|exact IH]. apply bind_rres_same. intros [] _; [reflexivity|exact IH].
Qed.

Definition ren_state (s : cstate ar) : cstate ar :=
  mkState (ren f (st_items s)) (map f (st_ids s)) (st_obj s) (st_grid s) (st_pools s) (st_cur s)
          (ren f (st_sol s)) (st_pending s).

Lemma place_item_ren W L strip s Xo Yo i it rot :
  place_item ar W L strip (ren_state s) Xo Yo (f i) it rot =
  rres ren_state (place_item ar W L strip s Xo Yo i it rot).
Proof.
  unfold place_item. cbn [ren_state st_grid]. apply bind_rres_same. intros g' _.
  apply bind_rres_same. intros ps _. unfold ren_state. simpl.
  rewrite (ddel_ren f Hf), (lremove_ren f Hf), (dset_ren f Hf). reflexivity.
Qed.

Lemma loop_body_ren W L strip rot strat s p :
  loop_body ar W L strip rot strat (ren_state s) p = rres ren_state (loop_body ar W L strip rot strat s p).
Proof.
  unfold loop_body. destruct p as [Xo Yo]. cbn [ren_state st_grid st_items st_ids].
  rewrite first_fit_ren. apply rres_bind. intros o _.
  change (mkState (ren f (st_items s)) (map f (st_ids s)) (st_obj s) (st_grid s) (st_pools s) (st_cur s)
            (ren f (st_sol s)) (st_pending s)) with (ren_state s).
  destruct o as [[[i it] r]|]; cbn [ren_found].
  - rewrite place_item_ren. apply rres_bind. intros s' _. cbn [ren_state st_pools].
    destruct (get_current_point strat (st_pools s')); reflexivity.
  - cbn [bind ren_state st_pools]. destruct (get_current_point strat (st_pools s)); reflexivity.
Qed.

Lemma construct_loop_ren fuel W L strip rot strat : forall s,
  construct_loop ar fuel W L strip rot strat (ren_state s) =
  rres ren_state (construct_loop ar fuel W L strip rot strat s).
Proof.
  induction fuel as [|n IH]; intros s; simpl;
    (destruct (st_cur s); [|reflexivity]); (destruct (st_ids s); [reflexivity|]); simpl;
    (destruct (ngeb ar (st_obj s) (num1 ar)); [reflexivity|]); [reflexivity|].
  change (mkState (ren f (st_items s)) (map f (st_ids s)) (st_obj s) (st_grid s) (st_pools s) (st_cur s)
            (ren f (st_sol s)) (st_pending s)) with (ren_state s).
  rewrite loop_body_ren. apply rres_bind. intros s' _. apply IH.
Qed.

Lemma construct_fuel_ren items : construct_fuel (ren f items) = construct_fuel items.
Proof.
  unfold construct_fuel. f_equal. induction items as [|[k v] t IH]; simpl; [reflexivity|].
  rewrite IH. reflexivity.
Qed.

Definition ren_built (r : odict dims * num ar * odict entry * pools)
  : odict dims * num ar * odict entry * pools :=
  let '(items, v, sol, pp) := r in (ren f items, v, ren f sol, pp).

Lemma construct_solution_ren W L strip rot strat items :
  construct_solution ar W L strip rot strat (ren f items) =
  rres ren_built (construct_solution ar W L strip rot strat items).
Proof.
  unfold construct_solution. rewrite construct_fuel_ren.
  assert (E : init_state ar W L (ren f items) = ren_state (init_state ar W L items)).
  { unfold init_state, ren_state. simpl. rewrite dkeys_ren. reflexivity. }
  rewrite E, construct_loop_ren. apply rres_bind. intros s _. cbn [ren_state st_grid st_sol].
  assert (S0 : map (fun kp => dw (p_item (snd kp)) * dl (p_item (snd kp))) (ren f (st_sol s)) =
               map (fun kp => dw (p_item (snd kp)) * dl (p_item (snd kp))) (st_sol s)).
  { unfold ren. rewrite map_map. reflexivity. }
  rewrite S0. apply bind_rres_same. intros obj _. cbn [rres ren_built st_items st_pending].
  rewrite (ren_map f export). reflexivity.
Qed.

Lemma rfold_deepcopy_ren items ids : forall d,
  rfold (fun d i => it <- dget_r (ren f items) i ;; Ok (dset d i it)) (map f ids) (ren f d) =
  rres (@ren dims f) (rfold (fun d i => it <- dget_r items i ;; Ok (dset d i it)) ids d).
Proof.
  induction ids as [|i ids IH]; intros d; simpl; [reflexivity|].
  rewrite (dget_r_ren f Hf). destruct (dget_r items i) as [it|]; cbn [bind]; [|reflexivity].
  rewrite (dset_ren f Hf). apply IH.
Qed.

Definition ren_sol (sol : solution) : solution :=
  map (fun kv => (g (fst kv), ren f (snd kv))) sol.

Lemma ren_sol_ren sol : ren_sol sol = ren g (map (fun kv => (fst kv, ren f (snd kv))) sol).
Proof. unfold ren_sol, ren. rewrite map_map. reflexivity. Qed.

Lemma map_dset {A B} (h : A -> B) d k v :
  map (fun kv : string * A => (fst kv, h (snd kv))) (dset d k v) =
  dset (map (fun kv => (fst kv, h (snd kv))) d) k (h v).
Proof.
  induction d as [|[k' v'] t IH]; simpl; [reflexivity|].
  destruct (String.eqb k k'); simpl; [reflexivity|]. rewrite IH. reflexivity.
Qed.

Lemma map_dget {A B} (h : A -> B) d k :
  dget (map (fun kv : string * A => (fst kv, h (snd kv))) d) k =
  match dget d k with Some v => Some (h v) | None => None end.
Proof.
  induction d as [|[k' v'] t IH]; simpl; [reflexivity|]. destruct (String.eqb k k'); [reflexivity|exact IH].
Qed.

Lemma dset_ren_sol sol k v : dset (ren_sol sol) (g k) (ren f v) = ren_sol (dset sol k v).
Proof. rewrite !ren_sol_ren, (dset_ren g Hg), map_dset. reflexivity. Qed.

Lemma dget_ren_sol sol k :
  dget (ren_sol sol) (g k) = match dget sol k with Some v => Some (ren f v) | None => None end.
Proof. rewrite ren_sol_ren, (dget_ren g Hg), map_dget. reflexivity. Qed.

Lemma dget_r_ren_sol sol k : dget_r (ren_sol sol) (g k) = rres (@ren entry f) (dget_r sol k).
Proof. unfold dget_r. rewrite dget_ren_sol. destruct (dget sol k); reflexivity. Qed.

Definition ren_pb (pb : problem) : problem :=
  mkProblem (ren g (pb_containers pb)) (ren f (pb_items pb)) (pb_rotation pb) (pb_strategy pb)
            (pb_strip pb) (pb_height pb).

Definition ren_acc (a : odict dims * solution * objvals ar) : odict dims * solution * objvals ar :=
  let '(items, sol, objs) := a in (ren f items, ren_sol sol, ren g objs).

Lemma solve_step_ren pb acc kc :
  solve_step ar (ren_pb pb) (ren_acc acc) (g (fst kc), snd kc) = rres ren_acc (solve_step ar pb acc kc).
Proof.
  destruct acc as [[items sol] objs]. destruct kc as [cid c]. unfold solve_step. simpl fst. simpl snd.
  cbn [ren_acc]. destruct items as [|kv items].
  - simpl. change (@nil (string * entry)) with (ren f (@nil (string * entry))) at 1.
    rewrite dset_ren_sol, (dset_ren g Hg). reflexivity.
  - change (ren f (kv :: items)) with ((f (fst kv), snd kv) :: ren f items).
    cbv iota beta.
    change ((f (fst kv), snd kv) :: ren f items) with (ren f (kv :: items)).
    change (container_length (ren_pb pb) c) with (container_length pb c).
    cbn [ren_pb pb_strip pb_rotation pb_strategy]. rewrite construct_solution_ren.
    apply rres_bind. intros [[[items' util] csol] pp] _. cbn [ren_built rres ren_acc].
    rewrite dset_ren_sol, (dset_ren g Hg). reflexivity.
Qed.

Lemma rfold_solve_ren pb cs : forall acc,
  rfold (solve_step ar (ren_pb pb)) (ren g cs) (ren_acc acc) = rres ren_acc (rfold (solve_step ar pb) cs acc).
Proof.
  induction cs as [|kc cs IH]; intros acc; simpl; [reflexivity|].
  rewrite solve_step_ren. destruct (solve_step ar pb acc kc); simpl; [apply IH|reflexivity].
Qed.

Definition ren_pair (a : solution * objvals ar) : solution * objvals ar := (ren_sol (fst a), ren g (snd a)).

Lemma solve_ren pb sequence :
  solve ar (ren_pb pb) (option_map (map f) sequence) = rres ren_pair (solve ar pb sequence).
Proof.
  unfold solve, solve_full.
  assert (E : items_for (ren_pb pb) (option_map (map f) sequence) = rres (@ren dims f) (items_for pb sequence)).
  { destruct sequence as [ids|]; [|reflexivity]. exact (rfold_deepcopy_ren (pb_items pb) ids []). }
  rewrite E. destruct (items_for pb sequence) as [items|]; [|reflexivity]. cbn [rres bind].
  cbn [ren_pb pb_containers]. change (ren f items, @nil (string * odict entry), @nil (string * num ar))
    with (ren_acc (items, [], [])).
  rewrite rfold_solve_ren. destruct (rfold (solve_step ar pb) (pb_containers pb) (items, [], [])) as [[[a b] c]|];
    reflexivity.
Qed.

(** ** Local search *)
Definition ren_inst (x : inst ar) : inst ar :=
  mkInst (ren_pb (in_pb x)) (in_min x) (in_cnum x) (ren_sol (in_sol x)) (ren g (in_objs x)) (in_hist x).

Lemma inst_solve_ren x sequence :
  inst_solve ar (ren_inst x) (option_map (map f) sequence) = rres ren_inst (inst_solve ar x sequence).
Proof.
  unfold inst_solve. cbn [ren_inst in_pb]. rewrite solve_ren. apply rres_bind. intros [sol objs] _. reflexivity.
Qed.

Lemma deepcopy_container_ren items csol :
  deepcopy_container (ren f items) (ren f csol) = ren f (deepcopy_container items csol).
Proof.
  unfold deepcopy_container. rewrite dkeys_ren. induction (dkeys items) as [|i t IH]; simpl; [reflexivity|].
  rewrite (dget_ren f Hf), IH. destruct (dget csol i); reflexivity.
Qed.

Lemma rmap_ren {A B C D} (a : A -> C) (b : B -> D) (F : A -> result B) (G : C -> result D) l :
  (forall x, G (a x) = rres b (F x)) -> rmap G (map a l) = rres (map b) (rmap F l).
Proof.
  intros H. induction l as [|h t IH]; simpl; [reflexivity|]. rewrite H.
  apply rres_bind. intros y _. rewrite IH. apply rres_bind. intros ys _. reflexivity.
Qed.

Lemma deepcopy_solution_ren pb sol :
  deepcopy_solution (ren_pb pb) (ren_sol sol) = rres ren_sol (deepcopy_solution pb sol).
Proof.
  unfold deepcopy_solution. cbn [ren_pb pb_containers pb_items]. rewrite dkeys_ren.
  apply rmap_ren. intros cid. rewrite dget_r_ren_sol. apply rres_bind. intros csol _.
  rewrite deepcopy_container_ren. reflexivity.
Qed.

Lemma get_solution_ren x : get_solution ar (ren_inst x) = rres ren_pair (get_solution ar x).
Proof.
  unfold get_solution. cbn [ren_inst in_pb in_sol in_objs]. rewrite deepcopy_solution_ren.
  apply rres_bind. intros sol _. unfold copy_objs. rewrite !map_id. reflexivity.
Qed.

Lemma calculate_obj_value_ren x : calculate_obj_value ar (ren_inst x) = calculate_obj_value ar x.
Proof. unfold calculate_obj_value. cbn [ren_inst in_objs in_cnum]. rewrite dvals_ren. reflexivity. Qed.

Definition ren_ip (a : inst ar * (solution * objvals ar)) := (ren_inst (fst a), ren_pair (snd a)).

Lemma get_init_solution_ren x : get_init_solution ar (ren_inst x) = rres ren_ip (get_init_solution ar x).
Proof.
  unfold get_init_solution. pose proof (inst_solve_ren x None) as E. simpl in E. rewrite E.
  apply rres_bind. intros x' _. rewrite get_solution_ren. apply rres_bind. intros p _. reflexivity.
Qed.

Lemma solution_height_ren csol : solution_height (ren f csol) = solution_height csol.
Proof. unfold solution_height. rewrite dvals_ren. reflexivity. Qed.

(** In strip mode the id of the only container is a constant of the library. *)
Definition strip_kept (x : inst ar) : Prop := pb_strip (in_pb x) = true -> g strip_id = strip_id.

Lemma compare_node_ren x new best : strip_kept x ->
  compare_node ar (ren_inst x) new best = compare_node ar x new best.
Proof.
  unfold strip_kept, compare_node. cbn [ren_inst in_pb in_min in_sol]. cbn [ren_pb pb_strip pb_items].
  intros H. destruct (pb_strip (in_pb x)); simpl; [|reflexivity]. destruct (in_min x); [reflexivity|].
  specialize (H eq_refl). pose proof (dget_r_ren_sol (in_sol x) strip_id) as E. rewrite H in E. rewrite E.
  destruct (dget_r (in_sol x) strip_id) as [csol|]; simpl; [|reflexivity].
  unfold zlen. rewrite !ren_length. reflexivity.
Qed.

Lemma new_height_ren x : g strip_id = strip_id -> new_height ar (ren_inst x) = new_height ar x.
Proof.
  intros H. unfold new_height. cbn [ren_inst in_pb in_min in_sol].
  pose proof (dget_r_ren_sol (in_sol x) strip_id) as E. rewrite H in E.
  destruct (in_sol x) as [|kv t] eqn:Es.
  - simpl. cbn [ren_pb pb_containers]. pose proof (dget_r_ren g Hg (pb_containers (in_pb x)) strip_id) as E2.
    rewrite H in E2. rewrite E2. reflexivity.
  - cbn [ren_sol map]. cbv iota beta. fold (ren_sol t).
    change ((g (fst kv), ren f (snd kv)) :: ren_sol t) with (ren_sol (kv :: t)). rewrite E.
    destruct (dget_r (kv :: t) strip_id) as [csol|]; simpl; [|reflexivity].
    rewrite solution_height_ren. reflexivity.
Qed.

Lemma extra_node_operations_ren x : strip_kept x ->
  extra_node_operations ar (ren_inst x) = rres ren_inst (extra_node_operations ar x).
Proof.
  unfold strip_kept, extra_node_operations. intros H. change (pb_strip (in_pb (ren_inst x))) with (pb_strip (in_pb x)).
  destruct (pb_strip (in_pb x)); [|reflexivity]. rewrite new_height_ren by (apply H; reflexivity).
  apply bind_rres_same. intros h _. reflexivity.
Qed.

Lemma list_set_map {A B} (h : A -> B) l n v : list_set (map h l) n (h v) = map h (list_set l n v).
Proof. revert n. induction l as [|a t IH]; intros [|n]; simpl; [reflexivity..|]. rewrite IH. reflexivity. Qed.

Lemma swap_at_ren l i j : swap_at (map f l) i j = map f (swap_at l i j).
Proof.
  unfold swap_at. rewrite !nth_error_map.
  destruct (nth_error l i); simpl; [|reflexivity]. destruct (nth_error l j); simpl; [|reflexivity].
  rewrite !list_set_map. reflexivity.
Qed.

Definition ren_ls (s : ls (num := num ar) (St := inst ar) (Sol := solution * objvals ar)) :=
  mkLs (ren_inst (ls_st s)) (map f (ls_node s)) (ls_best s) (ren_pair (ls_ret s)) (ls_clk s).

Lemma evaluate_strip x l y : evaluate_node ar x l = Ok y -> pb_strip (in_pb y) = pb_strip (in_pb x).
Proof.
  unfold evaluate_node, inst_solve. destruct (solve ar (in_pb x) (Some l)) as [[a b]|]; [|discriminate].
  simpl. intros [= <-]. reflexivity.
Qed.

Lemma extra_strip x y : extra_node_operations ar x = Ok y -> pb_strip (in_pb y) = pb_strip (in_pb x).
Proof.
  unfold extra_node_operations. destruct (pb_strip (in_pb x)) eqn:E.
  - destruct (new_height ar x); [|discriminate]. simpl. intros [= <-]. simpl. exact E.
  - intros [= <-]. exact E.
Qed.

Section Search.
Context (oot : nat -> bool).

Let node := search_node (evaluate_node ar) (calculate_obj_value ar) (get_solution ar) (compare_node ar)
              (extra_node_operations ar) (global_check ar) oot.

Lemma search_node_strip swaps maxn : forall processed s s' nl,
  node swaps maxn processed s = Ok (s', nl) -> pb_strip (in_pb (ls_st s')) = pb_strip (in_pb (ls_st s)).
Proof.
  induction swaps as [|[i j] rest IH]; intros processed s s' nl; cbn [node search_node].
  - intros [= <- <-]. reflexivity.
  - subst node. cbn [search_node].
    destruct (evaluate_node ar (ls_st s) (swap_at (ls_node s) i j)) as [x1|] eqn:E1; [|discriminate]. cbn [bind].
    pose proof (evaluate_strip _ _ _ E1) as S1.
    destruct (calculate_obj_value ar x1) as [v|]; [|discriminate]. cbn [bind].
    destruct (compare_node ar x1 v (ls_best s)) as [b|]; [|discriminate]. cbn [bind].
    destruct b.
    + destruct (get_solution ar x1) as [ret|]; [|discriminate]. cbn [bind].
      destruct (extra_node_operations ar x1) as [x2|] eqn:E2; [|discriminate]. cbn [bind].
      pose proof (extra_strip _ _ E2) as S2. rewrite orb_true_r. simpl.
      intros [= <- <-]. simpl. congruence.
    + cbn [bind]. cbn [ls_clk ls_best ls_st ls_node ls_ret].
      match goal with |- (if ?c then _ else _) = _ -> _ => destruct c end.
      * intros [= <- <-]. exact S1.
      * intros H. apply IH in H. rewrite H. exact S1.
Qed.

Definition ren_lsl {B} (a : _ * B) : _ * B := (ren_ls (fst a), snd a).

Lemma search_node_ren swaps maxn : forall processed s, strip_kept (ls_st s) ->
  node swaps maxn processed (ren_ls s) = rres ren_lsl (node swaps maxn processed s).
Proof.
  subst node. induction swaps as [|[i j] rest IH]; intros processed s Hk; cbn [search_node]; [reflexivity|].
  cbn [ren_ls ls_st ls_node ls_best]. rewrite swap_at_ren.
  pose proof (inst_solve_ren (ls_st s) (Some (swap_at (ls_node s) i j))) as E. cbn [option_map] in E.
  unfold evaluate_node at 1. rewrite E. apply rres_bind. intros x1 E1.
  assert (K1 : strip_kept x1).
  { unfold strip_kept in *. erewrite evaluate_strip by exact E1. exact Hk. }
  rewrite calculate_obj_value_ren. apply bind_rres_same. intros v _.
  rewrite compare_node_ren by exact K1. apply bind_rres_same. intros b _.
  destruct b.
  - rewrite get_solution_ren. destruct (get_solution ar x1) as [ret|]; [|reflexivity]. cbn [rres bind].
    rewrite extra_node_operations_ren by exact K1.
    destruct (extra_node_operations ar x1) as [x2|]; [|reflexivity]. cbn [rres bind].
    cbn [ren_ls ls_clk ls_best ls_st ls_node ls_ret]. rewrite !orb_true_r. reflexivity.
  - cbn [bind ren_ls ls_clk ls_best ls_st ls_node ls_ret].
    match goal with |- (if ?c then _ else _) = _ => destruct c end; [reflexivity|].
    match goal with |- _ = rres _ (search_node _ _ _ _ _ _ _ _ _ _ ?t) =>
      rewrite <- (IH _ t) by exact K1 end. reflexivity.
Qed.

Lemma search_loop_ren fuel swaps maxn : forall s, strip_kept (ls_st s) ->
  search_loop (evaluate_node ar) (calculate_obj_value ar) (get_solution ar) (compare_node ar)
              (extra_node_operations ar) (global_check ar) oot fuel swaps maxn (ren_ls s) =
  rres ren_lsl (search_loop (evaluate_node ar) (calculate_obj_value ar) (get_solution ar) (compare_node ar)
              (extra_node_operations ar) (global_check ar) oot fuel swaps maxn s).
Proof.
  induction fuel as [|n IH]; intros s Hk; cbn [search_loop]; [reflexivity|].
  rewrite search_node_ren by exact Hk. apply rres_bind. intros [s' nl] E. cbn [ren_lsl fst snd].
  destruct (nl_found nl && negb (nl_oot nl) && negb (nl_global nl)); [|reflexivity].
  rewrite IH.
  - apply rres_bind. intros [s'' nls] _. reflexivity.
  - unfold strip_kept in *. erewrite search_node_strip by exact E. exact Hk.
Qed.
End Search.

Definition ren_out {B C} (a : inst ar * B * C) : inst ar * B * C :=
  let '(x, b, c) := a in (ren_inst x, b, c).

Lemma ls_fuel_ren x : ls_fuel ar (ren_inst x) = ls_fuel ar x.
Proof. unfold ls_fuel. cbn [ren_inst in_pb ren_pb pb_items pb_strip pb_height]. rewrite ren_length. reflexivity. Qed.

Lemma init_strip x y p : get_init_solution ar x = Ok (y, p) -> pb_strip (in_pb y) = pb_strip (in_pb x).
Proof.
  unfold get_init_solution, inst_solve. destruct (solve ar (in_pb x) None) as [[a b]|]; [|discriminate].
  cbn [bind]. destruct (get_solution ar _); [|discriminate]. simpl. intros [= <- <-]. reflexivity.
Qed.

Lemma local_search_ren ck limit throttle start x clk : strip_kept x ->
  local_search ar ck limit throttle start (ren_inst x) clk =
  rres ren_out (local_search ar ck limit throttle start x clk).
Proof.
  intros Hk. unfold local_search, local_search_fuel.
  destruct (match start with None => (ck clk, S clk) | Some t => (t, clk) end) as [st clk1].
  set (x1 := if pb_strip (in_pb x) then set_hist x [pb_height (in_pb x)] else x).
  assert (E1 : (if pb_strip (in_pb (ren_inst x)) then set_hist (ren_inst x) [pb_height (in_pb (ren_inst x))]
                else ren_inst x) = ren_inst x1).
  { subst x1. cbn [ren_inst in_pb ren_pb pb_strip pb_height]. destruct (pb_strip (in_pb x)); reflexivity. }
  rewrite E1, ls_fuel_ren.
  assert (K1 : strip_kept x1).
  { unfold strip_kept in *. subst x1. destruct (pb_strip (in_pb x)) eqn:Es; [intros _; apply Hk; reflexivity|].
    rewrite Es. discriminate. }
  clearbody x1. unfold abstract_local_search. rewrite get_init_solution_ren.
  destruct (get_init_solution ar x1) as [[x0 ret]|] eqn:E0; [|reflexivity].
  cbn [rres bind ren_ip fst snd]. rewrite calculate_obj_value_ren.
  destruct (calculate_obj_value ar x0) as [best|]; [|reflexivity]. cbn [bind].
  cbn [ren_inst in_pb ren_pb pb_items]. rewrite dkeys_ren, map_length.
  match goal with |- context [search_loop _ _ _ _ _ _ _ _ _ _ (mkLs x0 ?n ?b ?r ?c)] =>
    change (mkLs (ren_inst x0) (map f n) b (ren_pair r) c) with (ren_ls (mkLs x0 n b r c)) end.
  rewrite search_loop_ren.
  - apply rres_bind. intros [s log] _. cbn [ren_lsl fst snd ren_ls ls_ret]. destruct (ls_ret s) as [sol objs].
    reflexivity.
  - unfold strip_kept in *. cbn [ls_st]. erewrite init_strip by exact E0. exact K1.
Qed.

(** ** Sorting, orienting, hypersearch *)
Lemma set_items_ren x items : set_items (ren_inst x) (ren f items) = ren_inst (set_items x items).
Proof. reflexivity. Qed.

Lemma insert_sorted_ren {A B} (h : A -> B) (lt : A -> A -> bool) (lt' : B -> B -> bool) a l :
  (forall b, In b l -> lt' (h b) (h a) = lt b a) ->
  insert_sorted lt' (h a) (map h l) = map h (insert_sorted lt a l).
Proof.
  induction l as [|b t IH]; intros H; simpl; [reflexivity|].
  rewrite (H b) by (left; reflexivity). destruct (lt b a); simpl; [|reflexivity].
  rewrite IH; [reflexivity|]. intros c Hc. apply H. right. exact Hc.
Qed.

Lemma in_insert {A} (lt : A -> A -> bool) a l b : In b (insert_sorted lt a l) -> b = a \/ In b l.
Proof.
  induction l as [|c t IH]; simpl; [intuition congruence|].
  destruct (lt c a); simpl; [|intuition congruence]. intros [->|H]; [auto|]. destruct (IH H); auto.
Qed.

Lemma in_sort {A} (lt : A -> A -> bool) l b : In b (py_sort lt l) -> In b l.
Proof.
  induction l as [|a t IH]; simpl; [tauto|]. intros H. apply in_insert in H. destruct H as [->|H]; auto.
Qed.

Lemma py_sort_ren {A B} (h : A -> B) (lt : A -> A -> bool) (lt' : B -> B -> bool) l :
  (forall a b, In a l -> In b l -> lt' (h a) (h b) = lt a b) ->
  py_sort lt' (map h l) = map h (py_sort lt l).
Proof.
  induction l as [|a t IH]; intros H; simpl; [reflexivity|].
  rewrite IH by (intros; apply H; right; assumption). apply insert_sorted_ren.
  intros b Hb. apply in_sort in Hb. apply H; [right; exact Hb|left; reflexivity].
Qed.

(** The renaming keeps the alphabetical order of the ids of items with equal keys. *)
Definition ties_kept (sorting_by : option (string * bool)) (items : odict dims) : Prop :=
  match sorting_by with
  | None => True
  | Some (by_, _) =>
      match key_lt ar by_ with
      | None => True
      | Some lt => forall a b, In a items -> In b items ->
          lt (snd a) (snd b) = false -> lt (snd b) (snd a) = false ->
          String.ltb (f (fst a)) (f (fst b)) = String.ltb (fst a) (fst b)
      end
  end.

Lemma sort_items_ren sb x : ties_kept sb (pb_items (in_pb x)) ->
  sort_items ar sb (ren_inst x) = rres ren_inst (sort_items ar sb x).
Proof.
  unfold sort_items, ties_kept. destruct sb as [[by_ rv]|]; [|reflexivity].
  destruct (key_lt ar by_) as [lt|]; [|reflexivity]. intros H. cbn [rres]. rewrite <- set_items_ren.
  do 2 f_equal. cbn [ren_inst in_pb ren_pb pb_items]. unfold py_sort_rev, ren.
  assert (G : forall a b, In a (pb_items (in_pb x)) -> In b (pb_items (in_pb x)) ->
    elem_lt lt (f (fst a), snd a) (f (fst b), snd b) = elem_lt lt a b).
  { intros a b Ha Hb. unfold elem_lt. simpl. destruct (lt (snd a) (snd b)) eqn:E1; [reflexivity|].
    destruct (lt (snd b) (snd a)) eqn:E2; [reflexivity|]. apply H; assumption. }
  destruct rv; apply py_sort_ren; auto.
Qed.

Lemma orient_items_ren o x : orient_items ar o (ren_inst x) = ren_inst (orient_items ar o x).
Proof.
  assert (A : forall h t, orient_all ar h t (ren_inst x) = ren_inst (orient_all ar h t x)).
  { intros h t. unfold orient_all. cbn [ren_inst in_pb ren_pb pb_items].
    assert (E : existsb (fun kd => t (snd kd)) (ren f (pb_items (in_pb x))) =
                existsb (fun kd => t (snd kd)) (pb_items (in_pb x))).
    { unfold ren. induction (pb_items (in_pb x)) as [|a l IH]; simpl; [reflexivity|]. rewrite IH. reflexivity. }
    rewrite E. destruct (existsb _ (pb_items (in_pb x))); [|reflexivity].
    rewrite (ren_map f h). apply set_items_ren. }
  unfold orient_items. destruct o as [o|]; [|reflexivity].
  change (pb_rotation (in_pb (ren_inst x))) with (pb_rotation (in_pb x)).
  destruct (negb (pb_rotation (in_pb x))); [reflexivity|].
  destruct (String.eqb o "wide"); [apply A|]. destruct (String.eqb o "long"); [apply A|reflexivity].
Qed.

Definition ren_hs (s : hs ar) : hs ar :=
  mkHs (ren_inst (hs_st s)) (hs_best s) (ren_pair (hs_ret s)) (hs_strategy s) (hs_clk s).

Definition ren_hsl {B} (a : hs ar * B) : hs ar * B := (ren_hs (fst a), snd a).

Lemma local_search_strip ck limit throttle start x clk y c log :
  local_search ar ck limit throttle start x clk = Ok (y, c, log) -> pb_strip (in_pb y) = pb_strip (in_pb x).
Proof.
  unfold local_search, local_search_fuel.
  destruct (match start with None => (ck clk, S clk) | Some t => (t, clk) end) as [st clk1].
  set (x1 := if pb_strip (in_pb x) then set_hist x [pb_height (in_pb x)] else x).
  assert (E1 : pb_strip (in_pb x1) = pb_strip (in_pb x)).
  { subst x1. destruct (pb_strip (in_pb x)) eqn:E; exact E. }
  rewrite <- E1. generalize (ls_fuel ar x1). clearbody x1. intros fuel. unfold abstract_local_search.
  destruct (get_init_solution ar x1) as [[x0 ret]|] eqn:E0; [|discriminate]. cbn [bind].
  rewrite <- (init_strip _ _ _ E0).
  destruct (calculate_obj_value ar x0) as [best|]; [|discriminate]. cbn [bind].
  assert (G : forall sw m fuel s s' l,
      search_loop (evaluate_node ar) (calculate_obj_value ar) (get_solution ar) (compare_node ar)
        (extra_node_operations ar) (global_check ar) (out_of_time ck st limit) fuel sw m s = Ok (s', l) ->
      pb_strip (in_pb (ls_st s')) = pb_strip (in_pb (ls_st s))).
  { clear. intros sw m. induction fuel as [|n IH]; intros s s' l; cbn [search_loop]; [discriminate|].
    destruct (search_node _ _ _ _ _ _ _ _ _ _ s) as [[s1 nl]|] eqn:E; [|discriminate]. cbn [bind].
    apply search_node_strip in E. destruct (nl_found nl && _ && _).
    - destruct (search_loop _ _ _ _ _ _ _ n _ _ s1) as [[s2 nls]|] eqn:E2; [|discriminate]. cbn [bind].
      intros [= <- <-]. apply IH in E2. congruence.
    - intros [= <- <-]. exact E. }
  match goal with |- context [search_loop _ _ _ _ _ _ _ ?fu ?sw ?m ?s] =>
    destruct (search_loop (evaluate_node ar) (calculate_obj_value ar) (get_solution ar) (compare_node ar)
        (extra_node_operations ar) (global_check ar) (out_of_time ck st limit) fu sw m s) as [[s' l]|] eqn:E end;
    [|discriminate]. cbn [bind]. apply G in E. destruct (ls_ret s') as [sol objs].
  intros [= <- <- <-]. exact E.
Qed.

Lemma hs_loop_ren ck limit throttle start strategies : forall s, strip_kept (hs_st s) ->
  hs_loop ar ck limit throttle start strategies (ren_hs s) =
  rres ren_hsl (hs_loop ar ck limit throttle start strategies s).
Proof.
  induction strategies as [|st rest IH]; intros s Hk; cbn [hs_loop]; [reflexivity|].
  cbn [ren_hs hs_st hs_clk]. change (set_strategy (ren_inst (hs_st s)) st) with (ren_inst (set_strategy (hs_st s) st)).
  rewrite local_search_ren by exact Hk.
  destruct (local_search ar ck limit throttle (Some start) (set_strategy (hs_st s) st) (hs_clk s))
    as [[[x1 clk1] log]|] eqn:E; [|reflexivity]. cbn [rres bind ren_out].
  assert (K1 : strip_kept x1).
  { unfold strip_kept in *. erewrite local_search_strip by exact E. exact Hk. }
  rewrite calculate_obj_value_ren. destruct (calculate_obj_value ar x1) as [v|]; [|reflexivity]. cbn [bind].
  cbn [ren_hs hs_best hs_ret hs_strategy].
  destruct (check_solution ar v (hs_best s)).
  - rewrite get_solution_ren. destruct (get_solution ar x1) as [ret|]; [|reflexivity]. cbn [rres bind].
    cbn [andb]. destruct (global_check ar v); [reflexivity|].
    destruct (over_time ck start limit clk1); [reflexivity|].
    cbn [hs_st hs_best hs_ret hs_strategy].
    match goal with |- bind (hs_loop _ _ _ _ _ _ (mkHs (ren_inst ?a) ?b (ren_pair ?c) ?d ?e)) _ = _ =>
      change (mkHs (ren_inst a) b (ren_pair c) d e) with (ren_hs (mkHs a b c d e)) end.
    rewrite IH by exact K1. apply rres_bind. intros [s3 l3] _. reflexivity.
  - cbn [bind andb]. destruct (over_time ck start limit clk1); [reflexivity|].
    cbn [hs_st hs_best hs_ret hs_strategy].
    match goal with |- bind (hs_loop _ _ _ _ _ _ (mkHs (ren_inst ?a) ?b (ren_pair ?c) ?d ?e)) _ = _ =>
      change (mkHs (ren_inst a) b (ren_pair c) d e) with (ren_hs (mkHs a b c d e)) end.
    rewrite IH by exact K1. apply rres_bind. intros [s3 l3] _. reflexivity.
Qed.

Definition ren_hr (r : hs_result ar) : hs_result ar :=
  mkHsR (ren_inst (hr_inst r)) (hr_best_strategy r) (hr_clk r) (hr_log r).

Lemma sort_strip sb x y : sort_items ar sb x = Ok y -> pb_strip (in_pb y) = pb_strip (in_pb x).
Proof.
  unfold sort_items. destruct sb as [[b r]|]; [|intros [= <-]; reflexivity].
  destruct (key_lt ar b); [|discriminate]. intros [= <-]. reflexivity.
Qed.

Lemma orient_strip o x : pb_strip (in_pb (orient_items ar o x)) = pb_strip (in_pb x).
Proof.
  unfold orient_items, orient_all. destruct o; [|reflexivity].
  repeat match goal with |- context [if ?c then _ else _] => destruct c end; reflexivity.
Qed.

Lemma hypersearch_ren ck limit throttle o sb strategies x clk :
  strip_kept x -> ties_kept sb (pb_items (in_pb x)) ->
  hypersearch ar ck limit throttle o sb strategies (ren_inst x) clk =
  rres ren_hr (hypersearch ar ck limit throttle o sb strategies x clk).
Proof.
  intros Hk Ht. unfold hypersearch. rewrite sort_items_ren by exact Ht.
  destruct (sort_items ar sb x) as [x1|] eqn:Es; [|reflexivity]. cbn [rres bind].
  rewrite orient_items_ren. set (x2 := orient_items ar o x1).
  assert (K2 : strip_kept x2).
  { unfold strip_kept in *. subst x2. rewrite orient_strip. erewrite sort_strip by exact Es. exact Hk. }
  clearbody x2. unfold single_process. rewrite get_init_solution_ren.
  destruct (get_init_solution ar x2) as [[x0 ret]|] eqn:E0; [|reflexivity]. cbn [rres bind ren_ip fst snd].
  rewrite calculate_obj_value_ren. destruct (calculate_obj_value ar x0) as [best|]; [|reflexivity]. cbn [bind].
  match goal with |- bind (hs_loop _ _ _ _ _ _ (mkHs (ren_inst ?a) ?b (ren_pair ?c) ?d ?e)) _ = _ =>
    change (mkHs (ren_inst a) b (ren_pair c) d e) with (ren_hs (mkHs a b c d e)) end.
  rewrite hs_loop_ren.
  - apply rres_bind. intros [s log] _. reflexivity.
  - unfold strip_kept in *. cbn [hs_st]. erewrite init_strip by exact E0. exact K2.
Qed.
End Construct.

(** ** Any two lists of distinct ids of the same length are related by an injective renaming. *)
Definition transpose (a b x : string) : string :=
  if String.eqb x a then b else if String.eqb x b then a else x.

Lemma transpose_inj a b : Injective (transpose a b).
Proof.
  intros x y. unfold transpose.
  destruct (String.eqb_spec x a), (String.eqb_spec x b), (String.eqb_spec y a), (String.eqb_spec y b); congruence.
Qed.

Lemma renaming_exists : forall ks ks' : list string, NoDup ks -> NoDup ks' -> length ks = length ks' ->
  exists f : string -> string, Injective f /\ map f ks = ks'.
Proof.
  induction ks as [|k ks IH]; intros [|k' ks'] N N' E; try discriminate.
  - exists (fun x => x). split; [intros x y; auto|reflexivity].
  - inversion N as [|? ? N1 N2]. inversion N' as [|? ? N1' N2']. subst.
    destruct (IH ks' N2 N2') as [f [Hf Em]]; [simpl in E; lia|].
    exists (fun x => transpose (f k) k' (f x)). split.
    + intros x y H. apply Hf. exact (transpose_inj _ _ _ _ H).
    + simpl. unfold transpose at 1. rewrite String.eqb_refl. f_equal.
      etransitivity; [|exact Em]. apply map_ext_in. intros x Hx. unfold transpose.
      destruct (String.eqb_spec (f x) (f k)) as [H|_]; [apply Hf in H; subst; contradiction|].
      destruct (String.eqb_spec (f x) k') as [H|_]; [|reflexivity].
      exfalso. apply N1'. rewrite <- Em, <- H. apply in_map. exact Hx.
Qed.

Lemma ren_of {A} f (d d' : odict A) : map f (dkeys d) = dkeys d' -> dvals d = dvals d' -> d' = ren f d.
Proof.
  revert d'. induction d as [|[k v] t IH]; intros [|[k' v'] t'] H1 H2; try discriminate; [reflexivity|].
  simpl in *. injection H1 as E1 H1. injection H2 as E2 H2. subst. rewrite (IH t' H1 H2). reflexivity.
Qed.
