(** * The solver and the searches on Python objects.

    The same code as Construct.v, LocalSearch.v and HyperSearch.v, now with the identity of the
    objects involved: dictionaries, lists and Dimensions objects live in a heap, are passed by
    reference and changed in place where the source does so. Models structures.py:197-213
    ([deepcopy]), mixins.py:342-625 ([_construct_solution], [_solve]), 1066-1218 (copies and local
    search), abstract.py:94-191 and heuristics.py:263-270, 461-490 ([solve],
    [_single_process_hypersearch]), 975-1063 of mixins.py ([sort_items], [orient_items]) and
    heuristics.py:565-634 ([hypersearch] with one worker).
    Simplified: the coordinates of a container and its potential points, created anew for every
    container and never stored anywhere, are values; so are the lists of ids the local search makes
    for itself (abstract.py:138-142, 156) and [_heights_history]. *)
From Coq Require Import ZArith String List Bool Factorial.
From Verif Require Import Py Arith Construct LocalSearch HyperSearch ItemsManip Values Settings Instance.
Import ListNotations.
Open Scope Z_scope.
Open Scope res_scope.
Open Scope sm_scope.

Definition addr := nat.

Section Memory.
Context (ar : arith).

(** The objects. *)
Inductive obj :=
| ODims (d : dims)                                   (* a Dimensions object *)
| OStruct (d : odict addr)                           (* an Items or Containers object: id -> Dimensions *)
| OItem (d : dims) (at_ : option (Z * Z * bool))     (* {"w", "l"}, later also "Xo", "Yo", "rotated" *)
| OTable (d : odict addr)                            (* a dict from ids to objects *)
| OIds (l : list string)                             (* a list of ids *)
| OEntry (e : entry)                                 (* a list [Xo, Yo, w, l] *)
| OObjs (d : objvals ar).                            (* a dict from container ids to numbers *)

Definition heap := list obj.

(** The attributes of the instance, heuristics.py:69-212; objects by reference. *)
Record self := mkSelf {
  se_items : addr; se_containers : addr;
  se_rotation : bool; se_strategy : list pclass; se_strip : bool; se_height : Z;
  se_min : option Z; se_cnum : Z;
  se_sol : addr; se_objs : addr;
  se_hist : list Z
}.
Record mem := mkMem { me_heap : heap; me_self : self }.
Definition H := SM mem.

Definition alloc (o : obj) : H addr := fun m =>
  (mkMem (me_heap m ++ [o]) (me_self m), Ok (length (me_heap m))).
Definition load (a : addr) : H obj := fun m =>
  (m, match nth_error (me_heap m) a with Some o => Ok o | None => Err unusable end).
Definition store (a : addr) (o : obj) : H unit := smodify (fun m =>
  mkMem (list_set (me_heap m) a o) (me_self m)).
Definition self_ : H self := fun m => (m, Ok (me_self m)).
Definition set_self (f : self -> self) : H unit := smodify (fun m => mkMem (me_heap m) (f (me_self m))).

(** Reading an object known to be of some type. *)
Definition load_dims (a : addr) : H dims := o <~ load a ;; match o with ODims d => sret d | _ => sraise unusable end.
Definition load_struct (a : addr) : H (odict addr) := o <~ load a ;; match o with OStruct d => sret d | _ => sraise unusable end.
Definition load_item (a : addr) : H (dims * option (Z * Z * bool)) :=
  o <~ load a ;; match o with OItem d p => sret (d, p) | _ => sraise unusable end.
Definition load_table (a : addr) : H (odict addr) := o <~ load a ;; match o with OTable d => sret d | _ => sraise unusable end.
Definition load_ids (a : addr) : H (list string) := o <~ load a ;; match o with OIds l => sret l | _ => sraise unusable end.
Definition load_entry (a : addr) : H entry := o <~ load a ;; match o with OEntry e => sret e | _ => sraise unusable end.
Definition load_objs (a : addr) : H (objvals ar) := o <~ load a ;; match o with OObjs d => sret d | _ => sraise unusable end.

(** [for x in l: s = f(s, x)] *)
Fixpoint hfold {A S} (f : S -> A -> H S) (l : list A) (s : S) : H S :=
  match l with
  | [] => sret s
  | x :: t => s' <~ f s x ;; hfold f t s'
  end.

(** ** [deepcopy], structures.py:197-213: new dictionaries for the items, and one for them all. *)
Definition m_deepcopy (a : addr) (ids : option (list string)) : H addr :=
  data <~ load_struct a ;;
  t <~ hfold (fun t id =>
          da <~ slift (dget_r data id) ;;
          d <~ load_dims da ;;
          n <~ alloc (OItem d None) ;;
          sret (dset t id n))
        (match ids with None => dkeys data | Some l => l end) [] ;;
  alloc (OTable t).

(** ** [_construct_solution], mixins.py:342-553 *)

(** [for item_id in items_ids: ...], lines 411-427. *)
Fixpoint m_first_fit (W L Xo Yo : Z) (rotation : bool) (g : grid) (items : addr) (ids : list string)
  : H (option (string * addr * bool)) :=
  match ids with
  | [] => sret None
  | i :: ids' =>
      t <~ load_table items ;;
      a <~ slift (dget_r t i) ;;                                     (* item = items[item_id] *)
      it <~ load_item a ;;
      check <~ slift (check_fitting W L Xo Yo (dw (fst it)) (dl (fst it)) g) ;;
      if check then sret (Some (i, a, false))
      else if rotation then
        check' <~ slift (check_fitting W L Xo Yo (dl (fst it)) (dw (fst it)) g) ;;
        if check' then sret (Some (i, a, true))
        else m_first_fit W L Xo Yo rotation g items ids'
      else m_first_fit W L Xo Yo rotation g items ids'
  end.

(** The local variables that are no objects: obj_value, container_coords, potential_points,
    current_point. *)
Record vars := mkVars { va_obj : num ar; va_grid : grid; va_pools : pools; va_cur : option point }.

(** Lines 435-517 for the item [a] with id [i]. *)
Definition m_place (W L : Z) (strip : bool) (items ids sol : addr) (v : vars) (Xo Yo : Z)
           (i : string) (a : addr) (rot : bool) : H vars :=
  it <~ load_item a ;;
  let w := if rot then dl (fst it) else dw (fst it) in
  let l := if rot then dw (fst it) else dl (fst it) in
  g' <~ slift (paint (va_grid v) Xo Yo w l) ;;
  li <~ load_ids ids ;; store ids (OIds (lremove li i)) ;;;           (* items_ids.remove(item_id) *)
  t <~ load_table items ;; store items (OTable (ddel t i)) ;;;        (* del items[item_id] *)
  store a (OItem (fst it) (Some (Xo, Yo, rot))) ;;;                   (* item.update({...}) *)
  c <~ load_table sol ;; store sol (OTable (dset c i a)) ;;;          (* current_solution[item_id] = item *)
  ps <~ slift (generate_points ar g' W L Xo Yo w l) ;;
  sret (mkVars (if strip then va_obj v else nadd ar (va_obj v) (ndiv ar (w * l) (W * L)))
               g' (pools_extend (va_pools v) ps) (va_cur v)).

(** One iteration, lines 400-524. *)
Definition m_body (W L : Z) (strip rotation : bool) (strategy : list pclass) (items ids sol : addr)
           (v : vars) (p : point) : H vars :=
  let '(Xo, Yo) := p in
  li <~ load_ids ids ;;
  found <~ m_first_fit W L Xo Yo rotation (va_grid v) items li ;;
  v' <~ (match found with
         | Some (i, a, rot) => m_place W L strip items ids sol v Xo Yo i a rot
         | None => sret v
         end) ;;
  let '(cur, pp) := get_current_point strategy (va_pools v') in
  sret (mkVars (va_obj v') (va_grid v') pp cur).

Fixpoint m_loop (fuel : nat) (W L : Z) (strip rotation : bool) (strategy : list pclass) (items ids sol : addr)
         (v : vars) : H vars :=
  match va_cur v with
  | None => sret v
  | Some p =>
      li <~ load_ids ids ;;
      match li with
      | [] => sret v
      | _ :: _ =>
          if ngeb ar (va_obj v) (num1 ar) then sret v
          else match fuel with
               | O => sraise OutOfFuel
               | S n => v' <~ m_body W L strip rotation strategy items ids sol v p ;;
                        m_loop n W L strip rotation strategy items ids sol v'
               end
      end
  end.

(** [sum([item["w"] * item["l"] for _, item in current_solution.items()])], lines 537-539. *)
Fixpoint m_area (l : list addr) : H Z :=
  match l with
  | [] => sret 0
  | a :: t => it <~ load_item a ;; n <~ m_area t ;; sret (dw (fst it) * dl (fst it) + n)
  end.

(** Lines 542-551: a new list for every item, put into the new dict [out]. *)
Fixpoint m_export (out : addr) (l : odict addr) : H unit :=
  match l with
  | [] => sret tt
  | (i, a) :: t =>
      it <~ load_item a ;;
      match snd it with
      | None => sraise KeyError
      | Some (x, y, rot) =>
          n <~ alloc (OEntry (export (mkPlaced (fst it) x y rot))) ;;
          o <~ load_table out ;; store out (OTable (dset o i n)) ;;;
          m_export out t
      end
  end.

(** A bound on the iterations, as [construct_fuel]; not in the source. *)
Definition m_fuel (t : odict addr) (h : heap) : nat :=
  S (fold_right (fun ka n => (match nth_error h (snd ka) with Some (OItem d _) => item_points d | _ => 0%nat end) + n)%nat O t).

(** [_construct_solution(items=items, items_ids=ids, ...)]: the objective value and the new dict. *)
Definition m_construct (W L : Z) (strip rotation : bool) (strategy : list pclass) (items ids : addr)
  : H (num ar * addr) :=
  cur <~ alloc (OTable []) ;;                                          (* current_solution = {} *)
  t <~ load_table items ;;
  m <~ sget ;;
  v <~ m_loop (m_fuel t (me_heap m)) W L strip rotation strategy items ids cur
         (mkVars (num0 ar) (empty_grid W L) empty_pools (Some (0, 0))) ;;
  c <~ load_table cur ;;
  obj <~ (if strip
          then h <~ slift (top_row (va_grid v) (strip_rows L)) ;;
               area <~ m_area (dvals c) ;;
               sret (ndiv ar area (W * h))
          else sret (va_obj v)) ;;
  out <~ alloc (OTable []) ;;                                          (* solution = {} *)
  m_export out c ;;;
  sret (obj, out).

(** ** [_solve], mixins.py:555-625 *)
Definition m_solve_step (items objs sol : addr) (cid : string) (ca : addr) : H unit :=
  empty <~ alloc (OTable []) ;;
  s <~ load_table sol ;; store sol (OTable (dset s cid empty)) ;;;      (* solution[cont_id] = {} *)
  o <~ load_objs objs ;; store objs (OObjs (dset o cid (num0 ar))) ;;;  (* obj_val_per_container[cont_id] = 0 *)
  c <~ load_dims ca ;;
  t <~ load_table items ;;
  match t with
  | [] => sret tt
  | _ :: _ =>
      ids <~ alloc (OIds (dkeys t)) ;;                                 (* [_id for _id in items] *)
      me <~ self_ ;;
      r <~ m_construct (dw c) (if se_strip me then se_height me else dl c) (se_strip me) (se_rotation me)
                       (se_strategy me) items ids ;;
      o <~ load_objs objs ;; store objs (OObjs (dset o cid (fst r))) ;;;
      s <~ load_table sol ;; store sol (OTable (dset s cid (snd r)))
  end.

Fixpoint m_each (items objs sol : addr) (l : odict addr) : H unit :=
  match l with
  | [] => sret tt
  | (cid, ca) :: t => m_solve_step items objs sol cid ca ;;; m_each items objs sol t
  end.

Definition m_solve_ (sequence : option (list string)) : H (addr * addr) :=
  me <~ self_ ;;
  items <~ m_deepcopy (se_items me) sequence ;;
  objs <~ alloc (OObjs []) ;;
  sol <~ alloc (OTable []) ;;
  cs <~ load_struct (se_containers me) ;;
  m_each items objs sol cs ;;;
  sret (sol, objs).

(** [self.solution, self.obj_val_per_container = ...] *)
Definition se_with_solution (sol objs : addr) (me : self) : self :=
  mkSelf (se_items me) (se_containers me) (se_rotation me) (se_strategy me) (se_strip me) (se_height me)
         (se_min me) (se_cnum me) sol objs (se_hist me).

(** [solve], heuristics.py:263-270. *)
Definition m_solve (sequence : option (list string)) : H unit :=
  r <~ m_solve_ sequence ;; set_self (se_with_solution (fst r) (snd r)).

(** ** Copies, mixins.py:1072-1089 *)
Definition m_copy_objs : H addr :=
  me <~ self_ ;; d <~ load_objs (se_objs me) ;; alloc (OObjs (map (fun kv => kv) d)).

(** [{item_id: [data for data in ...] for item_id in self._items if ... is not None}] *)
Definition m_copy_container (ids : list string) (csol : addr) : H addr :=
  t <~ hfold (fun out id =>
         c <~ load_table csol ;;
         match dget c id with
         | Some a => e <~ load_entry a ;; n <~ alloc (OEntry e) ;; sret (dset out id n)
         | None => sret out
         end) ids [] ;;
  alloc (OTable t).

Definition m_copy_solution : H addr :=
  me <~ self_ ;;
  cs <~ load_struct (se_containers me) ;;
  is_ <~ load_struct (se_items me) ;;
  t <~ hfold (fun out cid =>
         s <~ load_table (se_sol me) ;;
         a <~ slift (dget_r s cid) ;;
         n <~ m_copy_container (dkeys is_) a ;;
         sret (dset out cid n)) (dkeys cs) [] ;;
  alloc (OTable t).

(** ** The local search, mixins.py:1091-1218 *)
Definition m_get_solution : H (addr * addr) :=
  s <~ m_copy_solution ;; o <~ m_copy_objs ;; sret (s, o).
Definition m_get_init_solution : H (addr * addr) := m_solve None ;;; m_get_solution.
Definition m_obj_value : H (num ar) :=
  me <~ self_ ;; d <~ load_objs (se_objs me) ;; slift (obj_value ar (se_cnum me) (dvals d)).

(** [solution[item_id]] for all items of a container's solution. *)
Fixpoint m_entries (l : odict addr) : H (odict entry) :=
  match l with
  | [] => sret []
  | (i, a) :: t => e <~ load_entry a ;; r <~ m_entries t ;; sret ((i, e) :: r)
  end.

Definition m_compare_node (new best : num ar) : H bool :=
  me <~ self_ ;;
  let better := ngtb ar new best in
  if negb (se_strip me) then sret better
  else match se_min me with
       | None =>
           s <~ load_table (se_sol me) ;;
           a <~ slift (dget_r s strip_id) ;;
           c <~ load_table a ;;
           is_ <~ load_struct (se_items me) ;;
           sret ((zlen c =? zlen is_) && better)
       | Some _ => sret better
       end.

(** [_set_height] and [_heights_history.append], structures.py:274-301, mixins.py:1132-1137. *)
Definition se_with_height (h : Z) (me : self) : self :=
  mkSelf (se_items me) (se_containers me) (se_rotation me) (se_strategy me) (se_strip me) h
         (se_min me) (se_cnum me) (se_sol me) (se_objs me) (se_hist me).
Definition se_with_hist (l : list Z) (me : self) : self :=
  mkSelf (se_items me) (se_containers me) (se_rotation me) (se_strategy me) (se_strip me) (se_height me)
         (se_min me) (se_cnum me) (se_sol me) (se_objs me) l.
Definition se_with_strategy (g : list pclass) (me : self) : self :=
  mkSelf (se_items me) (se_containers me) (se_rotation me) g (se_strip me) (se_height me)
         (se_min me) (se_cnum me) (se_sol me) (se_objs me) (se_hist me).

Definition m_extra : H unit :=
  me <~ self_ ;;
  if se_strip me then
    s <~ load_table (se_sol me) ;;
    h <~ (match s with
          | [] => cs <~ load_struct (se_containers me) ;; a <~ slift (dget_r cs strip_id) ;; c <~ load_dims a ;;
                  sret (dw c * max_w_l_ratio)
          | _ :: _ => a <~ slift (dget_r s strip_id) ;; c <~ load_table a ;; es <~ m_entries c ;;
                      sret (min_height_max (se_min me) (solution_height es))
          end) ;;
    set_self (fun me => se_with_hist (se_hist me ++ [h]) (se_with_height h me))
  else sret tt.

(** ** [AbstractLocalSearch.local_search], abstract.py:94-191 *)

(** The local variables that change: node_sequence, best_obj_value, retained_solution, and the
    number of clock readings. *)
Record mls := mkMls { ml_node : addr; ml_best : num ar; ml_ret : addr * addr; ml_clk : nat }.

(** Lines 138-142: a copy of the list, two of its elements exchanged. *)
Definition m_swapped (node : addr) (i j : nat) : H addr :=
  l <~ load_ids node ;; c <~ alloc (OIds l) ;;
  l' <~ load_ids c ;;
  match nth_error l' i, nth_error l' j with
  | Some a, Some b => store c (OIds (list_set l' i b)) ;;; l'' <~ load_ids c ;; store c (OIds (list_set l'' j a)) ;;; sret c
  | _, _ => sret c
  end.

Fixpoint m_search_node (oot : nat -> bool) (swaps : list (nat * nat)) (maxn processed : Z) (s : mls)
  : H (mls * node_log (num := num ar)) :=
  match swaps with
  | [] => sret (s, mkLog (ml_best s) processed false false false)
  | (i, j) :: rest =>
      cur <~ m_swapped (ml_node s) i j ;;
      seq <~ load_ids cur ;;
      m_solve (Some seq) ;;;
      v <~ m_obj_value ;;
      better <~ m_compare_node v (ml_best s) ;;
      s' <~ (if (better : bool)
             then l <~ load_ids cur ;; node <~ alloc (OIds l) ;;        (* [el for el in current_sequence] *)
                  ret <~ m_get_solution ;;
                  m_extra ;;;
                  sret (mkMls node v ret (ml_clk s))
             else sret s) ;;
      let glob := better && global_check ar (ml_best s') in
      let late := oot (ml_clk s') in
      let s'' := mkMls (ml_node s') (ml_best s') (ml_ret s') (S (ml_clk s')) in
      let processed' := processed + 1 in
      if late || better || glob || (processed' >=? maxn)
      then sret (s'', mkLog (ml_best s'') processed' late glob better)
      else m_search_node oot rest maxn processed' s''
  end.

Fixpoint m_search_loop (fuel : nat) (oot : nat -> bool) (swaps : list (nat * nat)) (maxn : Z) (s : mls)
  : H (mls * list (node_log (num := num ar))) :=
  match fuel with
  | O => sraise OutOfFuel
  | S n =>
      r <~ m_search_node oot swaps maxn 0 s ;;
      let '(s', nl) := r in
      if nl_found nl && negb (nl_oot nl) && negb (nl_global nl)
      then r' <~ m_search_loop n oot swaps maxn s' ;; sret (fst r', nl :: snd r')
      else sret (s', [nl])
  end.

(** [LocalSearchMixin.local_search], mixins.py:1169-1218; [start] as in LocalSearch.v. [fuel]: a bound
    on the number of nodes, not in the source. *)
Definition m_local_search (fuel : nat) (ck : clock) (limit : Z) (throttle : bool) (start : option Z) (clk : nat)
  : H (nat * list (node_log (num := num ar))) :=
  let '(start_time, clk1) := match start with
                             | None => (ck clk, S clk)
                             | Some t => (t, clk)
                             end in
  me <~ self_ ;;
  (if se_strip me then set_self (se_with_hist [se_height me]) else sret tt) ;;;
  data <~ load_struct (se_items me) ;;
  init <~ alloc (OIds (dkeys data)) ;;                                   (* list(self._items) *)
  ret <~ m_get_init_solution ;;
  best <~ m_obj_value ;;
  l <~ load_ids init ;;
  r <~ m_search_loop fuel (out_of_time ck start_time limit) (index_swaps (length l))
         (get_max_neighbors_num throttle (Z.of_nat (length l))) (mkMls init best ret clk1) ;;
  let '(s, log) := r in
  set_self (se_with_solution (fst (ml_ret s)) (snd (ml_ret s))) ;;;
  sret (ml_clk s, log).

(** ** [_single_process_hypersearch], heuristics.py:461-490, and the assignment of its result,
    lines 625-631 *)
Record mhs := mkMhs { mh_best : num ar; mh_ret : addr * addr; mh_strategy : list pclass; mh_clk : nat }.

Fixpoint m_hs_loop (fuel : self -> nat -> nat) (ck : clock) (limit : Z) (throttle : bool) (start : Z)
         (strategies : list (list pclass)) (s : mhs) : H (mhs * list (list pclass * num ar)) :=
  match strategies with
  | [] => sret (s, [])
  | g :: rest =>
      set_self (se_with_strategy g) ;;;
      me <~ self_ ;; data <~ load_struct (se_items me) ;;
      r <~ m_local_search (fuel me (length data)) ck limit throttle (Some start) (mh_clk s) ;;
      let clk1 := fst r in
      v <~ m_obj_value ;;
      let better := check_solution ar v (mh_best s) in
      s' <~ (if (better : bool) then ret <~ m_get_solution ;; sret (mkMhs v ret g clk1)
             else sret (mkMhs (mh_best s) (mh_ret s) (mh_strategy s) clk1)) ;;
      if better && global_check ar v then sret (s', [(g, v)])
      else
        let s'' := mkMhs (mh_best s') (mh_ret s') (mh_strategy s') (S clk1) in
        if over_time ck start limit clk1 then sret (s'', [(g, v)])
        else r' <~ m_hs_loop fuel ck limit throttle start rest s'' ;; sret (fst r', (g, v) :: snd r')
  end.

Definition m_single_process (fuel : self -> nat -> nat) (ck : clock) (limit : Z) (throttle : bool) (start : Z)
           (strategies : list (list pclass)) (clk : nat) : H (mhs * list (list pclass * num ar)) :=
  ret <~ m_get_init_solution ;;
  best <~ m_obj_value ;;
  r <~ m_hs_loop fuel ck limit throttle start strategies (mkMhs best ret default_strategy clk) ;;
  set_self (se_with_solution (fst (mh_ret (fst r))) (snd (mh_ret (fst r)))) ;;;
  sret r.

(** ** [sort_items] and [orient_items], mixins.py:975-1063 *)

(** [reset_instance_attrs], structures.py:78-80: two new empty dicts. *)
Definition m_reset : H unit :=
  o <~ alloc (OObjs []) ;; s <~ alloc (OTable []) ;; set_self (se_with_solution s o).

Definition se_with_items (a : addr) (me : self) : self :=
  mkSelf a (se_containers me) (se_rotation me) (se_strategy me) (se_strip me) (se_height me)
         (se_min me) (se_cnum me) (se_sol me) (se_objs me) (se_hist me).

(** [for _id, i in items.items(): ...], lines 1050-1058: the sizes of the copies. *)
Fixpoint m_sizes (l : odict addr) : H (odict dims) :=
  match l with
  | [] => sret []
  | (i, a) :: t => it <~ load_item a ;; r <~ m_sizes t ;; sret ((i, fst it) :: r)
  end.

(** [Items(structure, self)], structures.py:135-155, 50-76: a new object with a new Dimensions object
    for every id, each resetting the solution. The dictionary passed is valid. *)
Definition m_new_items (l : list string) (copies : odict addr) : H addr :=
  t <~ hfold (fun t id =>
         a <~ slift (dget_r copies id) ;;
         it <~ load_item a ;;
         n <~ alloc (ODims (fst it)) ;;
         m_reset ;;;
         sret (dset t id n)) l [] ;;
  alloc (OStruct t).

Definition m_sort_items (sorting_by : option (string * bool)) : H unit :=
  match sorting_by with
  | None => sret tt
  | Some (by_, reverse) =>
      me <~ self_ ;;
      copies <~ m_deepcopy (se_items me) None ;;
      t <~ load_table copies ;;
      sizes <~ m_sizes t ;;
      match key_lt ar by_ with
      | None => sraise NotImplementedError
      | Some lt =>
          new <~ m_new_items (dkeys (py_sort_rev (elem_lt lt) reverse sizes)) t ;;
          set_self (se_with_items new)
      end
  end.

(** Lines 1010-1013 and 1016-1019: the Dimensions object itself is changed, one key after the other,
    each time resetting the solution. *)
Fixpoint m_orient_each (turn : dims -> bool) (l : odict addr) : H unit :=
  match l with
  | [] => sret tt
  | (_, a) :: t =>
      d <~ load_dims a ;;
      (if turn d
       then store a (ODims (mkDims (dl d) (dl d))) ;;; m_reset ;;;
            store a (ODims (mkDims (dl d) (dw d))) ;;; m_reset
       else sret tt) ;;;
      m_orient_each turn t
  end.

Definition m_orient_items (orientation : option string) : H unit :=
  match orientation with
  | None => sret tt
  | Some o =>
      me <~ self_ ;;
      if negb (se_rotation me) then sret tt
      else if String.eqb o "wide" then data <~ load_struct (se_items me) ;; m_orient_each (fun d => dl d >? dw d) data
      else if String.eqb o "long" then data <~ load_struct (se_items me) ;; m_orient_each (fun d => dl d <? dw d) data
      else sret tt
  end.

(** ** [hypersearch] with one worker, heuristics.py:613-634; returns best_strategy, the number of
    clock readings and, for every strategy tried, its value *)
Definition m_hypersearch (fuel : self -> nat -> nat) (ck : clock) (limit : Z) (throttle : bool)
           (orientation : option string) (sorting_by : option (string * bool))
           (strategies : list (list pclass)) (clk : nat) : H (list pclass * nat * list (list pclass * num ar)) :=
  m_sort_items sorting_by ;;;
  m_orient_items orientation ;;;
  let start := ck clk in
  r <~ m_single_process fuel ck limit throttle start strategies (S clk) ;;
  sret (mh_strategy (fst r), S (mh_clk (fst r)), snd r).

(** The bounds of LocalSearch.v. *)
Definition m_ls_fuel (me : self) (n : nat) : nat :=
  S (fact n * (if se_strip me then Z.to_nat (se_height me) else 1))%nat.

End Memory.
Arguments ODims {ar}. Arguments OStruct {ar}. Arguments OItem {ar}. Arguments OTable {ar}. Arguments OIds {ar}.
Arguments OEntry {ar}. Arguments OObjs {ar}. Arguments mkMem {ar}. Arguments me_heap {ar}. Arguments me_self {ar}.
Arguments mkVars {ar}. Arguments va_obj {ar}. Arguments va_grid {ar}. Arguments va_pools {ar}. Arguments va_cur {ar}.
Arguments mkMls {ar}. Arguments ml_node {ar}. Arguments ml_best {ar}. Arguments ml_ret {ar}. Arguments ml_clk {ar}.
Arguments mkMhs {ar}. Arguments mh_best {ar}. Arguments mh_ret {ar}. Arguments mh_strategy {ar}. Arguments mh_clk {ar}.
Arguments alloc {ar}. Arguments load {ar}. Arguments store {ar}. Arguments self_ {ar}. Arguments set_self {ar}.
Arguments load_dims {ar}. Arguments load_struct {ar}. Arguments load_item {ar}. Arguments load_table {ar}.
Arguments load_ids {ar}. Arguments load_entry {ar}. Arguments load_objs {ar}. Arguments hfold {ar A S}.
Arguments m_fuel {ar}. Arguments m_ls_fuel : clear implicits.
