(** * The repo's own point tests replayed on the model (tests, not proofs).

    The tables below are copied mechanically from /repo/tests/points_tests: container, items,
    strategy, point class, point(s) and expected positions of the items. They check the
    reading of mixins.py recorded in Construct.v. Rotation is off in all of them. *)
From Coq Require Import ZArith String List Bool Ascii.
From Verif Require Import Py Arith FloatArith Construct.
Import ListNotations.
Open Scope Z_scope.

Record ptest := mkT {
  t_cont : point; t_items : list point; t_strategy : list pclass; t_class : pclass;
  t_points : list point; t_sol : list point }.

Definition digit (n : nat) : string := String (ascii_of_nat (48 + n)) EmptyString.
Definition item_id (n : nat) : string := append "i-" (digit n).

Fixpoint mk_items (n : nat) (l : list point) : odict dims :=
  match l with
  | [] => []
  | (w, h) :: t => (item_id n, mkDims w h) :: mk_items (S n) t
  end.

Definition peqb (p q : point) : bool := (fst p =? fst q) && (snd p =? snd q).
Fixpoint pseqb (a b : list point) : bool :=
  match a, b with
  | [], [] => true
  | p :: a', q :: b' => peqb p q && pseqb a' b'
  | _, _ => false
  end.

Fixpoint sol_ok (n : nat) (pts : list point) (sol : odict entry) : bool :=
  match pts with
  | [] => true
  | p :: t => match dget sol (item_id n) with
              | Some e => peqb p (e_x e, e_y e)
              | None => false
              end && sol_ok (S n) t sol
  end.

Definition run_t (t : ptest) :=
  construct_solution farith (fst (t_cont t)) (snd (t_cont t)) false false (t_strategy t)
                     (mk_items 0 (t_items t)).

Definition check_t (f : list point -> list point -> bool) (t : ptest) : bool :=
  match run_t t with
  | Ok (_, _, sol, pp) => f (t_points t) (pp (t_class t)) && sol_ok 0 (t_sol t) sol
  | Err _ => false
  end.

(* generated from the parametrize tables of /repo/tests/points_tests *)
Definition pts_generated : list ptest := [
  (* test_point_generation_A *) mkT (2, 4) [(1, 2)] [cB; cA__] cA [(0, 2)] [(0, 0)];
  (* test_point_generation_A *) mkT (2, 4) [(2, 1); (1, 1)] [cA; cA__] cA [(0, 2)] [(0, 0); (0, 1)];
  (* test_point_generation_A *) mkT (2, 4) [(1, 2); (1, 1)] [cB; cA__] cA [(1, 1)] [(0, 0); (1, 0)];
  (* test_point_generation_A *) mkT (2, 4) [(2, 1); (1, 3); (1, 1)] [cB; cA] cA [(1, 2)] [(0, 0); (0, 1); (1, 1)];
  (* test_point_generation_A *) mkT (2, 5) [(2, 1); (1, 1); (1, 3); (1, 3)] [cA; cB] cA [(1, 4)] [(0, 0); (0, 1); (0, 2); (1, 1)];
  (* test_point_generation_A *) mkT (3, 4) [(3, 1); (1, 2); (2, 1); (1, 2)] [cA; cF] cA [(2, 3)] [(0, 0); (0, 1); (0, 3); (2, 1)];
  (* test_point_generation_A *) mkT (3, 6) [(3, 1); (1, 1); (2, 1); (2, 2); (1, 1); (1, 3)] [cA; cB_] cA [(2, 4)] [(0, 0); (0, 1); (0, 2); (0, 3); (0, 5); (2, 1)];
  (* test_point_generation_A *) mkT (6, 8) [(2, 7); (3, 1); (1, 5); (1, 7)] [cA; cB] cA [(3, 7)] [(0, 0); (0, 7); (2, 0); (3, 0)];
  (* test_point_generation_A_ *) mkT (5, 5) [(1, 2); (1, 3)] [cB] cA_ [(0, 3)] [(0, 0); (1, 0)];
  (* test_point_generation_A_ *) mkT (5, 5) [(1, 4); (1, 2); (1, 3)] [cB] cA_ [(1, 3)] [(0, 0); (1, 0); (2, 0)];
  (* test_point_generation_A_ *) mkT (5, 7) [(1, 6); (1, 1); (1, 4); (1, 1); (1, 6)] [cA; cB] cA_ [(1, 6)] [(0, 0); (0, 6); (1, 0); (1, 4); (2, 0)];
  (* test_point_generation_A_ *) mkT (5, 7) [(1, 3); (1, 3); (2, 1); (1, 4); (1, 4); (1, 1); (1, 6)] [cA; cB] cA_ [(2, 6)] [(0, 0); (0, 3); (0, 6); (1, 0); (2, 0); (1, 4); (3, 0)];
  (* test_point_generation_A_ *) mkT (5, 7) [(1, 3); (1, 3); (3, 1); (1, 4); (2, 4); (1, 1); (1, 6)] [cA; cB] cA_ [(3, 6)] [(0, 0); (0, 3); (0, 6); (1, 0); (2, 0); (1, 4); (4, 0)];
  (* test_point_generation_A__ *) mkT (2, 4) [(1, 2); (1, 3)] [cB; cA__] cA__ [(1, 3)] [(0, 0)];
  (* test_point_generation_A__ *) mkT (2, 4) [(1, 2); (1, 2)] [cB; cC] cA__ [(1, 2)] [(0, 0); (1, 0)];
  (* test_point_generation_B *) mkT (2, 4) [(1, 2)] [cB] cB [(1, 0)] [(0, 0)];
  (* test_point_generation_B *) mkT (3, 4) [(1, 2); (1, 2)] [cB] cB [(2, 0)] [(0, 0); (1, 0)];
  (* test_point_generation_B *) mkT (3, 4) [(3, 1); (1, 1)] [cA; cB] cB [(1, 1)] [(0, 0); (0, 1)];
  (* test_point_generation_B *) mkT (2, 4) [(1, 1); (1, 1); (1, 1)] [cB; cA] cB [(1, 1)] [(0, 0); (1, 0); (0, 1)];
  (* test_point_generation_B *) mkT (4, 4) [(1, 2); (1, 1); (2, 2); (3, 1)] [cB; cA] cB [(3, 2)] [(0, 0); (1, 0); (2, 0); (0, 2)];
  (* test_point_generation_B *) mkT (4, 4) [(1, 2); (1, 1); (2, 2); (2, 1)] [cB; cA] cB [(2, 2)] [(0, 0); (1, 0); (2, 0); (0, 2)];
  (* test_point_generation_B_ *) mkT (3, 5) [(1, 1); (2, 1)] [cA] cB_ [(2, 0)] [(0, 0); (0, 1)];
  (* test_point_generation_B_ *) mkT (3, 5) [(3, 1); (1, 1); (2, 1)] [cA] cB_ [(2, 1)] [(0, 0); (0, 1); (0, 2)];
  (* test_point_generation_B_ *) mkT (8, 5) [(5, 1); (2, 1); (2, 1); (2, 1); (6, 1)] [cB; cA] cB_ [(6, 1)] [(0, 0); (5, 0); (0, 1); (2, 1); (0, 2)];
  (* test_point_generation_B_ *) mkT (8, 5) [(5, 1); (2, 1); (2, 1); (2, 1); (5, 1); (6, 1)] [cB; cA] cB_ [(5, 1)] [(0, 0); (5, 0); (0, 1); (2, 1); (0, 2); (0, 3)];
  (* test_point_generation_B__ *) mkT (2, 4) [(1, 1); (1, 1)] [cA] cB__ [(1, 1)] [(0, 0); (0, 1)];
  (* test_point_generation_B__ *) mkT (3, 4) [(1, 1); (2, 1)] [cA] cB__ [(2, 1)] [(0, 0); (0, 1)];
  (* test_point_generation_C *) mkT (6, 8) [(2, 7); (3, 1); (2, 7)] [cA; cB] cC [(3, 7)] [(0, 0); (0, 7); (2, 0)];
  (* test_point_generation_D *) mkT (4, 8) [(2, 2); (2, 3); (2, 4)] [cB; cA] cD [(2, 3)] [(0, 0); (2, 0); (0, 2)];
  (* test_point_generation_E *) mkT (5, 5) [(1, 2); (1, 2); (1, 2); (1, 3)] [cB] cE [(0, 3)] [(0, 0); (1, 0); (2, 0); (3, 0)];
  (* test_point_generation_E *) mkT (5, 5) [(1, 4); (1, 2); (1, 1); (1, 1); (1, 3)] [cB] cE [(1, 3)] [(0, 0); (1, 0); (2, 0); (3, 0); (4, 0)];
  (* test_point_generation_E *) mkT (5, 7) [(1, 6); (1, 1); (1, 4); (1, 4); (1, 4); (1, 1); (1, 6)] [cA; cB] cE [(1, 6)] [(0, 0); (0, 6); (1, 0); (2, 0); (3, 0); (1, 4); (4, 0)];
  (* test_point_generation_E *) mkT (5, 7) [(1, 3); (1, 3); (1, 1); (1, 4); (1, 4); (1, 4); (1, 1); (1, 6)] [cA; cB] cE [(1, 6)] [(0, 0); (0, 3); (0, 6); (1, 0); (2, 0); (3, 0); (1, 4); (4, 0)];
  (* test_point_generation_E *) mkT (6, 7) [(1, 3); (1, 3); (2, 1); (1, 4); (1, 4); (1, 4); (1, 4); (1, 1); (1, 6)] [cA; cB] cE [(2, 6)] [(0, 0); (0, 3); (0, 6); (1, 0); (2, 0); (3, 0); (4, 0); (1, 4); (5, 0)];
  (* test_point_generation_E *) mkT (7, 7) [(1, 3); (1, 3); (3, 1); (1, 4); (2, 4); (1, 4); (1, 4); (1, 1); (1, 6)] [cA; cB] cE [(3, 6)] [(0, 0); (0, 3); (0, 6); (1, 0); (2, 0); (4, 0); (5, 0); (1, 4); (6, 0)];
  (* test_point_generation_F *) mkT (3, 5) [(1, 1); (1, 1); (1, 1); (2, 1)] [cA] cF [(2, 0)] [(0, 0); (0, 1); (0, 2); (0, 3)];
  (* test_point_generation_F *) mkT (3, 5) [(3, 1); (1, 1); (1, 1); (1, 1); (2, 1)] [cA] cF [(2, 1)] [(0, 0); (0, 1); (0, 2); (0, 3); (0, 4)];
  (* test_point_generation_F *) mkT (8, 6) [(6, 1); (2, 1); (2, 1); (2, 1); (5, 1); (5, 1); (6, 1); (7, 1)] [cB; cA] cF [(6, 1)] [(0, 0); (6, 0); (0, 1); (2, 1); (0, 2); (0, 3)];
  (* test_point_generation_F *) mkT (8, 6) [(6, 1); (2, 1); (2, 1); (2, 1); (5, 1); (5, 1); (6, 1); (7, 1)] [cB; cA] cF [(7, 1)] [(0, 0); (6, 0); (0, 1); (2, 1); (0, 2); (0, 3)]].

Definition pts_prohibited : list ptest := [
  (* test_point_generation_prohibited_A *) mkT (2, 4) [(2, 2); (2, 2)] [cA; cB] cA [(0, 4)] [(0, 0); (0, 2)];
  (* test_point_generation_prohibited_A *) mkT (2, 4) [(1, 2); (1, 2)] [cB; cC] cA [(1, 2)] [(0, 0); (1, 0)];
  (* test_point_generation_prohibited_A *) mkT (2, 4) [(1, 2); (1, 3)] [cB; cC] cA [(1, 3)] [(0, 0); (1, 0)];
  (* test_point_generation_prohibited_A *) mkT (3, 5) [(3, 2); (1, 2); (3, 1); (1, 2)] [cA; cB] cA [(1, 4)] [(0, 0); (0, 2); (0, 4); (1, 2)];
  (* test_point_generation_prohibited_A_ *) mkT (5, 5) [(1, 2); (1, 2)] [cB] cA_ [(1, 2)] [(0, 0); (1, 0)];
  (* test_point_generation_prohibited_A_ *) mkT (6, 8) [(1, 7); (1, 6); (1, 3); (1, 3); (1, 5); (1, 7)] [cA; cB] cA_ [(1, 7)] [(0, 0); (1, 0); (2, 0); (2, 3); (3, 0); (4, 0)];
  (* test_point_generation_prohibited_A_ *) mkT (6, 8) [(1, 8); (1, 6); (1, 3); (1, 3); (1, 5); (1, 7)] [cA; cB] cA_ [(1, 7)] [(0, 0); (1, 0); (2, 0); (2, 3); (3, 0); (4, 0)];
  (* test_point_generation_prohibited_A_ *) mkT (6, 8) [(2, 7); (1, 1); (1, 5); (1, 7)] [cA; cB] cA_ [(2, 7)] [(0, 0); (0, 7); (2, 0); (3, 0)];
  (* test_point_generation_prohibited_A_ *) mkT (6, 8) [(2, 7); (3, 1); (1, 5); (1, 7)] [cA; cB] cA_ [(3, 7)] [(0, 0); (0, 7); (2, 0); (3, 0)];
  (* test_point_generation_prohibited_A__ *) mkT (2, 4) [(2, 2); (2, 2)] [cA; cB] cA__ [(0, 4)] [(0, 0); (0, 2)];
  (* test_point_generation_prohibited_A__ *) mkT (3, 5) [(3, 2); (1, 2); (3, 1); (1, 2)] [cA; cB] cA__ [(1, 4)] [(0, 0); (0, 2); (0, 4); (1, 2)];
  (* test_point_generation_prohibited_A___due_to_A_gen *) mkT (2, 4) [(1, 2)] [cB; cA__] cA__ [(0, 2)] [(0, 0)];
  (* test_point_generation_prohibited_A___due_to_A_gen *) mkT (2, 4) [(2, 1); (1, 1)] [cA; cA__] cA__ [(0, 2)] [(0, 0); (0, 1)];
  (* test_point_generation_prohibited_A___due_to_A_gen *) mkT (2, 4) [(1, 2); (1, 1)] [cB; cA__] cA__ [(1, 1)] [(0, 0); (1, 0)];
  (* test_point_generation_prohibited_A___due_to_A_gen *) mkT (2, 4) [(2, 1); (1, 3); (1, 1)] [cB; cA] cA__ [(1, 2)] [(0, 0); (0, 1); (1, 1)];
  (* test_point_generation_prohibited_A___due_to_A_gen *) mkT (2, 5) [(2, 1); (1, 1); (1, 3); (1, 3)] [cA; cB] cA__ [(1, 4)] [(0, 0); (0, 1); (0, 2); (1, 1)];
  (* test_point_generation_prohibited_A___due_to_A_gen *) mkT (3, 4) [(3, 1); (1, 2); (2, 1); (1, 2)] [cA; cF] cA__ [(2, 3)] [(0, 0); (0, 1); (0, 3); (2, 1)];
  (* test_point_generation_prohibited_A___due_to_A_gen *) mkT (3, 6) [(3, 1); (1, 1); (2, 1); (2, 2); (1, 1); (1, 3)] [cA; cB_] cA__ [(2, 4)] [(0, 0); (0, 1); (0, 2); (0, 3); (0, 5); (2, 1)];
  (* test_point_generation_prohibited_A___due_to_A_gen *) mkT (6, 8) [(2, 7); (3, 1); (1, 5); (1, 7)] [cA; cB] cA__ [(3, 7)] [(0, 0); (0, 7); (2, 0); (3, 0)];
  (* test_point_generation_prohibited_B *) mkT (2, 4) [(1, 2); (1, 2)] [cB] cB [(2, 0)] [(0, 0); (1, 0)];
  (* test_point_generation_prohibited_B *) mkT (2, 4) [(1, 1); (1, 1)] [cA] cB [(1, 1)] [(0, 0); (0, 1)];
  (* test_point_generation_prohibited_B *) mkT (3, 4) [(1, 1); (2, 1)] [cA] cB [(2, 1)] [(0, 0); (0, 1)];
  (* test_point_generation_prohibited_B *) mkT (3, 4) [(2, 1); (1, 3); (2, 1)] [cB; cA] cB [(2, 1)] [(0, 0); (2, 0); (0, 1)];
  (* test_point_generation_prohibited_B_ *) mkT (5, 5) [(2, 1); (2, 1)] [cA] cB_ [(2, 1)] [(0, 0); (0, 1)];
  (* test_point_generation_prohibited_B_ *) mkT (5, 5) [(1, 2); (1, 1); (3, 2); (2, 1)] [cB; cA] cB_ [(2, 2)] [(0, 0); (1, 0); (2, 0); (0, 2)];
  (* test_point_generation_prohibited_B_ *) mkT (6, 5) [(5, 2); (1, 1); (2, 1); (2, 1); (5, 1)] [cB; cA] cB_ [(5, 2)] [(0, 0); (5, 0); (0, 2); (2, 2); (0, 3)];
  (* test_point_generation_prohibited_B_ *) mkT (6, 5) [(5, 2); (1, 1); (2, 1); (2, 1); (5, 1)] [cB; cA] cB_ [(5, 1)] [(0, 0); (5, 0); (0, 2); (2, 2); (0, 3)];
  (* test_point_generation_prohibited_B__ *) mkT (2, 4) [(1, 2); (1, 2)] [cB] cB__ [(2, 0)] [(0, 0); (1, 0)];
  (* test_point_generation_prohibited_B__ *) mkT (3, 4) [(2, 1); (1, 3); (2, 1)] [cB; cA] cB__ [(2, 1)] [(0, 0); (2, 0); (0, 1)];
  (* test_point_generation_prohibited_B___due_to_B_gen *) mkT (2, 4) [(1, 2)] [cB] cB__ [(1, 0)] [(0, 0)];
  (* test_point_generation_prohibited_B___due_to_B_gen *) mkT (3, 4) [(1, 2); (1, 2)] [cB] cB__ [(2, 0)] [(0, 0); (1, 0)];
  (* test_point_generation_prohibited_B___due_to_B_gen *) mkT (3, 4) [(3, 1); (1, 1)] [cA; cB] cB__ [(1, 1)] [(0, 0); (0, 1)];
  (* test_point_generation_prohibited_B___due_to_B_gen *) mkT (2, 4) [(1, 1); (1, 1); (1, 1)] [cB; cA] cB__ [(1, 1)] [(0, 0); (1, 0); (0, 1)];
  (* test_point_generation_prohibited_B___due_to_B_gen *) mkT (4, 4) [(1, 2); (1, 1); (2, 2); (3, 1)] [cB; cA] cB__ [(3, 2)] [(0, 0); (1, 0); (2, 0); (0, 2)];
  (* test_point_generation_prohibited_B___due_to_B_gen *) mkT (4, 4) [(1, 2); (1, 1); (2, 2); (2, 1)] [cB; cA] cB__ [(2, 2)] [(0, 0); (1, 0); (2, 0); (0, 2)];
  (* test_point_generation_prohibited_C *) mkT (6, 8) [(2, 7); (3, 1); (3, 1); (2, 7)] [cA; cB__; cB] cC [(3, 7)] [(0, 0); (0, 7); (3, 7); (2, 0)];
  (* test_point_generation_prohibited_D *) mkT (4, 8) [(2, 2); (2, 3); (2, 4); (2, 4)] [cB; cA__; cA] cD [(2, 3)] [(0, 0); (2, 0); (2, 3); (0, 2)];
  (* test_point_generation_prohibited_D *) mkT (4, 8) [(2, 2); (2, 2); (2, 4)] [cB; cA] cD [(2, 2)] [(0, 0); (2, 0); (0, 2)];
  (* test_point_generation_prohibited_E *) mkT (5, 5) [(1, 2); (1, 2)] [cB] cE [(1, 2)] [(0, 0); (1, 0)];
  (* test_point_generation_prohibited_E *) mkT (6, 8) [(1, 7); (1, 6); (1, 3); (1, 3); (1, 5); (1, 7)] [cA; cB] cE [(1, 7)] [(0, 0); (1, 0); (2, 0); (2, 3); (3, 0); (4, 0)];
  (* test_point_generation_prohibited_F *) mkT (5, 5) [(2, 1); (2, 1)] [cA] cF [(2, 1)] [(0, 0); (0, 1)];
  (* test_point_generation_prohibited_F *) mkT (6, 7) [(5, 2); (1, 1); (2, 1); (2, 1); (4, 1); (4, 1); (5, 1)] [cB; cA] cF [(5, 2)] [(0, 0); (5, 0); (0, 2); (2, 2); (0, 3); (0, 4); (0, 5)];
  (* test_point_generation_prohibited_F *) mkT (6, 7) [(5, 2); (1, 1); (2, 1); (2, 1); (4, 1); (4, 1); (5, 1)] [cB; cA] cF [(5, 1)] [(0, 0); (5, 0); (0, 2); (2, 2); (0, 3); (0, 4); (0, 5)]].

Definition pts_exact : list ptest := [
  (* test_point_generation_prohibited_A__due_to_A_gen *) mkT (2, 4) [(1, 2)] [cB; cA__] cA_ [] [(0, 0)];
  (* test_point_generation_prohibited_A__due_to_A_gen *) mkT (2, 4) [(2, 1); (1, 1)] [cA; cA__] cA_ [] [(0, 0); (0, 1)];
  (* test_point_generation_prohibited_A__due_to_A_gen *) mkT (2, 4) [(1, 2); (1, 1)] [cB; cA__] cA_ [] [(0, 0); (1, 0)];
  (* test_point_generation_prohibited_A__due_to_A_gen *) mkT (2, 4) [(2, 1); (1, 3); (1, 1)] [cB; cA] cA_ [] [(0, 0); (0, 1); (1, 1)];
  (* test_point_generation_prohibited_A__due_to_A_gen *) mkT (2, 5) [(2, 1); (1, 1); (1, 3); (1, 3)] [cA; cB] cA_ [] [(0, 0); (0, 1); (0, 2); (1, 1)];
  (* test_point_generation_prohibited_A__due_to_A_gen *) mkT (3, 4) [(3, 1); (1, 2); (2, 1); (1, 2)] [cA; cF] cA_ [] [(0, 0); (0, 1); (0, 3); (2, 1)];
  (* test_point_generation_prohibited_A__due_to_A_gen *) mkT (3, 6) [(3, 1); (1, 1); (2, 1); (2, 2); (1, 1); (1, 3)] [cA; cB_] cA_ [] [(0, 0); (0, 1); (0, 2); (0, 3); (0, 5); (2, 1)];
  (* test_point_generation_prohibited_A__due_to_A_gen *) mkT (6, 8) [(2, 7); (3, 1); (1, 5); (1, 7)] [cA; cB] cA_ [] [(0, 0); (0, 7); (2, 0); (3, 0)];
  (* test_generation_prohibited_point_B__due_to_B_gen *) mkT (2, 4) [(1, 2)] [cB] cB_ [] [(0, 0)];
  (* test_generation_prohibited_point_B__due_to_B_gen *) mkT (3, 4) [(1, 2); (1, 2)] [cB] cB_ [] [(0, 0); (1, 0)];
  (* test_generation_prohibited_point_B__due_to_B_gen *) mkT (3, 4) [(3, 1); (1, 1)] [cA; cB] cB_ [] [(0, 0); (0, 1)];
  (* test_generation_prohibited_point_B__due_to_B_gen *) mkT (3, 4) [(3, 1); (1, 1); (1, 1)] [cB; cA] cB_ [] [(0, 0); (0, 1); (1, 1)];
  (* test_generation_prohibited_point_B__due_to_B_gen *) mkT (2, 4) [(1, 1); (1, 1); (1, 1)] [cB; cA] cB_ [] [(0, 0); (1, 0); (0, 1)];
  (* test_generation_prohibited_point_B__due_to_B_gen *) mkT (4, 4) [(1, 2); (1, 1); (2, 2); (3, 1)] [cB; cA] cB_ [] [(0, 0); (1, 0); (2, 0); (0, 2)];
  (* test_generation_prohibited_point_B__due_to_B_gen *) mkT (4, 4) [(1, 2); (1, 1); (2, 2); (2, 1)] [cB; cA] cB_ [] [(0, 0); (1, 0); (2, 0); (0, 2)]].

Definition pts_placed : list (point * list point * list pclass * point) := [
  (* test_placement_point_A *) ((2, 4), [(1, 2); (1, 2)], [cA], (0, 2));
  (* test_placement_point_A_ *) ((5, 5), [(1, 2); (1, 3); (1, 3); (1, 3); (2, 1)], [cB; cA_], (0, 3));
  (* test_placement_point_A__ *) ((2, 4), [(1, 2); (1, 3); (1, 1)], [cB; cA__], (1, 3));
  (* test_placement_point_B *) ((3, 4), [(1, 2); (1, 2)], [cB], (1, 0));
  (* test_placement_point_B_ *) ((3, 2), [(1, 1); (2, 1); (1, 2)], [cA; cF], (2, 0));
  (* test_placement_point_B__ *) ((2, 2), [(1, 1); (1, 1); (1, 1)], [cA; cB__], (1, 1));
  (* test_placement_point_C *) ((4, 8), [(2, 7); (3, 1); (2, 7); (1, 1)], [cC; cA; cB], (3, 7));
  (* test_placement_point_D *) ((4, 8), [(2, 2); (2, 3); (2, 4); (2, 5)], [cD; cB; cA], (2, 3));
  (* test_placement_point_E *) ((4, 4), [(1, 2); (1, 2); (1, 2); (1, 3); (4, 1)], [cE; cB], (0, 3));
  (* test_placement_point_F *) ((3, 4), [(1, 1); (1, 1); (1, 1); (2, 1); (1, 4)], [cF; cA], (2, 0))].

Definition is_in (pts queue : list point) : bool :=
  match pts with [p] => existsb (peqb p) queue | _ => false end.

Example generated_ok : forallb (check_t is_in) pts_generated = true.
Proof. vm_compute. reflexivity. Qed.

Example prohibited_ok : forallb (check_t (fun p q => negb (is_in p q))) pts_prohibited = true.
Proof. vm_compute. reflexivity. Qed.

Example exact_ok : forallb (check_t pseqb) pts_exact = true.
Proof. vm_compute. reflexivity. Qed.

Example placed_ok :
  forallb (fun t => let '(c, its, str, p) := t in
     match construct_solution farith (fst c) (snd c) false false str (mk_items 0 its) with
     | Ok (_, _, sol, _) =>
         match dget sol (item_id (length its - 1)) with
         | Some e => peqb p (e_x e, e_y e)
         | None => false
         end
     | Err _ => false
     end) pts_placed = true.
Proof. vm_compute. reflexivity. Qed.
