(** * The benchmark datasets shipped with the library.

    Generated by tools/gen_benchmarks.py from the text of
    hyperpack/benchmarks/datasets/hopper_and_turton_2000/C1.py ... C7.py. *)
From Coq Require Import ZArith String List.
From Verif Require Import Py Construct Values.
Import ListNotations.
Open Scope string_scope.
Open Scope list_scope.
Open Scope Z_scope.

(** hyperpack/benchmarks/datasets/hopper_and_turton_2000/C1.py:1-1 *)
Definition C1_containers : odict dims :=
  [("container_0", mkDims 20 20)].

(** hyperpack/benchmarks/datasets/hopper_and_turton_2000/C1.py:2-19 *)
Definition C1_items_a : odict dims :=
  [("i_0", mkDims 2 12); ("i_1", mkDims 7 12); ("i_2", mkDims 8 6); ("i_3", mkDims 3 6); 
   ("i_4", mkDims 3 5); ("i_5", mkDims 5 5); ("i_6", mkDims 3 12); ("i_7", mkDims 3 7); 
   ("i_8", mkDims 5 7); ("i_9", mkDims 2 6); ("i_10", mkDims 3 2); ("i_11", mkDims 4 2); 
   ("i_12", mkDims 3 4); ("i_13", mkDims 4 4); ("i_14", mkDims 9 2); ("i_15", mkDims 11 2)].

(** hyperpack/benchmarks/datasets/hopper_and_turton_2000/C1.py:20-38 *)
Definition C1_items_b : odict dims :=
  [("i_0", mkDims 4 1); ("i_1", mkDims 4 5); ("i_2", mkDims 9 4); ("i_3", mkDims 3 5); 
   ("i_4", mkDims 3 9); ("i_5", mkDims 1 4); ("i_6", mkDims 5 3); ("i_7", mkDims 4 1); 
   ("i_8", mkDims 5 5); ("i_9", mkDims 7 2); ("i_10", mkDims 9 3); ("i_11", mkDims 3 13); 
   ("i_12", mkDims 2 8); ("i_13", mkDims 15 4); ("i_14", mkDims 5 4); ("i_15", mkDims 10 6); 
   ("i_16", mkDims 7 2)].

(** hyperpack/benchmarks/datasets/hopper_and_turton_2000/C1.py:39-56 *)
Definition C1_items_c : odict dims :=
  [("i_0", mkDims 4 14); ("i_1", mkDims 5 2); ("i_2", mkDims 2 2); ("i_3", mkDims 9 7); 
   ("i_4", mkDims 5 5); ("i_5", mkDims 2 5); ("i_6", mkDims 7 7); ("i_7", mkDims 3 5); 
   ("i_8", mkDims 6 5); ("i_9", mkDims 3 2); ("i_10", mkDims 6 2); ("i_11", mkDims 4 6); 
   ("i_12", mkDims 6 3); ("i_13", mkDims 10 3); ("i_14", mkDims 6 3); ("i_15", mkDims 10 3)].

(** hyperpack/benchmarks/datasets/hopper_and_turton_2000/C2.py:1-1 *)
Definition C2_containers : odict dims :=
  [("container_0", mkDims 40 15)].

(** hyperpack/benchmarks/datasets/hopper_and_turton_2000/C2.py:2-28 *)
Definition C2_items_a : odict dims :=
  [("i_0", mkDims 11 3); ("i_1", mkDims 13 3); ("i_2", mkDims 9 2); ("i_3", mkDims 7 2); 
   ("i_4", mkDims 9 3); ("i_5", mkDims 7 3); ("i_6", mkDims 11 2); ("i_7", mkDims 13 2); 
   ("i_8", mkDims 11 4); ("i_9", mkDims 13 4); ("i_10", mkDims 3 5); ("i_11", mkDims 11 2); 
   ("i_12", mkDims 2 2); ("i_13", mkDims 11 3); ("i_14", mkDims 2 3); ("i_15", mkDims 5 4); 
   ("i_16", mkDims 6 4); ("i_17", mkDims 12 2); ("i_18", mkDims 1 2); ("i_19", mkDims 3 5); 
   ("i_20", mkDims 13 5); ("i_21", mkDims 12 4); ("i_22", mkDims 1 4); ("i_23", mkDims 5 2); 
   ("i_24", mkDims 6 2)].

(** hyperpack/benchmarks/datasets/hopper_and_turton_2000/C2.py:29-55 *)
Definition C2_items_b : odict dims :=
  [("i_0", mkDims 11 2); ("i_1", mkDims 2 3); ("i_2", mkDims 10 7); ("i_3", mkDims 8 4); 
   ("i_4", mkDims 9 5); ("i_5", mkDims 7 2); ("i_6", mkDims 4 1); ("i_7", mkDims 6 1); 
   ("i_8", mkDims 4 5); ("i_9", mkDims 8 3); ("i_10", mkDims 1 3); ("i_11", mkDims 5 5); 
   ("i_12", mkDims 3 1); ("i_13", mkDims 12 4); ("i_14", mkDims 6 2); ("i_15", mkDims 2 4); 
   ("i_16", mkDims 11 4); ("i_17", mkDims 10 2); ("i_18", mkDims 3 2); ("i_19", mkDims 11 2); 
   ("i_20", mkDims 3 4); ("i_21", mkDims 26 4); ("i_22", mkDims 8 4); ("i_23", mkDims 3 2); 
   ("i_24", mkDims 6 2)].

(** hyperpack/benchmarks/datasets/hopper_and_turton_2000/C2.py:56-82 *)
Definition C2_items_c : odict dims :=
  [("i_0", mkDims 12 7); ("i_1", mkDims 7 7); ("i_2", mkDims 7 1); ("i_3", mkDims 5 1); 
   ("i_4", mkDims 3 2); ("i_5", mkDims 6 2); ("i_6", mkDims 7 2); ("i_7", mkDims 5 2); 
   ("i_8", mkDims 3 1); ("i_9", mkDims 6 1); ("i_10", mkDims 12 6); ("i_11", mkDims 9 6); 
   ("i_12", mkDims 12 2); ("i_13", mkDims 7 2); ("i_14", mkDims 10 3); ("i_15", mkDims 4 1); 
   ("i_16", mkDims 5 1); ("i_17", mkDims 16 3); ("i_18", mkDims 5 3); ("i_19", mkDims 4 2); 
   ("i_20", mkDims 5 2); ("i_21", mkDims 10 3); ("i_22", mkDims 9 3); ("i_23", mkDims 16 3); 
   ("i_24", mkDims 5 3)].

(** hyperpack/benchmarks/datasets/hopper_and_turton_2000/C3.py:1-1 *)
Definition C3_containers : odict dims :=
  [("container_0", mkDims 60 30)].

(** hyperpack/benchmarks/datasets/hopper_and_turton_2000/C3.py:2-31 *)
Definition C3_items_a : odict dims :=
  [("i_0", mkDims 7 5); ("i_1", mkDims 14 5); ("i_2", mkDims 14 8); ("i_3", mkDims 4 8); 
   ("i_4", mkDims 21 13); ("i_5", mkDims 7 11); ("i_6", mkDims 14 11); ("i_7", mkDims 14 5); 
   ("i_8", mkDims 4 5); ("i_9", mkDims 18 3); ("i_10", mkDims 21 3); ("i_11", mkDims 17 11); 
   ("i_12", mkDims 4 11); ("i_13", mkDims 7 4); ("i_14", mkDims 5 4); ("i_15", mkDims 6 7); 
   ("i_16", mkDims 18 5); ("i_17", mkDims 3 5); ("i_18", mkDims 7 3); ("i_19", mkDims 5 3); 
   ("i_20", mkDims 18 4); ("i_21", mkDims 3 4); ("i_22", mkDims 12 2); ("i_23", mkDims 6 2); 
   ("i_24", mkDims 18 5); ("i_25", mkDims 21 5); ("i_26", mkDims 17 3); ("i_27", mkDims 4 3)].

(** hyperpack/benchmarks/datasets/hopper_and_turton_2000/C3.py:32-62 *)
Definition C3_items_b : odict dims :=
  [("i_0", mkDims 18 6); ("i_1", mkDims 12 2); ("i_2", mkDims 7 10); ("i_3", mkDims 23 4); 
   ("i_4", mkDims 1 4); ("i_5", mkDims 7 7); ("i_6", mkDims 4 11); ("i_7", mkDims 5 6); 
   ("i_8", mkDims 7 2); ("i_9", mkDims 11 6); ("i_10", mkDims 19 10); ("i_11", mkDims 5 11); 
   ("i_12", mkDims 2 4); ("i_13", mkDims 5 7); ("i_14", mkDims 2 4); ("i_15", mkDims 12 7); 
   ("i_16", mkDims 13 7); ("i_17", mkDims 6 3); ("i_18", mkDims 10 6); ("i_19", mkDims 16 9); 
   ("i_20", mkDims 4 1); ("i_21", mkDims 10 4); ("i_22", mkDims 24 6); ("i_23", mkDims 9 9); 
   ("i_24", mkDims 1 2); ("i_25", mkDims 5 8); ("i_26", mkDims 5 3); ("i_27", mkDims 25 7); 
   ("i_28", mkDims 21 5)].

(** hyperpack/benchmarks/datasets/hopper_and_turton_2000/C3.py:63-92 *)
Definition C3_items_c : odict dims :=
  [("i_0", mkDims 24 9); ("i_1", mkDims 8 9); ("i_2", mkDims 11 9); ("i_3", mkDims 17 9); 
   ("i_4", mkDims 24 4); ("i_5", mkDims 8 4); ("i_6", mkDims 6 1); ("i_7", mkDims 5 1); 
   ("i_8", mkDims 17 4); ("i_9", mkDims 6 3); ("i_10", mkDims 5 3); ("i_11", mkDims 5 12); 
   ("i_12", mkDims 13 12); ("i_13", mkDims 14 14); ("i_14", mkDims 14 2); ("i_15", mkDims 2 2); 
   ("i_16", mkDims 3 8); ("i_17", mkDims 9 8); ("i_18", mkDims 14 12); ("i_19", mkDims 2 12); 
   ("i_20", mkDims 3 6); ("i_21", mkDims 9 6); ("i_22", mkDims 5 2); ("i_23", mkDims 13 2); 
   ("i_24", mkDims 18 3); ("i_25", mkDims 14 3); ("i_26", mkDims 16 3); ("i_27", mkDims 12 3)].

(** hyperpack/benchmarks/datasets/hopper_and_turton_2000/C4.py:1-1 *)
Definition C4_containers : odict dims :=
  [("container_0", mkDims 60 60)].

(** hyperpack/benchmarks/datasets/hopper_and_turton_2000/C4.py:2-52 *)
Definition C4_items_a : odict dims :=
  [("i_0", mkDims 2 7); ("i_1", mkDims 24 7); ("i_2", mkDims 16 4); ("i_3", mkDims 18 4); 
   ("i_4", mkDims 16 7); ("i_5", mkDims 18 7); ("i_6", mkDims 2 4); ("i_7", mkDims 24 4); 
   ("i_8", mkDims 4 28); ("i_9", mkDims 6 18); ("i_10", mkDims 14 12); ("i_11", mkDims 2 12); 
   ("i_12", mkDims 18 19); ("i_13", mkDims 9 8); ("i_14", mkDims 7 8); ("i_15", mkDims 9 11); 
   ("i_16", mkDims 7 11); ("i_17", mkDims 14 6); ("i_18", mkDims 2 6); ("i_19", mkDims 6 10); 
   ("i_20", mkDims 16 10); ("i_21", mkDims 3 5); ("i_22", mkDims 4 5); ("i_23", mkDims 8 12); 
   ("i_24", mkDims 3 18); ("i_25", mkDims 3 3); ("i_26", mkDims 8 3); ("i_27", mkDims 5 20); 
   ("i_28", mkDims 3 17); ("i_29", mkDims 3 7); ("i_30", mkDims 5 7); ("i_31", mkDims 3 7); 
   ("i_32", mkDims 4 7); ("i_33", mkDims 4 21); ("i_34", mkDims 10 19); ("i_35", mkDims 4 17); 
   ("i_36", mkDims 8 17); ("i_37", mkDims 3 10); ("i_38", mkDims 5 10); ("i_39", mkDims 7 6); 
   ("i_40", mkDims 8 6); ("i_41", mkDims 15 12); ("i_42", mkDims 3 12); ("i_43", mkDims 11 10); 
   ("i_44", mkDims 5 10); ("i_45", mkDims 4 2); ("i_46", mkDims 8 2); ("i_47", mkDims 10 2); 
   ("i_48", mkDims 12 2)].

(** hyperpack/benchmarks/datasets/hopper_and_turton_2000/C4.py:53-103 *)
Definition C4_items_b : odict dims :=
  [("i_0", mkDims 10 14); ("i_1", mkDims 3 13); ("i_2", mkDims 28 5); ("i_3", mkDims 5 8); 
   ("i_4", mkDims 14 9); ("i_5", mkDims 12 14); ("i_6", mkDims 13 10); ("i_7", mkDims 3 17); 
   ("i_8", mkDims 1 5); ("i_9", mkDims 4 1); ("i_10", mkDims 18 4); ("i_11", mkDims 1 1); 
   ("i_12", mkDims 2 6); ("i_13", mkDims 4 14); ("i_14", mkDims 3 18); ("i_15", mkDims 4 14); 
   ("i_16", mkDims 8 17); ("i_17", mkDims 11 5); ("i_18", mkDims 9 12); ("i_19", mkDims 4 7); 
   ("i_20", mkDims 25 8); ("i_21", mkDims 7 5); ("i_22", mkDims 24 9); ("i_23", mkDims 9 14); 
   ("i_24", mkDims 12 19); ("i_25", mkDims 2 4); ("i_26", mkDims 2 7); ("i_27", mkDims 3 4); 
   ("i_28", mkDims 5 30); ("i_29", mkDims 5 3); ("i_30", mkDims 10 26); ("i_31", mkDims 6 5); 
   ("i_32", mkDims 4 9); ("i_33", mkDims 1 4); ("i_34", mkDims 9 2); ("i_35", mkDims 4 17); 
   ("i_36", mkDims 5 2); ("i_37", mkDims 4 4); ("i_38", mkDims 6 2); ("i_39", mkDims 4 10); 
   ("i_40", mkDims 2 4); ("i_41", mkDims 3 12); ("i_42", mkDims 6 5); ("i_43", mkDims 3 9); 
   ("i_44", mkDims 7 18); ("i_45", mkDims 6 6); ("i_46", mkDims 18 7); ("i_47", mkDims 13 9); 
   ("i_48", mkDims 25 7)].

(** hyperpack/benchmarks/datasets/hopper_and_turton_2000/C4.py:104-154 *)
Definition C4_items_c : odict dims :=
  [("i_0", mkDims 10 4); ("i_1", mkDims 12 4); ("i_2", mkDims 13 5); ("i_3", mkDims 3 5); 
   ("i_4", mkDims 7 22); ("i_5", mkDims 6 22); ("i_6", mkDims 9 23); ("i_7", mkDims 10 19); 
   ("i_8", mkDims 3 15); ("i_9", mkDims 5 13); ("i_10", mkDims 2 10); ("i_11", mkDims 2 10); 
   ("i_12", mkDims 13 18); ("i_13", mkDims 3 18); ("i_14", mkDims 2 3); ("i_15", mkDims 2 3); 
   ("i_16", mkDims 5 2); ("i_17", mkDims 4 2); ("i_18", mkDims 3 4); ("i_19", mkDims 9 4); 
   ("i_20", mkDims 7 1); ("i_21", mkDims 6 1); ("i_22", mkDims 2 4); ("i_23", mkDims 20 4); 
   ("i_24", mkDims 4 7); ("i_25", mkDims 12 7); ("i_26", mkDims 9 4); ("i_27", mkDims 4 4); 
   ("i_28", mkDims 9 9); ("i_29", mkDims 2 5); ("i_30", mkDims 20 5); ("i_31", mkDims 9 5); 
   ("i_32", mkDims 4 5); ("i_33", mkDims 4 2); ("i_34", mkDims 12 2); ("i_35", mkDims 3 15); 
   ("i_36", mkDims 21 11); ("i_37", mkDims 11 3); ("i_38", mkDims 3 3); ("i_39", mkDims 11 23); 
   ("i_40", mkDims 11 23); ("i_41", mkDims 11 8); ("i_42", mkDims 3 8); ("i_43", mkDims 21 4); 
   ("i_44", mkDims 14 4); ("i_45", mkDims 3 13); ("i_46", mkDims 35 13); ("i_47", mkDims 11 5); 
   ("i_48", mkDims 11 5)].

(** hyperpack/benchmarks/datasets/hopper_and_turton_2000/C5.py:1-1 *)
Definition C5_containers : odict dims :=
  [("container_0", mkDims 60 90)].

(** hyperpack/benchmarks/datasets/hopper_and_turton_2000/C5.py:2-76 *)
Definition C5_items_a : odict dims :=
  [("i_0", mkDims 6 34); ("i_1", mkDims 3 13); ("i_2", mkDims 5 13); ("i_3", mkDims 12 10); 
   ("i_4", mkDims 12 10); ("i_5", mkDims 7 6); ("i_6", mkDims 15 6); ("i_7", mkDims 7 25); 
   ("i_8", mkDims 15 25); ("i_9", mkDims 12 21); ("i_10", mkDims 7 16); ("i_11", mkDims 5 16); 
   ("i_12", mkDims 3 21); ("i_13", mkDims 5 21); ("i_14", mkDims 7 5); ("i_15", mkDims 5 5); 
   ("i_16", mkDims 1 4); ("i_17", mkDims 10 4); ("i_18", mkDims 13 6); ("i_19", mkDims 13 12); 
   ("i_20", mkDims 9 12); ("i_21", mkDims 6 23); ("i_22", mkDims 3 7); ("i_23", mkDims 5 7); 
   ("i_24", mkDims 1 2); ("i_25", mkDims 10 2); ("i_26", mkDims 6 6); ("i_27", mkDims 5 6); 
   ("i_28", mkDims 7 14); ("i_29", mkDims 6 14); ("i_30", mkDims 3 16); ("i_31", mkDims 5 16); 
   ("i_32", mkDims 6 14); ("i_33", mkDims 5 14); ("i_34", mkDims 13 14); ("i_35", mkDims 2 3); 
   ("i_36", mkDims 7 3); ("i_37", mkDims 2 11); ("i_38", mkDims 7 11); ("i_39", mkDims 7 6); 
   ("i_40", mkDims 6 6); ("i_41", mkDims 14 33); ("i_42", mkDims 4 12); ("i_43", mkDims 3 12); 
   ("i_44", mkDims 18 16); ("i_45", mkDims 3 12); ("i_46", mkDims 18 12); ("i_47", mkDims 4 4); 
   ("i_48", mkDims 3 4); ("i_49", mkDims 1 3); ("i_50", mkDims 2 3); ("i_51", mkDims 9 6); 
   ("i_52", mkDims 9 6); ("i_53", mkDims 1 6); ("i_54", mkDims 2 6); ("i_55", mkDims 7 5); 
   ("i_56", mkDims 18 5); ("i_57", mkDims 9 3); ("i_58", mkDims 9 3); ("i_59", mkDims 18 9); 
   ("i_60", mkDims 5 6); ("i_61", mkDims 2 6); ("i_62", mkDims 12 2); ("i_63", mkDims 9 2); 
   ("i_64", mkDims 3 8); ("i_65", mkDims 9 8); ("i_66", mkDims 9 10); ("i_67", mkDims 5 3); 
   ("i_68", mkDims 2 3); ("i_69", mkDims 18 3); ("i_70", mkDims 7 3); ("i_71", mkDims 3 2); 
   ("i_72", mkDims 9 2)].

(** hyperpack/benchmarks/datasets/hopper_and_turton_2000/C5.py:77-151 *)
Definition C5_items_b : odict dims :=
  [("i_0", mkDims 3 5); ("i_1", mkDims 14 3); ("i_2", mkDims 9 27); ("i_3", mkDims 6 24); 
   ("i_4", mkDims 21 7); ("i_5", mkDims 7 10); ("i_6", mkDims 1 2); ("i_7", mkDims 13 19); 
   ("i_8", mkDims 4 17); ("i_9", mkDims 4 13); ("i_10", mkDims 17 3); ("i_11", mkDims 24 10); 
   ("i_12", mkDims 5 4); ("i_13", mkDims 2 2); ("i_14", mkDims 6 1); ("i_15", mkDims 11 9); 
   ("i_16", mkDims 4 26); ("i_17", mkDims 2 1); ("i_18", mkDims 4 7); ("i_19", mkDims 7 38); 
   ("i_20", mkDims 3 2); ("i_21", mkDims 3 1); ("i_22", mkDims 4 2); ("i_23", mkDims 4 6); 
   ("i_24", mkDims 2 1); ("i_25", mkDims 1 2); ("i_26", mkDims 5 1); ("i_27", mkDims 1 1); 
   ("i_28", mkDims 3 3); ("i_29", mkDims 5 20); ("i_30", mkDims 6 23); ("i_31", mkDims 7 2); 
   ("i_32", mkDims 11 21); ("i_33", mkDims 8 7); ("i_34", mkDims 6 15); ("i_35", mkDims 2 1); 
   ("i_36", mkDims 13 14); ("i_37", mkDims 3 14); ("i_38", mkDims 5 26); ("i_39", mkDims 9 14); 
   ("i_40", mkDims 10 3); ("i_41", mkDims 4 13); ("i_42", mkDims 1 3); ("i_43", mkDims 14 11); 
   ("i_44", mkDims 7 10); ("i_45", mkDims 14 12); ("i_46", mkDims 18 3); ("i_47", mkDims 7 4); 
   ("i_48", mkDims 2 7); ("i_49", mkDims 7 28); ("i_50", mkDims 30 10); ("i_51", mkDims 14 19); 
   ("i_52", mkDims 4 26); ("i_53", mkDims 3 3); ("i_54", mkDims 5 23); ("i_55", mkDims 5 20); 
   ("i_56", mkDims 15 4); ("i_57", mkDims 10 6); ("i_58", mkDims 6 3); ("i_59", mkDims 5 2); 
   ("i_60", mkDims 4 2); ("i_61", mkDims 3 1); ("i_62", mkDims 2 3); ("i_63", mkDims 14 3); 
   ("i_64", mkDims 9 2); ("i_65", mkDims 7 8); ("i_66", mkDims 32 6); ("i_67", mkDims 6 2); 
   ("i_68", mkDims 26 5); ("i_69", mkDims 1 2); ("i_70", mkDims 6 5); ("i_71", mkDims 13 3); 
   ("i_72", mkDims 10 3)].

(** hyperpack/benchmarks/datasets/hopper_and_turton_2000/C5.py:152-226 *)
Definition C5_items_c : odict dims :=
  [("i_0", mkDims 6 37); ("i_1", mkDims 10 15); ("i_2", mkDims 4 7); ("i_3", mkDims 12 7); 
   ("i_4", mkDims 4 18); ("i_5", mkDims 10 8); ("i_6", mkDims 5 8); ("i_7", mkDims 4 25); 
   ("i_8", mkDims 5 25); ("i_9", mkDims 4 8); ("i_10", mkDims 12 8); ("i_11", mkDims 10 10); 
   ("i_12", mkDims 5 10); ("i_13", mkDims 3 4); ("i_14", mkDims 7 4); ("i_15", mkDims 7 10); 
   ("i_16", mkDims 2 10); ("i_17", mkDims 7 15); ("i_18", mkDims 4 18); ("i_19", mkDims 15 18); 
   ("i_20", mkDims 3 18); ("i_21", mkDims 7 18); ("i_22", mkDims 7 5); ("i_23", mkDims 2 5); 
   ("i_24", mkDims 4 11); ("i_25", mkDims 5 11); ("i_26", mkDims 4 5); ("i_27", mkDims 5 5); 
   ("i_28", mkDims 1 3); ("i_29", mkDims 6 3); ("i_30", mkDims 1 4); ("i_31", mkDims 6 4); 
   ("i_32", mkDims 4 2); ("i_33", mkDims 5 2); ("i_34", mkDims 19 25); ("i_35", mkDims 5 9); 
   ("i_36", mkDims 4 9); ("i_37", mkDims 3 6); ("i_38", mkDims 3 6); ("i_39", mkDims 6 13); 
   ("i_40", mkDims 20 13); ("i_41", mkDims 3 18); ("i_42", mkDims 3 18); ("i_43", mkDims 5 16); 
   ("i_44", mkDims 4 16); ("i_45", mkDims 6 11); ("i_46", mkDims 13 4); ("i_47", mkDims 7 4); 
   ("i_48", mkDims 13 7); ("i_49", mkDims 3 2); ("i_50", mkDims 4 2); ("i_51", mkDims 3 5); 
   ("i_52", mkDims 4 5); ("i_53", mkDims 4 24); ("i_54", mkDims 15 12); ("i_55", mkDims 13 12); 
   ("i_56", mkDims 19 7); ("i_57", mkDims 9 7); ("i_58", mkDims 5 4); ("i_59", mkDims 2 4); 
   ("i_60", mkDims 12 5); ("i_61", mkDims 9 22); ("i_62", mkDims 5 1); ("i_63", mkDims 2 1); 
   ("i_64", mkDims 15 12); ("i_65", mkDims 13 12); ("i_66", mkDims 2 5); ("i_67", mkDims 5 5); 
   ("i_68", mkDims 12 17); ("i_69", mkDims 2 12); ("i_70", mkDims 5 12); ("i_71", mkDims 4 5); 
   ("i_72", mkDims 28 5)].

(** hyperpack/benchmarks/datasets/hopper_and_turton_2000/C6.py:1-1 *)
Definition C6_containers : odict dims :=
  [("container_0", mkDims 80 120)].

(** hyperpack/benchmarks/datasets/hopper_and_turton_2000/C6.py:2-100 *)
Definition C6_items_a : odict dims :=
  [("i_0", mkDims 30 19); ("i_1", mkDims 8 5); ("i_2", mkDims 13 5); ("i_3", mkDims 15 23); 
   ("i_4", mkDims 9 4); ("i_5", mkDims 3 4); ("i_6", mkDims 2 11); ("i_7", mkDims 9 7); 
   ("i_8", mkDims 3 7); ("i_9", mkDims 8 14); ("i_10", mkDims 11 6); ("i_11", mkDims 2 6); 
   ("i_12", mkDims 11 8); ("i_13", mkDims 2 8); ("i_14", mkDims 12 12); ("i_15", mkDims 2 12); 
   ("i_16", mkDims 30 10); ("i_17", mkDims 21 10); ("i_18", mkDims 15 6); ("i_19", mkDims 14 6); 
   ("i_20", mkDims 2 9); ("i_21", mkDims 22 9); ("i_22", mkDims 6 16); ("i_23", mkDims 5 2); 
   ("i_24", mkDims 5 2); ("i_25", mkDims 11 6); ("i_26", mkDims 9 30); ("i_27", mkDims 10 8); 
   ("i_28", mkDims 10 8); ("i_29", mkDims 5 4); ("i_30", mkDims 5 4); ("i_31", mkDims 4 14); 
   ("i_32", mkDims 2 14); ("i_33", mkDims 4 22); ("i_34", mkDims 8 14); ("i_35", mkDims 3 14); 
   ("i_36", mkDims 10 22); ("i_37", mkDims 4 20); ("i_38", mkDims 6 20); ("i_39", mkDims 2 7); 
   ("i_40", mkDims 13 2); ("i_41", mkDims 9 2); ("i_42", mkDims 13 5); ("i_43", mkDims 9 5); 
   ("i_44", mkDims 17 11); ("i_45", mkDims 7 11); ("i_46", mkDims 6 18); ("i_47", mkDims 4 8); 
   ("i_48", mkDims 2 8); ("i_49", mkDims 5 7); ("i_50", mkDims 3 7); ("i_51", mkDims 3 14); 
   ("i_52", mkDims 17 7); ("i_53", mkDims 7 7); ("i_54", mkDims 5 7); ("i_55", mkDims 3 7); 
   ("i_56", mkDims 6 6); ("i_57", mkDims 4 6); ("i_58", mkDims 4 2); ("i_59", mkDims 6 2); 
   ("i_60", mkDims 9 61); ("i_61", mkDims 6 8); ("i_62", mkDims 5 8); ("i_63", mkDims 5 2); 
   ("i_64", mkDims 4 2); ("i_65", mkDims 5 28); ("i_66", mkDims 4 28); ("i_67", mkDims 6 29); 
   ("i_68", mkDims 3 20); ("i_69", mkDims 21 20); ("i_70", mkDims 10 39); ("i_71", mkDims 4 13); 
   ("i_72", mkDims 7 13); ("i_73", mkDims 6 22); ("i_74", mkDims 5 22); ("i_75", mkDims 4 26); 
   ("i_76", mkDims 7 26); ("i_77", mkDims 3 9); ("i_78", mkDims 21 9); ("i_79", mkDims 11 31); 
   ("i_80", mkDims 9 31); ("i_81", mkDims 6 28); ("i_82", mkDims 3 19); ("i_83", mkDims 18 8); 
   ("i_84", mkDims 3 8); ("i_85", mkDims 18 11); ("i_86", mkDims 3 11); ("i_87", mkDims 10 18); 
   ("i_88", mkDims 2 6); ("i_89", mkDims 9 6); ("i_90", mkDims 2 12); ("i_91", mkDims 9 12); 
   ("i_92", mkDims 3 9); ("i_93", mkDims 12 2); ("i_94", mkDims 9 2); ("i_95", mkDims 12 7); 
   ("i_96", mkDims 9 7)].

(** hyperpack/benchmarks/datasets/hopper_and_turton_2000/C6.py:101-199 *)
Definition C6_items_b : odict dims :=
  [("i_0", mkDims 7 39); ("i_1", mkDims 8 33); ("i_2", mkDims 7 6); ("i_3", mkDims 5 3); 
   ("i_4", mkDims 3 5); ("i_5", mkDims 39 6); ("i_6", mkDims 11 13); ("i_7", mkDims 3 4); 
   ("i_8", mkDims 2 2); ("i_9", mkDims 5 2); ("i_10", mkDims 5 30); ("i_11", mkDims 2 1); 
   ("i_12", mkDims 26 11); ("i_13", mkDims 4 5); ("i_14", mkDims 9 2); ("i_15", mkDims 10 29); 
   ("i_16", mkDims 4 3); ("i_17", mkDims 5 5); ("i_18", mkDims 8 2); ("i_19", mkDims 24 4); 
   ("i_20", mkDims 22 7); ("i_21", mkDims 2 9); ("i_22", mkDims 2 2); ("i_23", mkDims 5 1); 
   ("i_24", mkDims 9 15); ("i_25", mkDims 10 33); ("i_26", mkDims 1 1); ("i_27", mkDims 4 4); 
   ("i_28", mkDims 3 3); ("i_29", mkDims 4 4); ("i_30", mkDims 3 6); ("i_31", mkDims 16 7); 
   ("i_32", mkDims 6 4); ("i_33", mkDims 6 2); ("i_34", mkDims 15 3); ("i_35", mkDims 30 5); 
   ("i_36", mkDims 1 1); ("i_37", mkDims 10 4); ("i_38", mkDims 2 6); ("i_39", mkDims 6 23); 
   ("i_40", mkDims 29 8); ("i_41", mkDims 26 5); ("i_42", mkDims 9 17); ("i_43", mkDims 7 3); 
   ("i_44", mkDims 19 9); ("i_45", mkDims 36 6); ("i_46", mkDims 28 6); ("i_47", mkDims 6 20); 
   ("i_48", mkDims 20 7); ("i_49", mkDims 11 2); ("i_50", mkDims 6 5); ("i_51", mkDims 5 13); 
   ("i_52", mkDims 4 14); ("i_53", mkDims 16 8); ("i_54", mkDims 23 9); ("i_55", mkDims 26 8); 
   ("i_56", mkDims 1 6); ("i_57", mkDims 15 26); ("i_58", mkDims 4 25); ("i_59", mkDims 8 45); 
   ("i_60", mkDims 11 50); ("i_61", mkDims 19 5); ("i_62", mkDims 12 55); ("i_63", mkDims 5 20); 
   ("i_64", mkDims 4 13); ("i_65", mkDims 15 5); ("i_66", mkDims 2 6); ("i_67", mkDims 4 26); 
   ("i_68", mkDims 12 6); ("i_69", mkDims 3 1); ("i_70", mkDims 2 3); ("i_71", mkDims 3 2); 
   ("i_72", mkDims 1 1); ("i_73", mkDims 2 3); ("i_74", mkDims 3 2); ("i_75", mkDims 5 2); 
   ("i_76", mkDims 4 4); ("i_77", mkDims 8 2); ("i_78", mkDims 9 11); ("i_79", mkDims 3 2); 
   ("i_80", mkDims 5 11); ("i_81", mkDims 7 9); ("i_82", mkDims 24 30); ("i_83", mkDims 2 11); 
   ("i_84", mkDims 10 8); ("i_85", mkDims 9 2); ("i_86", mkDims 10 2); ("i_87", mkDims 3 11); 
   ("i_88", mkDims 4 22); ("i_89", mkDims 6 9); ("i_90", mkDims 3 3); ("i_91", mkDims 7 18); 
   ("i_92", mkDims 5 15); ("i_93", mkDims 9 13); ("i_94", mkDims 2 10); ("i_95", mkDims 6 5); 
   ("i_96", mkDims 17 5)].

(** hyperpack/benchmarks/datasets/hopper_and_turton_2000/C6.py:200-298 *)
Definition C6_items_c : odict dims :=
  [("i_0", mkDims 6 35); ("i_1", mkDims 1 6); ("i_2", mkDims 6 6); ("i_3", mkDims 34 13); 
   ("i_4", mkDims 10 7); ("i_5", mkDims 23 7); ("i_6", mkDims 1 7); ("i_7", mkDims 6 7); 
   ("i_8", mkDims 10 62); ("i_9", mkDims 10 33); ("i_10", mkDims 13 33); ("i_11", mkDims 7 22); 
   ("i_12", mkDims 4 15); ("i_13", mkDims 6 8); ("i_14", mkDims 24 8); ("i_15", mkDims 6 7); 
   ("i_16", mkDims 24 7); ("i_17", mkDims 4 7); ("i_18", mkDims 30 7); ("i_19", mkDims 6 34); 
   ("i_20", mkDims 8 17); ("i_21", mkDims 10 17); ("i_22", mkDims 8 16); ("i_23", mkDims 15 16); 
   ("i_24", mkDims 5 6); ("i_25", mkDims 5 6); ("i_26", mkDims 9 21); ("i_27", mkDims 4 21); 
   ("i_28", mkDims 5 23); ("i_29", mkDims 5 23); ("i_30", mkDims 8 6); ("i_31", mkDims 15 6); 
   ("i_32", mkDims 8 5); ("i_33", mkDims 10 5); ("i_34", mkDims 5 4); ("i_35", mkDims 7 2); 
   ("i_36", mkDims 6 2); ("i_37", mkDims 6 4); ("i_38", mkDims 17 4); ("i_39", mkDims 7 2); 
   ("i_40", mkDims 6 2); ("i_41", mkDims 5 8); ("i_42", mkDims 4 4); ("i_43", mkDims 9 4); 
   ("i_44", mkDims 6 8); ("i_45", mkDims 17 8); ("i_46", mkDims 4 6); ("i_47", mkDims 5 6); 
   ("i_48", mkDims 4 8); ("i_49", mkDims 4 4); ("i_50", mkDims 9 4); ("i_51", mkDims 4 2); 
   ("i_52", mkDims 5 2); ("i_53", mkDims 4 25); ("i_54", mkDims 6 25); ("i_55", mkDims 6 6); 
   ("i_56", mkDims 2 6); ("i_57", mkDims 18 10); ("i_58", mkDims 11 24); ("i_59", mkDims 9 4); 
   ("i_60", mkDims 17 4); ("i_61", mkDims 7 9); ("i_62", mkDims 9 5); ("i_63", mkDims 17 5); 
   ("i_64", mkDims 6 4); ("i_65", mkDims 2 4); ("i_66", mkDims 6 8); ("i_67", mkDims 20 8); 
   ("i_68", mkDims 7 42); ("i_69", mkDims 8 14); ("i_70", mkDims 18 14); ("i_71", mkDims 6 34); 
   ("i_72", mkDims 5 9); ("i_73", mkDims 8 7); ("i_74", mkDims 7 7); ("i_75", mkDims 26 20); 
   ("i_76", mkDims 5 7); ("i_77", mkDims 3 7); ("i_78", mkDims 3 15); ("i_79", mkDims 8 2); 
   ("i_80", mkDims 7 2); ("i_81", mkDims 4 19); ("i_82", mkDims 6 19); ("i_83", mkDims 5 25); 
   ("i_84", mkDims 8 13); ("i_85", mkDims 7 13); ("i_86", mkDims 5 8); ("i_87", mkDims 3 8); 
   ("i_88", mkDims 8 5); ("i_89", mkDims 3 5); ("i_90", mkDims 6 8); ("i_91", mkDims 2 8); 
   ("i_92", mkDims 7 12); ("i_93", mkDims 10 7); ("i_94", mkDims 37 7); ("i_95", mkDims 6 4); 
   ("i_96", mkDims 2 4)].

(** hyperpack/benchmarks/datasets/hopper_and_turton_2000/C7.py:1-1 *)
Definition C7_containers : odict dims :=
  [("container_0", mkDims 160 240)].

(** hyperpack/benchmarks/datasets/hopper_and_turton_2000/C7.py:2-199 *)
Definition C7_items_a : odict dims :=
  [("i_0", mkDims 19 21); ("i_1", mkDims 6 21); ("i_2", mkDims 6 18); ("i_3", mkDims 41 18); 
   ("i_4", mkDims 22 14); ("i_5", mkDims 13 14); ("i_6", mkDims 8 13); ("i_7", mkDims 14 13); 
   ("i_8", mkDims 31 20); ("i_9", mkDims 8 7); ("i_10", mkDims 14 7); ("i_11", mkDims 22 54); 
   ("i_12", mkDims 13 54); ("i_13", mkDims 6 23); ("i_14", mkDims 8 13); ("i_15", mkDims 33 13); 
   ("i_16", mkDims 6 22); ("i_17", mkDims 5 22); ("i_18", mkDims 11 28); ("i_19", mkDims 19 56); 
   ("i_20", mkDims 12 56); ("i_21", mkDims 16 11); ("i_22", mkDims 3 11); ("i_23", mkDims 6 20); 
   ("i_24", mkDims 8 10); ("i_25", mkDims 33 10); ("i_26", mkDims 16 9); ("i_27", mkDims 3 9); 
   ("i_28", mkDims 8 4); ("i_29", mkDims 17 4); ("i_30", mkDims 20 9); ("i_31", mkDims 19 9); 
   ("i_32", mkDims 8 15); ("i_33", mkDims 6 6); ("i_34", mkDims 5 6); ("i_35", mkDims 3 6); 
   ("i_36", mkDims 5 6); ("i_37", mkDims 17 23); ("i_38", mkDims 5 28); ("i_39", mkDims 6 28); 
   ("i_40", mkDims 11 53); ("i_41", mkDims 20 6); ("i_42", mkDims 19 6); ("i_43", mkDims 3 17); 
   ("i_44", mkDims 5 17); ("i_45", mkDims 39 12); ("i_46", mkDims 8 12); ("i_47", mkDims 31 8); 
   ("i_48", mkDims 41 8); ("i_49", mkDims 23 23); ("i_50", mkDims 12 23); ("i_51", mkDims 9 9); 
   ("i_52", mkDims 16 9); ("i_53", mkDims 6 18); ("i_54", mkDims 20 13); ("i_55", mkDims 21 13); 
   ("i_56", mkDims 5 25); ("i_57", mkDims 6 25); ("i_58", mkDims 19 25); ("i_59", mkDims 7 16); 
   ("i_60", mkDims 5 16); ("i_61", mkDims 9 9); ("i_62", mkDims 16 9); ("i_63", mkDims 20 12); 
   ("i_64", mkDims 21 12); ("i_65", mkDims 23 10); ("i_66", mkDims 12 10); ("i_67", mkDims 7 9); 
   ("i_68", mkDims 5 9); ("i_69", mkDims 25 7); ("i_70", mkDims 6 7); ("i_71", mkDims 16 47); 
   ("i_72", mkDims 16 14); ("i_73", mkDims 8 14); ("i_74", mkDims 21 16); ("i_75", mkDims 2 4); 
   ("i_76", mkDims 4 4); ("i_77", mkDims 11 11); ("i_78", mkDims 29 11); ("i_79", mkDims 10 54); 
   ("i_80", mkDims 13 54); ("i_81", mkDims 13 70); ("i_82", mkDims 7 13); ("i_83", mkDims 3 13); 
   ("i_84", mkDims 7 25); ("i_85", mkDims 2 12); ("i_86", mkDims 4 12); ("i_87", mkDims 11 32); 
   ("i_88", mkDims 22 9); ("i_89", mkDims 7 9); ("i_90", mkDims 7 12); ("i_91", mkDims 3 12); 
   ("i_92", mkDims 16 33); ("i_93", mkDims 8 33); ("i_94", mkDims 14 21); ("i_95", mkDims 7 21); 
   ("i_96", mkDims 6 27); ("i_97", mkDims 6 10); ("i_98", mkDims 16 10); ("i_99", mkDims 7 23); 
   ("i_100", mkDims 10 45); ("i_101", mkDims 7 45); ("i_102", mkDims 2 10); ("i_103", mkDims 4 10); 
   ("i_104", mkDims 16 13); ("i_105", mkDims 14 6); ("i_106", mkDims 7 6); ("i_107", mkDims 2 3); 
   ("i_108", mkDims 4 3); ("i_109", mkDims 13 13); ("i_110", mkDims 14 13); ("i_111", mkDims 7 8); 
   ("i_112", mkDims 33 8); ("i_113", mkDims 16 34); ("i_114", mkDims 12 28); ("i_115", mkDims 12 28); 
   ("i_116", mkDims 7 30); ("i_117", mkDims 4 19); ("i_118", mkDims 29 19); ("i_119", mkDims 10 51); 
   ("i_120", mkDims 13 51); ("i_121", mkDims 13 25); ("i_122", mkDims 4 21); ("i_123", mkDims 10 21); 
   ("i_124", mkDims 4 11); ("i_125", mkDims 29 11); ("i_126", mkDims 9 26); ("i_127", mkDims 4 26); 
   ("i_128", mkDims 17 35); ("i_129", mkDims 12 6); ("i_130", mkDims 12 6); ("i_131", mkDims 4 4); 
   ("i_132", mkDims 10 4); ("i_133", mkDims 8 10); ("i_134", mkDims 13 2); ("i_135", mkDims 6 2); 
   ("i_136", mkDims 10 12); ("i_137", mkDims 3 12); ("i_138", mkDims 22 16); ("i_139", mkDims 18 16); 
   ("i_140", mkDims 7 20); ("i_141", mkDims 17 16); ("i_142", mkDims 3 16); ("i_143", mkDims 13 8); 
   ("i_144", mkDims 6 8); ("i_145", mkDims 8 10); ("i_146", mkDims 19 10); ("i_147", mkDims 10 8); 
   ("i_148", mkDims 3 8); ("i_149", mkDims 9 9); ("i_150", mkDims 4 9); ("i_151", mkDims 22 14); 
   ("i_152", mkDims 9 7); ("i_153", mkDims 9 7); ("i_154", mkDims 17 4); ("i_155", mkDims 3 4); 
   ("i_156", mkDims 19 17); ("i_157", mkDims 8 17); ("i_158", mkDims 8 11); ("i_159", mkDims 5 11); 
   ("i_160", mkDims 7 10); ("i_161", mkDims 20 10); ("i_162", mkDims 9 7); ("i_163", mkDims 9 7); 
   ("i_164", mkDims 19 20); ("i_165", mkDims 4 20); ("i_166", mkDims 4 10); ("i_167", mkDims 26 10); 
   ("i_168", mkDims 19 11); ("i_169", mkDims 21 11); ("i_170", mkDims 3 3); ("i_171", mkDims 6 3); 
   ("i_172", mkDims 18 13); ("i_173", mkDims 8 27); ("i_174", mkDims 5 27); ("i_175", mkDims 3 10); 
   ("i_176", mkDims 6 10); ("i_177", mkDims 4 24); ("i_178", mkDims 5 21); ("i_179", mkDims 21 21); 
   ("i_180", mkDims 19 21); ("i_181", mkDims 8 21); ("i_182", mkDims 19 17); ("i_183", mkDims 21 17); 
   ("i_184", mkDims 9 15); ("i_185", mkDims 5 6); ("i_186", mkDims 13 6); ("i_187", mkDims 19 14); 
   ("i_188", mkDims 4 14); ("i_189", mkDims 5 9); ("i_190", mkDims 4 7); ("i_191", mkDims 9 7); 
   ("i_192", mkDims 5 3); ("i_193", mkDims 21 3); ("i_194", mkDims 4 2); ("i_195", mkDims 9 2)].

(** hyperpack/benchmarks/datasets/hopper_and_turton_2000/C7.py:200-398 *)
Definition C7_items_b : odict dims :=
  [("i_0", mkDims 15 75); ("i_1", mkDims 12 80); ("i_2", mkDims 27 6); ("i_3", mkDims 3 13); 
   ("i_4", mkDims 10 3); ("i_5", mkDims 9 21); ("i_6", mkDims 8 11); ("i_7", mkDims 6 13); 
   ("i_8", mkDims 2 9); ("i_9", mkDims 51 10); ("i_10", mkDims 6 6); ("i_11", mkDims 11 12); 
   ("i_12", mkDims 2 10); ("i_13", mkDims 8 12); ("i_14", mkDims 13 47); ("i_15", mkDims 14 37); 
   ("i_16", mkDims 3 11); ("i_17", mkDims 3 6); ("i_18", mkDims 1 4); ("i_19", mkDims 1 6); 
   ("i_20", mkDims 27 5); ("i_21", mkDims 14 3); ("i_22", mkDims 10 4); ("i_23", mkDims 5 20); 
   ("i_24", mkDims 3 11); ("i_25", mkDims 14 5); ("i_26", mkDims 5 2); ("i_27", mkDims 7 2); 
   ("i_28", mkDims 12 9); ("i_29", mkDims 2 1); ("i_30", mkDims 12 8); ("i_31", mkDims 5 28); 
   ("i_32", mkDims 8 6); ("i_33", mkDims 35 7); ("i_34", mkDims 7 14); ("i_35", mkDims 10 45); 
   ("i_36", mkDims 4 19); ("i_37", mkDims 13 17); ("i_38", mkDims 62 9); ("i_39", mkDims 36 11); 
   ("i_40", mkDims 38 18); ("i_41", mkDims 4 2); ("i_42", mkDims 9 5); ("i_43", mkDims 8 3); 
   ("i_44", mkDims 30 20); ("i_45", mkDims 6 7); ("i_46", mkDims 36 10); ("i_47", mkDims 27 7); 
   ("i_48", mkDims 17 3); ("i_49", mkDims 6 4); ("i_50", mkDims 11 10); ("i_51", mkDims 5 25); 
   ("i_52", mkDims 7 26); ("i_53", mkDims 10 44); ("i_54", mkDims 19 4); ("i_55", mkDims 8 31); 
   ("i_56", mkDims 33 6); ("i_57", mkDims 11 73); ("i_58", mkDims 8 27); ("i_59", mkDims 6 2); 
   ("i_60", mkDims 2 9); ("i_61", mkDims 25 9); ("i_62", mkDims 9 39); ("i_63", mkDims 9 17); 
   ("i_64", mkDims 12 7); ("i_65", mkDims 21 101); ("i_66", mkDims 3 10); ("i_67", mkDims 3 7); 
   ("i_68", mkDims 4 10); ("i_69", mkDims 8 22); ("i_70", mkDims 5 3); ("i_71", mkDims 2 1); 
   ("i_72", mkDims 1 2); ("i_73", mkDims 22 59); ("i_74", mkDims 1 2); ("i_75", mkDims 1 1); 
   ("i_76", mkDims 2 1); ("i_77", mkDims 11 56); ("i_78", mkDims 10 39); ("i_79", mkDims 5 5); 
   ("i_80", mkDims 3 20); ("i_81", mkDims 2 1); ("i_82", mkDims 2 7); ("i_83", mkDims 7 6); 
   ("i_84", mkDims 13 12); ("i_85", mkDims 17 34); ("i_86", mkDims 16 46); ("i_87", mkDims 1 1); 
   ("i_88", mkDims 6 13); ("i_89", mkDims 3 12); ("i_90", mkDims 6 10); ("i_91", mkDims 9 15); 
   ("i_92", mkDims 6 24); ("i_93", mkDims 1 1); ("i_94", mkDims 5 7); ("i_95", mkDims 4 1); 
   ("i_96", mkDims 2 13); ("i_97", mkDims 11 9); ("i_98", mkDims 1 6); ("i_99", mkDims 3 16); 
   ("i_100", mkDims 7 11); ("i_101", mkDims 8 15); ("i_102", mkDims 6 10); ("i_103", mkDims 6 21); 
   ("i_104", mkDims 3 9); ("i_105", mkDims 1 4); ("i_106", mkDims 10 7); ("i_107", mkDims 3 3); 
   ("i_108", mkDims 5 15); ("i_109", mkDims 2 4); ("i_110", mkDims 33 8); ("i_111", mkDims 16 5); 
   ("i_112", mkDims 9 12); ("i_113", mkDims 10 11); ("i_114", mkDims 6 3); ("i_115", mkDims 10 11); 
   ("i_116", mkDims 39 8); ("i_117", mkDims 17 113); ("i_118", mkDims 13 36); ("i_119", mkDims 28 8); 
   ("i_120", mkDims 17 7); ("i_121", mkDims 42 9); ("i_122", mkDims 22 57); ("i_123", mkDims 2 1); 
   ("i_124", mkDims 15 9); ("i_125", mkDims 30 8); ("i_126", mkDims 26 7); ("i_127", mkDims 16 32); 
   ("i_128", mkDims 71 25); ("i_129", mkDims 12 25); ("i_130", mkDims 22 20); ("i_131", mkDims 9 55); 
   ("i_132", mkDims 13 27); ("i_133", mkDims 65 16); ("i_134", mkDims 1 3); ("i_135", mkDims 5 2); 
   ("i_136", mkDims 16 57); ("i_137", mkDims 2 1); ("i_138", mkDims 3 3); ("i_139", mkDims 3 2); 
   ("i_140", mkDims 25 11); ("i_141", mkDims 11 8); ("i_142", mkDims 6 4); ("i_143", mkDims 10 9); 
   ("i_144", mkDims 25 8); ("i_145", mkDims 10 6); ("i_146", mkDims 12 15); ("i_147", mkDims 6 19); 
   ("i_148", mkDims 2 4); ("i_149", mkDims 4 7); ("i_150", mkDims 4 2); ("i_151", mkDims 6 7); 
   ("i_152", mkDims 13 3); ("i_153", mkDims 29 5); ("i_154", mkDims 2 2); ("i_155", mkDims 8 15); 
   ("i_156", mkDims 5 28); ("i_157", mkDims 8 42); ("i_158", mkDims 4 27); ("i_159", mkDims 3 2); 
   ("i_160", mkDims 18 4); ("i_161", mkDims 17 5); ("i_162", mkDims 2 8); ("i_163", mkDims 2 11); 
   ("i_164", mkDims 1 2); ("i_165", mkDims 3 18); ("i_166", mkDims 17 10); ("i_167", mkDims 7 5); 
   ("i_168", mkDims 3 10); ("i_169", mkDims 5 31); ("i_170", mkDims 19 9); ("i_171", mkDims 7 8); 
   ("i_172", mkDims 10 3); ("i_173", mkDims 11 37); ("i_174", mkDims 1 4); ("i_175", mkDims 6 32); 
   ("i_176", mkDims 1 5); ("i_177", mkDims 12 5); ("i_178", mkDims 7 33); ("i_179", mkDims 2 8); 
   ("i_180", mkDims 6 11); ("i_181", mkDims 9 9); ("i_182", mkDims 4 27); ("i_183", mkDims 10 11); 
   ("i_184", mkDims 38 9); ("i_185", mkDims 5 7); ("i_186", mkDims 6 2); ("i_187", mkDims 3 6); 
   ("i_188", mkDims 6 2); ("i_189", mkDims 32 5); ("i_190", mkDims 12 4); ("i_191", mkDims 16 3); 
   ("i_192", mkDims 72 15); ("i_193", mkDims 14 14); ("i_194", mkDims 2 6); ("i_195", mkDims 3 9); 
   ("i_196", mkDims 12 3)].

(** hyperpack/benchmarks/datasets/hopper_and_turton_2000/C7.py:399-596 *)
Definition C7_items_c : odict dims :=
  [("i_0", mkDims 19 15); ("i_1", mkDims 4 15); ("i_2", mkDims 8 5); ("i_3", mkDims 26 5); 
   ("i_4", mkDims 21 10); ("i_5", mkDims 5 24); ("i_6", mkDims 3 7); ("i_7", mkDims 32 7); 
   ("i_8", mkDims 26 92); ("i_9", mkDims 16 92); ("i_10", mkDims 8 5); ("i_11", mkDims 26 5); 
   ("i_12", mkDims 3 17); ("i_13", mkDims 32 17); ("i_14", mkDims 10 5); ("i_15", mkDims 24 5); 
   ("i_16", mkDims 2 8); ("i_17", mkDims 19 8); ("i_18", mkDims 3 7); ("i_19", mkDims 3 7); 
   ("i_20", mkDims 13 10); ("i_21", mkDims 4 27); ("i_22", mkDims 10 14); ("i_23", mkDims 24 14); 
   ("i_24", mkDims 2 11); ("i_25", mkDims 19 11); ("i_26", mkDims 3 3); ("i_27", mkDims 3 3); 
   ("i_28", mkDims 5 5); ("i_29", mkDims 35 5); ("i_30", mkDims 6 17); ("i_31", mkDims 13 17); 
   ("i_32", mkDims 24 8); ("i_33", mkDims 31 8); ("i_34", mkDims 5 8); ("i_35", mkDims 35 8); 
   ("i_36", mkDims 24 5); ("i_37", mkDims 31 5); ("i_38", mkDims 5 5); ("i_39", mkDims 35 5); 
   ("i_40", mkDims 11 44); ("i_41", mkDims 12 44); ("i_42", mkDims 38 17); ("i_43", mkDims 57 17); 
   ("i_44", mkDims 13 5); ("i_45", mkDims 17 5); ("i_46", mkDims 8 17); ("i_47", mkDims 36 20); 
   ("i_48", mkDims 21 20); ("i_49", mkDims 13 12); ("i_50", mkDims 17 12); ("i_51", mkDims 5 15); 
   ("i_52", mkDims 10 6); ("i_53", mkDims 15 6); ("i_54", mkDims 8 50); ("i_55", mkDims 30 16); 
   ("i_56", mkDims 6 16); ("i_57", mkDims 15 10); ("i_58", mkDims 6 10); ("i_59", mkDims 10 9); 
   ("i_60", mkDims 15 9); ("i_61", mkDims 6 8); ("i_62", mkDims 5 8); ("i_63", mkDims 12 40); 
   ("i_64", mkDims 9 33); ("i_65", mkDims 6 33); ("i_66", mkDims 6 37); ("i_67", mkDims 5 35); 
   ("i_68", mkDims 21 13); ("i_69", mkDims 4 13); ("i_70", mkDims 4 17); ("i_71", mkDims 22 17); 
   ("i_72", mkDims 16 34); ("i_73", mkDims 6 32); ("i_74", mkDims 5 32); ("i_75", mkDims 14 23); 
   ("i_76", mkDims 16 23); ("i_77", mkDims 6 31); ("i_78", mkDims 21 22); ("i_79", mkDims 4 22); 
   ("i_80", mkDims 4 17); ("i_81", mkDims 22 17); ("i_82", mkDims 14 8); ("i_83", mkDims 16 8); 
   ("i_84", mkDims 9 4); ("i_85", mkDims 6 4); ("i_86", mkDims 20 4); ("i_87", mkDims 22 4); 
   ("i_88", mkDims 5 29); ("i_89", mkDims 38 7); ("i_90", mkDims 33 7); ("i_91", mkDims 7 32); 
   ("i_92", mkDims 5 32); ("i_93", mkDims 30 49); ("i_94", mkDims 5 22); ("i_95", mkDims 9 22); 
   ("i_96", mkDims 6 37); ("i_97", mkDims 6 31); ("i_98", mkDims 16 31); ("i_99", mkDims 2 7); 
   ("i_100", mkDims 25 7); ("i_101", mkDims 11 12); ("i_102", mkDims 33 22); ("i_103", mkDims 2 5); 
   ("i_104", mkDims 25 5); ("i_105", mkDims 27 10); ("i_106", mkDims 11 10); ("i_107", mkDims 5 15); 
   ("i_108", mkDims 9 15); ("i_109", mkDims 5 30); ("i_110", mkDims 11 13); ("i_111", mkDims 30 13); 
   ("i_112", mkDims 30 21); ("i_113", mkDims 7 17); ("i_114", mkDims 5 17); ("i_115", mkDims 6 24); 
   ("i_116", mkDims 6 22); ("i_117", mkDims 10 22); ("i_118", mkDims 3 2); ("i_119", mkDims 3 2); 
   ("i_120", mkDims 8 10); ("i_121", mkDims 6 18); ("i_122", mkDims 11 8); ("i_123", mkDims 30 8); 
   ("i_124", mkDims 3 8); ("i_125", mkDims 3 8); ("i_126", mkDims 12 65); ("i_127", mkDims 5 5); 
   ("i_128", mkDims 16 5); ("i_129", mkDims 6 9); ("i_130", mkDims 3 9); ("i_131", mkDims 41 9); 
   ("i_132", mkDims 17 3); ("i_133", mkDims 13 3); ("i_134", mkDims 6 8); ("i_135", mkDims 8 8); 
   ("i_136", mkDims 17 6); ("i_137", mkDims 13 6); ("i_138", mkDims 5 11); ("i_139", mkDims 16 11); 
   ("i_140", mkDims 6 2); ("i_141", mkDims 10 2); ("i_142", mkDims 6 7); ("i_143", mkDims 3 7); 
   ("i_144", mkDims 8 10); ("i_145", mkDims 14 3); ("i_146", mkDims 12 3); ("i_147", mkDims 3 3); 
   ("i_148", mkDims 5 3); ("i_149", mkDims 10 26); ("i_150", mkDims 4 10); ("i_151", mkDims 47 10); 
   ("i_152", mkDims 3 11); ("i_153", mkDims 12 11); ("i_154", mkDims 14 7); ("i_155", mkDims 12 7); 
   ("i_156", mkDims 3 18); ("i_157", mkDims 5 18); ("i_158", mkDims 12 10); ("i_159", mkDims 9 10); 
   ("i_160", mkDims 9 49); ("i_161", mkDims 5 7); ("i_162", mkDims 3 7); ("i_163", mkDims 26 11); 
   ("i_164", mkDims 4 8); ("i_165", mkDims 47 8); ("i_166", mkDims 3 7); ("i_167", mkDims 12 7); 
   ("i_168", mkDims 12 39); ("i_169", mkDims 9 39); ("i_170", mkDims 5 4); ("i_171", mkDims 3 4); 
   ("i_172", mkDims 51 8); ("i_173", mkDims 15 8); ("i_174", mkDims 7 4); ("i_175", mkDims 2 4); 
   ("i_176", mkDims 25 11); ("i_177", mkDims 8 34); ("i_178", mkDims 7 7); ("i_179", mkDims 2 7); 
   ("i_180", mkDims 10 29); ("i_181", mkDims 2 10); ("i_182", mkDims 5 10); ("i_183", mkDims 59 19); 
   ("i_184", mkDims 9 23); ("i_185", mkDims 22 15); ("i_186", mkDims 3 15); ("i_187", mkDims 2 9); 
   ("i_188", mkDims 4 7); ("i_189", mkDims 1 7); ("i_190", mkDims 4 2); ("i_191", mkDims 1 2); 
   ("i_192", mkDims 7 10); ("i_193", mkDims 59 10); ("i_194", mkDims 22 8); ("i_195", mkDims 3 8)].

(** The 21 problems: the containers and the items of each. *)
Definition benchmarks : list (odict dims * odict dims) :=
  [(C1_containers, C1_items_a); (C1_containers, C1_items_b); (C1_containers, C1_items_c);
   (C2_containers, C2_items_a); (C2_containers, C2_items_b); (C2_containers, C2_items_c);
   (C3_containers, C3_items_a); (C3_containers, C3_items_b); (C3_containers, C3_items_c);
   (C4_containers, C4_items_a); (C4_containers, C4_items_b); (C4_containers, C4_items_c);
   (C5_containers, C5_items_a); (C5_containers, C5_items_b); (C5_containers, C5_items_c);
   (C6_containers, C6_items_a); (C6_containers, C6_items_b); (C6_containers, C6_items_c);
   (C7_containers, C7_items_a); (C7_containers, C7_items_b); (C7_containers, C7_items_c)].

(** The dictionaries as they stand in the modules: [{id: {"w": ..., "l": ...}, ...}], with "W" and
    "L" for the containers. *)
Definition container_dict (l : odict dims) : pyval :=
  VDict (map (fun p => (VStr (fst p), VDict [(VStr "W", VInt (dw (snd p))); (VStr "L", VInt (dl (snd p)))])) l).
Definition item_dict (l : odict dims) : pyval :=
  VDict (map (fun p => (VStr (fst p), VDict [(VStr "w", VInt (dw (snd p))); (VStr "l", VInt (dl (snd p)))])) l).
