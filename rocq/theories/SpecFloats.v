(** * Vocabulary of the statements about doubles: the exact rational a double stands for. *)
From Coq Require Import ZArith QArith List Bool Floats SpecFloat.
From Verif Require Import Py Construct Spec.
Import ListNotations.
Open Scope Z_scope.

(** Neither infinite nor a NaN. *)
Definition finite (x : float) : Prop :=
  match Prim2SF x with S754_zero _ | S754_finite _ _ _ => True | _ => False end.

(** [+-m * 2^e]; 0 for the doubles that are not finite. *)
Definition fvalue (x : float) : Q :=
  match Prim2SF x with
  | S754_finite s m e => (inject_Z (if s then Zneg m else Zpos m) * Qpower 2 e)%Q
  | _ => 0%Q
  end.

(** [x] is a double nearest to [q]. *)
Definition nearest (x : float) (q : Q) : Prop :=
  finite x /\ forall y, finite y -> (Qabs.Qabs (fvalue x - q) <= Qabs.Qabs (fvalue y - q))%Q.

(** The exact quotient. *)
Definition ratio (a b : Z) : Q := (inject_Z a / inject_Z b)%Q.

(** The share of each container's area that the stored items add up to. *)
Definition utilizations (pb : problem) (sol : solution) : list Q :=
  map (fun kc => match dget (pb_containers pb) (fst kc) with
                 | Some c => ratio (total_area (entries (snd kc))) (dw c * dl c)
                 | None => 0%Q
                 end) sol.

(** The sum, the last one counting for 7/10 unless it is the only one. *)
Definition weighted (us : list Q) : Q :=
  match rev us with
  | [] => 0%Q
  | [only] => only
  | last :: front => (qsum front + (7 # 10) * last)%Q
  end.

(** 2^-52, the distance of 1 to the next double. *)
Definition ulp52 : Q := 1 # 4503599627370496.
Example ulp52_pow : ulp52 = 1 # (2 ^ 52). Proof. reflexivity. Qed.
