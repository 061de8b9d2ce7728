(** * The texts the API gives: str(items), str(containers) and the log of a solution.

    Models Items.__str__ and Containers.__str__ (/repo/hyperpack/structures.py:296-310, 327-337)
    and the text of SolutionLoggingMixin.log_solution (/repo/hyperpack/mixins.py:633-671), with
    its percentages computed in doubles. Text outside ASCII is kept as it is (CPython's [repr]
    escapes some of it). *)
From Coq Require Import ZArith String Ascii List Bool Decimal DecimalString SpecFloat Floats.
From Verif Require Import Py Arith FloatArith Construct LocalSearch Values Settings Instance Report Utils.
Import ListNotations.
Open Scope string_scope.
Open Scope list_scope.
Open Scope Z_scope.

(** ** Numbers and strings as text *)

(** [f"{z}"] of an integer. *)
Definition z_str (z : Z) : string := NilZero.string_of_int (Z.to_int z).

(** [f"{v}"] of a side: an integer or a bool. Other values do not occur. *)
Definition side_str (v : pyval) : result string :=
  match v with
  | VInt z => Ok (z_str z)
  | VBool b => Ok (if b then "True" else "False")
  | _ => Err unusable
  end.

Definition nl : string := String (ascii_of_nat 10) "".
Definition tab : string := String (ascii_of_nat 9) "".

(** [sep.join(l)] *)
Definition join (sep : string) (l : list string) : string := String.concat sep l.

(** [f"{x:.4f}"] of a double: the nearest multiple of 1/10000, ties to even. *)
Definition digit (n : Z) : string := String (ascii_of_nat (48 + Z.to_nat n)) "".
Definition fixed4 (n : Z) : string :=
  (z_str (n / 10000) ++ "." ++ digit (n / 1000 mod 10) ++ digit (n / 100 mod 10) ++ digit (n / 10 mod 10) ++ digit (n mod 10))%string.
Definition ten_thousandths (m : positive) (e : Z) : Z :=
  if 0 <=? e then Zpos m * 2 ^ e * 10000 else round_div (Zpos m * 10000) (2 ^ (- e)).
Definition f4 (x : spec_float) : string :=
  match x with
  | S754_zero s => ((if s then "-" else "") ++ fixed4 0)%string
  | S754_finite s m e => ((if s then "-" else "") ++ fixed4 (ten_thousandths m e))%string
  | S754_infinity s => if s then "-inf" else "inf"
  | S754_nan => "nan"
  end.

(** [repr(s)] of a string: single quotes, unless it contains some and no double ones. *)
Definition hex (n : nat) : ascii := ascii_of_nat (if (n <? 10)%nat then 48 + n else 87 + n).
Definition escaped (quote c : ascii) : string :=
  let n := nat_of_ascii c in
  if Ascii.eqb c quote || (n =? 92)%nat then String (ascii_of_nat 92) (String c "")
  else if (n =? 9)%nat then String (ascii_of_nat 92) "t"
  else if (n =? 10)%nat then String (ascii_of_nat 92) "n"
  else if (n =? 13)%nat then String (ascii_of_nat 92) "r"
  else if (n <? 32)%nat || (n =? 127)%nat
  then String (ascii_of_nat 92) (String "x" (String (hex (n / 16)) (String (hex (n mod 16)) "")))
  else String c "".
Fixpoint escape (quote : ascii) (s : string) : string :=
  match s with EmptyString => "" | String c t => (escaped quote c ++ escape quote t)%string end.
Definition has_char (c : ascii) (s : string) : bool := existsb (Ascii.eqb c) (list_ascii_of_string s).
Definition single : ascii := ascii_of_nat 39.
Definition double : ascii := ascii_of_nat 34.
Definition quote_of (s : string) : ascii := if has_char single s && negb (has_char double s) then double else single.
Definition repr_str (s : string) : string :=
  let q := quote_of s in (String q "" ++ escape q s ++ String q "")%string.

(** [f"{l}"] of a list of strings. *)
Definition repr_list (l : list string) : string := ("[" ++ join ", " (map repr_str l) ++ "]")%string.

Section Text.
Context {ar : arith}.

(** ** str(items), str(containers) *)

(** [self.data[structure_id][key]] as text, for the dimensions object [r]. *)
Definition dim_str (s : machine ar) (r : nat) (key : string) : result string :=
  match nth_error (m_dims s) r with
  | Some o => match vget (do_data o) (VStr key) with Some v => side_str v | None => Err KeyError end
  | None => Err nothing_there
  end.

(** One entry of the list of strings. A strip's length is not shown. *)
Definition entry_str (s : machine ar) (k : kind) (id : string) (r : nat) : result string :=
  w <- dim_str s r (wkey k) ;;
  l <- dim_str s r (lkey k) ;;
  Ok (match k with
      | KContainers => if m_strip s then ("  - id: " ++ id ++ nl ++ "    width: " ++ w ++ nl)%string
                       else ("  - id: " ++ id ++ nl ++ "    width: " ++ w ++ nl ++ "    length: " ++ l ++ nl)%string
      | KItems => ("  - id: " ++ id ++ nl ++ "    width: " ++ w ++ nl ++ "    length: " ++ l ++ nl)%string
      end).

Fixpoint entry_strs (s : machine ar) (k : kind) (d : vdict) : result (list string) :=
  match d with
  | [] => Ok []
  | (VStr id, VDims r) :: t => x <- entry_str s k id r ;; y <- entry_strs s k t ;; Ok (x :: y)
  | _ :: _ => Err unusable
  end.

(** __str__ of the structure at [h], structures.py:296-310, 327-337. *)
Definition struct_str (s : machine ar) (h : nat) : result string :=
  match nth_error (m_structs s) h with
  | Some o => l <- entry_strs s (so_kind o) (so_data o) ;;
              Ok (join nl ((match so_kind o with KContainers => "Containers" | KItems => "Items" end) :: l))
  | None => Err nothing_there
  end.

(** ** The text of the log *)

(** The double 100.0. *)
Definition hundred : spec_float := S754_finite false 7036874417766400 (-46).

(** [self._containers[cont_id][key]] as text. *)
Definition container_dim (s : machine ar) (cid key : string) : result string :=
  match nth_error (m_structs s) (m_containers s) with
  | Some o => match vget (so_data o) (VStr cid) with
              | Some (VDims r) => dim_str s r key
              | Some _ => Err unusable
              | None => Err KeyError
              end
  | None => Err nothing_there
  end.

(** mixins.py:649-664. The height of a strip is an integer (a minimum height [True] is kept as 1). *)
Definition container_lines (s : machine ar) (x : inst ar) (cid : string) : result (list string) :=
  l <- get_height ar x cid ;;
  c <- dget_r (pb_containers (in_pb x)) cid ;;
  lt <- (if m_strip s then Ok (z_str l) else container_dim s cid (lkey KContainers)) ;;
  wt <- container_dim s cid (wkey KContainers) ;;
  csol <- dget_r (in_sol x) cid ;;
  u <- true_div (stored_area csol * 100) (dw c * l) ;;
  Ok ([("Container: " ++ cid ++ " " ++ wt ++ "x" ++ lt)%string; (tab ++ "[util%] : " ++ f4 u ++ "%")%string] ++
      if m_strip s then [(tab ++ "[max height] : " ++ z_str (solution_height csol))%string] else []).

Fixpoint containers_lines (s : machine ar) (x : inst ar) (cids : list string) : result (list string) :=
  match cids with
  | [] => Ok []
  | cid :: t => a <- container_lines s x cid ;; b <- containers_lines s x t ;; Ok (a ++ b)
  end.

(** log_solution(), mixins.py:633-671: the text returned, [None] without a solution. *)
Definition log_text (s : machine ar) : result (option string) :=
  match m_sol s with
  | [] => Ok None
  | _ :: _ =>
      match view s with
      | Some x =>
          p <- true_div (stored_count (in_sol x)) (zlen (pb_items (in_pb x))) ;;
          cs <- containers_lines s x (dkeys (pb_containers (in_pb x))) ;;
          Ok (Some (join nl ([(nl ++ "Solution Log:")%string;
                              ("Percent total items stored : " ++ f4 (SFmul prec emax p hundred) ++ "%")%string] ++ cs ++
                             [(nl ++ "Remaining items : " ++ repr_list (remaining_items x))%string])))
      | None => Err unusable
      end
  end.
End Text.
