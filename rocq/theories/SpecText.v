(** * Vocabulary of the statements about texts (C45, C67). *)
From Coq Require Import ZArith String Ascii List Bool QArith Qabs.
From Verif Require Import Py Arith Construct Spec LocalSearch Values Settings Instance SpecInstance Report SpecReport.
Import ListNotations.
Open Scope string_scope.
Open Scope list_scope.
Open Scope Z_scope.

(** The value of a text of decimal digits. *)
Definition digit_value (c : ascii) : option Z :=
  let n := Z.of_nat (nat_of_ascii c) in if (48 <=? n) && (n <=? 57) then Some (n - 48) else None.
Fixpoint digits_value (acc : Z) (s : string) : option Z :=
  match s with
  | EmptyString => Some acc
  | String c t => match digit_value c with Some d => digits_value (10 * acc + d) t | None => None end
  end.

(** [t] is the positive number [z] in decimals, without leading zeros (a side given as [True] shows
    as that). *)
Definition decimal (t : string) (z : Z) : Prop :=
  digits_value 0 t = Some z /\ t <> "" /\ (forall u, t = ("0" ++ u)%string -> u = "").
Definition side_text (t : string) (z : Z) : Prop := decimal t z \/ (t = "True" /\ z = 1).

(** [t] is [q] with four decimals: a text [digits.dddd] that stands for [n / 10000], off by at most
    half a unit of the last decimal (and the relative error of two operations on doubles). *)
Definition shown4 (t : string) (q : Q) : Prop :=
  exists a b n, t = (a ++ "." ++ b)%string /\ String.length b = 4%nat /\ a <> "" /\
    digits_value 0 (a ++ b)%string = Some n /\
    (Qabs ((n # 10000) - q) <= (1 # 20000) + q * (1 # 2 ^ 50))%Q.

(** No line break in an identifier. *)
Definition one_line (id : string) : Prop := ~ In (ascii_of_nat 10) (list_ascii_of_string id).

(** Reading the text of a Python list of strings back: literals in single or double quotes with the
    escapes of [repr], separated by a comma and a space. *)
Definition hex_value (c : ascii) : option nat :=
  let n := nat_of_ascii c in
  if ((48 <=? n) && (n <=? 57))%nat then Some (n - 48)%nat
  else if ((97 <=? n) && (n <=? 102))%nat then Some (n - 87)%nat else None.
Definition backslash : ascii := ascii_of_nat 92.
Fixpoint read_literal (quote : ascii) (s : string) : option (string * string) :=
  let more c t := match read_literal quote t with Some (v, rest) => Some (String c v, rest) | None => None end in
  match s with
  | EmptyString => None
  | String c t =>
      if Ascii.eqb c quote then Some ("", t)
      else if Ascii.eqb c backslash
      then match t with
           | EmptyString => None
           | String d u =>
               if Ascii.eqb d "n" then more (ascii_of_nat 10) u
               else if Ascii.eqb d "r" then more (ascii_of_nat 13) u
               else if Ascii.eqb d "t" then more (ascii_of_nat 9) u
               else if Ascii.eqb d "x"
               then match u with
                    | String h (String k v) =>
                        match hex_value h, hex_value k with
                        | Some a, Some b => more (ascii_of_nat (16 * a + b)) v
                        | _, _ => None
                        end
                    | _ => None
                    end
               else more d u
           end
      else more c t
  end.
(** Double quotes are used only around strings that contain single ones and no double ones. *)
Definition contains (c : ascii) (s : string) : bool := existsb (Ascii.eqb c) (list_ascii_of_string s).
Definition right_quote (q : ascii) (s : string) : bool :=
  Bool.eqb (Ascii.eqb q (ascii_of_nat 34)) (contains (ascii_of_nat 39) s && negb (contains (ascii_of_nat 34) s)).
(** After the opening bracket or a separator; [fuel]: more than the number of strings. *)
Fixpoint read_strings (fuel : nat) (s : string) : option (list string) :=
  match fuel, s with
  | S n, String q t =>
      if Ascii.eqb q (ascii_of_nat 39) || Ascii.eqb q (ascii_of_nat 34)
      then match read_literal q t with
           | Some (v, "]") => if right_quote q v then Some [v] else None
           | Some (v, String "," (String " " rest)) =>
               if right_quote q v
               then match read_strings n rest with Some l => Some (v :: l) | None => None end
               else None
           | _ => None
           end
      else None
  | _, _ => None
  end.
Definition reads_as (t : string) (l : list string) : Prop :=
  (t = "[]" /\ l = []) \/ exists rest, t = String "[" rest /\ read_strings (S (String.length t)) rest = Some l.

(** The text of one line of the log. *)
Inductive line_text : line -> string -> Prop :=
| lt_title : line_text LTitle (String (ascii_of_nat 10) "Solution Log:")
| lt_percent q t : shown4 t q -> line_text (LPercent q) ("Percent total items stored : " ++ t ++ "%")%string
| lt_container id w l a b : side_text a w -> side_text b l ->
    line_text (LContainer id w l) ("Container: " ++ id ++ " " ++ a ++ "x" ++ b)%string
| lt_util q t : shown4 t q -> line_text (LUtil q) (String (ascii_of_nat 9) "[util%] : " ++ t ++ "%")%string
| lt_height h t : decimal t h -> line_text (LMaxHeight h) (String (ascii_of_nat 9) "[max height] : " ++ t)%string
| lt_remaining ids t : reads_as t ids -> line_text (LRemaining ids) (String (ascii_of_nat 10) "Remaining items : " ++ t)%string.

(** The text of Items, and of Containers: a title, and for every entry, in order, an empty line (the
    end of the one before) and lines with its identifier, its width and, but for a strip, its length. *)
Definition newline : string := String (ascii_of_nat 10) "".
Definition entry_text (with_length : bool) (p : string * dims) (t : string) : Prop :=
  exists w l, side_text w (dw (snd p)) /\ side_text l (dl (snd p)) /\
    t = (newline ++ "  - id: " ++ fst p ++ newline ++ "    width: " ++ w ++ newline ++
         (if with_length then "    length: " ++ l ++ newline else ""))%string.
Definition structure_text (title : string) (with_length : bool) (es : odict dims) (t : string) : Prop :=
  exists texts, Forall2 (entry_text with_length) es texts /\ t = (title ++ String.concat "" texts)%string.
