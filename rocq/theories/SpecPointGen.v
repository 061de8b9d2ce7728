(** * Vocabulary of the statements about PointGenPack (C68). *)
From Coq Require Import ZArith String List Bool.
From Verif Require Import Py Arith Construct LocalSearch Values Settings Instance SpecInstance PointGen.
Import ListNotations.
Open Scope string_scope.
Open Scope list_scope.
Open Scope Z_scope.

(** The settings without those of the searches. *)
Definition search_setting (k : pyval) : bool :=
  key_eqb k (VStr "max_time_in_seconds") || key_eqb k (VStr "workers_num").
Definition keep_settings (d : vdict) : vdict := filter (fun p => negb (search_setting (fst p))) d.
Definition common_settings (v : pyval) : pyval :=
  match v with VDict d => VDict (keep_settings d) | _ => v end.

(** The same operation, with the same settings except those of the searches. *)
Definition common_op (o : op) : op :=
  match o with
  | OpSetSettings env v => OpSetSettings env (common_settings v)
  | OpEditSettings d => OpEditSettings (keep_settings d)
  | _ => o
  end.

(** The operations a PointGenPack has. *)
Definition offered (o : op) : bool :=
  match o with
  | OpOrient _ | OpSort _ | OpLocalSearch _ _ | OpHypersearch _ _ _ _ _ => false
  | _ => true
  end.

Section Play.
Context {ar : arith}.

(** Operations one after the other, and what each of them returned or raised. *)
Fixpoint play (step : op -> M ar unit) (l : list op) (s : machine ar) : machine ar * list (result unit) :=
  match l with
  | [] => (s, [])
  | o :: t => let '(s1, r) := step o s in let '(s2, rs) := play step t s1 in (s2, r :: rs)
  end.

(** The two objects are the same but for the settings of the searches. *)
Definition alike (p h : machine ar) : Prop :=
  h = set_cfg p (with_settings (m_cfg p) (common_settings (c_settings (m_cfg p)))).

Definition pg_history (env : environment) (containers items settings width : pyval)
           (l : list op) (s : machine ar) : Prop :=
  exists s0 rs, pg_create ar env containers items settings width (blank ar) = (s0, Ok tt) /\ play (pg_run ar) l s0 = (s, rs).
End Play.
