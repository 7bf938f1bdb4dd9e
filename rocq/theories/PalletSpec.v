(** What a history of calls should leave behind. *)
From Coq Require Import ZArith List Bool.
From Verif Require Import PalletModel.
Import ListNotations.

Section Spec.
Variables (rproof pparams : Type) (valid : pparams -> rproof -> Prop).
(** The call is one that should take effect, and its value for the first, the second slot. *)
Inductive sets1 : extrinsic rproof pparams -> Z -> Prop :=
  sets1_intro who v p pp : valid pp p -> sets1 (Signed who, SetThing1 v p pp) v.
Inductive sets2 : extrinsic rproof pparams -> Z -> Prop :=
  sets2_intro who v : sets2 (Signed who, SetThing2 v) v.
(** [v] is the last value set in the history, zero if none was. *)
Inductive last_set (sets : extrinsic rproof pparams -> Z -> Prop) : list (extrinsic rproof pparams) -> Z -> Prop :=
  | last_none h : Forall (fun x => forall v, ~ sets x v) h -> last_set sets h 0
  | last_some h1 x v h2 : sets x v -> Forall (fun x => forall v, ~ sets x v) h2 -> last_set sets (h1 ++ x :: h2) v.
(** The events of a history: one for every call that took effect, in order. *)
Inductive trace : list (extrinsic rproof pparams) -> list (Z * Z) -> Prop :=
  | trace_nil : trace [] []
  | trace_1 x v h l : sets1 x v -> trace h l -> trace (x :: h) ((1%Z, v) :: l)
  | trace_2 x v h l : sets2 x v -> trace h l -> trace (x :: h) ((2%Z, v) :: l)
  | trace_skip x h l : (forall v, ~ sets1 x v) -> (forall v, ~ sets2 x v) -> trace h l -> trace (x :: h) l.
(** Every value in the calls is a [u32]. *)
Definition u32 (v : Z) : Prop := (0 <= v < 2 ^ 32)%Z.
Definition u32_call (x : extrinsic rproof pparams) : Prop :=
  match snd x with SetThing1 v _ _ => u32 v | SetThing2 v => u32 v | NovaVerify _ _ => True end.
End Spec.
