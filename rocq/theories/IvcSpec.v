(** What incrementally verifiable computation is about: iterating a function, and what a step circuit
    has to do. *)
From Coq Require Import ZArith List Bool.
From Verif Require Import Algebra GroupLib R1csModel R1csSpec NovaModel AugmentedModel.
Import ListNotations.
Local Open Scope fld_scope.

(** [n] applications of a function. *)
Fixpoint iterate {A} (n : nat) (f : A -> A) (a : A) : A := match n with O => a | S n => f (iterate n f a) end.

Section Spec.
Variable F : Fld.
(** In the prover's values the row [r] of the system stands for [v]. *)
Definition stands_for (cs : r1cs F) (r : row F) (v : F) : Prop := row_ok cs r /\ lc (own cs) r = v.
(** Two systems with the same gates, over as many wires. *)
Definition same_system (cs cs' : r1cs F) : Prop :=
  gates cs = gates cs' /\ r_m cs = r_m cs' /\ r_a cs = r_a cs' /\ r_b cs = r_b cs' /\ r_c cs = r_c cs' /\ length (r_x cs) = length (r_x cs') /\ length (r_w cs) = length (r_w cs').
(** A function of one value with a circuit for it: the circuit, run on a row that stands for [z], adds
    witness wires and gates that hold, and returns a row that stands for the result; which gates it adds
    does not depend on values. *)
Record step_circuit (FC : fcircuit F) : Prop := {
  sc_len : forall z, length z = 1%nat -> length (fc_invoke FC z) = 1%nat;
  sc_run : forall cs rows z, wf_cs cs -> length z = 1%nat -> Forall2 (stands_for cs) rows z ->
    exists out cs' dw new, fc_invoke_cs FC rows cs = Some (out, cs') /\ wf_cs cs' /\ r_x cs' = r_x cs /\ r_w cs' = r_w cs ++ dw /\
      gates cs' = gates cs ++ new /\ Forall (holds (own cs')) new /\ Forall2 (stands_for cs') out (fc_invoke FC z);
  sc_uniform : forall cs1 cs2 rows out1 out2 d1 d2, same_system cs1 cs2 -> fc_invoke_cs FC rows cs1 = Some (out1, d1) -> fc_invoke_cs FC rows cs2 = Some (out2, d2) ->
    out1 = out2 /\ same_system d1 d2 /\ r_x d1 = r_x cs1 /\ r_x d2 = r_x cs2 }.
End Spec.
Arguments stands_for {F}. Arguments same_system {F}. Arguments step_circuit {F}.
