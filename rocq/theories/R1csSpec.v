(** What constraint systems mean.  An assignment gives a value to every wire; the prover's own one is
    read off the instance and witness vectors.  Soundness statements quantify over all assignments. *)
From Coq Require Import ZArith List Bool.
From Verif Require Import Algebra R1csModel.
Import ListNotations.
Local Open Scope fld_scope.

Section Spec.
Variable F : Fld.
Definition asg : Type := wire -> F.
(** The value of a linear combination. *)
Definition lc (s : asg) (r : row F) : F := ksum (map (fun e => snd e * s (fst e)) r).
(** A gate [a * b = c] and the gates of a system. *)
Definition gate3 : Type := row F * (row F * row F).
Definition holds (s : asg) (g : gate3) : Prop := lc s (fst g) * lc s (fst (snd g)) = lc s (snd (snd g)).
Definition gates (cs : r1cs F) : list gate3 := combine (r_a cs) (combine (r_b cs) (r_c cs)).
(** An assignment satisfies a system: the constant wire is one and all gates hold. *)
Definition satisfies (s : asg) (cs : r1cs F) : Prop := s ONE = 1 /\ Forall (holds s) (gates cs).
(** The prover's assignment. *)
Definition own (cs : r1cs F) : asg := fun w => match wire_value (r_x cs) (r_w cs) w with Some v => v | None => 0 end.
Definition in_range (cs : r1cs F) (w : wire) : Prop :=
  match w with Inst i => (i < length (r_x cs))%nat | Wit i => (i < length (r_w cs))%nat end.
(** Rows over existing wires, none repeated. *)
Definition row_ok (cs : r1cs F) (r : row F) : Prop := Forall (in_range cs) (map fst r) /\ NoDup (map fst r).
(** Systems as the library builds them. *)
Definition wf_cs (cs : r1cs F) : Prop :=
  length (r_a cs) = r_m cs /\ length (r_b cs) = r_m cs /\ length (r_c cs) = r_m cs /\ nth_error (r_x cs) 0 = Some 1 /\
  Forall (fun r => Forall (in_range cs) (map fst r)) (r_a cs ++ r_b cs ++ r_c cs).
(** [cs'] has the wires, values and gates of [cs], and possibly more. *)
Definition extends (cs cs' : r1cs F) : Prop :=
  (exists dx, r_x cs' = r_x cs ++ dx) /\ (exists dw, r_w cs' = r_w cs ++ dw) /\ (exists new, gates cs' = gates cs ++ new).
(** Running [g] succeeds, keeps a satisfied system satisfied and returns what [Q] says. *)
Definition complete_at {A} (cs : r1cs F) (g : G F A) (Q : r1cs F -> A -> Prop) : Prop :=
  exists a cs', g cs = Some (a, cs') /\ wf_cs cs' /\ extends cs cs' /\ (is_sat F cs = Some true -> is_sat F cs' = Some true) /\ Q cs' a.
(** Whatever the assignment, if it satisfies the system [g] leaves behind, [R] holds of the result. *)
Definition sound_at {A} (cs : r1cs F) (g : G F A) (R : asg -> A -> Prop) : Prop :=
  forall a cs', g cs = Some (a, cs') -> forall s, satisfies s cs' -> R s a.
(** An adversary can complete every satisfying assignment of [cs] to one that satisfies the system [g]
    leaves behind, without changing existing wires and with [R] of the result. *)
Definition admits {A} (cs : r1cs F) (g : G F A) (R : asg -> A -> Prop) : Prop :=
  forall s, satisfies s cs -> exists a cs' s', g cs = Some (a, cs') /\ satisfies s' cs' /\ (forall w, in_range cs w -> s' w = s w) /\ R s' a.
(** The column of wire [w]: its coefficients in the rows, with the row numbers. *)
Definition column (w : wire) (rows : list (row F)) : list (F * nat) :=
  flat_map (fun '(i, r) => map (fun e => (snd e, i)) (filter (fun e => wire_eqb (fst e) w) r)) (combine (seq 0 (length rows)) rows).
End Spec.
Arguments admits {F A}. Arguments column {F}.
Arguments lc {F}. Arguments holds {F}. Arguments gates {F}. Arguments satisfies {F}. Arguments own {F}. Arguments in_range {F}.
Arguments row_ok {F}. Arguments wf_cs {F}. Arguments extends {F}. Arguments complete_at {F A}. Arguments sound_at {F A}.

(** The number whose binary digits, most significant first, are [l]. *)
Fixpoint bval (l : list bool) : Z := match l with [] => 0 | b :: l => Z.b2z b * 2 ^ Z.of_nat (length l) + bval l end.
(** In the assignment [s] the wires [ws] carry the bits [bs]. *)
Definition is_bits {F : Fld} (s : asg F) (ws : list wire) (bs : list bool) : Prop := Forall2 (fun w b => s w = kbit F b) ws bs.
(** The field functions the bit gadgets call: elements are residues modulo a 254-bit [p]; [bits] gives
    the 256 binary digits of the residue; [pow2 k - 1] is [2^k - 1]; [modulus - 1] is the largest residue. *)
Record circuit_field (F : Fld) (val : F -> Z) (p : Z) (bits : F -> list bool) (pow2 : nat -> F) (modulus : F) (nbits : nat) : Prop := {
  cf_p : (2 ^ 253 < p < 2 ^ 254)%Z;
  cf_nbits : nbits = 254%nat;
  cf_len : forall v, length (bits v) = 256%nat;
  cf_bits : forall v, bval (bits v) = val v;
  cf_range : forall v, (0 <= val v < p)%Z;
  cf_inj : forall v w, val v = val w -> v = w;
  cf_zero : val 0 = 0%Z;
  cf_one : val 1 = 1%Z;
  cf_add : forall v w, val (v + w) = ((val v + val w) mod p)%Z;
  cf_mul : forall v w, val (v * w) = ((val v * val w) mod p)%Z;
  cf_mod : val (modulus - 1) = (p - 1)%Z;
  cf_pow2 : forall k, (1 <= k < 254)%nat -> val (pow2 k - 1) = (2 ^ Z.of_nat k - 1)%Z
}.
