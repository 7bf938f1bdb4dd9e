(** The two fields and the two drivers of the crate (driver.rs:6-42). *)
From Coq Require Import ZArith List Bool Lia Field.
From Verif Require Import LimbModel FieldModel FieldSpec FieldMore FieldProofs Primes Algebra GroupLib CurveSpec WeierModel WeierProofs CurveAb CurveParams ExtParams CircuitFields R1csSpec
  Groth16Spec CurveOrder NovaModel NovaSpec NovaProofs.
Import ListNotations.
Local Open Scope Z_scope.

(** The round constants are digests of an external hash function (hash.rs:19-31); any lists do. *)
Definition fr_pf (consts : list FrFld) : pfield := mkPf FrFld fr_bits fr_val fr_mk fr_pow2 k0 254 consts.
Definition fq_pf (consts : list FqFld) : pfield := mkPf FqFld fq_bits fq_val fq_mk fq_pow2 k0 254 consts.
Lemma fr_field_ok cs : field_ok (fr_pf cs) R_MOD. Proof. split; [exact fr_circuit|exact fr_mk_val]. Qed.
Lemma fq_field_ok cs : field_ok (fq_pf cs) Q_MOD. Proof. split; [exact fq_circuit|exact fq_mk_val]. Qed.

Section Driver.
Variables (B S : pfield) (b bo : B) (q p : Z).
Hypothesis OK : curve_ok B b bo.
Notation G := (cgrp B b (proj1 (proj2 OK)) (proj1 (proj2 (proj2 OK))) (proj2 (proj2 (proj2 OK)))).
Definition pt_eqb (P Q : point B) : bool :=
  match P, Q with Inf, Inf => true | Pt x y, Pt x' y' => keqb x x' && keqb y y' | _, _ => false end.
(** The coordinates of the affine form; those of the point at infinity are 0 and 1 ([ADDITIVE_IDENTITY]). *)
Definition curve_driver (b3 : B) : driver B S :=
  mkDriver B S G (fun P Q => pt_eqb (cval B b P) (cval B b Q)) (fun P s => zmul (pf_val S s) P)
    (fun P => match cval B b P with Inf => k0 | Pt x _ => x end) (fun P => match cval B b P with Inf => k1 | Pt _ y => y end)
    (fun P => match cval B b P with Inf => true | Pt _ _ => false end) p b3.
Lemma curve_driver_eqb b3 (P Q : d_pt (curve_driver b3)) : d_eqb (curve_driver b3) P Q = true <-> P = Q.
Proof.
  cbn [d_eqb curve_driver]. split.
  - intros E. apply cpt_eq. revert E. generalize (cval B b P) (cval B b Q). intros [|x y] [|x' y'] E; cbn in E; try discriminate; [reflexivity|].
    apply andb_true_iff in E. destruct E as [E1 E2]. apply (keqb_eq B) in E1, E2. subst. reflexivity.
  - intros ->. destruct (cval B b Q) as [|x y]; [reflexivity|]. cbn. rewrite !(keqb_refl B). reflexivity.
Qed.
Hypothesis OS : field_ok S p.
Hypothesis K : forall P : G, zmul p P = a0.
Lemma curve_driver_module b3 : module_laws S (d_pt (curve_driver b3)) (d_mul (curve_driver b3)).
Proof.
  cbn [d_pt d_mul curve_driver]. pose proof (fo_cf _ _ OS) as CF. split; [|split; [|split]].
  - intros P a c. rewrite (cf_add _ _ _ _ _ _ _ CF), (zmul_mod G p _ P (K P)). apply zmul_add.
  - intros P Q a. apply zmul_dist.
  - intros P a c. rewrite (cf_mul _ _ _ _ _ _ _ CF), (zmul_mod G p _ P (K P)), Z.mul_comm. symmetry. apply zmul_mul.
  - intros P. rewrite (cf_one _ _ _ _ _ _ _ CF). apply zmul_1.
Qed.
End Driver.
Section Drivers.
Variables (cr : list FrFld) (cq : list FqFld).
(** [Bn254Driver] (driver.rs:25-42): G1 over Fq with scalars in Fr. *)
Definition bn254_driver : driver (fq_pf cq) (fr_pf cr) := curve_driver (fq_pf cq) (fr_pf cr) g1_param_b g1_param_b3 R_MOD g1_ok g1_param_b3.
(** [GrumpkinDriver] (driver.rs:6-23): Grumpkin over Fr with scalars in Fq. *)
Definition grumpkin_driver : driver (fr_pf cr) (fq_pf cq) := curve_driver (fr_pf cr) (fq_pf cq) grumpkin_param_b grumpkin_param_b3 Q_MOD grumpkin_ok grumpkin_param_b3.
Lemma bn254_module : module_laws (fr_pf cr) (d_pt bn254_driver) (d_mul bn254_driver).
Proof. exact (curve_driver_module (fq_pf cq) (fr_pf cr) g1_param_b g1_param_b3 R_MOD g1_ok (fr_field_ok cr) g1_killed g1_param_b3). Qed.
Lemma grumpkin_module : module_laws (fq_pf cq) (d_pt grumpkin_driver) (d_mul grumpkin_driver).
Proof. exact (curve_driver_module (fr_pf cr) (fq_pf cq) grumpkin_param_b grumpkin_param_b3 Q_MOD grumpkin_ok (fq_field_ok cq) grumpkin_killed grumpkin_param_b3). Qed.
Theorem bn254_driver_ok : driver_ok bn254_driver Q_MOD R_MOD.
Proof. split; [apply fq_field_ok|apply fr_field_ok|apply curve_driver_eqb|exact bn254_module]. Qed.
Theorem grumpkin_driver_ok : driver_ok grumpkin_driver R_MOD Q_MOD.
Proof. split; [apply fr_field_ok|apply fq_field_ok|apply curve_driver_eqb|exact grumpkin_module]. Qed.
End Drivers.
