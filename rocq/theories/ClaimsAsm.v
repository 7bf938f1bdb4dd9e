(** C67: the assembly backend of the limb arithmetic (AsmModel.v) against the portable one
    (LimbModel.v) and against integers. *)
From Coq Require Import ZArith List Bool Lia Znumtheory Zpow_facts.
From Verif Require Import LimbModel LimbProofs MontProofs FieldModel FieldSpec FieldProofs
  AsmModel AsmSpec AsmProofs AsmMul AsmSquare AsmPure.
Import ListNotations.
Local Open Scope Z_scope.

(** The value of every function depends on its arguments alone, not on what the registers
    and flags held before the block ([options(pure)]). *)
Theorem C67_pure s t a b p :
  asm_add s a b p = asm_add t a b p /\ asm_sub s a b p = asm_sub t a b p /\
  asm_double s a p = asm_double t a p /\ asm_neg s a p = asm_neg t a p /\
  asm_mul s a b p = asm_mul t a b p /\ asm_square s a p = asm_square t a p.
Proof.
  repeat split; [apply asm_add_pure|apply asm_sub_pure|apply asm_double_pure|apply asm_neg_pure|
    apply asm_mul_pure|apply asm_square_pure].
Qed.

(** Addition, subtraction, doubling and negation return the words of the portable backend,
    for every array of words and every modulus, reduced or not. *)
Theorem C67_linear_agree s a b p : limbs_ok a -> limbs_ok b -> limbs_ok p ->
  asm_add s a b p = add a b p /\ asm_sub s a b p = sub a b p /\
  asm_double s a p = double a p /\ asm_neg s a p = neg a p.
Proof.
  intros Ha Hb Hp. apply limbs_ok_wf in Ha, Hb, Hp.
  auto using asm_add_eq, asm_sub_eq, asm_double_eq, asm_neg_eq.
Qed.

Lemma mod_case m x : 0 < m -> 0 <= x < 2 * m -> x mod m = if x <? m then x else x - m.
Proof.
  intros Hm Hx. destruct (Z.ltb_spec x m); [apply Z.mod_small; lia|].
  symmetry. apply (Z.mod_unique _ _ 1); lia.
Qed.

(** Their integer meaning on reduced arguments. *)
Theorem C67_linear_values s a b p : limbs_ok p -> 0 < limb_value p -> 2 * limb_value p <= 2 ^ 256 ->
  reduced (limb_value p) a -> reduced (limb_value p) b ->
  limb_value (asm_add s a b p) = (limb_value a + limb_value b) mod limb_value p /\
  limb_value (asm_sub s a b p) = (limb_value a - limb_value b) mod limb_value p /\
  limb_value (asm_double s a p) = (2 * limb_value a) mod limb_value p /\
  limb_value (asm_neg s a p) = (- limb_value a) mod limb_value p.
Proof.
  intros Hp P0 P2 [Ha La] [Hb Lb]. apply limbs_ok_wf in Ha, Hb, Hp. rewrite (limb_value_val p) in P0, P2, La, Lb |- *.
  rewrite (limb_value_val a) in La |- *. rewrite (limb_value_val b) in Lb |- *.
  rewrite (limb_value_val (asm_add s a b p)), (limb_value_val (asm_sub s a b p)),
    (limb_value_val (asm_double s a p)), (limb_value_val (asm_neg s a p)).
  change (2 ^ 256) with ((2 ^ 64) ^ 4) in P2. change (2 ^ 64) with B in P2.
  pose proof (val_range a Ha) as Ra. pose proof (val_range b Hb) as Rb. pose proof (val_range p Hp) as Rp.
  destruct (asm_add_val s a b p Ha Hb Hp) as [_ ->]. destruct (asm_sub_val s a b p Ha Hb Hp) as [_ ->].
  destruct (asm_double_val s a p Ha Hp) as [_ ->]. destruct (asm_neg_val s a p Ha Hp) as [_ ->].
  cbv zeta. rewrite (Z.mod_small (val a + val b) (B^4)), (Z.mod_small (2 * val a) (B^4)) by lia.
  split; [symmetry; apply mod_case; lia|].
  split.
  { destruct (Z.ltb_spec (val a) (val b)).
    - rewrite (Z.mod_small _ (B^4)) by lia. apply (Z.mod_unique _ _ (-1)); lia.
    - symmetry. apply Z.mod_small. lia. }
  split; [symmetry; apply mod_case; lia|].
  destruct (Z.eqb_spec (val a) 0) as [->|]; [reflexivity|]. rewrite (Z.mod_small _ (B^4)) by lia.
  apply (Z.mod_unique _ _ (-1)); lia.
Qed.

(** Uniqueness of a Montgomery product. *)
Lemma mont_unique p inv r r' x M M' : mod_ok p inv -> wf r -> wf r' -> val r < val p -> val r' < val p ->
  val r * B^4 = x + M * val p -> val r' * B^4 = x + M' * val p -> r = r'.
Proof.
  intros Hm W W' L L' E E'. apply val_inj; auto.
  assert (G : rel_prime (val p) (B^4)).
  { apply rel_prime_Zpower_r; [lia|].
    pose proof (mo_inv _ _ Hm) as Hi. pose proof Bpos.
    apply bezout_rel_prime.
    assert (D : w0 p * inv + 1 = B * ((w0 p * inv + 1) / B)) by (pose proof (Z.div_mod (w0 p * inv + 1) B); lia).
    set (u := (w0 p * inv + 1) / B) in *.
    apply Bezout_intro with (v := u + inv * (w1 p + B * w2 p + B^2 * w3 p)) (u := - inv).
    unfold val. transitivity (B * u - inv * w0 p); [ring|]. lia. }
  assert (D : (val p | (val r - val r') * B^4)) by (exists (M - M'); lia).
  rewrite Z.mul_comm in D. apply Gauss in D; [|exact G]. destruct D as [c Hc].
  pose proof (val_range r W). pose proof (val_range r' W').
  assert (c = 0) by nia. lia.
Qed.

(** Multiplication, for a modulus whose Montgomery constant is the one written into the
    block: on reduced arguments, and when the run drops no carry, the result is the word
    array of the portable backend, the reduced representative of [a * b / 2^256]. *)
Theorem C67_mul_when_exact s a b p : mod_ok p ASM_INV ->
  reduced (limb_value p) a -> reduced (limb_value p) b ->
  no_lost_carry (MemOf a b p) mul_body s = true ->
  asm_mul s a b p = mul a b p ASM_INV /\
  reduced (limb_value p) (asm_mul s a b p) /\
  (limb_value (asm_mul s a b p) * 2 ^ 256) mod limb_value p = (limb_value a * limb_value b) mod limb_value p.
Proof.
  intros Hm [Ha La] [Hb Lb] H. apply limbs_ok_wf in Ha, Hb.
  rewrite (limb_value_val p) in La, Lb |- *. rewrite (limb_value_val a) in La |- *.
  rewrite (limb_value_val b) in Lb |- *.
  pose proof (val_range a Ha) as Ra. pose proof (val_range b Hb) as Rb. pose proof (mo_half _ _ Hm).
  assert (L : val a * val b < val p * B^4) by (apply Z.mul_lt_mono_nonneg; lia).
  destruct (asm_mul_spec s a b p Hm Ha Hb L H) as (W & Lt & M & E).
  destruct (mul_spec a b p ASM_INV Hm Ha Hb L) as (W' & Lt' & M' & E').
  split; [exact (mont_unique p ASM_INV _ _ _ _ _ Hm W W' Lt Lt' E E')|].
  unfold reduced. rewrite (limb_value_val (asm_mul s a b p)). split; [split; [apply limbs_ok_wf, W|exact Lt]|].
  change (2 ^ 256) with ((2 ^ 64) ^ 4). change (2 ^ 64) with B. rewrite E.
  apply Z.mod_add. pose proof (mo_one _ _ Hm). lia.
Qed.

(** Squaring, likewise (the portable [square] has a lost carry of its own, C01). *)
Theorem C67_square_when_exact s a p : mod_ok p ASM_INV -> reduced (limb_value p) a ->
  no_lost_carry (MemOf a a p) square_body s = true ->
  asm_square s a p = mul a a p ASM_INV /\
  reduced (limb_value p) (asm_square s a p) /\
  (limb_value (asm_square s a p) * 2 ^ 256) mod limb_value p = (limb_value a * limb_value a) mod limb_value p.
Proof.
  intros Hm [Ha La] H. apply limbs_ok_wf in Ha.
  rewrite (limb_value_val p) in La |- *. rewrite (limb_value_val a) in La |- *.
  pose proof (val_range a Ha) as Ra. pose proof (mo_half _ _ Hm).
  assert (L : val a * val a < val p * B^4) by (apply Z.mul_lt_mono_nonneg; lia).
  destruct (asm_square_spec s a p Hm Ha L H) as (W & Lt & M & E).
  destruct (mul_spec a a p ASM_INV Hm Ha Ha L) as (W' & Lt' & M' & E').
  split; [exact (mont_unique p ASM_INV _ _ _ _ _ Hm W W' Lt Lt' E E')|].
  unfold reduced. rewrite (limb_value_val (asm_square s a p)). split; [split; [apply limbs_ok_wf, W|exact Lt]|].
  change (2 ^ 256) with ((2 ^ 64) ^ 4). change (2 ^ 64) with B. rewrite E.
  apply Z.mod_add. pose proof (mo_one _ _ Hm). lia.
Qed.

Definition reset : cpu := Cpu 0 0 0 0 0 0 0 0 0 0 0 false false.

Lemma jubjub_mod_ok : mod_ok JUBJUB_MODULUS ASM_INV.
Proof.
  split.
  - unfold wf, word. rewrite Bval. cbn. lia.
  - rewrite Bval. vm_compute. reflexivity.
  - rewrite Bval. vm_compute. reflexivity.
  - unfold val. rewrite Bval. vm_compute. reflexivity.
Qed.

(** Non-vacuity: the modulus the constant belongs to, and arguments with four full words. *)
Example C67_exact_case :
  let a := L4 0x0123456789abcdef 0xfedcba9876543210 0x0f1e2d3c4b5a6978 0x0d00000000000001 in
  let b := L4 0xdeadbeefcafebabe 0x1122334455667788 0x99aabbccddeeff00 0x0abcdef012345678 in
  ASM_INV = JUBJUB_INV /\ reduced (limb_value JUBJUB_MODULUS) a /\ reduced (limb_value JUBJUB_MODULUS) b /\
  no_lost_carry (MemOf a b JUBJUB_MODULUS) mul_body reset = true /\
  no_lost_carry (MemOf a a JUBJUB_MODULUS) square_body reset = true.
Proof.
  cbv zeta. unfold reduced, limbs_ok, limb_ok. cbn [w0 w1 w2 w3].
  repeat split; try lia; vm_compute; reflexivity.
Qed.

(** Multiplication is not the field product: two reduced elements of that field for which a
    dropped carry changes the result, from whatever state the block starts. *)
Definition lossy_a : l4 := L4 0xffffffffffffffff 0x073eda753299d7d4 0 0.
Definition lossy_b : l4 := L4 1 0x073eda753299d7d4 0x073eda753299d7d4 0x073eda753299d7d4.

Theorem C67_mul_refuted :
  reduced (limb_value JUBJUB_MODULUS) lossy_a /\ reduced (limb_value JUBJUB_MODULUS) lossy_b /\
  forall s,
    asm_mul s lossy_a lossy_b JUBJUB_MODULUS <> mul lossy_a lossy_b JUBJUB_MODULUS JUBJUB_INV /\
    (limb_value (asm_mul s lossy_a lossy_b JUBJUB_MODULUS) * 2 ^ 256) mod limb_value JUBJUB_MODULUS
      <> (limb_value lossy_a * limb_value lossy_b) mod limb_value JUBJUB_MODULUS.
Proof.
  split; [|split].
  - unfold reduced, limbs_ok, limb_ok, lossy_a. cbn [w0 w1 w2 w3]. repeat split; try lia.
  - unfold reduced, limbs_ok, limb_ok, lossy_b. cbn [w0 w1 w2 w3]. repeat split; try lia.
  - intros s. rewrite (asm_mul_pure s reset). split; vm_compute; discriminate.
Qed.

Definition lossy_c : l4 := L4 0xfffffffffffffffe 0xffffffffffffffff 1 0.

Theorem C67_square_refuted :
  reduced (limb_value JUBJUB_MODULUS) lossy_c /\
  forall s,
    asm_square s lossy_c JUBJUB_MODULUS <> square lossy_c JUBJUB_MODULUS JUBJUB_INV /\
    (limb_value (asm_square s lossy_c JUBJUB_MODULUS) * 2 ^ 256) mod limb_value JUBJUB_MODULUS
      <> (limb_value lossy_c * limb_value lossy_c) mod limb_value JUBJUB_MODULUS.
Proof.
  split.
  - unfold reduced, limbs_ok, limb_ok, lossy_c. cbn [w0 w1 w2 w3]. repeat split; try lia.
  - intros s. rewrite (asm_square_pure s reset). split; vm_compute; discriminate.
Qed.

(** For the fields of this repository the constant is wrong altogether: with their moduli
    the product of the Montgomery form of one with itself is not one. *)
Theorem C67_bn254_refuted s :
  mul (fR fr) (fR fr) (fmod fr) (finv fr) = fR fr /\ asm_mul s (fR fr) (fR fr) (fmod fr) <> fR fr /\
  mul (fR fq) (fR fq) (fmod fq) (finv fq) = fR fq /\ asm_mul s (fR fq) (fR fq) (fmod fq) <> fR fq.
Proof.
  rewrite !(fun a b p => asm_mul_pure s reset a b p).
  split; [vm_compute; reflexivity|]. split; [vm_compute; discriminate|].
  split; [vm_compute; reflexivity|vm_compute; discriminate].
Qed.

(** Non-vacuity of the linear theorems: a sum that wraps and a difference that borrows. *)
Example C67_linear_case :
  asm_add reset (L4 5 0 0 0) (L4 0xd0970e5ed6f72cb6 0xa6682093ccc81082 0x06673b0101343b00 0x0e7db4ea6533afa9) JUBJUB_MODULUS = L4 4 0 0 0 /\
  asm_sub reset (L4 5 0 0 0) (L4 6 0 0 0) JUBJUB_MODULUS = L4 0xd0970e5ed6f72cb6 0xa6682093ccc81082 0x06673b0101343b00 0x0e7db4ea6533afa9 /\
  asm_neg reset (L4 0 0 0 0) JUBJUB_MODULUS = L4 0 0 0 0 /\
  asm_neg reset (L4 1 0 0 0) JUBJUB_MODULUS = L4 0xd0970e5ed6f72cb6 0xa6682093ccc81082 0x06673b0101343b00 0x0e7db4ea6533afa9.
Proof. vm_compute. auto. Qed.
