(** The constants of bn254/src/params.rs and bn254/src/pairing.rs, on limbs.
    Generated from the source text; [fq_raw] is the literal [Fq([..])]. *)
From Coq Require Import ZArith List Bool.
From Verif Require Import LimbModel FieldModel FieldSpec FieldProofs Algebra ExtModel.
Import ListNotations.
Local Open Scope Z_scope.

(** A literal [Fq([l0, l1, l2, l3])] whose limbs are below the modulus. *)
Definition fq_raw (a : l4) (H : redb Q_MOD a = true) : FqFld := exist _ a H.
(** A literal [Fq::to_mont_form([..])]. *)
Definition fq_mont (a : l4) : FqFld := fq_mk (limb_value a).
Notation FQ2 := (q2 FqFld).

(** params.rs:59-74. *)
Definition frob_fq2_c1 : list FqFld := [
  (fq_raw (L4 0xd35d438dc58f0d9d 0x0a78eb28f5c70b3d 0x666ea36f7879462c 0x0e0a77c19a07df2f) eq_refl);
  (fq_raw (L4 0x68c3488912edefaa 0x8d087f6872aabf4f 0x51e1a24709081231 0x2259d6b14729c0fa) eq_refl)].

(** params.rs:76-152. *)
Definition frob_fq6_c1 : list FQ2 := [
  Q2 (fq_raw (L4 0xd35d438dc58f0d9d 0x0a78eb28f5c70b3d 0x666ea36f7879462c 0x0e0a77c19a07df2f) eq_refl) (fq_raw (L4 0 0 0 0) eq_refl);
  Q2 (fq_raw (L4 0xb5773b104563ab30 0x347f91c8a9aa6454 0x7a007127242e0991 0x1956bcd8118214ec) eq_refl) (fq_raw (L4 0x6e849f1ea0aa4757 0xaa1c7b6d89f89141 0xb6e713cdfae0ca3a 0x26694fbb4e82ebc3) eq_refl);
  Q2 (fq_raw (L4 0x3350c88e13e80b9c 0x7dce557cdb5e56b9 0x6001b4b8b615564a 0x2682e617020217e0) eq_refl) (fq_raw (L4 0 0 0 0) eq_refl);
  Q2 (fq_raw (L4 0xc9af22f716ad6bad 0xb311782a4aa662b2 0x19eeaf64e248c7f4 0x20273e77e3439f82) eq_refl) (fq_raw (L4 0xacc02860f7ce93ac 0x3933d5817ba76b4c 0x69e6188b446c8467 0x0a46036d4417cc55) eq_refl);
  Q2 (fq_raw (L4 0x71930c11d782e155 0xa6bb947cffbe3323 0xaa303344d4741444 0x2c3b3f0d26594943) eq_refl) (fq_raw (L4 0 0 0 0) eq_refl);
  Q2 (fq_raw (L4 0xf91aba2654e8e3b1 0x4771cb2fdc92ce12 0xdcb16ae0fc8bdf35 0x274aa195cd9d8be4) eq_refl) (fq_raw (L4 0x5cfc50ae18811f8b 0x4bb28433cb43988c 0x4fd35f13c3b56219 0x301949bd2fc8883a) eq_refl)].

(** params.rs:154-230. *)
Definition frob_fq6_c2 : list FQ2 := [
  Q2 (fq_raw (L4 0xd35d438dc58f0d9d 0x0a78eb28f5c70b3d 0x666ea36f7879462c 0x0e0a77c19a07df2f) eq_refl) (fq_raw (L4 0 0 0 0) eq_refl);
  Q2 (fq_raw (L4 0x7361d77f843abe92 0xa5bb2bd3273411fb 0x9c941f314b3e2399 0x15df9cddbb9fd3ec) eq_refl) (fq_raw (L4 0x5dddfd154bd8c949 0x62cb29a5a4445b60 0x37bc870a0c7dd2b9 0x24830a9d3171f0fd) eq_refl);
  Q2 (fq_raw (L4 0x71930c11d782e155 0xa6bb947cffbe3323 0xaa303344d4741444 0x2c3b3f0d26594943) eq_refl) (fq_raw (L4 0 0 0 0) eq_refl);
  Q2 (fq_raw (L4 0x448a93a57b6762df 0xbfd62df528fdeadf 0xd858f5d00e9bd47a 0x06b03d4d3476ec58) eq_refl) (fq_raw (L4 0x2b19daf4bcc936d1 0xa1a54e7a56f4299f 0xb533eee05adeaef1 0x170c812b84dda0b2) eq_refl);
  Q2 (fq_raw (L4 0x3350c88e13e80b9c 0x7dce557cdb5e56b9 0x6001b4b8b615564a 0x2682e617020217e0) eq_refl) (fq_raw (L4 0 0 0 0) eq_refl);
  Q2 (fq_raw (L4 0x843420f1d8dadbd6 0x31f010c9183fcdb2 0x436330b527a76049 0x13d47447f11adfe4) eq_refl) (fq_raw (L4 0xef494023a857fa74 0x2a925d02d5ab101a 0x83b015829ba62f10 0x2539111d0c13aea3) eq_refl)].

(** params.rs:232-383. *)
Definition frob_fq12_c1 : list FQ2 := [
  Q2 (fq_raw (L4 0xd35d438dc58f0d9d 0x0a78eb28f5c70b3d 0x666ea36f7879462c 0x0e0a77c19a07df2f) eq_refl) (fq_raw (L4 0 0 0 0) eq_refl);
  Q2 (fq_raw (L4 0xaf9ba69633144907 0xca6b1d7387afb78a 0x11bded5ef08a2087 0x02f34d751a1f3a7c) eq_refl) (fq_raw (L4 0xa222ae234c492d72 0xd00f02a4565de15b 0xdc2ff3a253dfc926 0x10a75716b3899551) eq_refl);
  Q2 (fq_raw (L4 0xca8d800500fa1bf2 0xf0c5d61468b39769 0x0e201271ad0d4418 0x04290f65bad856e6) eq_refl) (fq_raw (L4 0 0 0 0) eq_refl);
  Q2 (fq_raw (L4 0x365316184e46d97d 0x0af7129ed4c96d9f 0x659da72fca1009b5 0x08116d8983a20d23) eq_refl) (fq_raw (L4 0xb1df4af7c39c1939 0x3d9f02878a73bf7f 0x9b2220928caf0ae0 0x26684515eff054a6) eq_refl);
  Q2 (fq_raw (L4 0x3350c88e13e80b9c 0x7dce557cdb5e56b9 0x6001b4b8b615564a 0x2682e617020217e0) eq_refl) (fq_raw (L4 0 0 0 0) eq_refl);
  Q2 (fq_raw (L4 0x86b76f821b329076 0x408bf52b4d19b614 0x53dfb9d0d985e92d 0x051e20146982d2a7) eq_refl) (fq_raw (L4 0x0fbc9cd47752ebc7 0x6d8fffe33415de24 0xbef22cf038cf41b9 0x15c0edff3c66bf54) eq_refl);
  Q2 (fq_raw (L4 0x68c3488912edefaa 0x8d087f6872aabf4f 0x51e1a24709081231 0x2259d6b14729c0fa) eq_refl) (fq_raw (L4 0 0 0 0) eq_refl);
  Q2 (fq_raw (L4 0x8c84e580a568b440 0xcd164d1de0c21302 0xa692585790f737d5 0x2d7100fdc71265ad) eq_refl) (fq_raw (L4 0x99fdddf38c33cfd5 0xc77267ed1213e931 0xdc2052142da18f36 0x1fbcf75c2da80ad7) eq_refl);
  Q2 (fq_raw (L4 0x71930c11d782e155 0xa6bb947cffbe3323 0xaa303344d4741444 0x2c3b3f0d26594943) eq_refl) (fq_raw (L4 0 0 0 0) eq_refl);
  Q2 (fq_raw (L4 0x05cd75fe8a3623ca 0x8c8a57f293a85cee 0x52b29e86b7714ea8 0x2852e0e95d8f9306) eq_refl) (fq_raw (L4 0x8a41411f14e0e40e 0x59e26809ddfe0b0d 0x1d2e2523f4d24d7d 0x09fc095cf1414b83) eq_refl);
  Q2 (fq_raw (L4 0x08cfc388c494f1ab 0x19b315148d1373d4 0x584e90fdcb6c0213 0x09e1685bdf2f8849) eq_refl) (fq_raw (L4 0 0 0 0) eq_refl);
  Q2 (fq_raw (L4 0xb5691c94bd4a6cd1 0x56f575661b581478 0x64708be5a7fb6f30 0x2b462e5e77aecd82) eq_refl) (fq_raw (L4 0x2c63ef42612a1180 0x29f16aae345bec69 0xf95e18c648b216a4 0x1aa36073a4cae0d4) eq_refl)].

(** pairing.rs:11-24. *)
Definition xi_to_q_minus_1_over_2 : FQ2 := Q2 (fq_raw (L4 0xe4bbdd0c2936b629 0xbb30f162e133bacb 0x31a9d1b6f9645366 0x253570bea500f8dd) eq_refl) (fq_raw (L4 0xa1d77ce45ffe77c7 0x07affd117826d1db 0x6d16bd27bb7edc6b 0x2c87200285defecc) eq_refl).
(** params.rs:15. *)
Definition g2_generator_x : FQ2 := Q2 (fq_mont (L4 0x46debd5cd992f6ed 0x674322d4f75edadd 0x426a00665e5c4479 0x1800deef121f1e76)) (fq_mont (L4 0x97e485b7aef312c2 0xf1aa493335a9e712 0x7260bfb731fb5d25 0x198e9393920d483a)).
(** params.rs:29. *)
Definition g2_generator_y : FQ2 := Q2 (fq_mont (L4 0x4ce6cc0166fa7daa 0xe3d1e7690c43d37b 0x4aab71808dcb408f 0x12c85ea5db8c6deb)) (fq_mont (L4 0x55acdadcd122975b 0xbc4b313370b38ef3 0xec9e99ad690c3395 0x090689d0585ff075)).
(** params.rs:44. *)
Definition g2_param_b : FQ2 := Q2 (fq_mont (L4 0x3267e6dc24a138e5 0xb5b4c5e559dbefa3 0x81be18991be06ac3 0x2b149d40ceb8aaae)) (fq_mont (L4 0xe4a2bd0685c315d2 0xa74fa084e52d1852 0xcd2cafadeed8fdf4 0x009713b03af0fed4)).
(** params.rs:8-12. *)
Definition g1_generator_x : FqFld := k1.
Definition g1_generator_y : FqFld := fq_mont (L4 2 0 0 0).
Definition g1_param_b : FqFld := fq_mont (L4 3 0 0 0).
Definition g1_param_b3 : FqFld := kadd (kadd g1_param_b g1_param_b) g1_param_b.
(** g2.rs:12. *)
Definition g2_param_b3 : FQ2 := q2_add FqFld (q2_add FqFld g2_param_b g2_param_b) g2_param_b.
(** params.rs:4. *)
Definition BN_X : Z := 4965661367192848881.
(** params.rs:5. *)
Definition BN_X_IS_NEGATIVE : bool := true.
(** pairing.rs:5-9. *)
Definition SIX_U_PLUS_2_NAF : list Z := [0; 0; 0; 1; 0; 1; 0; (-1); 0; 0; 1; (-1); 0; 0; 1; 0; 0; 1; 1; 0; (-1); 0; 0; 1; 0; (-1); 0; 0; 0; 0; 1; 1; 1; 0; 0; (-1); 0; 0; 1; 0; 0; 0; 0; 0; (-1); 0; 0; 1; 1; 0; 0; (-1); 0; 0; 0; 1; 1; 0; (-1); 0; 0; 1; 0; 1; 1].
