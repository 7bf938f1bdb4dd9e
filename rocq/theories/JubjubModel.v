(** The instance of the field and Edwards macros in zkstd/tests/jubjub.rs: the scalar field of BLS12-381 and Jubjub. *)
From Coq Require Import ZArith.
From Verif Require Import LimbModel FieldModel.
Local Open Scope Z_scope.

(** zkstd/tests/jubjub.rs:42-47, 63-83: BLS_SCALAR_MODULUS, BLS_SCALAR_R, R2, R3, INV. *)
Definition bls : fparams := {|
  fmod := L4 0xffffffff00000001 0x53bda402fffe5bfe 0x3339d80809a1d805 0x73eda753299d7d48;
  finv := 0xfffffffeffffffff;
  fR := L4 0x00000001fffffffe 0x5884b7fa00034802 0x998c4fefecbc4ff5 0x1824b159acc5056f;
  fR2 := L4 0xc999e990f3f29c6d 0x2b6cedcb87925c23 0x05d314967254398f 0x0748d9d99f59ff11;
  fR3 := L4 0xc62c1807439b73af 0x1b3e0d188cf06990 0x73d13c71c7b5f418 0x6e2a5bb9c8db33e9 |}.
(** jubjub.rs:49-61: BLS_SCALAR_GENERATOR and BLS_SCALAR_MULTIPLICATIVE_GENERATOR (Montgomery form). *)
Definition bls_generator : l4 := L4 0x0000000efffffff1 0x17e363d300189c0f 0xff9c57876f8457b0 0x351332208fc5a8c4.
(** jubjub.rs:85-92: S and ROOT_OF_UNITY. *)
Definition bls_s : Z := 32.
Definition bls_root : l4 := L4 0xb9b58d8c5f0e466a 0x5b1b4c801819d7ec 0x0af53ae352a31e64 0x5bf3adda19e9b27b.
(** jubjub.rs:94-99: EDWARDS_D, [to_mont_form] of the literal. *)
Definition jub_d : l4 := fto_mont_form bls (L4 0x01065fd6d6343eb1 0x292d7f6d37579d26 0xf5fd9207e6bd7fd4 0x2a9318e74bfa2b48).
(** jubjub.rs:101-120: X, Y and T of the generator. *)
Definition jub_x : l4 := fto_mont_form bls (L4 0x4df7b7ffec7beaca 0x2e3ebb21fd6c54ed 0xf1fbf02d0fd6cce6 0x3fd2814c43ac65a6).
Definition jub_y : l4 := fto_mont_form bls (L4 0x12 0 0 0).
Definition jub_t : l4 := fto_mont_form bls (L4 0x7b6af007a0b6822b 0x4ebe6448d1acbcb8 0x36ae4ae2c669cfff 0x697235704b95be33).
