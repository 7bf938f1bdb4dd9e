(** The rest of bn254/src/gt.rs: [double], [Mul], the assigning operators, the generator, [invert].
    Simplification: the operators on references and by value are one function each ([&self + &rhs] is what all four call). *)
From Coq Require Import ZArith List Bool.
From Verif Require Import LimbModel FieldModel FieldSpec Algebra ExtModel ExtParams ExtFrob PairingModel.
Import ListNotations.
Local Open Scope Z_scope.

(** gt.rs:68-78 [AddAssign], 128-138 [SubAssign]. *)
Definition gt_add_assign (F : Fld) (a b : q12 F) : q12 F := gt_add F a b.
Definition gt_sub_assign (F : Fld) (a b : q12 F) : q12 F := gt_sub F a b.
(** gt.rs:141-153 [Mul], [MulAssign]. *)
Definition gt_mul (F : Fld) (a b : q12 F) : q12 F := q12_mul F a b.
(** gt.rs:155-159 [double]. *)
Definition gt_double (F : Fld) (a : q12 F) : q12 F := q12_sq F a.
(** gt.rs:14-16 [invert]: [unimplemented!()], [None] = the panic. *)
Definition gt_invert (F : Fld) (a : q12 F) : option (option (q12 F)) := None.
(** fqn.rs:149-243 [Fq12::generator], gt.rs:11 [ADDITIVE_GENERATOR]; the limbs are below the modulus, in Montgomery form. *)
Definition gt_lit (c : l4) : FqFld := fq_mk (limb_value (montgomery_reduce fq c)).
Definition gt_generator : q12 FqFld :=
  Q12 (Q6 (Q2 (gt_lit (L4 0xc556f62b2a98671d 0x23a59ac167bcf363 0x5ef208445f5f6f37 0x12adf27ccb29382a))
        (gt_lit (L4 0x2e02a64acbd60549 0xd618018ea58e4add 0x14d585f1a45ba647 0x1832226987c434fc)))
      (Q2 (gt_lit (L4 0x2306e4312363b991 0x465f6072d4023bf4 0xa2ff062a4a77e736 0x76ea6f18435864a))
        (gt_lit (L4 0x172d1f257a4d598e 0xddf5bc7b7ffb5ac0 0xae0b22c0bbb0f602 0x1b158f3c2fae9b18)))
      (Q2 (gt_lit (L4 0x5cf9cc917da86724 0xc799dc487a0b2753 0xdf2027bf1de17a7 0x197cda6cc3e20636))
        (gt_lit (L4 0xf16c96d081754cdb 0xce0394312bceeb55 0x644e4dcf1f01ff0a 0xcbea85ee0b236cc))))
    (Q6 (Q2 (gt_lit (L4 0x1bb0ce0def1b82a1 0x4c4c9fe1cadefa95 0x746d9990cb12b27e 0x13495c08e5d415c5))
        (gt_lit (L4 0x9458abcb56d24998 0xb17540bd2a9e5adb 0x9a9983c82e401a9f 0x1614817a84c16291)))
      (Q2 (gt_lit (L4 0x8975b68a2bab1f9c 0x2fdd826b796e0f35 0x6a90a35fa03dfaa5 0x1ffef4581607fc37))
        (gt_lit (L4 0x7002907c28ebfe11 0x7b0591d3d080da67 0xde7e5aa2181f138e 0x210e437dfc43d951)))
      (Q2 (gt_lit (L4 0x988ae2485b36cf53 0x5091cc0581334e54 0xda7903229312ca0f 0x2a2341538eaee95c))
        (gt_lit (L4 0xd34bab373157aa84 0x3511ed44fd0d8598 0x67e42a0bc2ced972 0x2b8f1d5dfd20c55b)))).
Definition gt_generator_limbs : list l4 := [
  (L4 0xc556f62b2a98671d 0x23a59ac167bcf363 0x5ef208445f5f6f37 0x12adf27ccb29382a);
  (L4 0x2e02a64acbd60549 0xd618018ea58e4add 0x14d585f1a45ba647 0x1832226987c434fc);
  (L4 0x2306e4312363b991 0x465f6072d4023bf4 0xa2ff062a4a77e736 0x76ea6f18435864a);
  (L4 0x172d1f257a4d598e 0xddf5bc7b7ffb5ac0 0xae0b22c0bbb0f602 0x1b158f3c2fae9b18);
  (L4 0x5cf9cc917da86724 0xc799dc487a0b2753 0xdf2027bf1de17a7 0x197cda6cc3e20636);
  (L4 0xf16c96d081754cdb 0xce0394312bceeb55 0x644e4dcf1f01ff0a 0xcbea85ee0b236cc);
  (L4 0x1bb0ce0def1b82a1 0x4c4c9fe1cadefa95 0x746d9990cb12b27e 0x13495c08e5d415c5);
  (L4 0x9458abcb56d24998 0xb17540bd2a9e5adb 0x9a9983c82e401a9f 0x1614817a84c16291);
  (L4 0x8975b68a2bab1f9c 0x2fdd826b796e0f35 0x6a90a35fa03dfaa5 0x1ffef4581607fc37);
  (L4 0x7002907c28ebfe11 0x7b0591d3d080da67 0xde7e5aa2181f138e 0x210e437dfc43d951);
  (L4 0x988ae2485b36cf53 0x5091cc0581334e54 0xda7903229312ca0f 0x2a2341538eaee95c);
  (L4 0xd34bab373157aa84 0x3511ed44fd0d8598 0x67e42a0bc2ced972 0x2b8f1d5dfd20c55b)].
