(** The scalar modulus of BLS12-381 is prime: a Pocklington certificate. *)
From Coq Require Import ZArith List Bool Lia Znumtheory.
From Verif Require Import Primes MacroSpec.
Import ListNotations.
Local Open Scope Z_scope.

Lemma trial_prime fuel n : (1 <? n) && trial fuel 2 n = true -> prime n.
Proof.
  intros H. apply andb_true_iff in H as [H1 H2]. apply Z.ltb_lt in H1.
  apply (trial_sound fuel 2); [lia|exact H1| |exact H2]. intros e He. lia.
Qed.
Lemma prime_f0 : prime 63690073. Proof. apply (trial_prime (Z.to_nat 8000)). vm_compute. reflexivity. Qed.
Lemma prime_f1 : prime 254760293. Proof. pk 2 [63690073]; auto using prime_f0. Qed.
Lemma prime_f3 : prime 906349. Proof. sp. Qed.
Lemma BLS_prime : prime BLS_MOD.
Proof.
  unfold BLS_MOD. pkp 5%positive [(2, 32); (254760293, 2); (906349, 2)]%positive; auto using prime_2, prime_f1, prime_f3.
Qed.
(** Euler's criterion, one way: a residue whose power to [(p - 1) / 2] is not 1 is no square. *)
Lemma not_square p d : prime p -> 2 < p -> p mod 2 = 1 -> d mod p <> 0 -> d ^ ((p - 1) / 2) mod p <> 1 -> forall s, (s * s) mod p <> d mod p.
Proof.
  intros PR G O ND N s E. apply N. set (h := (p - 1) / 2) in *.
  assert (H : p - 1 = 2 * h). { pose proof (Z.div_mod p 2 ltac:(lia)). unfold h. replace (p - 1) with ((p / 2) * 2) by lia. rewrite Z.div_mul by lia. lia. }
  rewrite <- pow_mod_idem, <- E, pow_mod_idem, <- Z.pow_2_r, <- Z.pow_mul_r, <- H by lia.
  rewrite (fermat p s PR); [apply Z.mod_small; lia|]. intros D. apply ND. rewrite <- E. apply Z.mod_divide; [lia|]. apply Z.divide_mul_l, D.
Qed.
