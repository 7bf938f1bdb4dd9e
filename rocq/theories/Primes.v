(** Number theory used to justify the field layer: Fermat's little theorem and
    Pocklington's primality criterion, and from it the primality of the two
    BN254 moduli.  Nothing here models repository code. *)
From Coq Require Import ZArith List Bool Lia Znumtheory Zpow_facts Permutation.
Import ListNotations.
Local Open Scope Z_scope.

(** ** Modular exponentiation, computable. *)
Fixpoint powmod_pos (a : Z) (e : positive) (m : Z) : Z :=
  match e with
  | xH => a mod m
  | xO e' => let h := powmod_pos a e' m in (h * h) mod m
  | xI e' => let h := powmod_pos a e' m in (((h * h) mod m) * a) mod m
  end.
Definition powmod (a e m : Z) : Z :=
  match e with Z0 => 1 mod m | Zpos q => powmod_pos a q m | Zneg _ => 0 end.

Lemma powmod_pos_spec a e m : 0 < m -> powmod_pos a e m = a ^ Zpos e mod m.
Proof.
  intros Hm. induction e as [e IH|e IH|]; cbn [powmod_pos].
  - rewrite IH. rewrite <- Z.mul_mod by lia. rewrite Z.mul_mod_idemp_l by lia. f_equal.
    change (Z.pos e~1) with (Z.succ (2 * Z.pos e)).
    rewrite Z.pow_succ_r by lia. rewrite Z.pow_twice_r. ring.
  - rewrite IH. rewrite <- Z.mul_mod by lia. f_equal.
    change (Z.pos e~0) with (2 * Z.pos e). rewrite Z.pow_twice_r. reflexivity.
  - rewrite Z.pow_1_r. reflexivity.
Qed.

Lemma powmod_spec a e m : 0 < m -> 0 <= e -> powmod a e m = a ^ e mod m.
Proof. intros Hm He. destruct e as [|e|e]; [reflexivity|apply powmod_pos_spec, Hm|lia]. Qed.

(** ** Fermat's little theorem *)
Definition prodZ (l : list Z) : Z := fold_right Z.mul 1 l.

Lemma prodZ_perm l l' : Permutation l l' -> prodZ l = prodZ l'.
Proof.
  induction 1 as [|x l l' _ IH|x y l|l l' l'' _ IH1 _ IH2]; cbn; [reflexivity| |ring|congruence].
  fold (prodZ l) (prodZ l'). rewrite IH. reflexivity.
Qed.

Lemma prodZ_map_mod p a l : 0 < p ->
  prodZ (map (fun i => (a * i) mod p) l) mod p = (a ^ Z.of_nat (length l) * prodZ l) mod p.
Proof.
  intros Hp. induction l as [|x l IH]; [reflexivity|].
  cbn [map prodZ fold_right length]. fold (prodZ (map (fun i => (a * i) mod p) l)). fold (prodZ l).
  rewrite Nat2Z.inj_succ, Z.pow_succ_r by lia.
  rewrite Z.mul_mod_idemp_l by lia. rewrite <- Z.mul_mod_idemp_r by lia. rewrite IH.
  rewrite Z.mul_mod_idemp_r by lia. f_equal. ring.
Qed.

Lemma prodZ_rel_prime p l : (forall x, In x l -> rel_prime x p) -> rel_prime (prodZ l) p.
Proof.
  induction l as [|x l IH]; intros H; cbn.
  - apply rel_prime_1.
  - apply rel_prime_sym, rel_prime_mult; apply rel_prime_sym; [apply H; left; reflexivity|].
    apply IH. intros y Hy. apply H. right. exact Hy.
Qed.

Lemma mod_eq_div p x y : 0 < p -> (x mod p = y mod p <-> (p | x - y)).
Proof.
  intros Hp. split.
  - intros E. exists (x / p - y / p).
    pose proof (Z.div_mod x p ltac:(lia)). pose proof (Z.div_mod y p ltac:(lia)). lia.
  - intros [k E]. replace x with (y + k * p) by lia. apply Z.mod_add. lia.
Qed.

Lemma cancel_mod p a x y : rel_prime a p -> 0 < p -> (a * x) mod p = (a * y) mod p -> x mod p = y mod p.
Proof.
  intros Hr Hp E. apply mod_eq_div in E; [|exact Hp]. apply mod_eq_div; [exact Hp|].
  apply (Gauss p a); [|apply rel_prime_sym, Hr]. replace (a * (x - y)) with (a * x - a * y) by ring. exact E.
Qed.

Theorem fermat p a : prime p -> ~ (p | a) -> a ^ (p - 1) mod p = 1 mod p.
Proof.
  intros Hp Ha. pose proof (prime_ge_2 p Hp) as Hp2.
  set (l := map Z.of_nat (seq 1 (Z.to_nat (p - 1)))).
  assert (Hin : forall x, In x l <-> 1 <= x < p).
  { intros x. unfold l. rewrite in_map_iff. split.
    - intros (n & <- & Hn). apply in_seq in Hn. lia.
    - intros Hx. exists (Z.to_nat x). split; [lia|]. apply in_seq. lia. }
  assert (Hnd : NoDup l).
  { unfold l. apply FinFun.Injective_map_NoDup; [intros x y; lia|apply seq_NoDup]. }
  assert (Hrel : rel_prime a p) by (apply rel_prime_sym, prime_rel_prime; assumption).
  set (l' := map (fun i => (a * i) mod p) l).
  assert (Hperm : Permutation l' l).
  { apply NoDup_Permutation_bis.
    - unfold l'. clearbody l. assert (Hb : forall x, In x l -> 1 <= x < p) by (intros; apply Hin; assumption).
      clear Hin l'. induction Hnd as [|x l Hx Hnd IH]; [constructor|].
      cbn. constructor; [|apply IH; intros; apply Hb; right; assumption].
      intros Hin. apply in_map_iff in Hin as (y & E & Hy).
      apply (cancel_mod p a) in E; [|exact Hrel|lia].
      rewrite !Z.mod_small in E; [subst; contradiction| |];
        match goal with |- 0 <= ?z < p => pose proof (Hb z) as Q; cbn in Q; lia || (specialize (Q (or_intror Hy)); lia) || (specialize (Q (or_introl eq_refl)); lia) end.
    - unfold l'. rewrite map_length. lia.
    - intros y Hy. unfold l' in Hy. apply in_map_iff in Hy as (x & <- & Hx).
      apply Hin in Hx. apply Hin. pose proof (Z.mod_pos_bound (a * x) p ltac:(lia)).
      assert ((a * x) mod p <> 0); [|lia]. intros E. apply Z.mod_divide in E; [|lia].
      apply prime_mult in E; [|exact Hp]. destruct E as [E|E]; [contradiction|].
      apply Z.divide_pos_le in E; lia. }
  apply prodZ_perm in Hperm.
  pose proof (prodZ_map_mod p a l ltac:(lia)) as E. fold l' in E. rewrite Hperm in E.
  assert (Hlen : Z.of_nat (length l) = p - 1) by (unfold l; rewrite map_length, seq_length; lia).
  rewrite Hlen in E.
  assert (Hrp : rel_prime (prodZ l) p).
  { apply prodZ_rel_prime. intros x Hx. apply Hin in Hx. apply rel_prime_le_prime; [exact Hp|lia]. }
  apply (cancel_mod p (prodZ l)); [exact Hrp|lia|]. rewrite Z.mul_1_r, E. f_equal. ring.
Qed.

(** Modular inversion: extended Euclid with the exponentiation as fallback, so that the value is always
    the power and only the speed of evaluation depends on Euclid's steps. *)
Fixpoint euclid (fuel : nat) (r0 r1 t0 t1 : Z) : Z :=
  match fuel with
  | O => t0
  | S f => if r1 =? 0 then t0 else let q := r0 / r1 in euclid f r1 (r0 - q * r1) t1 (t0 - q * t1)
  end.
Definition invmod (a m : Z) : Z :=
  let c := euclid 400 m (a mod m) 0 1 in if (c * a) mod m =? 1 then c mod m else powmod a (m - 2) m.
Lemma invmod_spec a m : prime m -> invmod a m = a ^ (m - 2) mod m.
Proof.
  intros P. pose proof (prime_ge_2 m P) as G. unfold invmod. generalize (euclid 400 m (a mod m) 0 1). intros c.
  destruct (Z.eqb_spec ((c * a) mod m) 1) as [H|_]; [|apply powmod_spec; lia].
  assert (ND : ~ (m | a)).
  { intros [k ->]. replace (c * (k * m)) with (c * k * m) in H by ring. rewrite Z.mod_mul in H by lia. discriminate. }
  pose proof (fermat m a P ND) as Fm.
  rewrite <- (Z.mul_1_r c) at 1. rewrite <- Z.mul_mod_idemp_r, <- (Z.mod_small 1 m), <- Fm by lia. rewrite !Z.mod_mod, Z.mul_mod_idemp_r by lia.
  replace (m - 1) with (Z.succ (m - 2)) by lia. rewrite Z.pow_succ_r by lia.
  rewrite Z.mul_assoc, <- Z.mul_mod_idemp_l, H, Z.mul_1_l by lia. reflexivity.
Qed.

(** ** Orders *)
Lemma pow_mod_1 p a k : 1 < p -> a mod p = 1 mod p -> 0 <= k -> a ^ k mod p = 1 mod p.
Proof.
  intros Hp E Hk. pattern k. apply natlike_ind; [reflexivity| |exact Hk].
  intros x Hx IH. rewrite Z.pow_succ_r by lia. rewrite Z.mul_mod by lia. rewrite IH, E.
  rewrite <- Z.mul_mod by lia. reflexivity.
Qed.

Lemma pow_mod_idem p a k : 0 < p -> 0 <= k -> (a mod p) ^ k mod p = a ^ k mod p.
Proof.
  intros Hp Hk. pattern k. apply natlike_ind; [reflexivity| |exact Hk].
  intros x Hx IH. rewrite !Z.pow_succ_r by lia. rewrite Z.mul_mod by lia. rewrite IH.
  rewrite Z.mod_mod by lia. rewrite <- Z.mul_mod by lia. reflexivity.
Qed.

(** If [b^m = 1] and [b^n = 1] modulo p then [b^gcd(m,n) = 1]. *)
Lemma pow_gcd_1 p b m n : prime p -> ~ (p | b) -> 0 <= m -> 0 <= n ->
  b ^ m mod p = 1 mod p -> b ^ n mod p = 1 mod p -> b ^ (Z.gcd m n) mod p = 1 mod p.
Proof.
  intros Hp Hb Hm Hn Em En. pose proof (prime_ge_2 p Hp).
  destruct (Z.gcd_bezout m n (Z.gcd m n) eq_refl) as (u & v & E).
  destruct (Z.eq_dec m 0) as [->|Hm0]; [rewrite Z.gcd_0_l, Z.abs_eq by lia; exact En|].
  destruct (Z.eq_dec n 0) as [->|Hn0]; [rewrite Z.gcd_0_r, Z.abs_eq by lia; exact Em|].
  (* shift the Bezout coefficients to be nonnegative *)
  set (t := Z.abs u + Z.abs v).
  assert (E2 : b ^ (Z.gcd m n + t * m * n + t * m * n) mod p = 1 mod p).
  { replace (Z.gcd m n + t * m * n + t * m * n) with ((u + t * n) * m + (v + t * m) * n) by (rewrite <- E; ring).
    assert (0 <= u + t * n) by (unfold t; nia). assert (0 <= v + t * m) by (unfold t; nia).
    rewrite Z.pow_add_r by nia. rewrite (Z.mul_comm (u + t * n)), (Z.mul_comm (v + t * m)).
    rewrite !Z.pow_mul_r by lia. rewrite Z.mul_mod by lia.
    rewrite pow_mod_1 by (try lia; exact Em). rewrite pow_mod_1 by (try lia; exact En).
    rewrite <- Z.mul_mod by lia. reflexivity. }
  pose proof (Z.gcd_nonneg m n). assert (0 <= t) by (unfold t; lia).
  assert (0 <= t * m * n) by nia.
  assert (E3 : b ^ (t * m * n) mod p = 1 mod p).
  { replace (t * m * n) with (m * (t * n)) by ring. rewrite Z.pow_mul_r by nia.
    apply pow_mod_1; [lia|exact Em|nia]. }
  rewrite !Z.pow_add_r in E2 by lia.
  rewrite Z.mul_mod, E3 in E2 by lia. rewrite <- Z.mul_mod in E2 by lia. rewrite Z.mul_1_r in E2.
  rewrite Z.mul_mod, E3 in E2 by lia. rewrite <- Z.mul_mod in E2 by lia. rewrite Z.mul_1_r in E2.
  exact E2.
Qed.

(** ** Pocklington's criterion *)
Lemma has_prime_divisor n : 1 < n -> exists p, prime p /\ (p | n).
Proof.
  intros Hn. assert (H : forall m, 0 <= m -> 1 < m -> exists p, prime p /\ (p | m)); [|apply H; lia].
  apply (Zlt_0_ind (fun m => 1 < m -> exists p, prime p /\ (p | m))).
  intros m IH Hm0 Hm. destruct (prime_dec m) as [P|P].
  - exists m. split; [exact P|apply Z.divide_refl].
  - destruct (not_prime_divide m Hm P) as (d & Hd & D).
    destruct (IH d) as (p & Hp & Dp); [lia|lia|]. exists p. split; [exact Hp|]. eapply Z.divide_trans; eassumption.
Qed.

(** Boolean checkers. *)
Fixpoint pnodup (l : list Z) : bool :=
  match l with [] => true | x :: r => negb (existsb (Z.eqb x) r) && pnodup r end.
Lemma pnodup_spec l : pnodup l = true -> NoDup l.
Proof.
  induction l as [|x l IH]; cbn; intros H; constructor; apply andb_true_iff in H as [H1 H2]; auto.
  intros Hin. apply negb_true_iff in H1. assert (existsb (Z.eqb x) l = true); [|congruence].
  apply existsb_exists. exists x. split; [exact Hin|apply Z.eqb_refl].
Qed.

(** A bit-serial Montgomery ladder: far fewer reduction steps for the kernel than [powmod]. *)
Definition hstep (n t : Z) : Z := Z.div2 (if Z.odd t then t + n else t).
Fixpoint halve (k : nat) (n acc : Z) : Z := match k with O => acc | S k => halve k n (hstep n acc) end.
Fixpoint mm (k : nat) (a : positive) (b n acc : Z) : Z :=
  match k with
  | O => acc + Zpos a * b
  | S k => match a with
    | xH => halve k n (hstep n (acc + b))
    | xO a => mm k a b n (hstep n acc)
    | xI a => mm k a b n (hstep n (acc + b))
    end
  end.
Definition mmul (k : nat) (a b n : Z) : Z := match a with Zpos p => mm k p b n 0 | _ => 0 end.
Definition redc (n t : Z) : Z := if n <=? t then t - n else t.
Fixpoint smul (a : positive) (n r : Z) : Z :=
  match a with xH => r | xO a => redc n (Z.double (smul a n r)) | xI a => redc n (r + redc n (Z.double (smul a n r))) end.
Fixpoint mpow (k : nat) (a e : positive) (n one : Z) : Z :=
  match e with
  | xH => smul a n one
  | xO e => let r := mpow k a e n one in mmul k r r n
  | xI e => let r := mpow k a e n one in smul a n (mmul k r r n)
  end.
Fixpoint mpowg (k : nat) (b : Z) (e : positive) (n : Z) : Z :=
  match e with
  | xH => b
  | xO e => let r := mpowg k b e n in mmul k r r n
  | xI e => let r := mpowg k b e n in mmul k (mmul k r r n) b n
  end.
Definition fastpow (a e : positive) (n : Z) : Z :=
  let k := (match n with Zpos p => Pos.size_nat p | _ => O end + 3)%nat in
  mmul k (mpow k a e n (2 ^ Z.of_nat k mod n)) 1 n mod n.

Section Ladder.
Variable n : Z.
Hypothesis n_pos : 0 < n.
Hypothesis n_odd : Z.odd n = true.
Definition eqn (x y : Z) : Prop := (n | x - y).
Lemma eqn_refl x : eqn x x. Proof. exists 0. ring. Qed.
Lemma eqn_trans x y z : eqn x y -> eqn y z -> eqn x z.
Proof. intros [a A] [b B]. exists (a + b). lia. Qed.
Lemma eqn_sym x y : eqn x y -> eqn y x. Proof. intros [a A]. exists (- a). lia. Qed.
Lemma eqn_mul c x y : eqn x y -> eqn (c * x) (c * y). Proof. intros [a A]. exists (c * a). rewrite <- Z.mul_sub_distr_l, A. ring. Qed.
Lemma eqn_add x y x' y' : eqn x y -> eqn x' y' -> eqn (x + x') (y + y'). Proof. intros [a A] [b B]. exists (a + b). lia. Qed.
Lemma rp2 k : rel_prime (2 ^ Z.of_nat k) n.
Proof.
  apply rel_prime_sym, rel_prime_Zpower_r; [lia|]. apply rel_prime_sym, prime_rel_prime; [exact prime_2|].
  intros [c E]. rewrite E, Z.odd_mul in n_odd. cbn in n_odd. rewrite andb_false_r in n_odd. discriminate.
Qed.
Lemma eqn_cancel k x y : eqn (2 ^ Z.of_nat k * x) (2 ^ Z.of_nat k * y) -> eqn x y.
Proof.
  unfold eqn. rewrite <- Z.mul_sub_distr_l. intros D. apply (Gauss _ _ _ D), rel_prime_sym, rp2.
Qed.
Lemma hstep_eqn t : eqn (2 * hstep n t) t.
Proof.
  unfold hstep. destruct (Z.odd t) eqn:O.
  - assert (E : Z.odd (t + n) = false) by (rewrite Z.odd_add, O, n_odd; reflexivity).
    pose proof (Z.div2_odd (t + n)) as D. rewrite E in D. cbn [Z.b2z] in D. exists 1. lia.
  - pose proof (Z.div2_odd t) as D. rewrite O in D. cbn [Z.b2z] in D. exists 0. lia.
Qed.
Lemma pow2_S k : 2 ^ Z.of_nat (S k) = 2 * 2 ^ Z.of_nat k.
Proof. rewrite Nat2Z.inj_succ, Z.pow_succ_r by lia. reflexivity. Qed.
Lemma halve_eqn k acc : eqn (2 ^ Z.of_nat k * halve k n acc) acc.
Proof.
  revert acc. induction k as [|k IH]; intros acc; [change (2 ^ Z.of_nat 0) with 1; cbn [halve]; exists 0; ring|]. cbn [halve]. rewrite pow2_S, <- Z.mul_assoc.
  eapply eqn_trans; [apply eqn_mul, IH|apply hstep_eqn].
Qed.
Lemma mm_eqn a : forall k b acc, eqn (2 ^ Z.of_nat k * mm k a b n acc) (acc + Zpos a * b).
Proof.
  induction a as [a IH|a IH|]; intros [|k] b acc; cbn [mm]; try (change (2 ^ Z.of_nat 0) with 1; exists 0; ring); rewrite pow2_S, <- Z.mul_assoc.
  - eapply eqn_trans; [apply eqn_mul, IH|]. pose proof (hstep_eqn (acc + b)) as [c E]. exists c. lia.
  - eapply eqn_trans; [apply eqn_mul, IH|]. pose proof (hstep_eqn acc) as [c E]. exists c. lia.
  - eapply eqn_trans; [apply eqn_mul, halve_eqn|]. pose proof (hstep_eqn (acc + b)) as [c E]. exists c. lia.
Qed.
Lemma mmul_eqn k a b : 0 <= a -> eqn (2 ^ Z.of_nat k * mmul k a b n) (a * b).
Proof.
  intros Ha. destruct a as [|a|a]; [exists 0; unfold mmul; ring| |lia]. unfold mmul. exact (mm_eqn a k b 0).
Qed.
Lemma redc_eqn t : eqn (redc n t) t.
Proof. unfold redc. destruct (n <=? t); [exists (-1); ring|apply eqn_refl]. Qed.
Lemma smul_eqn a r : eqn (smul a n r) (Zpos a * r).
Proof.
  induction a as [a IH|a IH|]; cbn [smul].
  - eapply eqn_trans; [apply redc_eqn|]. change (Zpos a~1) with (2 * Zpos a + 1). replace ((2 * Zpos a + 1) * r) with (r + 2 * (Zpos a * r)) by ring.
    apply eqn_add; [apply eqn_refl|]. eapply eqn_trans; [apply redc_eqn|]. rewrite Z.double_spec. apply eqn_mul, IH.
  - eapply eqn_trans; [apply redc_eqn|]. rewrite Z.double_spec. change (Zpos a~0) with (2 * Zpos a). rewrite <- Z.mul_assoc. apply eqn_mul, IH.
  - exists 0. ring.
Qed.
(** Non-negative accumulators. *)
Lemma hstep_nn t : 0 <= t -> 0 <= hstep n t.
Proof. intros H. unfold hstep. apply Z.div2_nonneg. destruct (Z.odd t); lia. Qed.
Lemma halve_nn k : forall acc, 0 <= acc -> 0 <= halve k n acc.
Proof. induction k as [|k IH]; intros acc H; cbn [halve]; [exact H|apply IH, hstep_nn, H]. Qed.
Lemma mm_nn a : forall k b acc, 0 <= b -> 0 <= acc -> 0 <= mm k a b n acc.
Proof.
  induction a as [a IH|a IH|]; intros [|k] b acc Hb Hc; cbn [mm]; try nia.
  - apply IH; [exact Hb|apply hstep_nn; lia]. - apply IH; [exact Hb|apply hstep_nn; lia]. - apply halve_nn, hstep_nn. lia.
Qed.
Lemma mmul_nn k a b : 0 <= b -> 0 <= mmul k a b n. Proof. intros H. destruct a; cbn; try lia. apply mm_nn; lia. Qed.
Lemma redc_nn t : 0 <= t -> 0 <= redc n t. Proof. intros H. unfold redc. destruct (Z.leb_spec n t); lia. Qed.
Lemma smul_nn a r : 0 <= r -> 0 <= smul a n r.
Proof. intros H. induction a as [a IH|a IH|]; cbn [smul]; rewrite ?Z.double_spec; [apply redc_nn, Z.add_nonneg_nonneg; [exact H|apply redc_nn; lia]|apply redc_nn; lia|exact H]. Qed.
Lemma mpow_eqn k a one : 0 <= one -> eqn one (2 ^ Z.of_nat k) -> forall e,
  0 <= mpow k a e n one /\ eqn (mpow k a e n one) (2 ^ Z.of_nat k * Zpos a ^ Zpos e).
Proof.
  intros N1 E1. set (T := 2 ^ Z.of_nat k) in *.
  assert (SQ : forall e, (0 <= mpow k a e n one /\ eqn (mpow k a e n one) (T * Zpos a ^ Zpos e)) ->
    0 <= mmul k (mpow k a e n one) (mpow k a e n one) n /\ eqn (mmul k (mpow k a e n one) (mpow k a e n one) n) (T * Zpos a ^ (2 * Zpos e))).
  { intros e [P E]. split; [apply mmul_nn, P|]. apply (eqn_cancel k). fold T. eapply eqn_trans; [apply mmul_eqn, P|].
    set (r := mpow k a e n one) in *. set (u := Zpos a ^ Zpos e) in *.
    rewrite Z.pow_twice_r. fold u. replace (T * (T * (u * u))) with (T * u * (T * u)) by ring.
    eapply eqn_trans; [apply eqn_mul, E|]. rewrite (Z.mul_comm r). apply eqn_mul, E. }
  induction e as [e IH|e IH|]; cbn [mpow].
  - destruct (SQ e IH) as [P E]. split; [apply smul_nn, P|]. eapply eqn_trans; [apply smul_eqn|].
    change (Zpos e~1) with (2 * Zpos e + 1). rewrite Z.pow_add_r, Z.pow_1_r by lia.
    replace (T * (Zpos a ^ (2 * Zpos e) * Zpos a)) with (Zpos a * (T * Zpos a ^ (2 * Zpos e))) by ring. apply eqn_mul, E.
  - change (Zpos e~0) with (2 * Zpos e). exact (SQ e IH).
  - split; [apply smul_nn, N1|]. eapply eqn_trans; [apply smul_eqn|]. rewrite Z.pow_1_r, Z.mul_comm, (Z.mul_comm T).
    rewrite (Z.mul_comm one). apply eqn_mul, E1.
Qed.
Lemma mpowg_eqn k b v : 0 <= b -> eqn b (2 ^ Z.of_nat k * v) -> forall e,
  0 <= mpowg k b e n /\ eqn (mpowg k b e n) (2 ^ Z.of_nat k * v ^ Zpos e).
Proof.
  intros N1 E1. set (T := 2 ^ Z.of_nat k) in *.
  assert (ML : forall x y u w, 0 <= x -> 0 <= y -> eqn x (T * u) -> eqn y (T * w) -> 0 <= mmul k x y n /\ eqn (mmul k x y n) (T * (u * w))).
  { intros x y u w X Y EX EY. split; [apply mmul_nn, Y|]. apply (eqn_cancel k). fold T. eapply eqn_trans; [apply mmul_eqn, X|].
    replace (T * (T * (u * w))) with (T * u * (T * w)) by ring.
    eapply eqn_trans; [apply eqn_mul, EY|]. rewrite (Z.mul_comm x), (Z.mul_comm (T * u)). apply eqn_mul, EX. }
  induction e as [e IH|e IH|]; cbn [mpowg].
  - destruct IH as [P E]. destruct (ML _ _ _ _ P P E E) as [P2 E2]. rewrite <- Z.pow_twice_r in E2.
    change (Zpos e~1) with (2 * Zpos e + 1). rewrite Z.pow_add_r, Z.pow_1_r by lia. apply ML; assumption.
  - destruct IH as [P E]. change (Zpos e~0) with (2 * Zpos e). rewrite Z.pow_twice_r. apply ML; assumption.
  - rewrite Z.pow_1_r. split; assumption.
Qed.
Lemma out_spec k r v : 0 <= r -> eqn r (2 ^ Z.of_nat k * v) -> mmul k r 1 n mod n = v mod n.
Proof.
  intros P E. apply mod_eq_div; [lia|]. apply (eqn_cancel k). eapply eqn_trans; [apply mmul_eqn, P|]. rewrite Z.mul_1_r. exact E.
Qed.
Lemma fastpow_spec a e : fastpow a e n = Zpos a ^ Zpos e mod n.
Proof.
  unfold fastpow. set (k := (_ + 3)%nat). cbv zeta.
  assert (E1 : eqn (2 ^ Z.of_nat k mod n) (2 ^ Z.of_nat k)).
  { exists (- (2 ^ Z.of_nat k / n)). rewrite Z.mod_eq by lia. ring. }
  destruct (mpow_eqn k a (2 ^ Z.of_nat k mod n) (proj1 (Z.mod_pos_bound _ _ n_pos)) E1 e) as [P E].
  apply mod_eq_div; [lia|]. apply (eqn_cancel k). eapply eqn_trans; [apply mmul_eqn, P|]. rewrite Z.mul_1_r. exact E.
Qed.
End Ladder.

(** The certificate: a base and prime powers [q^k] dividing [N - 1]. *)
Lemma prime_power_dichotomy q g : prime q -> forall k, 0 <= k -> (g | q ^ k) -> (g | q ^ (k - 1)) \/ (q ^ k | g).
Proof.
  intros Q k Hk. revert g. pattern k. apply natlike_ind; [|clear k Hk|exact Hk].
  - intros g _. right. rewrite Z.pow_0_r. apply Z.divide_1_l.
  - intros k Hk IH g D. rewrite Z.pow_succ_r in D by lia. replace (Z.succ k - 1) with k by lia.
    destruct (Zdivide_dec q g) as [[g' ->]|N].
    + pose proof (prime_ge_2 q Q). destruct (Z.eq_dec k 0) as [->|K0].
      * right. change (Z.succ 0) with 1. rewrite Z.pow_1_r. apply Z.divide_factor_r.
      * assert (D' : (g' | q ^ k)). { destruct D as [c D]. exists c. apply (Z.mul_reg_r _ _ q); [lia|]. rewrite Z.mul_comm, D. ring. }
        destruct (IH g' D') as [[c E]|[c E]].
        -- left. exists c. replace (q ^ k) with (q * q ^ (k - 1)); [rewrite E; ring|]. rewrite <- Z.pow_succ_r by lia. f_equal. lia.
        -- right. exists c. rewrite Z.pow_succ_r by lia. rewrite E. ring.
    + left. apply (Gauss _ q); [exact D|]. apply rel_prime_sym, prime_rel_prime; assumption.
Qed.
Lemma pock_div_pow N a q k p : 1 < N -> prime q -> 0 < k -> prime p -> (p | N) -> a ^ (N - 1) mod N = 1 ->
  (q ^ k | N - 1) -> Z.gcd (a ^ ((N - 1) / q) mod N - 1) N = 1 -> (q ^ k | p - 1).
Proof.
  intros HN Hq Hk Hp HpN Ha [c Hc] Hg. pose proof (prime_ge_2 p Hp). pose proof (prime_ge_2 q Hq).
  assert (Pk : q ^ k = q ^ (k - 1) * q). { replace k with (Z.succ (k - 1)) at 1 by lia. rewrite Z.pow_succ_r by lia. ring. }
  assert (P0 : 0 < q ^ (k - 1)) by (apply Z.pow_pos_nonneg; lia).
  assert (Hc0 : 0 < c) by nia.
  assert (Ediv : (N - 1) / q = c * q ^ (k - 1)). { rewrite Hc, Pk, Z.mul_assoc. apply Z.div_mul. lia. }
  rewrite Ediv in Hg. set (b := a ^ c).
  assert (Eq : a ^ (c * q ^ (k - 1)) = b ^ (q ^ (k - 1))) by (unfold b; rewrite <- Z.pow_mul_r by lia; reflexivity).
  rewrite Eq in Hg.
  assert (Hmodp : forall x y, x mod N = y mod N -> x mod p = y mod p).
  { intros x y E. apply mod_eq_div; [lia|]. apply mod_eq_div in E; [|lia]. eapply Z.divide_trans; eassumption. }
  assert (Eb : b ^ (q ^ k) mod p = 1 mod p).
  { apply Hmodp. unfold b. rewrite <- Z.pow_mul_r by lia. rewrite <- Hc, Ha. rewrite Z.mod_1_l; lia. }
  assert (Hb1 : b ^ (q ^ (k - 1)) mod p <> 1 mod p).
  { intros E. apply mod_eq_div in E; [|lia]. set (t := b ^ (q ^ (k - 1))) in *.
    assert (D : (p | t mod N - 1)).
    { replace (t mod N - 1) with ((t - 1) - N * (t / N)) by (rewrite Z.mod_eq by lia; ring).
      apply Z.divide_sub_r; [exact E|]. apply Z.divide_mul_l. exact HpN. }
    assert (D2 : (p | 1)) by (rewrite <- Hg; apply Z.gcd_greatest; assumption).
    apply Z.divide_1_r in D2. lia. }
  assert (Pk0 : 0 < q ^ k) by (apply Z.pow_pos_nonneg; lia).
  assert (Hpb : ~ (p | b)).
  { intros D. assert (b ^ (q ^ k) mod p = 0).
    { apply Z.mod_divide; [lia|]. replace (q ^ k) with (Z.succ (q ^ k - 1)) by lia. rewrite Z.pow_succ_r by lia.
      apply Z.divide_mul_l. exact D. }
    rewrite Eb, Z.mod_1_l in *; lia. }
  pose proof (pow_gcd_1 p b (q ^ k) (p - 1) Hp Hpb ltac:(lia) ltac:(lia) Eb (fermat p b Hp Hpb)) as E.
  destruct (prime_power_dichotomy q (Z.gcd (q ^ k) (p - 1)) Hq k ltac:(lia) (Z.gcd_divide_l _ _)) as [[j D]|D].
  - exfalso. apply Hb1. assert (J : 0 <= j). { destruct (Z_lt_le_dec j 0) as [J|J]; [|exact J]. exfalso. apply (Z.lt_irrefl 0), (Z.lt_le_trans _ _ _ P0). rewrite D. apply Z.mul_nonpos_nonneg; [apply Z.lt_le_incl, J|apply Z.gcd_nonneg]. }
    rewrite D, Z.mul_comm, Z.pow_mul_r by (try apply Z.gcd_nonneg; exact J). apply pow_mod_1; [lia|exact E|exact J].
  - eapply Z.divide_trans; [exact D|apply Z.gcd_divide_r].
Qed.
Definition prodP (l : list (positive * positive)) : Z := prodZ (map (fun qk => Zpos (fst qk) ^ Zpos (snd qk)) l).
Lemma prodP_divide (qs : list (positive * positive)) n : (forall qk, In qk qs -> prime (Zpos (fst qk))) -> NoDup (map fst qs) ->
  (forall qk, In qk qs -> (Zpos (fst qk) ^ Zpos (snd qk) | n)) -> (prodP qs | n).
Proof.
  unfold prodP. induction qs as [|[q k] qs IH]; intros Hp Hnd Hd; cbn [map prodZ fold_right fst snd].
  - exists n. ring.
  - inversion Hnd as [|? ? Hni Hnd']; subst. fold (prodZ (map (fun qk => Zpos (fst qk) ^ Zpos (snd qk)) qs)).
    destruct (Hd (q, k) (or_introl eq_refl)) as [c Hc]. cbn [fst snd] in Hc. cbn [fst] in Hni.
    assert (D : (prodZ (map (fun qk => Zpos (fst qk) ^ Zpos (snd qk)) qs) | c)).
    { apply (Gauss _ (Zpos q ^ Zpos k) c).
      - rewrite Z.mul_comm, <- Hc. apply IH; auto; intros; [apply Hp|apply Hd]; right; assumption.
      - apply prodZ_rel_prime. intros x Hx. apply in_map_iff in Hx as ([q' k'] & <- & Hx). cbn [fst snd].
        apply rel_prime_Zpower; [lia|lia|]. apply prime_rel_prime; [exact (Hp (q', k') (or_intror Hx))|].
        intros Dx. apply Hni. apply prime_div_prime in Dx; [|exact (Hp (q', k') (or_intror Hx))|exact (Hp (q, k) (or_introl eq_refl))].
        injection Dx as <-. exact (in_map fst _ _ Hx). }
    destruct D as [j ->]. exists j. rewrite Hc. ring.
Qed.
Theorem pocklington_pow N a qs : 1 < N -> a ^ (N - 1) mod N = 1 ->
  (forall qk, In qk qs -> prime (Zpos (fst qk))) -> NoDup (map fst qs) ->
  (forall qk, In qk qs -> (Zpos (fst qk) ^ Zpos (snd qk) | N - 1) /\ Z.gcd (a ^ ((N - 1) / Zpos (fst qk)) mod N - 1) N = 1) ->
  N < prodP qs * prodP qs -> prime N.
Proof.
  intros HN Ha Hqs Hnd Hc Hbig. destruct (prime_dec N) as [P|P]; [exact P|exfalso].
  destruct (not_prime_divide N HN P) as (d & Hd & [e He]).
  assert (Hle : exists m, 1 < m /\ m * m <= N /\ (m | N)).
  { destruct (Z_le_gt_dec d e) as [L|L].
    - exists d. split; [lia|]. split; [nia|exists e; exact He].
    - exists e. split; [nia|]. split; [nia|exists d; lia]. }
  destruct Hle as (m & Hm1 & Hmm & HmN).
  destruct (has_prime_divisor m Hm1) as (p & Hp & Hpm).
  assert (HpN : (p | N)) by (eapply Z.divide_trans; eassumption).
  pose proof (prime_ge_2 p Hp).
  assert (D : (prodP qs | p - 1)).
  { apply prodP_divide; [exact Hqs|exact Hnd|]. intros qk Hq. destruct (Hc qk Hq) as [C1 C2]. apply (pock_div_pow N a _ _ p); auto; lia. }
  apply Z.divide_pos_le in D; [|lia]. apply Z.divide_pos_le in Hpm; [|lia].
  assert (0 <= prodP qs).
  { unfold prodP. clear. induction qs as [|q qs IH]; cbn [map prodZ fold_right]; [lia|].
    apply Z.mul_nonneg_nonneg; [apply Z.pow_nonneg; lia|exact IH]. }
  nia.
Qed.
(** [b = a^((N-1)/(q1 ... qn))] is computed once; the powers of [b] then give [a^((N-1)/qi)] and [a^(N-1)]. *)
Definition qprod (qs : list (positive * positive)) : positive := fold_right Pos.mul 1%positive (map fst qs).
Definition out (k : nat) (r n : Z) : Z := mmul k r 1 n mod n.
Definition cofactor (k : nat) (b F0 n : Z) (q : positive) : Z := match F0 / Zpos q with Zpos e => mpowg k b e n | _ => 0 end.
Definition pock_one (k : nat) (b F0 n : Z) (qp : positive * positive) : bool :=
  let (q, p) := qp in
  (F0 mod Zpos q =? 0) && ((n - 1) mod (Zpos q ^ Zpos p) =? 0) && (Z.gcd (out k (cofactor k b F0 n q) n - 1) n =? 1).
Definition pock_check (N a : positive) (qs : list (positive * positive)) : bool :=
  let n := Zpos N in let k := (Pos.size_nat N + 3)%nat in let F0 := Zpos (qprod qs) in
  (1 <? n) && Z.odd n && ((n - 1) mod F0 =? 0) && pnodup (map (fun qk => Zpos (fst qk)) qs) && (n <? prodP qs * prodP qs) &&
  match (n - 1) / F0 with
  | Zpos e0 => let b := mpow k a e0 n (2 ^ Z.of_nat k mod n) in
      match qs with (q, _) :: _ => out k (mpowg k (cofactor k b F0 n q) q n) n =? 1 | [] => false end && forallb (pock_one k b F0 n) qs
  | _ => false
  end.

Lemma pock_check_sound N a qs : pock_check N a qs = true -> (forall q, In q (map fst qs) -> prime (Zpos q)) -> prime (Zpos N).
Proof.
  unfold pock_check. cbv zeta. set (n := Zpos N). set (k := (Pos.size_nat N + 3)%nat). set (F0 := Zpos (qprod qs)).
  rewrite !andb_true_iff, !Z.ltb_lt. intros (((((H1 & HO) & HF) & H3) & H5) & H) Hq.
  assert (NP : 0 < n) by lia. apply Z.eqb_eq in HF. assert (FP : 0 < F0) by reflexivity.
  assert (EF : n - 1 = (n - 1) / F0 * F0) by (pose proof (Z.div_mod (n - 1) F0 ltac:(lia)); lia).
  destruct ((n - 1) / F0) as [|e0|e0]; try discriminate. set (b := mpow k a e0 n (2 ^ Z.of_nat k mod n)) in *.
  apply andb_true_iff in H as [H2 H4].
  assert (E1 : eqn n (2 ^ Z.of_nat k mod n) (2 ^ Z.of_nat k)).
  { exists (- (2 ^ Z.of_nat k / n)). rewrite Z.mod_eq by lia. ring. }
  destruct (mpow_eqn n NP HO k a _ (proj1 (Z.mod_pos_bound _ _ NP)) E1 e0) as [PB EB]. fold b in PB, EB.
  assert (CF : forall q, F0 mod Zpos q = 0 -> 0 <= cofactor k b F0 n q /\ eqn n (cofactor k b F0 n q) (2 ^ Z.of_nat k * Zpos a ^ ((n - 1) / Zpos q)) /\
     (n - 1) / Zpos q * Zpos q = n - 1).
  { intros q M. assert (EQ : F0 = F0 / Zpos q * Zpos q) by (pose proof (Z.div_mod F0 (Zpos q) ltac:(lia)); lia).
    unfold cofactor. destruct (F0 / Zpos q) as [|f|f]; [lia| |lia].
    destruct (mpowg_eqn n NP HO k b _ PB EB f) as [P E].
    assert (D : (n - 1) / Zpos q = Zpos e0 * Zpos f). { rewrite EF, EQ, Z.mul_assoc. apply Z.div_mul. lia. }
    rewrite D. split; [exact P|]. split; [rewrite <- Z.pow_mul_r in E by lia; exact E|]. rewrite EF, EQ. ring. }
  assert (ONE : forall qp, In qp qs -> F0 mod Zpos (fst qp) = 0 /\ (Zpos (fst qp) ^ Zpos (snd qp) | n - 1) /\ Z.gcd (Zpos a ^ ((n - 1) / Zpos (fst qp)) mod n - 1) n = 1).
  { intros [q p] I. rewrite forallb_forall in H4. specialize (H4 _ I). cbn [pock_one] in H4. rewrite !andb_true_iff, !Z.eqb_eq in H4.
    destruct H4 as ((A & D) & G). cbn [fst snd]. split; [exact A|]. split; [apply Z.mod_divide; [apply Z.pow_nonzero; lia|exact D]|].
    destruct (CF q A) as (P & E & _). unfold out in G. rewrite (out_spec n NP HO k _ _ P E) in G. exact G. }
  apply (pocklington_pow n (Zpos a) qs H1).
  - destruct qs as [|[q p] qs]; [discriminate|]. destruct (ONE (q, p) (or_introl eq_refl)) as (A & _). cbn [fst] in A.
    destruct (CF q A) as (P & E & M). destruct (mpowg_eqn n NP HO k _ _ P E q) as [P' E']. apply Z.eqb_eq in H2. unfold out in H2.
    rewrite (out_spec n NP HO k _ _ P' E'), <- Z.pow_mul_r, M in H2 by (try lia; apply Z.div_pos; lia). exact H2.
  - intros qk I. apply Hq, in_map, I.
  - apply pnodup_spec in H3. rewrite <- (map_map fst Zpos) in H3. apply NoDup_map_inv in H3. exact H3.
  - intros qp I. exact (proj2 (ONE qp I)).
  - exact H5.
Qed.

(** Trial division for the small primes of the certificates. *)
Fixpoint trial (fuel : nat) (d n : Z) : bool :=
  match fuel with
  | O => false
  | S f => if n <? d * d then true else negb (n mod d =? 0) && trial f (d + 1) n
  end.
Lemma trial_sound fuel d n : 2 <= d -> 1 < n -> (forall e, 1 < e < d -> ~ (e | n)) ->
  trial fuel d n = true -> prime n.
Proof.
  revert d. induction fuel as [|f IH]; intros d Hd Hn Hlow H; [discriminate|].
  cbn [trial] in H. destruct (Z.ltb_spec n (d * d)) as [L|L].
  - destruct (prime_dec n) as [P|P]; [exact P|exfalso].
    destruct (not_prime_divide n Hn P) as (m & Hm & [e He]).
    destruct (Z_lt_le_dec m d); [apply (Hlow m); [lia|exists e; exact He]|].
    destruct (Z_lt_le_dec e d); [|nia]. apply (Hlow e); [nia|exists m; lia].
  - apply andb_true_iff in H as [H1 H2]. apply (IH (d + 1)); [lia|lia| |exact H2].
    intros e He. destruct (Z.eq_dec e d) as [->|]; [|apply Hlow; lia].
    intros D. apply Z.mod_divide in D; [|lia]. rewrite D in H1. discriminate.
Qed.
Lemma small_prime n : (1 <? n) && trial 2000 2 n = true -> prime n.
Proof.
  intros H. apply andb_true_iff in H as [H1 H2]. apply Z.ltb_lt in H1.
  apply (trial_sound 2000 2); [lia|exact H1| |exact H2]. intros e He. lia.
Qed.

Ltac sp := apply small_prime; vm_compute; reflexivity.
Ltac pkp a qs := apply (pock_check_sound _ a qs); [vm_compute; reflexivity|cbn [In map fst Z.to_pos]; intros ? Hq; repeat destruct Hq as [<-|Hq]; try contradiction].
Ltac pk a qs := pkp (Z.to_pos a) (map (fun q => (Z.to_pos q, 1%positive)) qs).

Lemma prime_1637 : prime 1637. Proof. sp. Qed.
Lemma prime_853 : prime 853. Proof. sp. Qed.
Lemma prime_93001 : prime 93001. Proof. sp. Qed.
Lemma prime_661 : prime 661. Proof. sp. Qed.
Lemma prime_3557 : prime 3557. Proof. sp. Qed.
Lemma prime_911 : prime 911. Proof. sp. Qed.
Lemma prime_13327 : prime 13327. Proof. sp. Qed.
Lemma prime_a1 : prime 639533339. Proof. pk 2 [1637; 853]; auto using prime_1637, prime_853. Qed.
Lemma prime_a2 : prime 65865678001877903. Proof. pk 2 [639533339]; auto using prime_a1. Qed.
Lemma prime_a3 : prime 13818364434197438864469338081. Proof. pk 2 [65865678001877903]; auto using prime_a2. Qed.
Lemma prime_b1 : prime 12048837557. Proof. pk 2 [93001; 661]; auto using prime_93001, prime_661. Qed.
Lemma prime_b2 : prime 5156902474397. Proof. pk 2 [12048837557]; auto using prime_b1. Qed.
Lemma prime_b3 : prime 1670836401704629. Proof. pk 2 [5156902474397]; auto using prime_b2. Qed.
Lemma prime_bn254_r : prime 21888242871839275222246405745257275088548364400416034343698204186575808495617.
Proof. pk 2 [1670836401704629; 13818364434197438864469338081]; auto using prime_a3, prime_b3. Qed.
Lemma prime_c1 : prime 1263766531. Proof. pk 2 [3557; 911]; auto using prime_3557, prime_911. Qed.
Lemma prime_c2 : prime 35385462869. Proof. pk 2 [1263766531]; auto using prime_c1. Qed.
Lemma prime_c3 : prime 2480874801745591. Proof. pk 2 [35385462869]; auto using prime_c2. Qed.
Lemma prime_d1 : prime 173171039. Proof. pk 2 [13327]; auto using prime_13327. Qed.
Lemma prime_e1 : prime 13427688667394608761327070753331941386769.
Proof. pk 2 [2480874801745591; 173171039]; auto using prime_c3, prime_d1. Qed.
Lemma prime_bn254_q : prime 21888242871839275222246405745257275088696311157297823662689037894645226208583.
Proof. pk 2 [13427688667394608761327070753331941386769]; auto using prime_e1. Qed.
