(** Fields as data: the interface through which the upper layers of the library see Fr and
    Fq, the two instances on limbs, and small prime fields for examples. *)
From Coq Require Import ZArith List Bool Lia Znumtheory Zdiv Field Eqdep_dec.
From Verif Require Import LimbModel LimbProofs MontProofs FieldModel FieldSpec FieldProofs PowProofs FieldMore Primes.
Import ListNotations.
Local Open Scope Z_scope.

(** A field with decidable equality.  Upper layers call [+ - * neg square invert ==] on it.
    Simplification: [square] is [x * x] and [invert] is the inverse; the limb layer shows
    where the implementations deviate (C02, C03). *)
Record Fld := mkFld {
  car :> Type;
  k0 : car; k1 : car;
  kadd : car -> car -> car; kmul : car -> car -> car; ksub : car -> car -> car;
  kopp : car -> car; kdiv : car -> car -> car; kinv : car -> car;
  keqb : car -> car -> bool;
  kth : field_theory k0 k1 kadd kmul ksub kopp kdiv kinv (@eq car);
  keqb_eq : forall a b, keqb a b = true <-> a = b
}.
Arguments k0 {_}. Arguments k1 {_}. Arguments kadd {_}. Arguments kmul {_}. Arguments ksub {_}.
Arguments kopp {_}. Arguments kdiv {_}. Arguments kinv {_}. Arguments keqb {_}.

Declare Scope fld_scope.
Delimit Scope fld_scope with fld.
Infix "+" := kadd : fld_scope. Infix "*" := kmul : fld_scope. Infix "-" := ksub : fld_scope.
Notation "- x" := (kopp x) : fld_scope. Infix "/" := kdiv : fld_scope.
Notation "0" := k0 : fld_scope. Notation "1" := k1 : fld_scope.

Section FldFacts.
Variable F : Fld.
Local Open Scope fld_scope.
Add Field ffield : (kth F).

(** [double()], [square()], [invert()] of the prime-field interface. *)
Definition kdbl (x : F) : F := x + x.
Definition ksq (x : F) : F := x * x.
Definition kis0 (x : F) : bool := keqb x 0.
Definition kinvert (x : F) : option F := if kis0 x then None else Some (kinv x).

Lemma keqb_refl (a : F) : keqb a a = true. Proof. apply keqb_eq. reflexivity. Qed.
Lemma keqb_spec (a b : F) : reflect (a = b) (keqb a b).
Proof. destruct (keqb a b) eqn:E; constructor; [apply keqb_eq, E|]. intros H. apply keqb_eq in H. congruence. Qed.
Lemma kdec (a b : F) : {a = b} + {a <> b}.
Proof. destruct (keqb_spec a b); auto. Qed.
Lemma k1_neq0 : (1 : F) <> 0. Proof. apply (F_1_neq_0 (kth F)). Qed.
Lemma kinv_l (x : F) : x <> 0 -> kinv x * x = 1. Proof. apply (Finv_l (kth F)). Qed.
Lemma kdiv_def (x y : F) : x / y = x * kinv y. Proof. apply (Fdiv_def (kth F)). Qed.
Lemma kmul_eq0 (x y : F) : x * y = 0 -> x = 0 \/ y = 0.
Proof.
  intros H. destruct (kdec x 0) as [|N]; [auto|]. right.
  transitivity (kinv x * (x * y)); [|rewrite H; ring].
  transitivity ((kinv x * x) * y); [rewrite kinv_l by exact N; ring|ring].
Qed.
Lemma kmul_neq0 (x y : F) : x <> 0 -> y <> 0 -> x * y <> 0.
Proof. intros A C H. apply kmul_eq0 in H. tauto. Qed.
Lemma ksq_eq0 (x : F) : x * x = 0 -> x = 0. Proof. intros H. apply kmul_eq0 in H. tauto. Qed.
Lemma kmul_cancel_l (a x y : F) : a <> 0 -> a * x = a * y -> x = y.
Proof.
  intros N H. assert (E : a * (x - y) = 0) by (transitivity (a * x - a * y); [ring|rewrite H; ring]).
  apply kmul_eq0 in E as [|E]; [contradiction|]. transitivity ((x - y) + y); [ring|rewrite E; ring].
Qed.
Lemma ksub_eq0 (x y : F) : x - y = 0 <-> x = y.
Proof. split; [intros H; transitivity ((x - y) + y); [ring|rewrite H; ring]|intros ->; ring]. Qed.
Lemma kinvert_spec (x : F) : (x = 0 -> kinvert x = None) /\ (x <> 0 -> exists i, kinvert x = Some i /\ x * i = 1).
Proof.
  unfold kinvert, kis0. destruct (keqb_spec x 0) as [E|N]; split; try congruence.
  intros _. eexists; split; [reflexivity|]. transitivity (kinv x * x); [ring|apply kinv_l, N].
Qed.
Lemma kneg_eq0 (x : F) : - x = 0 -> x = 0.
Proof. intros H. transitivity (- (- x)); [ring|rewrite H; ring]. Qed.

(** Natural powers and multiples. *)
Fixpoint kpow (x : F) (n : nat) : F := match n with O => 1 | S n => x * kpow x n end.
Fixpoint kofnat (n : nat) : F := match n with O => 0 | S n => 1 + kofnat n end.
Lemma kpow_add x a b : kpow x (a + b) = kpow x a * kpow x b.
Proof. induction a as [|a IH]; cbn; [ring|]. rewrite IH. ring. Qed.
Lemma kpow_mul x a b : kpow x (a * b) = kpow (kpow x a) b.
Proof. induction b as [|b IH]; cbn; [rewrite Nat.mul_0_r; reflexivity|]. rewrite Nat.mul_succ_r, Nat.add_comm, kpow_add, IH. reflexivity. Qed.
Lemma kpow_mul_l x y n : kpow (x * y) n = kpow x n * kpow y n.
Proof. induction n as [|n IH]; cbn; [ring|]. rewrite IH. ring. Qed.
Lemma kpow_1_l n : kpow 1 n = 1. Proof. induction n as [|n IH]; cbn; [reflexivity|]. rewrite IH. ring. Qed.
Lemma kpow_neq0 x n : x <> 0 -> kpow x n <> 0.
Proof. intros H. induction n as [|n IH]; cbn; [apply k1_neq0|]. apply kmul_neq0; assumption. Qed.

(** Sums over lists. *)
Definition ksum (l : list F) : F := fold_right kadd 0 l.
Lemma ksum_cons x l : ksum (x :: l) = x + ksum l. Proof. reflexivity. Qed.
Lemma ksum_app l1 l2 : ksum (l1 ++ l2) = ksum l1 + ksum l2.
Proof. induction l1 as [|x l IH]; [change (ksum l2 = 0 + ksum l2); ring|]. cbn [app]. rewrite !ksum_cons, IH. ring. Qed.
End FldFacts.
Arguments kdbl {_}. Arguments ksq {_}. Arguments kis0 {_}. Arguments kinvert {_}. Arguments kpow {_}.
Arguments kofnat {_}. Arguments ksum {_}.

(** ** The residue field Z/p on canonical representatives. *)
Section Zp.
Variable p : Z.
Hypothesis PR : prime p.
Let p2 : 2 <= p := prime_ge_2 p PR.
Definition zp_ok (z : Z) : bool := (0 <=? z) && (z <? p).
Definition zp : Type := { z : Z | zp_ok z = true }.
Lemma zp_ok_mod z : zp_ok (z mod p) = true.
Proof. unfold zp_ok. pose proof (Z.mod_pos_bound z p ltac:(lia)). apply andb_true_iff. rewrite Z.leb_le, Z.ltb_lt. lia. Qed.
Definition zp_mk (z : Z) : zp := exist _ (z mod p) (zp_ok_mod z).
Definition zp_val (a : zp) : Z := proj1_sig a.
Lemma zp_eq (a b : zp) : zp_val a = zp_val b -> a = b.
Proof.
  destruct a as [a Ha], b as [b Hb]; cbn. intros E. subst b. f_equal. apply UIP_dec. apply Bool.bool_dec.
Qed.
Lemma zp_range a : 0 <= zp_val a < p.
Proof. destruct a as [a H]; cbn. unfold zp_ok in H. apply andb_true_iff in H. rewrite Z.leb_le, Z.ltb_lt in H. exact H. Qed.
Lemma zp_mk_val a : zp_mk (zp_val a) = a.
Proof. apply zp_eq. cbn. apply Z.mod_small, zp_range. Qed.
Lemma zp_mk_eq x y : x mod p = y mod p -> zp_mk x = zp_mk y.
Proof. intros E. apply zp_eq. exact E. Qed.
Definition zp_add (a b : zp) := zp_mk (zp_val a + zp_val b).
Definition zp_mul (a b : zp) := zp_mk (zp_val a * zp_val b).
Definition zp_sub (a b : zp) := zp_mk (zp_val a - zp_val b).
Definition zp_opp (a : zp) := zp_mk (- zp_val a).
Definition zp_inv (a : zp) := zp_mk (invmod (zp_val a) p).
Definition zp_div (a b : zp) := zp_mul a (zp_inv b).
Definition zp_eqb (a b : zp) := zp_val a =? zp_val b.

Ltac zpm := apply zp_eq; cbn [zp_mk zp_val proj1_sig zp_add zp_mul zp_sub zp_opp].
Ltac modsolve := rewrite ?Z.add_mod_idemp_l, ?Z.add_mod_idemp_r, ?Z.mul_mod_idemp_l, ?Z.mul_mod_idemp_r by lia; f_equal; ring.

Lemma zp_theory : field_theory (zp_mk 0) (zp_mk 1) zp_add zp_mul zp_sub zp_opp zp_div zp_inv (@eq zp).
Proof.
  constructor; [constructor| | |].
  - intros a. pose proof (zp_range a). zpm. rewrite Z.mod_0_l by lia. apply Z.mod_small. lia.
  - intros a b. zpm. f_equal. ring.
  - intros a b c. zpm. modsolve.
  - intros a. pose proof (zp_range a). zpm. rewrite Z.mul_mod_idemp_l, Z.mul_1_l by lia. apply Z.mod_small. lia.
  - intros a b. zpm. f_equal. ring.
  - intros a b c. zpm. modsolve.
  - intros a b c. zpm. rewrite ?Z.mul_mod_idemp_l by lia. rewrite <- Z.add_mod by lia. f_equal. ring.
  - intros a b. zpm. rewrite Z.add_mod_idemp_r by lia. f_equal.
  - intros a. zpm. rewrite Z.add_mod_idemp_r by lia. f_equal. ring.
  - intros E. apply (f_equal zp_val) in E. cbn [zp_mk zp_val proj1_sig] in E. rewrite Z.mod_1_l, Z.mod_0_l in E by lia. lia.
  - reflexivity.
  - intros a N. pose proof (zp_range a) as R. zpm. unfold zp_inv. cbn [zp_mk zp_val proj1_sig].
    fold (zp_val a). rewrite (invmod_spec _ _ PR), Z.mod_mod, Z.mul_mod_idemp_l by lia.
    rewrite Z.mul_comm, <- Z.pow_succ_r by lia. replace (Z.succ (p - 2)) with (p - 1) by lia.
    apply (fermat p _ PR). intros D. destruct (Z.eq_dec (zp_val a) 0) as [E|E].
    + apply N. zpm. rewrite Z.mod_0_l by lia. exact E.
    + apply Z.divide_pos_le in D; lia.
Qed.
Lemma zp_eqb_eq a b : zp_eqb a b = true <-> a = b.
Proof. unfold zp_eqb. rewrite Z.eqb_eq. split; [apply zp_eq|intros ->; reflexivity]. Qed.
Definition ZpFld : Fld := mkFld zp (zp_mk 0) (zp_mk 1) zp_add zp_mul zp_sub zp_opp zp_div zp_inv zp_eqb zp_theory zp_eqb_eq.
End Zp.

(** ** Fr and Fq on limbs. *)
Section LimbFld.
Variables (P : fparams) (m : Z).
Hypothesis OK : params_ok P m.
Hypothesis PR : prime m.
Let m1 : 1 < m := m_gt1 P m OK.

Definition redb (a : l4) : bool :=
  forallb (fun x => (0 <=? x) && (x <? 2 ^ 64)) [w0 a; w1 a; w2 a; w3 a] && (limb_value a <? m).
Lemma redb_reduced a : redb a = true <-> reduced m a.
Proof.
  unfold redb, reduced, limbs_ok, limb_ok. cbn [forallb]. rewrite !andb_true_iff, !Z.leb_le, !Z.ltb_lt. tauto.
Qed.
Definition le_t : Type := { a : l4 | redb a = true }.
Definition lf_limbs (a : le_t) : l4 := proj1_sig a.
Lemma lf_eq (a b : le_t) : lf_limbs a = lf_limbs b -> a = b.
Proof. destruct a as [a Ha], b as [b Hb]; cbn. intros E. subst b. f_equal. apply UIP_dec, Bool.bool_dec. Qed.
(** The residue of an element. *)
Definition lf_val (a : le_t) : Z := val (montgomery_reduce P (lf_limbs a)).
Lemma redb_rep a : redb a = true -> rep m a (val (montgomery_reduce P a)).
Proof.
  intros H. apply redb_reduced in H as [W L]. rewrite limb_value_val in L. apply (rep_exists P m OK); [apply limbs_ok_wf, W|exact L].
Qed.
Lemma lf_rep (a : le_t) : rep m (lf_limbs a) (lf_val a). Proof. destruct a as [a H]. apply (redb_rep a H). Qed.
Lemma rep_redb a c : rep m a c -> redb a = true.
Proof.
  intros R. apply redb_reduced. split; [apply limbs_ok_wf, (rep_wf m _ _ R)|]. rewrite limb_value_val. apply (rep_lt P m OK _ _ R).
Qed.
Lemma lf_val_range a : 0 <= lf_val a < m. Proof. apply (lf_rep a). Qed.
Lemma lf_val_rep a c : rep m (lf_limbs a) c -> lf_val a = c.
Proof. intros R. apply (rep_fun P m OK (lf_limbs a)); [apply lf_rep|exact R]. Qed.
Lemma lf_val_inj a b : lf_val a = lf_val b -> a = b.
Proof. intros E. apply lf_eq. apply (rep_inj m _ _ (lf_val a)); [apply lf_rep|rewrite E; apply lf_rep]. Qed.

Definition lf_0 : le_t := exist _ fzero (rep_redb _ _ (rep_zero P m OK)).
Definition lf_1 : le_t := exist _ (fone P) (rep_redb _ _ (rep_one P m OK)).
Definition lf_add (a b : le_t) : le_t := exist _ (fadd P (lf_limbs a) (lf_limbs b)) (rep_redb _ _ (rep_add P m OK _ _ _ _ (lf_rep a) (lf_rep b))).
Definition lf_mul (a b : le_t) : le_t := exist _ (fmul P (lf_limbs a) (lf_limbs b)) (rep_redb _ _ (rep_mul P m OK _ _ _ _ (lf_rep a) (lf_rep b))).
Definition lf_sub (a b : le_t) : le_t := exist _ (fsub P (lf_limbs a) (lf_limbs b)) (rep_redb _ _ (rep_sub P m OK _ _ _ _ (lf_rep a) (lf_rep b))).
Definition lf_opp (a : le_t) : le_t := exist _ (fneg P (lf_limbs a)) (rep_redb _ _ (rep_neg P m OK _ _ (lf_rep a))).
(** The mathematical inverse (what [invert] returns off the dropped carries, C03). *)
Lemma enc_mod_rep c : rep m (enc P (c mod m)) (c mod m).
Proof. apply enc_rep; [exact OK|apply Z.mod_pos_bound; lia]. Qed.
Definition lf_mk (c : Z) : le_t := exist _ (enc P (c mod m)) (rep_redb _ _ (enc_mod_rep c)).
Definition lf_inv (a : le_t) : le_t := lf_mk (invmod (lf_val a) m).
Definition lf_div (a b : le_t) : le_t := lf_mul a (lf_inv b).
Definition lf_eqb (a b : le_t) : bool := feqb (lf_limbs a) (lf_limbs b).

Lemma lf_val_0 : lf_val lf_0 = 0. Proof. apply lf_val_rep, (rep_zero P m OK). Qed.
Lemma lf_val_1 : lf_val lf_1 = 1. Proof. apply lf_val_rep, (rep_one P m OK). Qed.
Lemma lf_val_add a b : lf_val (lf_add a b) = (lf_val a + lf_val b) mod m.
Proof. apply lf_val_rep, (rep_add P m OK); apply lf_rep. Qed.
Lemma lf_val_mul a b : lf_val (lf_mul a b) = (lf_val a * lf_val b) mod m.
Proof. apply lf_val_rep, (rep_mul P m OK); apply lf_rep. Qed.
Lemma lf_val_sub a b : lf_val (lf_sub a b) = (lf_val a - lf_val b) mod m.
Proof. apply lf_val_rep, (rep_sub P m OK); apply lf_rep. Qed.
Lemma lf_val_opp a : lf_val (lf_opp a) = (- lf_val a) mod m.
Proof. apply lf_val_rep, (rep_neg P m OK); apply lf_rep. Qed.
Lemma lf_val_mk c : lf_val (lf_mk c) = c mod m.
Proof. apply lf_val_rep, enc_mod_rep. Qed.
Lemma lf_val_inv a : lf_val (lf_inv a) = (lf_val a) ^ (m - 2) mod m.
Proof. unfold lf_inv. rewrite lf_val_mk, (invmod_spec _ _ PR), Z.mod_mod by lia. reflexivity. Qed.

Ltac lfm := apply lf_val_inj; rewrite ?lf_val_sub, ?lf_val_add, ?lf_val_mul, ?lf_val_opp, ?lf_val_0, ?lf_val_1, ?lf_val_add, ?lf_val_mul, ?lf_val_opp.
Ltac modsolve := rewrite ?Z.add_mod_idemp_l, ?Z.add_mod_idemp_r, ?Z.mul_mod_idemp_l, ?Z.mul_mod_idemp_r by lia; f_equal; ring.
Lemma lf_theory : field_theory lf_0 lf_1 lf_add lf_mul lf_sub lf_opp lf_div lf_inv (@eq le_t).
Proof.
  constructor; [constructor| | |].
  - intros a. pose proof (lf_val_range a). lfm. apply Z.mod_small. lia.
  - intros a b. lfm. f_equal. ring.
  - intros a b c. lfm. modsolve.
  - intros a. pose proof (lf_val_range a). lfm. rewrite Z.mul_1_l by lia. apply Z.mod_small. lia.
  - intros a b. lfm. f_equal. ring.
  - intros a b c. lfm. modsolve.
  - intros a b c. lfm. rewrite ?Z.mul_mod_idemp_l by lia. rewrite <- Z.add_mod by lia. f_equal. ring.
  - intros a b. lfm. rewrite Z.add_mod_idemp_r by lia. f_equal.
  - intros a. lfm. rewrite Z.add_mod_idemp_r by lia. rewrite Z.add_opp_diag_r. apply Z.mod_0_l. lia.
  - intros E. apply (f_equal lf_val) in E. rewrite lf_val_0, lf_val_1 in E. lia.
  - reflexivity.
  - intros a N. pose proof (lf_val_range a) as R. lfm. rewrite lf_val_inv, Z.mul_mod_idemp_l, Z.mul_comm by lia.
    apply (inverse_pow P m OK PR). assert (lf_val a <> 0); [|lia].
    intros E. apply N. lfm. exact E.
Qed.
Lemma lf_eqb_eq a b : lf_eqb a b = true <-> a = b.
Proof. unfold lf_eqb, feqb. rewrite eqb4_eq. split; [apply lf_eq|intros ->; reflexivity]. Qed.
Definition LimbFld : Fld := mkFld le_t lf_0 lf_1 lf_add lf_mul lf_sub lf_opp lf_div lf_inv lf_eqb lf_theory lf_eqb_eq.
End LimbFld.

(** The fields of the library. *)
Definition FrFld : Fld := LimbFld fr R_MOD fr_ok R_MOD_prime.
Definition FqFld : Fld := LimbFld fq Q_MOD fq_ok Q_MOD_prime.
(** Elements of concrete residues, and the residue of an element. *)
Definition fr_mk (c : Z) : FrFld := lf_mk fr R_MOD fr_ok c.
Definition fq_mk (c : Z) : FqFld := lf_mk fq Q_MOD fq_ok c.
Definition fr_val (a : FrFld) : Z := lf_val fr R_MOD a.
Definition fq_val (a : FqFld) : Z := lf_val fq Q_MOD a.

(** A small field for examples: Z/13. *)
Lemma prime_13 : prime 13.
Proof.
  apply prime_intro; [lia|]. intros n Hn. assert (H : n = 1 \/ n = 2 \/ n = 3 \/ n = 4 \/ n = 5 \/ n = 6 \/ n = 7 \/ n = 8 \/ n = 9 \/ n = 10 \/ n = 11 \/ n = 12) by lia.
  repeat destruct H as [->|H]; [..|subst n]; apply Zgcd_1_rel_prime; reflexivity.
Qed.
Definition F13 : Fld := ZpFld 13 prime_13.
Definition f13 (z : Z) : F13 := zp_mk 13 prime_13 z.
