(** The tower over Fq: its norms do not vanish, and the Frobenius maps are q-power maps. *)
From Coq Require Import ZArith List Bool Lia Field Ring Znumtheory.
From Verif Require Import LimbModel LimbProofs MontProofs FieldModel FieldSpec FieldProofs PowProofs FieldMore Primes
  Algebra ExtModel ExtSpec ExtProofs ExtParams RingPow.
Import ListNotations.
Local Open Scope Z_scope.

Notation Q := (Z.to_nat Q_MOD).
Notation fpw := (rpow (@kmul FqFld) (@k1 FqFld)).
Notation F := FqFld.
Lemma fring : ring_theory (@k0 F) k1 kadd kmul ksub kopp eq. Proof. exact (F_R (kth F)). Qed.
Add Field fqf : (kth F).
Lemma Q_pos : 0 < Q_MOD. Proof. rewrite Q_MOD_val. reflexivity. Qed.
Lemma Q_nat : Z.of_nat Q = Q_MOD. Proof. apply Z2Nat.id. pose proof Q_pos. lia. Qed.
Lemma Q_nat_prime : prime (Z.of_nat Q). Proof. rewrite Q_nat. exact Q_MOD_prime. Qed.
Lemma fq_val_inj (a b : F) : fq_val a = fq_val b -> a = b. Proof. apply (lf_val_inj fq Q_MOD fq_ok). Qed.
Lemma fq_val_range (a : F) : 0 <= fq_val a < Q_MOD. Proof. apply (lf_val_range fq Q_MOD fq_ok). Qed.
Lemma fq_val_mul (a b : F) : fq_val (kmul a b) = (fq_val a * fq_val b) mod Q_MOD. Proof. apply (lf_val_mul fq Q_MOD fq_ok). Qed.
Lemma fq_val_add (a b : F) : fq_val (kadd a b) = (fq_val a + fq_val b) mod Q_MOD. Proof. apply (lf_val_add fq Q_MOD fq_ok). Qed.
Lemma fq_val_1 : fq_val (k1 : F) = 1. Proof. apply (lf_val_1 fq Q_MOD fq_ok). Qed.
Lemma fq_val_0 : fq_val (k0 : F) = 0. Proof. apply (lf_val_0 fq Q_MOD fq_ok). Qed.
Lemma fq_val_mk c : fq_val (fq_mk c) = c mod Q_MOD. Proof. apply (lf_val_mk fq Q_MOD fq_ok). Qed.
Lemma fq_val_pow (a : F) n : fq_val (fpw a n) = fq_val a ^ Z.of_nat n mod Q_MOD.
Proof.
  pose proof Q_pos. assert (1 < Q_MOD) by (rewrite Q_MOD_val; reflexivity).
  induction n as [|n IH]; [cbn [rpow]; rewrite fq_val_1, Z.pow_0_r, Z.mod_1_l by lia; reflexivity|].
  rewrite rpow_S, fq_val_mul, IH, Nat2Z.inj_succ, Z.pow_succ_r, Z.mul_mod_idemp_r by lia. reflexivity.
Qed.
Lemma fq_fermat1 (a : F) : a <> k0 -> fpw a (Z.to_nat (Q_MOD - 1)) = k1.
Proof.
  intros N. pose proof Q_pos. assert (1 < Q_MOD) by (rewrite Q_MOD_val; reflexivity).
  apply fq_val_inj. rewrite fq_val_pow, fq_val_1, Z2Nat.id by lia.
  rewrite (fermat Q_MOD _ Q_MOD_prime); [apply Z.mod_1_l; lia|].
  intros D. pose proof (fq_val_range a). destruct (Z.eq_dec (fq_val a) 0) as [E|E].
  - apply N, fq_val_inj. rewrite fq_val_0. exact E.
  - apply Z.divide_pos_le in D; lia.
Qed.
Lemma Q_succ : Q = S (Z.to_nat (Q_MOD - 1)). Proof. pose proof Q_pos. lia. Qed.
Lemma fq_fermat (a : F) : fpw a Q = a.
Proof.
  rewrite Q_succ, rpow_S. destruct (kdec F a k0) as [->|N]; [ring|]. rewrite fq_fermat1 by exact N. ring.
Qed.
(** The quotient (q-1)/6, odd. *)
Definition e6p : positive := Eval vm_compute in Z.to_pos ((21888242871839275222246405745257275088696311157297823662689037894645226208583 - 1) / 6).
Notation E6 := (Pos.to_nat e6p).
Lemma Q_e6 : Q_MOD - 1 = Zpos e6p * 6. Proof. rewrite Q_MOD_val. reflexivity. Qed.
Lemma Q_E6 : Z.to_nat (Q_MOD - 1) = (E6 * 6)%nat.
Proof. rewrite Q_e6, Z2Nat.inj_mul by lia. rewrite Z2Nat.inj_pos. reflexivity. Qed.
Lemma E6_odd : exists j, E6 = (2 * j + 1)%nat.
Proof. exists (Pos.to_nat (Pos.div2 e6p)). unfold e6p. cbn [Pos.div2]. rewrite Pos2Nat.inj_xI. lia. Qed.

Lemma fpow_m1_odd j : fpw (kopp k1) (2 * j + 1) = kopp (k1 : F).
Proof.
  rewrite (rpow_add _ _ _ _ _ _ fring), (rpow_mul _ _ _ _ _ _ fring), (rpow_2 _ _ _ _ _ _ fring), (rpow_1_r _ _ _ _ _ _ fring).
  replace (kmul (kopp (k1:F)) (kopp k1)) with (k1 : F) by ring. rewrite (rpow_1_l _ _ _ _ _ _ fring). ring.
Qed.
Lemma m1_neq_1 : kopp (k1 : F) <> k1.
Proof.
  intros E. apply (f_equal (fun x => fq_val (kadd x k1))) in E.
  replace (kadd (kopp (k1:F)) k1) with (k0 : F) in E by ring. rewrite fq_val_0, fq_val_add, fq_val_1 in E.
  rewrite Q_MOD_val in E. discriminate E.
Qed.
(** q = 3 mod 4: -1 is not a square. *)
Lemma fq_anisotropic : anisotropic F.
Proof.
  intros x y H. destruct (kdec F y k0) as [->|N].
  - split; [|reflexivity]. apply (ksq_eq0 F). rewrite <- H. ring.
  - exfalso. set (t := kdiv x y). assert (T : kmul t t = kopp k1).
    { unfold t. transitivity (kdiv (ksub (kadd (kmul x x) (kmul y y)) (kmul y y)) (kmul y y)); [field; exact N|]. rewrite H. field. exact N. }
    assert (NT : t <> k0). { intros E. rewrite E in T. apply (k1_neq0 F). transitivity (kopp (kopp (k1:F))); [ring|]. rewrite <- T. ring. }
    pose proof (fq_fermat1 t NT) as Fm. rewrite Q_E6 in Fm. replace (E6 * 6)%nat with (2 * (E6 * 3))%nat in Fm by lia.
    rewrite (rpow_mul _ _ _ _ _ _ fring), (rpow_2 _ _ _ _ _ _ fring), T in Fm.
    destruct E6_odd as [j Ej]. rewrite Ej in Fm. replace ((2 * j + 1) * 3)%nat with (2 * (3 * j + 1) + 1)%nat in Fm by lia.
    rewrite fpow_m1_odd in Fm. exact (m1_neq_1 Fm).
Qed.
Notation F2 := (q2 F). Notation F6 := (q6 F). Notation F12 := (q12 F).
Notation pw2 := (rpow (q2_mul F) (q2_1 F)).
Notation pw6 := (rpow (q6_mul F) (q6_1 F)).
Notation pw12 := (rpow (q12_mul F) (q12_1 F)).
Notation r2 := (q2_ring F). Notation r6 := (q6_ring F). Notation r12 := (q12_ring F).
Add Ring ring2 : (q2_ring F). Add Ring ring6 : (q6_ring F). Add Ring ring12 : (q12_ring F).
Notation xi := (xi F).

(** ** xi^((q-1)/6), on limbs. *)
Definition raw2 : Type := (l4 * l4)%type.
Definition lim2 (a : F2) : raw2 := (lf_limbs Q_MOD (c0 a), lf_limbs Q_MOD (c1 a)).
Definition raw_sq (a : raw2) : raw2 := let (x, y) := a in
  let t := fmul fq x y in (fmul fq (fadd fq x y) (fsub fq x y), fadd fq t t).
Definition raw_xi (a : raw2) : raw2 := let (x, y) := a in
  let d := fun z => fadd fq z z in
  (fadd fq (d (d (d x))) (fsub fq x y), fadd fq (d (d (d y))) (fadd fq x y)).
Fixpoint raw_pow (e : positive) : raw2 := match e with
  | xH => lim2 (q2_nonres F (q2_1 F)) | xO e => raw_sq (raw_pow e) | xI e => raw_xi (raw_sq (raw_pow e)) end.
Definition sq' (a : F2) : F2 := Q2 (kmul (kadd (c0 a) (c1 a)) (ksub (c0 a) (c1 a))) (kadd (kmul (c0 a) (c1 a)) (kmul (c0 a) (c1 a))).
Lemma sq'_mul a : sq' a = q2_mul F a a. Proof. apply q2_eq; unfold sq', q2_mul; cbn [c0 c1]; ring. Qed.
Lemma raw_sq_lim a : raw_sq (lim2 a) = lim2 (sq' a). Proof. reflexivity. Qed.
Lemma raw_xi_lim a : raw_xi (lim2 a) = lim2 (q2_nonres F a). Proof. reflexivity. Qed.
Lemma raw_pow_spec e : raw_pow e = lim2 (pw2 xi (Pos.to_nat e)).
Proof.
  induction e as [e IH|e IH|]; cbn [raw_pow].
  - rewrite IH, raw_sq_lim, raw_xi_lim, sq'_mul, q2_nonres_mul, Pos2Nat.inj_xI. f_equal.
    rewrite rpow_S. f_equal. rewrite Nat.mul_comm, (rpow_mul _ _ _ _ _ _ r2), (rpow_2 _ _ _ _ _ _ r2). reflexivity.
  - rewrite IH, raw_sq_lim, sq'_mul, Pos2Nat.inj_xO. f_equal.
    rewrite Nat.mul_comm, (rpow_mul _ _ _ _ _ _ r2), (rpow_2 _ _ _ _ _ _ r2). reflexivity.
  - f_equal. rewrite Pos2Nat.inj_1, (rpow_1_r _ _ _ _ _ _ r2), q2_nonres_mul. fold xi. ring.
Qed.
Lemma lim2_inj a b : lim2 a = lim2 b -> a = b.
Proof. intros E. apply q2_eq; apply lf_eq; [apply (f_equal fst) in E|apply (f_equal snd) in E]; exact E. Qed.
Definition raw_eqb (a b : raw2) : bool := eqb4 (fst a) (fst b) && eqb4 (snd a) (snd b).
Lemma raw_eqb_eq a b : raw_eqb (lim2 a) (lim2 b) = true -> a = b.
Proof. unfold raw_eqb. rewrite andb_true_iff, !eqb4_eq. intros [A C]. apply lim2_inj. unfold lim2 in *. cbn in *. congruence. Qed.
Definition delta : F2 := nth 1 frob_fq12_c1 (q2_0 F).
Lemma delta_check : raw_eqb (raw_pow e6p) (lim2 delta) = true.
Proof. vm_cast_no_check (eq_refl true). Qed.
(** The first coefficient of the Fq12 table is xi^((q-1)/6). *)
Lemma delta_spec : delta = pw2 xi E6.
Proof. symmetry. apply raw_eqb_eq. rewrite <- raw_pow_spec. apply delta_check. Qed.

(** ** The norm of delta, and non-residuosity of xi. *)
Lemma q2_norm_pow (a : F2) n : q2_norm F (pw2 a n) = fpw (q2_norm F a) n.
Proof.
  induction n as [|n IH]; [unfold q2_norm; cbn [rpow q2_1 c0 c1]; ring|]. rewrite !rpow_S, q2_norm_mul, IH. reflexivity.
Qed.
(** N(delta) = 82^((q-1)/6) is a primitive sixth root of unity: its square and cube differ from 1. *)
Definition rawN (a : raw2) : l4 := fadd fq (fmul fq (fst a) (fst a)) (fmul fq (snd a) (snd a)).
Lemma ndelta_check :
  let n := rawN (lim2 delta) in let n2 := fmul fq n n in
  negb (eqb4 n2 (fone fq)) && negb (eqb4 (fmul fq n2 n) (fone fq)) = true.
Proof. vm_cast_no_check (eq_refl true). Qed.
Lemma ndelta_2 : kmul (q2_norm F delta) (q2_norm F delta) <> k1.
Proof.
  pose proof ndelta_check as H. cbv zeta in H. apply andb_true_iff in H as [H _]. apply negb_true_iff in H.
  intros E. apply (f_equal (lf_limbs Q_MOD)) in E. assert (H' : eqb4 (fone fq) (fone fq) = false) by (rewrite <- H; f_equal; symmetry; exact E).
  vm_compute in H'. discriminate.
Qed.
Lemma ndelta_3 : kmul (kmul (q2_norm F delta) (q2_norm F delta)) (q2_norm F delta) <> k1.
Proof.
  pose proof ndelta_check as H. cbv zeta in H. apply andb_true_iff in H as [_ H]. apply negb_true_iff in H.
  intros E. apply (f_equal (lf_limbs Q_MOD)) in E. assert (H' : eqb4 (fone fq) (fone fq) = false) by (rewrite <- H; f_equal; symmetry; exact E).
  vm_compute in H'. discriminate.
Qed.
Lemma xi_neq0 : xi <> q2_0 F.
Proof. intros E. apply (f_equal c1) in E. cbn [c1 q2_0 ExtProofs.xi q2_xi] in E. exact (k1_neq0 F E). Qed.
Lemma norm_pow_q (x : F2) : x <> q2_0 F -> fpw (q2_norm F x) (Z.to_nat (Q_MOD - 1)) = k1.
Proof. intros N. apply fq_fermat1, (q2_norm_neq0 F fq_anisotropic), N. Qed.
Lemma xi_not_cube (t : F2) : q2_mul F (q2_mul F t t) t <> xi.
Proof.
  intros E. assert (N : t <> q2_0 F) by (intros ->; apply xi_neq0; rewrite <- E; ring).
  apply ndelta_2. rewrite delta_spec, <- q2_norm_mul, <- (rpow_mul_l _ _ _ _ _ _ r2), <- E.
  rewrite q2_norm_pow, !q2_norm_mul. etransitivity; [|exact (norm_pow_q t N)]. rewrite Q_E6.
  replace (E6 * 6)%nat with (6 * E6)%nat by lia. rewrite (rpow_mul _ _ _ _ _ _ fring). f_equal. generalize (q2_norm F t). intros n. cbn [rpow]. ring.
Qed.
Lemma xi_not_square (t : F2) : q2_mul F t t <> xi.
Proof.
  intros E. assert (N : t <> q2_0 F) by (intros ->; apply xi_neq0; rewrite <- E; ring).
  apply ndelta_3. rewrite delta_spec, <- !q2_norm_mul, <- !(rpow_mul_l _ _ _ _ _ _ r2), <- E.
  rewrite q2_norm_pow, !q2_norm_mul. etransitivity; [|exact (norm_pow_q t N)]. rewrite Q_E6.
  replace (E6 * 6)%nat with (6 * E6)%nat by lia. rewrite (rpow_mul _ _ _ _ _ _ fring). f_equal. generalize (q2_norm F t). intros n. cbn [rpow]. ring.
Qed.
Lemma v_not_square (t : F6) : q6_mul F t t <> vv F.
Proof.
  intros E. apply (xi_not_square (q6_norm F t)). rewrite <- (q6_norm_mul F fq_anisotropic), E. apply (q6_norm_v F).
Qed.
Definition Fq2Fld : Fld := Q2Fld F fq_anisotropic.
Definition Fq6Fld : Fld := Q6Fld F fq_anisotropic xi_not_cube.
Definition Fq12Fld : Fld := Q12Fld F fq_anisotropic xi_not_cube v_not_square.

(** ** q-th powers. *)
Lemma fq_char : nm k0 kadd Q (k1 : F) = k0.
Proof.
  assert (H : forall n, fq_val (nm k0 kadd n (k1 : F)) = Z.of_nat n mod Q_MOD).
  { pose proof Q_pos. induction n as [|n IH]; cbn [nm]; [rewrite fq_val_0; symmetry; apply Z.mod_0_l; lia|].
    rewrite fq_val_add, IH, fq_val_1, Z.add_mod_idemp_r by lia. f_equal. lia. }
  apply fq_val_inj. rewrite H, Q_nat, fq_val_0. apply Z.mod_same. pose proof Q_pos. lia.
Qed.
Definition emb2 (c : F) : F2 := Q2 c k0.
Definition emb6 (c : F2) : F6 := Q6 c (q2_0 F) (q2_0 F).
Definition emb12 (c : F6) : F12 := Q12 c (q6_0 F).
Ltac e2 := apply q2_eq; unfold emb2, q2_mul, q2_add, q2_0, q2_1; cbn [c0 c1]; ring.
Lemma emb2_mul a b : emb2 (kmul a b) = q2_mul F (emb2 a) (emb2 b). Proof. e2. Qed.
Lemma emb2_add a b : emb2 (kadd a b) = q2_add F (emb2 a) (emb2 b). Proof. e2. Qed.
Lemma emb2_pow a n : emb2 (fpw a n) = pw2 (emb2 a) n.
Proof. induction n as [|n IH]; [reflexivity|]. rewrite !rpow_S, emb2_mul, IH. reflexivity. Qed.
Lemma emb2_nm n : emb2 (nm k0 kadd n k1) = nm (q2_0 F) (q2_add F) n (q2_1 F).
Proof. induction n as [|n IH]; [reflexivity|]. cbn [nm]. rewrite emb2_add, IH. reflexivity. Qed.
Ltac e6 := apply q6_eq; rewrite ?q6_mul_coords; unfold emb6, q6_add, q6_0, q6_1; cbn [d0 d1 d2]; try ring.
Lemma emb6_mul a b : emb6 (q2_mul F a b) = q6_mul F (emb6 a) (emb6 b). Proof. e6. Qed.
Lemma emb6_add a b : emb6 (q2_add F a b) = q6_add F (emb6 a) (emb6 b). Proof. e6. Qed.
Lemma emb6_pow a n : emb6 (pw2 a n) = pw6 (emb6 a) n.
Proof. induction n as [|n IH]; [reflexivity|]. rewrite !rpow_S, emb6_mul, IH. reflexivity. Qed.
Lemma emb6_nm n : emb6 (nm (q2_0 F) (q2_add F) n (q2_1 F)) = nm (q6_0 F) (q6_add F) n (q6_1 F).
Proof. induction n as [|n IH]; [reflexivity|]. cbn [nm]. rewrite emb6_add, IH. reflexivity. Qed.
Ltac e12 := apply q12_eq; rewrite ?q12_mul_coords; unfold emb12, q12_add, q12_0, q12_1; cbn [e0 e1]; try ring.
Lemma emb12_mul a b : emb12 (q6_mul F a b) = q12_mul F (emb12 a) (emb12 b). Proof. e12. Qed.
Lemma emb12_add a b : emb12 (q6_add F a b) = q12_add F (emb12 a) (emb12 b). Proof. e12. Qed.
Lemma emb12_pow a n : emb12 (pw6 a n) = pw12 (emb12 a) n.
Proof. induction n as [|n IH]; [reflexivity|]. rewrite !rpow_S, emb12_mul, IH. reflexivity. Qed.
Lemma emb12_nm n : emb12 (nm (q6_0 F) (q6_add F) n (q6_1 F)) = nm (q12_0 F) (q12_add F) n (q12_1 F).
Proof. induction n as [|n IH]; [reflexivity|]. cbn [nm]. rewrite emb12_add, IH. reflexivity. Qed.
Lemma char2 : nm (q2_0 F) (q2_add F) Q (q2_1 F) = q2_0 F. Proof. rewrite <- emb2_nm, fq_char. reflexivity. Qed.
Lemma char6 : nm (q6_0 F) (q6_add F) Q (q6_1 F) = q6_0 F. Proof. rewrite <- emb6_nm, char2. reflexivity. Qed.
Lemma char12 : nm (q12_0 F) (q12_add F) Q (q12_1 F) = q12_0 F. Proof. rewrite <- emb12_nm, char6. reflexivity. Qed.

Lemma add_pow2 a b : pw2 (q2_add F a b) Q = q2_add F (pw2 a Q) (pw2 b Q).
Proof. apply (freshman _ _ _ _ _ _ r2); [apply Q_nat_prime|apply char2]. Qed.
Lemma add_pow6 a b : pw6 (q6_add F a b) Q = q6_add F (pw6 a Q) (pw6 b Q).
Proof. apply (freshman _ _ _ _ _ _ r6); [apply Q_nat_prime|apply char6]. Qed.
Lemma add_pow12 a b : pw12 (q12_add F a b) Q = q12_add F (pw12 a Q) (pw12 b Q).
Proof. apply (freshman _ _ _ _ _ _ r12); [apply Q_nat_prime|apply char12]. Qed.

Definition uu : F2 := Q2 k0 k1.
Definition ww : F12 := Q12 (q6_0 F) (q6_1 F).
Lemma dec2 a : a = q2_add F (emb2 (c0 a)) (q2_mul F (emb2 (c1 a)) uu).
Proof. unfold uu. apply q2_eq; unfold emb2, q2_mul, q2_add; cbn [c0 c1]; ring. Qed.
Lemma uu_pow : pw2 uu Q = q2_neg F uu.
Proof.
  rewrite Q_succ, rpow_S, Q_E6. replace (E6 * 6)%nat with (2 * (E6 * 3))%nat by lia.
  rewrite (rpow_mul _ _ _ _ _ _ r2), (rpow_2 _ _ _ _ _ _ r2).
  replace (q2_mul F uu uu) with (emb2 (kopp k1)) by (unfold uu; e2). rewrite <- emb2_pow.
  destruct E6_odd as [j Ej]. rewrite Ej. replace ((2 * j + 1) * 3)%nat with (2 * (3 * j + 1) + 1)%nat by lia.
  rewrite fpow_m1_odd. unfold uu. apply q2_eq; unfold emb2, q2_mul, q2_neg; cbn [c0 c1]; ring.
Qed.
Lemma conj_pow a : pw2 a Q = q2_conj F a.
Proof.
  rewrite (dec2 a) at 1. rewrite add_pow2, (rpow_mul_l _ _ _ _ _ _ r2), uu_pow, <- !emb2_pow, !fq_fermat.
  unfold uu. apply q2_eq; unfold emb2, q2_mul, q2_neg, q2_conj, q2_add; cbn [c0 c1]; ring.
Qed.
Notation v := (q6_v F).
Lemma dec6 a : a = q6_add F (q6_add F (emb6 (d0 a)) (q6_mul F (emb6 (d1 a)) v)) (q6_mul F (emb6 (d2 a)) (q6_mul F v v)).
Proof. rewrite !q6_mul_coords. apply q6_eq; unfold q6_v, emb6, q6_add; cbn [d0 d1 d2]; ring. Qed.
Lemma v3 : pw6 v 3 = emb6 xi.
Proof. rewrite (rpow_3 _ _ _ _ _ _ r6), !q6_mul_coords. apply q6_eq; unfold q6_v, emb6; cbn [d0 d1 d2]; ring. Qed.
Definition gamma : F2 := q2_mul F delta delta.
Lemma v_pow : pw6 v Q = q6_mul F (emb6 gamma) v.
Proof.
  rewrite Q_succ, rpow_S, Q_E6. replace (E6 * 6)%nat with (3 * (E6 + E6))%nat by lia.
  rewrite (rpow_mul _ _ _ _ _ _ r6), v3, <- emb6_pow, (rpow_add _ _ _ _ _ _ r2), <- delta_spec. fold gamma. ring.
Qed.
Lemma frob6_pow a : pw6 a Q = Q6 (q2_conj F (d0 a)) (q2_mul F (q2_conj F (d1 a)) gamma) (q2_mul F (q2_conj F (d2 a)) (q2_mul F gamma gamma)).
Proof.
  rewrite (dec6 a) at 1. rewrite !add_pow6, !(rpow_mul_l _ _ _ _ _ _ r6), v_pow, <- !emb6_pow, !conj_pow. generalize gamma. intros g.
  rewrite !q6_mul_coords. apply q6_eq; unfold q6_v, emb6, q6_add; cbn [d0 d1 d2]; ring.
Qed.
Lemma dec12 a : a = q12_add F (emb12 (e0 a)) (q12_mul F (emb12 (e1 a)) ww).
Proof. rewrite !q12_mul_coords. apply q12_eq; unfold ww, emb12, q12_add; cbn [e0 e1]; ring. Qed.
Lemma w2 : q12_mul F ww ww = emb12 v.
Proof. rewrite !q12_mul_coords. apply q12_eq; unfold ww, emb12, vv; cbn [e0 e1]; ring. Qed.
Lemma w_pow : pw12 ww Q = q12_mul F (emb12 (emb6 delta)) ww.
Proof.
  rewrite Q_succ, rpow_S, Q_E6. replace (E6 * 6)%nat with (2 * (3 * E6))%nat by lia.
  rewrite (rpow_mul _ _ _ _ _ _ r12), (rpow_2 _ _ _ _ _ _ r12), w2, <- emb12_pow, (rpow_mul _ _ _ _ _ _ r6), v3, <- emb6_pow, <- delta_spec. ring.
Qed.
Lemma frob12_pow a : pw12 a Q = Q12 (pw6 (e0 a) Q) (q6_mul F (pw6 (e1 a) Q) (emb6 delta)).
Proof.
  rewrite (dec12 a) at 1. rewrite !add_pow12, !(rpow_mul_l _ _ _ _ _ _ r12), w_pow, <- !emb12_pow.
  generalize (pw6 (e0 a) Q) (pw6 (e1 a) Q) (emb6 delta). intros x y z.
  rewrite !q12_mul_coords. apply q12_eq; unfold ww, emb12, q12_add; cbn [e0 e1]; ring.
Qed.

(** ** The coefficient tables. *)
Definition t0 := frob_fq2_c1. Definition t1 := frob_fq6_c1. Definition t2 := frob_fq6_c2. Definition t12 := frob_fq12_c1.
Definition raw_mul (a b : raw2) : raw2 := let (x, y) := a in let (z, w) := b in
  (fsub fq (fmul fq x z) (fmul fq y w), fadd fq (fmul fq x w) (fmul fq y z)).
Definition raw_conj (a : raw2) : raw2 := (fst a, fneg fq (snd a)).
Lemma raw_mul_lim a b : raw_mul (lim2 a) (lim2 b) = lim2 (q2_mul F a b). Proof. reflexivity. Qed.
Lemma raw_conj_lim a : raw_conj (lim2 a) = lim2 (q2_conj F a). Proof. reflexivity. Qed.
Definition step_check (n : nat) (t : list F2) (g : F2) : bool :=
  Nat.eqb (length t) n && raw_eqb (lim2 (nth 0 t (q2_0 F))) (lim2 (q2_1 F)) &&
  forallb (fun k => raw_eqb (raw_mul (raw_conj (lim2 (nth k t (q2_0 F)))) (lim2 g)) (lim2 (nth (S k mod n) t (q2_0 F)))) (seq 0 n).
Ltac vmchk := vm_cast_no_check (eq_refl true).
Lemma TA : raw_eqb (raw_mul (lim2 delta) (lim2 delta)) (lim2 (nth 1 t1 (q2_0 F))) = true. Proof. vmchk. Qed.
Lemma TB : raw_eqb (raw_mul (lim2 (nth 1 t1 (q2_0 F))) (lim2 (nth 1 t1 (q2_0 F)))) (lim2 (nth 1 t2 (q2_0 F))) = true. Proof. vmchk. Qed.
Lemma TS1 : step_check 6 t1 (nth 1 t1 (q2_0 F)) = true. Proof. vmchk. Qed.
Lemma TS2 : step_check 6 t2 (nth 1 t2 (q2_0 F)) = true. Proof. vmchk. Qed.
Lemma TS12 : step_check 12 t12 delta = true. Proof. vmchk. Qed.
Lemma T00 : eqb4 (lf_limbs Q_MOD (nth 0 t0 k0)) (fone fq) = true. Proof. vmchk. Qed.
Lemma T01 : eqb4 (lf_limbs Q_MOD (nth 1 t0 k0)) (fneg fq (fone fq)) = true. Proof. vmchk. Qed.
Lemma step_check_spec n t g : (0 < n)%nat -> step_check n t g = true -> nth 0 t (q2_0 F) = q2_1 F /\
  forall k, nth (S k mod n) t (q2_0 F) = q2_mul F (q2_conj F (nth (k mod n) t (q2_0 F))) g.
Proof.
  intros Hn. unfold step_check. intros H. apply andb_true_iff in H as [H C]. apply andb_true_iff in H as [_ A]. split; [apply raw_eqb_eq, A|].
  intros k. rewrite forallb_forall in C. assert (L : (k mod n < n)%nat) by (apply Nat.mod_upper_bound; lia).
  specialize (C (k mod n)%nat (proj2 (in_seq n 0 (k mod n)) (conj (Nat.le_0_l _) L))). cbv beta in C. rewrite raw_conj_lim, raw_mul_lim in C.
  apply raw_eqb_eq in C. rewrite C. f_equal.
  change (S k) with (1 + k)%nat. change (S (k mod n)) with (1 + k mod n)%nat. symmetry. apply Nat.add_mod_idemp_r. lia.
Qed.
Lemma t1_1 : nth 1 t1 (q2_0 F) = gamma.
Proof. pose proof TA as H. rewrite raw_mul_lim in H. symmetry. apply raw_eqb_eq, H. Qed.
Lemma t2_1 : nth 1 t2 (q2_0 F) = q2_mul F gamma gamma.
Proof. pose proof TB as H. rewrite raw_mul_lim in H. apply raw_eqb_eq in H. rewrite t1_1 in H. symmetry. exact H. Qed.
Lemma t1_step : nth 0 t1 (q2_0 F) = q2_1 F /\ forall k, nth (S k mod 6) t1 (q2_0 F) = q2_mul F (q2_conj F (nth (k mod 6) t1 (q2_0 F))) gamma.
Proof. rewrite <- t1_1. apply (step_check_spec 6); [lia|exact TS1]. Qed.
Lemma t2_step : nth 0 t2 (q2_0 F) = q2_1 F /\ forall k, nth (S k mod 6) t2 (q2_0 F) = q2_mul F (q2_conj F (nth (k mod 6) t2 (q2_0 F))) (q2_mul F gamma gamma).
Proof. rewrite <- t2_1. apply (step_check_spec 6); [lia|exact TS2]. Qed.
Lemma t12_step : nth 0 t12 (q2_0 F) = q2_1 F /\ forall k, nth (S k mod 12) t12 (q2_0 F) = q2_mul F (q2_conj F (nth (k mod 12) t12 (q2_0 F))) delta.
Proof. apply (step_check_spec 12); [lia|exact TS12]. Qed.
Lemma t0_0 : nth 0 t0 k0 = (k1 : F).
Proof. apply lf_eq, eqb4_eq, T00. Qed.
Lemma t0_1 : nth 1 t0 k0 = kopp (k1 : F).
Proof. apply lf_eq, eqb4_eq, T01. Qed.
Lemma t0_step k : nth (S k mod 2) t0 k0 = kopp (nth (k mod 2) t0 (k0 : F)).
Proof.
  assert (H : (k mod 2 < 2)%nat) by (apply Nat.mod_upper_bound; lia).
  replace (S k mod 2)%nat with (S (k mod 2) mod 2)%nat
    by (change (S k) with (1 + k)%nat; change (S (k mod 2)) with (1 + k mod 2)%nat; apply Nat.add_mod_idemp_r; lia).
  destruct (k mod 2)%nat as [|[|]]; [change (S 0 mod 2)%nat with 1%nat|change (2 mod 2)%nat with 0%nat|lia]; rewrite t0_0, t0_1; ring.
Qed.

(** ** The maps of the code. *)
Definition frob2s := q2_frobs F t0.
Definition frob6 := q6_frob F t1 t2. Definition frob6s := q6_frobs F t0 t1 t2.
Definition frob12 := q12_frob F t1 t2 t12. Definition frob12s := q12_frobs F t0 t1 t2 t12.
Lemma frob6_is_pow a : frob6 a = pw6 a Q.
Proof. rewrite frob6_pow. unfold frob6, q6_frob. rewrite t1_1, t2_1. reflexivity. Qed.
Lemma frob12_is_pow a : frob12 a = pw12 a Q.
Proof. rewrite frob12_pow. unfold frob12, q12_frob. fold frob6. rewrite !frob6_is_pow. reflexivity. Qed.
Lemma frob2s_S a k : frob2s a (S k) = q2_conj F (frob2s a k).
Proof. unfold frob2s, q2_frobs, q2_conj. apply q2_eq; cbn [c0 c1]; [reflexivity|]. rewrite t0_step. ring. Qed.
Lemma frob2s_0 a : frob2s a 0 = a.
Proof. unfold frob2s, q2_frobs. change (0 mod 2)%nat with 0%nat. rewrite t0_0. apply q2_eq; cbn [c0 c1]; ring. Qed.
Lemma frob2s_pow a k : frob2s a k = pw2 a (Q ^ k).
Proof.
  induction k as [|k IH]; [rewrite frob2s_0; symmetry; apply (rpow_1_r _ _ _ _ _ _ r2)|].
  rewrite frob2s_S, IH, <- conj_pow, Nat.pow_succ_r', Nat.mul_comm, (rpow_mul _ _ _ _ _ _ r2). reflexivity.
Qed.
Lemma frob6s_0 a : frob6s a 0 = a.
Proof.
  unfold frob6s, q6_frobs. change (0 mod 6)%nat with 0%nat. fold (frob2s (d0 a) 0) (frob2s (d1 a) 0) (frob2s (d2 a) 0).
  rewrite !frob2s_0. fold t1 t2. rewrite (proj1 t1_step), (proj1 t2_step). apply q6_eq; cbn [d0 d1 d2]; ring.
Qed.
Lemma frob6s_S a k : frob6s a (S k) = pw6 (frob6s a k) Q.
Proof.
  rewrite frob6_pow. unfold frob6s, q6_frobs. cbn [d0 d1 d2]. fold frob2s. rewrite !frob2s_S.
  fold t1 t2. rewrite (proj2 t1_step), (proj2 t2_step), !q2_conj_mul.
  generalize gamma (frob2s (d0 a) k) (frob2s (d1 a) k) (frob2s (d2 a) k) (nth (k mod 6) t1 (q2_0 F)) (nth (k mod 6) t2 (q2_0 F)).
  intros. apply q6_eq; cbn [d0 d1 d2]; ring.
Qed.
Lemma frob6s_pow a k : frob6s a k = pw6 a (Q ^ k).
Proof.
  induction k as [|k IH]; [rewrite frob6s_0; symmetry; apply (rpow_1_r _ _ _ _ _ _ r6)|].
  rewrite frob6s_S, IH, Nat.pow_succ_r', Nat.mul_comm, (rpow_mul _ _ _ _ _ _ r6). reflexivity.
Qed.
Lemma frob12s_eq a k : frob12s a k = Q12 (frob6s (e0 a) k) (q6_mul F (frob6s (e1 a) k) (emb6 (nth (k mod 12) t12 (q2_0 F)))).
Proof. unfold frob12s, q12_frobs. fold t1 t2 t12. fold frob6s. rewrite q6_scale_spec. reflexivity. Qed.
Lemma frob12s_0 a : frob12s a 0 = a.
Proof.
  rewrite frob12s_eq, !frob6s_0. change (0 mod 12)%nat with 0%nat. rewrite (proj1 t12_step).
  change (emb6 (q2_1 F)) with (q6_1 F). apply q12_eq; cbn [e0 e1]; ring.
Qed.
Lemma emb6_conj a : pw6 (emb6 a) Q = emb6 (q2_conj F a). Proof. rewrite <- emb6_pow, conj_pow. reflexivity. Qed.
Lemma frob12s_S a k : frob12s a (S k) = pw12 (frob12s a k) Q.
Proof.
  rewrite frob12_pow, !frob12s_eq. cbn [e0 e1]. rewrite !frob6s_S, (proj2 t12_step), (rpow_mul_l _ _ _ _ _ _ r6), emb6_conj, emb6_mul.
  apply q12_eq; cbn [e0 e1]; [reflexivity|]. generalize (emb6 delta). intros; ring.
Qed.
Lemma frob12s_pow a k : frob12s a k = pw12 a (Q ^ k).
Proof.
  induction k as [|k IH]; [rewrite frob12s_0; symmetry; apply (rpow_1_r _ _ _ _ _ _ r12)|].
  rewrite frob12s_S, IH, Nat.pow_succ_r', Nat.mul_comm, (rpow_mul _ _ _ _ _ _ r12). reflexivity.
Qed.
