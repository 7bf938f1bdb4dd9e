(** Properties C01-C13 (prime fields).  Each theorem quantifies over both fields of the
    library through [bn_field P m]; [represents m a c] (FieldSpec.v) reads "the limbs [a]
    are the reduced Montgomery form of the residue [c]". *)
From Coq Require Import ZArith List Bool Lia Znumtheory Zdiv.
From Verif Require Import LimbModel LimbProofs MontProofs FieldModel FieldSpec FieldProofs DigitProofs PowProofs FieldMore Primes.
Import ListNotations.
Local Open Scope Z_scope.

Lemma bn_ok P m : bn_field P m -> params_ok P m.
Proof. intros [[-> ->]|[-> ->]]; [exact fr_ok|exact fq_ok]. Qed.
Lemma bn_prime P m : bn_field P m -> prime m.
Proof. intros [[-> ->]|[-> ->]]; [exact R_MOD_prime|exact Q_MOD_prime]. Qed.
Lemma bn_one_no_drop P m : bn_field P m -> drops_carry (fone P) = false.
Proof. intros [[-> ->]|[-> ->]]; [exact one_no_drop_fr|exact one_no_drop_fq]. Qed.
Lemma bn_gt P m : bn_field P m -> 2 ^ 253 < m < 2 ^ 254.
Proof. intros [[-> ->]|[-> ->]]; rewrite ?R_MOD_val, ?Q_MOD_val; split; reflexivity. Qed.
Lemma bad_reduced_in P m : bn_field P m -> reduced m bad.
Proof.
  intros H. split; [apply limbs_ok_wf, bad_wf|]. rewrite limb_value_val.
  destruct bad_reduced as [A C]. destruct H as [[-> ->]|[-> ->]]; assumption.
Qed.
Lemma lev_le l : le_value l = lev 256 l. Proof. reflexivity. Qed.

Lemma to_rep m a c : represents m a c -> rep m a c. Proof. apply represents_rep. Qed.
Lemma of_rep m a c : rep m a c -> represents m a c. Proof. apply represents_rep. Qed.
Ltac rp := repeat match goal with
  | H : represents _ _ _ |- _ => apply to_rep in H
  | |- represents _ _ _ => apply of_rep
  end.

(** ** C01 *)
(** Reduced limb quadruples and residues are in one-to-one correspondence. *)
Theorem C01_representation P m : bn_field P m ->
  (forall a, reduced m a <-> exists c, represents m a c) /\
  (forall a c d, represents m a c -> represents m a d -> c = d) /\
  (forall c, 0 <= c < m -> exists a, represents m a c) /\
  (forall a b c, represents m a c -> represents m b c -> a = b).
Proof.
  intros F. pose proof (bn_ok P m F) as OK. repeat apply conj.
  - intros a. split.
    + intros [W L]. rewrite limb_value_val in L. exists (val (montgomery_reduce P a)). rp.
      apply (rep_exists P m OK); [apply limbs_ok_wf, W|exact L].
    + intros [c R]. rp. split; [apply limbs_ok_wf, (rep_wf m _ _ R)|]. rewrite limb_value_val. apply (rep_lt P m OK _ _ R).
  - intros a c d H1 H2. rp. apply (rep_fun P m OK a); assumption.
  - intros c Hc. exists (enc P c). rp. apply enc_rep; assumption.
  - intros a b c H1 H2. rp. apply (rep_inj m a b c); assumption.
Qed.
Theorem C01_add P m a b x y : bn_field P m -> represents m a x -> represents m b y ->
  represents m (fadd P a b) ((x + y) mod m).
Proof. intros F H1 H2. rp. apply rep_add; auto using bn_ok. Qed.
Theorem C01_sub P m a b x y : bn_field P m -> represents m a x -> represents m b y ->
  represents m (fsub P a b) ((x - y) mod m).
Proof. intros F H1 H2. rp. apply rep_sub; auto using bn_ok. Qed.
Theorem C01_neg P m a x : bn_field P m -> represents m a x -> represents m (fneg P a) ((- x) mod m).
Proof. intros F H1. rp. apply rep_neg; auto using bn_ok. Qed.
Theorem C01_double P m a x : bn_field P m -> represents m a x -> represents m (fdouble P a) ((2 * x) mod m).
Proof. intros F H1. rp. apply rep_double; auto using bn_ok. Qed.
Theorem C01_zero P m : bn_field P m -> represents m fzero 0.
Proof. intros F. rp. eapply rep_zero, bn_ok, F. Qed.
Theorem C01_eq P m a b x y : bn_field P m -> represents m a x -> represents m b y ->
  (feqb a b = true <-> x = y) /\ (fis_zero a = true <-> x = 0).
Proof.
  intros F H1 H2. rp. rewrite (rep_eqb P m (bn_ok P m F) a b x y) by assumption.
  rewrite (rep_is_zero P m (bn_ok P m F) a x) by assumption. rewrite !Z.eqb_eq. tauto.
Qed.
Theorem C01_sum P m l xs : bn_field P m -> Forall2 (represents m) l xs ->
  represents m (fsum P l) (fold_right Z.add 0 xs mod m).
Proof.
  intros F H. rp. apply (fsum_spec P m (bn_ok P m F)). induction H; constructor; [rp; assumption|assumption].
Qed.
(** The constant called ADDITIVE_IDENTITY, and Default::default, are one, not zero: they are
    not neutral for [+] on any element. *)
Theorem C01_additive_identity_refuted P m a x : bn_field P m -> represents m a x ->
  fadd P a (additive_identity P) <> a /\ fadd P a (fdefault P) <> a /\ represents m (additive_identity P) 1.
Proof.
  intros F H. rp. pose proof (bn_ok P m F) as OK. pose proof (bn_gt P m F) as G.
  pose proof (rep_one P m OK) as R1. pose proof (rep_add P m OK a (fone P) x 1 H R1) as Ra.
  assert (N : fadd P a (fone P) <> a).
  { intros E. rewrite E in Ra. pose proof (rep_fun P m OK a _ _ H Ra) as Q. destruct H as (_ & Hx & _).
    destruct (Z.eq_dec (x + 1) m) as [E1|N1]; [rewrite E1, Z.mod_same in Q by lia; lia|].
    rewrite Z.mod_small in Q; lia. }
  split; [exact N|]. split; [exact N|exact R1].
Qed.
Example C01_example : represents R_MOD (ffrom_u64 fr 5) 5 /\ represents R_MOD (fneg fr (ffrom_u64 fr 5)) (R_MOD - 5) /\
  fadd fr (fneg fr (ffrom_u64 fr 5)) (ffrom_u64 fr 7) = ffrom_u64 fr 2.
Proof.
  assert (R5 : represents R_MOD (ffrom_u64 fr 5) 5).
  { rp. apply (from_u64_spec fr R_MOD fr_ok 5). unfold word. rewrite Bval. lia. }
  split; [exact R5|]. split; [|vm_compute; reflexivity].
  pose proof (C01_neg fr R_MOD _ 5 (or_introl (conj eq_refl eq_refl)) R5) as H.
  replace (R_MOD - 5) with ((-5) mod R_MOD); [exact H|]. rewrite R_MOD_val. reflexivity.
Qed.

(** ** C02 *)
Theorem C02_mul P m a b x y : bn_field P m -> represents m a x -> represents m b y ->
  represents m (fmul P a b) ((x * y) mod m).
Proof. intros F H1 H2. rp. apply rep_mul; auto using bn_ok. Qed.
Theorem C02_one P m : bn_field P m -> represents m (fone P) 1.
Proof. intros F. rp. eapply rep_one, bn_ok, F. Qed.
(** [square] is the product exactly on the elements whose limbs do not lose the carry. *)
Theorem C02_square P m a x : bn_field P m -> represents m a x ->
  (fsquare P a = fmul P a a <-> drops_carry a = false) /\
  (represents m (fsquare P a) ((x * x) mod m) <-> drops_carry a = false).
Proof.
  intros F H. rp. pose proof (bn_ok P m F) as OK. pose proof (bn_gt P m F) as G.
  assert (A : fsquare P a = fmul P a a <-> drops_carry a = false).
  { split; [|apply (square_is_mul P m OK a x H)]. intros E.
    destruct (drops_carry a) eqn:D; [exfalso|reflexivity].
    pose proof (square_bad P m OK a x H D) as Q. rewrite E in Q.
    apply eqm_div in Q; [|lia]. destruct Q as [k Q]. rewrite Bval in Q.
    assert (0 < k < 1); [|lia]. change (2 ^ 253) with 14474011154664524427946373126085988481658748083205070504932198000989141204992 in G. nia. }
  split; [exact A|]. rewrite <- A. pose proof (rep_mul P m OK a a x x H H) as Rm. split.
  - intros R. rp. apply (rep_inj m _ _ _ R Rm).
  - intros ->. rp. exact Rm.
Qed.
(** On the others it is off by the lost carry. *)
Theorem C02_square_error P m a x s p : bn_field P m -> represents m a x -> drops_carry a = true ->
  s = limb_value (fsquare P a) -> p = limb_value (fmul P a a) -> (s + 2 * 2 ^ 128) mod m = p mod m.
Proof.
  intros F H D -> ->. rp. rewrite !limb_value_val. pose proof (square_bad P m (bn_ok P m F) a x H D) as Q.
  rewrite Bval in Q. exact Q.
Qed.
(** The stated property, [square a = a * a] for every reduced [a], is false in both fields. *)
Theorem C02_square_refuted P m : bn_field P m -> exists a, reduced m a /\ fsquare P a <> fmul P a a.
Proof.
  intros F. exists bad. split; [exact (bad_reduced_in P m F)|].
  destruct (proj1 (proj1 (C01_representation P m F) bad) (bad_reduced_in P m F)) as [c R].
  intros E. apply (proj1 (proj1 (C02_square P m bad c F R))) in E. rewrite bad_drops in E. discriminate.
Qed.
Theorem C02_product P m l xs : bn_field P m -> Forall2 (represents m) l xs ->
  represents m (fproduct P l) (fold_right Z.mul 1 xs mod m).
Proof.
  intros F H. rp. apply (fproduct_spec P m (bn_ok P m F)). induction H; constructor; [rp; assumption|assumption].
Qed.
Example C02_example : fmul fr (ffrom_u64 fr 6) (ffrom_u64 fr 7) = ffrom_u64 fr 42 /\
  drops_carry (ffrom_u64 fr 6) = false /\ fsquare fr (ffrom_u64 fr 6) = ffrom_u64 fr 36.
Proof. vm_compute. auto. Qed.

(** ** C03 *)
Theorem C03_prime P m : bn_field P m -> prime m.
Proof. exact (bn_prime P m). Qed.
(** [invert] fails exactly on zero. *)
Theorem C03_invert_none P m a x : bn_field P m -> represents m a x -> (finvert P a = None <-> x = 0).
Proof.
  intros F H. rp. pose proof (bn_ok P m F) as OK. split.
  - apply (invert_none P m OK a x H).
  - intros ->. apply (invert_zero P m OK a H).
Qed.
(** Partial: the returned value is the inverse when no square taken by the exponentiation
    loses a carry.  Without that hypothesis it is false ([C03_invert_refuted]). *)
Theorem C03_invert_when_exact P m a x : bn_field P m -> represents m a x -> x <> 0 -> carry_free m x (m - 2) ->
  exists i y, finvert P a = Some i /\ represents m i y /\ (x * y) mod m = 1 /\
    fmul P a i = fone P /\ fmul P i a = fone P.
Proof.
  intros F H Hx CF. rp. pose proof (bn_ok P m F) as OK.
  destruct (invert_spec P m OK (bn_prime P m F) a x H Hx CF) as (i & y & E & Ri & V).
  exists i, y. split; [exact E|]. split; [rp; exact Ri|]. split; [exact V|]. split.
  - apply (rep_inj m _ _ 1); [|apply (rep_one P m OK)]. rewrite <- V. apply rep_mul; assumption.
  - apply (rep_inj m _ _ 1); [|apply (rep_one P m OK)]. rewrite <- V, Z.mul_comm. apply rep_mul; assumption.
Qed.
Theorem C03_div_when_exact P m a b x y : bn_field P m -> represents m a x -> represents m b y -> y <> 0 ->
  carry_free m y (m - 2) ->
  exists q, fdiv P a b = Some q /\ fdiv_assign P a b = Some q /\ fmul P q b = a.
Proof.
  intros F Ha Hb Hy CF. rp. pose proof (bn_ok P m F) as OK.
  destruct (div_spec P m OK (bn_prime P m F) a b x y Ha Hb Hy CF) as (q & z & E & Rq & V).
  exists q. split; [exact E|]. split; [exact E|]. apply (rep_inj m _ _ x); [|exact Ha].
  rewrite <- V. apply rep_mul; assumption.
Qed.
(** Division panics (the [unwrap] fails) exactly on a zero divisor. *)
Theorem C03_div_panics P m a b y : bn_field P m -> represents m b y -> (fdiv P a b = None <-> y = 0).
Proof.
  intros F Hb. rewrite <- (C03_invert_none P m b y F Hb). unfold fdiv. destruct (finvert P b); split; congruence.
Qed.
(** Reduced elements are a commutative ring in which every nonzero element has an inverse
    (whatever [invert] returns). *)
Theorem C03_field_laws P m a b c : bn_field P m -> reduced m a -> reduced m b -> reduced m c ->
  fadd P a b = fadd P b a /\ fadd P a (fadd P b c) = fadd P (fadd P a b) c /\
  fadd P a fzero = a /\ fadd P a (fneg P a) = fzero /\ fsub P a b = fadd P a (fneg P b) /\ fdouble P a = fadd P a a /\
  fmul P a b = fmul P b a /\ fmul P a (fmul P b c) = fmul P (fmul P a b) c /\ fmul P a (fone P) = a /\
  fmul P a (fadd P b c) = fadd P (fmul P a b) (fmul P a c) /\
  fone P <> fzero /\ (a <> fzero -> exists i, reduced m i /\ fmul P a i = fone P).
Proof.
  intros F Ha Hb Hc. pose proof (bn_ok P m F) as OK. pose proof (bn_gt P m F) as G.
  pose proof (C01_representation P m F) as (C1 & C2 & C3 & C4).
  apply C1 in Ha as [x Ra]. apply C1 in Hb as [y Rb]. apply C1 in Hc as [z Rc]. rp.
  pose proof (rep_zero P m OK) as R0. pose proof (rep_one P m OK) as R1.
  assert (Hx : 0 <= x < m) by exact (proj1 (proj2 Ra)). assert (M : 0 < m) by lia.
  repeat apply conj.
  - apply (rep_inj m _ _ ((x + y) mod m)); [|rewrite Z.add_comm]; apply rep_add; assumption.
  - apply (rep_inj m _ _ ((x + y + z) mod m)).
    + rewrite <- Z.add_assoc, <- Z.add_mod_idemp_r by lia. repeat apply rep_add; assumption.
    + rewrite <- Z.add_mod_idemp_l by lia. repeat apply rep_add; assumption.
  - apply (rep_inj m _ _ x); [|exact Ra]. replace x with ((x + 0) mod m) by (rewrite Z.add_0_r; apply Z.mod_small; lia).
    rewrite Z.add_0_r, (Z.mod_small x m) by lia. pose proof (rep_add P m OK _ _ _ _ Ra R0) as R. rewrite Z.add_0_r, Z.mod_small in R by lia. exact R.
  - apply (rep_inj m _ _ 0); [|exact R0]. pose proof (rep_add P m OK _ _ _ _ Ra (rep_neg P m OK _ _ Ra)) as R.
    rewrite Z.add_mod_idemp_r, Z.add_opp_diag_r, Z.mod_0_l in R by lia. exact R.
  - apply (rep_inj m _ _ ((x - y) mod m)); [apply rep_sub; assumption|].
    replace (x - y) with (x + (- y)) by ring. rewrite <- Z.add_mod_idemp_r by lia. apply rep_add; auto. apply rep_neg; assumption.
  - apply (rep_inj m _ _ ((2 * x) mod m)); [apply rep_double; assumption|]. replace (2 * x) with (x + x) by ring. apply rep_add; assumption.
  - apply (rep_inj m _ _ ((x * y) mod m)); [|rewrite Z.mul_comm]; apply rep_mul; assumption.
  - apply (rep_inj m _ _ ((x * y * z) mod m)).
    + rewrite <- Z.mul_assoc, <- Z.mul_mod_idemp_r by lia. apply (rep_mul P m OK); [assumption|apply (rep_mul P m OK); assumption].
    + rewrite <- Z.mul_mod_idemp_l by lia. apply (rep_mul P m OK); [apply (rep_mul P m OK); assumption|assumption].
  - apply (rep_inj m _ _ x); [|exact Ra]. pose proof (rep_mul P m OK _ _ _ _ Ra R1) as R. rewrite Z.mul_1_r, Z.mod_small in R by lia. exact R.
  - apply (rep_inj m _ _ ((x * (y + z)) mod m)).
    + rewrite <- Z.mul_mod_idemp_r by lia. apply rep_mul; auto. apply rep_add; assumption.
    + rewrite Z.mul_add_distr_l, Z.add_mod by lia. apply rep_add; auto; apply rep_mul; assumption.
  - intros E. rewrite E in R1. pose proof (rep_fun P m OK _ _ _ R0 R1). lia.
  - intros N. assert (Nx : x <> 0) by (intros ->; apply N, (rep_inj m _ _ _ Ra R0)).
    pose proof (inverse_pow P m OK (bn_prime P m F) x ltac:(lia)) as V.
    exists (enc P (x ^ (m - 2) mod m)).
    assert (Re : rep m (enc P (x ^ (m - 2) mod m)) (x ^ (m - 2) mod m)) by (apply enc_rep; [exact OK|apply Z.mod_pos_bound; lia]).
    split.
    + split; [apply limbs_ok_wf, (rep_wf m _ _ Re)|rewrite limb_value_val; apply (rep_lt P m OK _ _ Re)].
    + apply (rep_inj m _ _ 1); [|exact R1]. rewrite <- V. rewrite <- Z.mul_mod_idemp_r by lia. apply rep_mul; assumption.
Qed.
(** The property without the carry hypothesis is false: a nonzero reduced element of Fr on
    which [invert] returns a value that is not an inverse. *)
Theorem C03_invert_refuted : exists a i, reduced R_MOD a /\ a <> fzero /\ finvert fr a = Some i /\ fmul fr a i <> fone fr.
Proof.
  destruct bad_invert_fr as (i & E & N). exists bad, i.
  split; [exact (bad_reduced_in fr R_MOD (or_introl (conj eq_refl eq_refl)))|]. split; [discriminate|]. split; [exact E|].
  intros Q. apply eqb4_eq in Q. rewrite Q in N. discriminate.
Qed.
Lemma carry_free_one P m e : bn_field P m -> carry_free m 1 e.
Proof.
  intros F j a _ R. rp. pose proof (bn_ok P m F) as OK. pose proof (bn_gt P m F).
  assert (E : 1 ^ (e / 2 ^ j) mod m = 1 \/ 1 ^ (e / 2 ^ j) mod m = 0).
  { destruct (Z_lt_le_dec (e / 2 ^ j) 0); [right; rewrite Z.pow_neg_r by assumption; apply Z.mod_0_l; lia|].
    left. rewrite Z.pow_1_l by assumption. apply Z.mod_small. lia. }
  destruct E as [E|E]; rewrite E in R.
  - rewrite (rep_inj m _ _ _ R (rep_one P m OK)). exact (bn_one_no_drop P m F).
  - rewrite (rep_inj m _ _ _ R (rep_zero P m OK)). reflexivity.
Qed.
(** The carry hypothesis holds of 2 in Fr (checked over the 254 squarings). *)
Example C03_example : carry_free R_MOD 2 (R_MOD - 2).
Proof.
  pose (e := L4 0x43e1f593efffffff 0x2833e84879b97091 0xb85045b68181585d 0x30644e72e131a029).
  assert (We : wf e) by (unfold wf, word; rewrite Bval; vm_compute; intuition congruence).
  assert (Ve : val e = R_MOD - 2) by (rewrite R_MOD_val; unfold val; rewrite Bval; reflexivity).
  rewrite <- Ve, <- (vartime_bits_value e We).
  assert (R2 : rep R_MOD (ffrom_u64 fr 2) 2) by (apply (from_u64_spec fr R_MOD fr_ok 2); unfold word; rewrite Bval; lia).
  apply (cf_check_sound fr R_MOD 2 _ fr_ok R2 one_no_drop_fr); [exact (vartime_bits_bit e)|].
  vm_cast_no_check (eq_refl true).
Qed.

(** ** C04 *)
Lemma word_of_range v : 0 <= v < 2 ^ 64 -> word v. Proof. unfold word. rewrite Bval. trivial. Qed.
Theorem C04_from_u64 P m v : bn_field P m -> 0 <= v < 2 ^ 64 -> represents m (ffrom_u64 P v) (v mod m).
Proof. intros F Hv. rp. apply (from_u64_spec P m (bn_ok P m F)), word_of_range, Hv. Qed.
(** Any four limbs, reduced or not. *)
Theorem C04_to_mont_form P m v : bn_field P m -> limbs_ok v -> represents m (fto_mont_form P v) (limb_value v mod m).
Proof. intros F Hv. rp. rewrite limb_value_val. apply (rep_to_mont P m (bn_ok P m F)), limbs_ok_wf, Hv. Qed.
Theorem C04_from_bytes_wide P m bs : bn_field P m -> length bs = 64%nat -> Forall is_byte bs ->
  represents m (from_bytes_wide P bs) (le_value bs mod m) /\ represents m (from_hash P bs) (le_value bs mod m).
Proof.
  intros F L H. rewrite Forall_forall in H. rewrite lev_le.
  split; rp; [|rewrite from_hash_wide]; apply (from_bytes_wide_spec P m (bn_ok P m F)); assumption.
Qed.
(** [random] is the 512-bit little-endian number drawn from the generator, reduced. *)
Theorem C04_random P m r0 r1 r2 r3 r4 r5 r6 r7 : bn_field P m ->
  Forall limb_ok [r0; r1; r2; r3; r4; r5; r6; r7] ->
  represents m (frandom P r0 r1 r2 r3 r4 r5 r6 r7)
    ((limb_value (L4 r0 r1 r2 r3) + 2 ^ 256 * limb_value (L4 r4 r5 r6 r7)) mod m).
Proof.
  intros F H. rewrite Forall_forall in H. rp. rewrite (limb_value_val (L4 r0 r1 r2 r3)), (limb_value_val (L4 r4 r5 r6 r7)).
  pose proof (rep_from_u512 P m (bn_ok P m F) (L8 r0 r1 r2 r3 r4 r5 r6 r7)) as R.
  replace (val (L4 r0 r1 r2 r3) + 2 ^ 256 * val (L4 r4 r5 r6 r7)) with (val8 (L8 r0 r1 r2 r3 r4 r5 r6 r7)).
  - apply R. unfold wf8; cbn [v0 v1 v2 v3 v4 v5 v6 v7]. repeat split; apply H; cbn; tauto.
  - unfold val8, val; cbn [v0 v1 v2 v3 v4 v5 v6 v7 w0 w1 w2 w3]. rewrite <- B4. rewrite Bval. ring.
Qed.
(** [From<[u64; 4]>] does not convert: [Fr::from([5,0,0,0])] is not the element 5. *)
Theorem C04_from_limbs_refuted P m : bn_field P m ->
  exists v, limbs_ok v /\ limb_value v < m /\ ~ represents m (ffrom_limbs v) (limb_value v mod m).
Proof.
  intros F. pose proof (bn_gt P m F) as G. change (2 ^ 253) with 14474011154664524427946373126085988481658748083205070504932198000989141204992 in G.
  exists (L4 5 0 0 0). split; [apply limbs_ok_wf; unfold wf, word; rewrite Bval; cbn; lia|].
  rewrite limb_value_val. replace (val (L4 5 0 0 0)) with 5 by (unfold val; cbn [w0 w1 w2 w3]; ring). split; [lia|]. rewrite (Z.mod_small 5 m) by lia.
  intros R. rp. assert (W5 : 0 <= 5 < 2 ^ 64) by (split; reflexivity || discriminate).
  pose proof (C04_from_u64 P m 5 F W5) as R'. rp. rewrite (Z.mod_small 5 m) in R' by lia.
  pose proof (rep_inj m _ _ _ R R') as E. unfold ffrom_limbs in E.
  destruct F as [[-> ->]|[-> ->]]; vm_compute in E; discriminate.
Qed.
Example C04_example : represents R_MOD (fto_mont_form fr (L4 0x43e1f593f0000003 0x2833e84879b97091 0xb85045b68181585d 0x30644e72e131a029)) 2.
Proof.
  pose proof (C04_to_mont_form fr R_MOD (L4 0x43e1f593f0000003 0x2833e84879b97091 0xb85045b68181585d 0x30644e72e131a029) (or_introl (conj eq_refl eq_refl))) as H.
  replace 2 with (limb_value (L4 0x43e1f593f0000003 0x2833e84879b97091 0xb85045b68181585d 0x30644e72e131a029) mod R_MOD) by (rewrite R_MOD_val; reflexivity).
  apply H. apply limbs_ok_wf. unfold wf, word. rewrite Bval. vm_compute. intuition congruence.
Qed.

(** ** C05 *)
Theorem C05_to_bytes P m a x : bn_field P m -> represents m a x ->
  length (to_bytes P a) = 32%nat /\ Forall is_byte (to_bytes P a) /\ le_value (to_bytes P a) = x.
Proof.
  intros F H. rp. destruct (to_bytes_spec P m (bn_ok P m F) a x H) as (A & C & D).
  rewrite Forall_forall. rewrite lev_le. auto.
Qed.
Theorem C05_from_bytes P m bs : bn_field P m -> length bs = 32%nat -> Forall is_byte bs ->
  (le_value bs < m -> exists a, from_bytes P bs = Some a /\ represents m a (le_value bs)) /\
  (m <= le_value bs -> from_bytes P bs = None).
Proof.
  intros F L H. rewrite Forall_forall in H. destruct (from_bytes_spec P m (bn_ok P m F) bs L H) as [A C].
  rewrite lev_le. split; [|exact C]. intros Hl. destruct (A Hl) as (a & E & R). exists a. rp. auto.
Qed.
(** The two functions are mutually inverse bijections. *)
Theorem C05_round_trip P m : bn_field P m ->
  (forall a, reduced m a -> from_bytes P (to_bytes P a) = Some a) /\
  (forall bs a, length bs = 32%nat -> Forall is_byte bs -> from_bytes P bs = Some a -> reduced m a /\ to_bytes P a = bs).
Proof.
  intros F. split.
  - intros a Ha. destruct (proj1 (proj1 (C01_representation P m F) a) Ha) as [x R].
    destruct (C05_to_bytes P m a x F R) as (L & H & E).
    destruct (C05_from_bytes P m (to_bytes P a) F L H) as [A _].
    destruct A as (a' & E' & R'); [rewrite E; destruct R as (_ & R & _); lia|].
    rewrite E', E in *. f_equal. eapply (proj2 (proj2 (proj2 (C01_representation P m F)))); eassumption.
  - intros bs a L H E. destruct (C05_from_bytes P m bs F L H) as [A C].
    destruct (Z_lt_le_dec (le_value bs) m) as [Hl|Hl]; [|rewrite (C Hl) in E; discriminate].
    destruct (A Hl) as (a' & E' & R). rewrite E in E'. injection E' as <-.
    split; [apply (proj1 (C01_representation P m F)); eauto|].
    destruct (C05_to_bytes P m a _ F R) as (L' & H' & V). rewrite !lev_le in V.
    rewrite Forall_forall in H, H'. apply (lev_inj 256); auto; lia.
Qed.
Example C05_example : to_bytes fr (ffrom_u64 fr 258) = 2 :: 1 :: repeat 0 30 /\
  from_bytes fr (2 :: 1 :: repeat 0 30) = Some (ffrom_u64 fr 258) /\ from_bytes fr (repeat 255 32) = None.
Proof. vm_compute. auto. Qed.

(** ** C06 *)
(** Partial: for every base and exponent such that no square on the way loses a carry. *)
Theorem C06_pow_when_exact P m a x e : bn_field P m -> represents m a x -> 0 <= e < 2 ^ 64 -> carry_free m x e ->
  represents m (fpow P a e) (x ^ e mod m).
Proof. intros F H He CF. rp. apply (fpow_spec P m (bn_ok P m F)); auto using word_of_range. Qed.
Theorem C06_pow_vartime_when_exact P m a x e : bn_field P m -> represents m a x -> limbs_ok e -> carry_free m x (limb_value e) ->
  represents m (pow_vartime P a e) (x ^ limb_value e mod m).
Proof.
  intros F H He CF. rp. rewrite limb_value_val in *. apply (pow_vartime_spec P m (bn_ok P m F)); [assumption|apply limbs_ok_wf, He|assumption].
Qed.
Theorem C06_pow_of_2_when_exact P m e : bn_field P m -> 0 <= e < 2 ^ 64 -> carry_free m 2 e ->
  represents m (pow_of_2 P e) (2 ^ e mod m).
Proof.
  intros F He CF. rp. pose proof (bn_gt P m F) as G. apply (pow_of_2_spec P m (bn_ok P m F)); [apply word_of_range, He|].
  rewrite Z.mod_small; [exact CF|]. split; [lia|]. change (2 ^ 253) with 14474011154664524427946373126085988481658748083205070504932198000989141204992 in G. lia.
Qed.
(** Exponent 0 gives one and base one gives one, unconditionally; zero to a positive power is zero. *)
Theorem C06_pow_zero P m a x : bn_field P m -> represents m a x ->
  fpow P a 0 = fone P /\ (forall e, 0 <= e < 2 ^ 64 -> fpow P (fone P) e = fone P) /\
  (forall e, 0 < e < 2 ^ 64 -> fpow P fzero e = fzero).
Proof.
  intros F H. pose proof (bn_ok P m F) as OK. pose proof (bn_gt P m F) as G. split; [reflexivity|]. split.
  - intros e He. pose proof (C06_pow_when_exact P m (fone P) 1 e F (C02_one P m F) He (carry_free_one P m e F)) as R. rp.
    rewrite Z.pow_1_l, Z.mod_small in R by lia. apply (rep_inj m _ _ _ R (rep_one P m OK)).
  - intros e He. assert (CF : carry_free m 0 e).
    { intros j b Hj Rb. rp. destruct (Z.eq_dec (e / 2 ^ j) 0) as [E|N].
      - rewrite E, Z.pow_0_r, Z.mod_small in Rb by lia. rewrite (rep_inj m _ _ _ Rb (rep_one P m OK)). exact (bn_one_no_drop P m F).
      - rewrite Z.pow_0_l', Z.mod_0_l in Rb by (exact N || lia). rewrite (rep_inj m _ _ _ Rb (rep_zero P m OK)). reflexivity. }
    pose proof (C06_pow_when_exact P m fzero 0 e F (C01_zero P m F) ltac:(lia) CF) as R. rp.
    rewrite Z.pow_0_l, Z.mod_0_l in R by lia. apply (rep_inj m _ _ _ R (rep_zero P m OK)).
Qed.
Lemma pow_2_square P m a x : bn_field P m -> represents m a x -> fpow P a 2 = fsquare P a.
Proof.
  intros F H. rp. pose proof (bn_ok P m F) as OK. pose proof (bn_gt P m F) as G. pose proof (rep_one P m OK) as R1.
  assert (S1 : fsquare P (fone P) = fone P).
  { rewrite (square_is_mul P m OK (fone P) 1 R1 (bn_one_no_drop P m F)).
    pose proof (rep_mul P m OK _ _ _ _ R1 R1) as R. rewrite Z.mod_small in R by lia. apply (rep_inj m _ _ _ R R1). }
  assert (M1 : fmul P (fone P) a = a).
  { pose proof (rep_mul P m OK _ _ _ _ R1 H) as R. assert (0 <= x < m) by apply H.
    rewrite Z.mul_1_l, Z.mod_small in R by assumption. apply (rep_inj m _ _ _ R H). }
  unfold fpow, pow. replace (eqb4 (L4 2 0 0 0) zero4) with false by reflexivity.
  destruct (eqb4 a zero4) eqn:E0.
  { apply eqb4_eq in E0. subst a. symmetry. destruct F as [[-> ->]|[-> ->]]; vm_compute; reflexivity. }
  replace (to_bits (L4 2 0 0 0)) with (repeat 0 254 ++ [1; 0]) by (vm_compute; reflexivity).
  rewrite fold_left_app. change (square ?b (fmod P) (finv P)) with (fsquare P b).
  assert (Z : forall n, fold_left (fun acc bit => let acc0 := fsquare P acc in if bit =? 1 then fmul P acc0 a else acc0) (repeat 0 n) (fone P) = fone P).
  { induction n as [|n IH]; [reflexivity|]. cbn [repeat fold_left]. cbv zeta. cbn [Z.eqb]. rewrite S1. exact IH. }
  set (f := fun acc bit => _) in *. change (fold_left f [1; 0] (fold_left f (repeat 0 254) (fone P)) = fsquare P a).
  rewrite Z. unfold f. cbn [fold_left]. cbv zeta. cbn [Z.eqb Pos.eqb]. rewrite S1, M1. reflexivity.
Qed.
(** The unconditional claim is false: already [pow] with exponent 2. *)
Theorem C06_pow_refuted P m : bn_field P m -> exists a x, represents m a x /\ ~ represents m (fpow P a 2) (x ^ 2 mod m).
Proof.
  intros F. destruct (proj1 (proj1 (C01_representation P m F) bad) (bad_reduced_in P m F)) as [c R]. exists bad, c.
  split; [exact R|]. intros R2. rewrite Z.pow_2_r in R2.
  rewrite (pow_2_square P m bad c F R) in R2. apply (proj2 (C02_square P m bad c F R)) in R2. rewrite bad_drops in R2. discriminate.
Qed.
Example C06_example : carry_free R_MOD 3 5 /\ fpow fr (ffrom_u64 fr 3) 5 = ffrom_u64 fr 243.
Proof.
  split; [|vm_compute; reflexivity].
  assert (R3 : rep R_MOD (ffrom_u64 fr 3) 3) by (apply (from_u64_spec fr R_MOD fr_ok 3), word_of_range; split; [discriminate|reflexivity]).
  apply (cf_check_sound fr R_MOD 3 _ fr_ok R3 one_no_drop_fr [1; 0; 1]).
  - cbn. intuition.
  - vm_compute. reflexivity.
Qed.

(** ** C07 *)
Theorem C07_to_bits P m a x : bn_field P m -> represents m a x ->
  length (fto_bits P a) = 256%nat /\ Forall (fun b => b = 0 \/ b = 1) (fto_bits P a) /\ be_value 2 (fto_bits P a) = x.
Proof.
  intros F H. rp. pose proof (bn_ok P m F) as OK. pose proof (reduce_wf P m OK a (rep_wf m _ _ H)) as W. unfold fto_bits.
  split; [apply to_bits_length|]. split; [apply Forall_forall; intros d; apply to_bits_bit|].
  rewrite to_bits_value by exact W. apply (rep_reduce P m OK), H.
Qed.
Theorem C07_base4 P m a x : bn_field P m -> represents m a x ->
  Forall (fun d => 0 <= d < 4) (to_costomized_repr P a) /\ be_value 4 (to_costomized_repr P a) = x /\
  hd 1 (to_costomized_repr P a) <> 0.
Proof.
  intros F H. rp. pose proof (bn_ok P m F) as OK. pose proof (reduce_wf P m OK a (rep_wf m _ _ H)) as W. unfold to_costomized_repr.
  split; [|split].
  - apply Forall_forall. intros d Hd. apply skip_while_in, in_rev, in_flat_map in Hd as (l & _ & Hd).
    apply in_flat_map in Hd as (y & _ & Hd). rewrite byte_quads_digits in Hd. apply digits_range in Hd; lia.
  - rewrite quads_value by exact W. apply (rep_reduce P m OK), H.
  - destruct (skip_while _ _) eqn:E; [discriminate|]. exact (skip_zero_head _ _ _ E).
Qed.
Example C07_example : skipn 253 (fto_bits fr (ffrom_u64 fr 5)) = [1; 0; 1] /\ to_costomized_repr fr (ffrom_u64 fr 27) = [1; 2; 3].
Proof. vm_compute. auto. Qed.

(** ** C08 *)
Theorem C08_to_nafs P m a x : bn_field P m -> represents m a x ->
  exists ds, fto_nafs P a = Some ds /\ be_value 2 (map naf_val ds) = x /\ non_adjacent ds /\ hd NPlus ds <> NZero.
Proof.
  intros F H. rp. pose proof (bn_ok P m F) as OK. pose proof (reduce_wf P m OK a (rep_wf m _ _ H)) as W.
  destruct (to_nafs_spec _ W) as (ds & E & V & N & Hd). exists ds. split; [exact E|].
  split; [rewrite V; apply (rep_reduce P m OK), H|]. split; [exact N|]. destruct ds; [discriminate|exact Hd].
Qed.
Example C08_example : fto_nafs fr (ffrom_u64 fr 7) = Some [NPlus; NZero; NZero; NMinus].
Proof. vm_compute. reflexivity. Qed.

(** ** C09 *)
(** [cmp] and the four operators are the order of [x * 2^256 mod m]; hence a total order in
    which only equal elements compare equal. *)
Theorem C09_order P m a b x y : bn_field P m -> represents m a x -> represents m b y ->
  fcmp a b = ((x * 2 ^ 256) mod m ?= (y * 2 ^ 256) mod m) /\
  (fcmp a b = Eq <-> x = y) /\ fcmp b a = CompOpp (fcmp a b) /\
  flt a b = match fcmp a b with Lt => true | _ => false end /\
  fle a b = match fcmp a b with Gt => false | _ => true end /\
  fgt a b = match fcmp a b with Gt => true | _ => false end /\
  fge a b = match fcmp a b with Lt => false | _ => true end.
Proof.
  intros F H1 H2. pose proof (bn_ok P m F) as OK. rp.
  assert (E : forall u v cu cv, rep m u cu -> rep m v cv -> fcmp u v = ((cu * 2 ^ 256) mod m ?= (cv * 2 ^ 256) mod m)).
  { intros u v cu cv (Wu & _ & Eu) (Wv & _ & Ev). rewrite cmp_lex_limbs, Eu, Ev, B4 by assumption. reflexivity. }
  split; [apply E; assumption|]. split; [|split].
  - rewrite (E a b x y H1 H2), Z.compare_eq_iff. rewrite <- B4. split; [|intros ->; reflexivity].
    intros Q. apply (cancel_B4 P m OK) in Q. rewrite !Z.mod_small in Q; [exact Q|apply H2|apply H1].
  - rewrite (E a b x y H1 H2), (E b a y x H2 H1). apply Z.compare_antisym.
  - unfold flt, fle, fgt, fge, fcmp. destruct (first_diff_cmp (rev (limbs a)) (rev (limbs b))) as (A & C & D & G).
    rewrite A, C, D, G. auto.
Qed.
Theorem C09_transitive P m a b c : bn_field P m -> reduced m a -> reduced m b -> reduced m c ->
  fcmp a b = Lt -> fcmp b c = Lt -> fcmp a c = Lt.
Proof.
  intros F [Wa _] [Wb _] [Wc _]. apply limbs_ok_wf in Wa, Wb, Wc. rewrite !cmp_lex_limbs by assumption.
  rewrite !Z.compare_lt_iff. lia.
Qed.
(** It is not the order of the represented integers: 4 < 1. *)
Theorem C09_integer_order_refuted : exists a b x y, represents R_MOD a x /\ represents R_MOD b y /\ x < y /\ flt a b = false /\ flt b a = true.
Proof.
  exists (ffrom_u64 fr 1), (ffrom_u64 fr 4), 1, 4.
  assert (G : forall v, 0 <= v < 5 -> represents R_MOD (ffrom_u64 fr v) v).
  { intros v Hv. pose proof (C04_from_u64 fr R_MOD v (or_introl (conj eq_refl eq_refl))) as R.
    rewrite Z.mod_small in R by (rewrite R_MOD_val; lia). apply R. change (2 ^ 64) with 18446744073709551616. lia. }
  split; [apply G; lia|]. split; [apply G; lia|]. split; [lia|]. vm_compute. auto.
Qed.
(** [is_even] and [mod_2_pow_k] read the Montgomery limbs: 4 is reported odd. *)
Theorem C09_is_even_refuted : exists a x, represents R_MOD a x /\ is_even a <> Z.even x /\ mod_2_pow_k a 8 <> x mod 2 ^ 8.
Proof.
  exists (ffrom_u64 fr 4), 4. split.
  - pose proof (C04_from_u64 fr R_MOD 4 (or_introl (conj eq_refl eq_refl)) ltac:(split; [discriminate|reflexivity])) as R.
    rewrite Z.mod_small in R by (rewrite R_MOD_val; lia). exact R.
  - vm_compute. split; discriminate.
Qed.
Theorem C09_is_odd a x : represents R_MOD a x -> is_odd fr a = Z.odd x.
Proof. intros H. rp. apply is_odd_spec, H. Qed.

(** ** C10 *)
Theorem C10_fr_to_fq a x : represents R_MOD a x -> represents Q_MOD (fq_of_fr a) x /\ fr_of_fq (fq_of_fr a) = a.
Proof.
  intros H. rp. pose proof (fq_of_fr_spec a x H) as R. split; [rp; exact R|].
  pose proof (fr_of_fq_spec _ x R) as R'. rewrite Z.mod_small in R' by apply H. apply (rep_inj R_MOD _ _ _ R' H).
Qed.
Theorem C10_fq_to_fr a x : represents Q_MOD a x ->
  represents R_MOD (fr_of_fq a) (x mod R_MOD) /\ (fq_of_fr (fr_of_fq a) = a <-> x < R_MOD).
Proof.
  intros H. rp. pose proof (fr_of_fq_spec a x H) as R. split; [rp; exact R|].
  pose proof (fq_of_fr_spec _ _ R) as R'. assert (0 < R_MOD) by (rewrite R_MOD_val; lia).
  assert (Hx : 0 <= x) by apply H. split.
  - intros E. rewrite E in R'. rewrite (rep_fun fq Q_MOD fq_ok a _ _ H R'). apply Z.mod_pos_bound. assumption.
  - intros L. rewrite Z.mod_small in R' by lia. apply (rep_inj Q_MOD _ _ _ R' H).
Qed.
(** Information is lost: two different elements of Fq become the same element of Fr. *)
Theorem C10_not_injective : exists a b, reduced Q_MOD a /\ reduced Q_MOD b /\ a <> b /\ fr_of_fq a = fr_of_fq b.
Proof.
  exists fzero, (enc fq R_MOD).
  assert (H1 : rep Q_MOD (enc fq R_MOD) R_MOD) by (apply enc_rep; [exact fq_ok|rewrite R_MOD_val, Q_MOD_val; lia]).
  pose proof (rep_zero fq Q_MOD fq_ok) as H0.
  assert (Fq' : bn_field fq Q_MOD) by (right; auto).
  split; [apply (proj1 (C01_representation fq Q_MOD Fq')); exists 0; rp; exact H0|].
  split; [apply (proj1 (C01_representation fq Q_MOD Fq')); exists R_MOD; rp; exact H1|]. split.
  - intros E. rewrite <- E in H1. pose proof (rep_fun fq Q_MOD fq_ok _ _ _ H0 H1) as Q. rewrite R_MOD_val in Q. lia.
  - pose proof (fr_of_fq_spec _ _ H0) as A. pose proof (fr_of_fq_spec _ _ H1) as C.
    rewrite Z.mod_same in C by (rewrite R_MOD_val; lia). rewrite Z.mod_0_l in A by (rewrite R_MOD_val; lia).
    exact (rep_inj R_MOD _ _ _ A C).
Qed.
Theorem C10_bit_operations a b x y : represents R_MOD a x -> represents R_MOD b y ->
  represents R_MOD (fxor fr a b) (Z.lxor x y mod R_MOD) /\ represents R_MOD (fand fr a b) (Z.land x y mod R_MOD).
Proof. intros H1 H2. split; rp; [apply fxor_spec|apply fand_spec]; assumption. Qed.
Example C10_example : fq_of_fr (ffrom_u64 fr 12345) = ffrom_u64 fq 12345 /\ fr_of_fq (ffrom_u64 fq 12345) = ffrom_u64 fr 12345.
Proof. vm_compute. auto. Qed.

(** ** C12 *)
Theorem C12_lexicographically_largest a x : represents Q_MOD a x ->
  (lexicographically_largest a = true <-> (Q_MOD - 1) / 2 < x) /\
  (x <> 0 -> lexicographically_largest (fneg fq a) = negb (lexicographically_largest a)) /\
  (x = 0 -> lexicographically_largest a = false).
Proof.
  intros H. rp. rewrite (lex_largest_spec a x H). rewrite Z.ltb_lt. split; [tauto|].
  pose proof (rep_neg fq Q_MOD fq_ok a x H) as Rn. assert (Hx : 0 <= x < Q_MOD) by apply H.
  assert (Hodd : Q_MOD = 2 * ((Q_MOD - 1) / 2) + 1 /\ 0 < Q_MOD) by (rewrite Q_MOD_val; split; reflexivity). destruct Hodd as [Ho Hp].
  split.
  - intros N. rewrite (lex_largest_spec _ _ Rn). replace (- x) with (Q_MOD - x + (-1) * Q_MOD) by ring.
    rewrite Z.mod_add, Z.mod_small by lia.
    destruct (Z.ltb_spec ((Q_MOD - 1) / 2) (Q_MOD - x)), (Z.ltb_spec ((Q_MOD - 1) / 2) x); try reflexivity; lia.
  - intros ->. apply Z.ltb_ge. lia.
Qed.
Example C12_example : lexicographically_largest (ffrom_u64 fq 3) = false /\ lexicographically_largest (fneg fq (ffrom_u64 fq 3)) = true.
Proof. vm_compute. auto. Qed.

(** ** C13 (prime fields) *)
Theorem C13_reference_forms P m a b x y : bn_field P m -> represents m a x -> represents m b y ->
  Forall (fun op => represents m (op P a b) ((x + y) mod m) /\ op P a b = fadd P a b)
    [add_ref_ref; add_ref_val; add_val_ref; add_assign_ref; add_assign_val] /\
  Forall (fun op => represents m (op P a b) ((x - y) mod m) /\ op P a b = fsub P a b)
    [sub_ref_ref; sub_ref_val; sub_val_ref; sub_assign_ref; sub_assign_val] /\
  Forall (fun op => represents m (op P a b) ((x * y) mod m) /\ op P a b = fmul P a b)
    [mul_ref_ref; mul_ref_val; mul_val_ref; mul_assign_ref; mul_assign_val] /\
  fdiv_assign P a b = fdiv P a b /\ represents m (double_assign P a) ((2 * x) mod m) /\ square_assign P a = fsquare P a.
Proof.
  intros F H1 H2. split; [|split; [|split; [|split; [reflexivity|split; [|reflexivity]]]]].
  - repeat (apply Forall_cons || apply Forall_nil); (split; [|reflexivity]); exact (C01_add P m a b x y F H1 H2).
  - repeat (apply Forall_cons || apply Forall_nil); (split; [|reflexivity]); exact (C01_sub P m a b x y F H1 H2).
  - repeat (apply Forall_cons || apply Forall_nil); (split; [|reflexivity]); exact (C02_mul P m a b x y F H1 H2).
  - exact (C01_double P m a x F H1).
Qed.
(** The by-reference negation never returns: whatever the stack depth, it is exhausted. *)
Theorem C13_neg_ref_diverges fuel a : neg_ref fuel a = None.
Proof. induction fuel; [reflexivity|assumption]. Qed.
