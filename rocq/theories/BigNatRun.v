(** Honest runs of the gadgets of BigNatModel.v, with the integers the rows stand for. *)
From Coq Require Import ZArith List Bool Lia Ring Field.
From Verif Require Import Algebra R1csModel R1csSpec R1csProofs GadgetProofs RangeProofs NovaModel NovaSpec NovaProofs LimbVec HonestRun BigNatModel BigNatProofs.
Import ListNotations.
Local Open Scope fld_scope.

Section Run.
Variables (F : pfield) (p : Z).
Hypothesis OK : field_ok F p.
Add Field bnr : (kth F).
Notation of := (pf_of F).
Notation val := (pf_val F).
Let CF := fo_cf _ _ OK.
Implicit Types (cs : r1cs F) (x y z r : row F).
Notation to_bits := (fa_to_bits F (pf_bits F) (pf_pow2 F) (pf_modulus F) (pf_nbits F)).
Notation range_check_bits := (fa_range_check_bits F (pf_bits F) (pf_pow2 F)).

Lemma p_range : (2 ^ 253 < p < 2 ^ 254)%Z. Proof. exact (cf_p _ _ _ _ _ _ _ CF). Qed.
Lemma p_pos : (0 < p)%Z. Proof. pose proof p_range. lia. Qed.
Lemma val_of n : (0 <= n < p)%Z -> val (of n) = n.
Proof. intros H. rewrite (fo_of _ _ OK). apply Z.mod_small, H. Qed.
Lemma of_val v : of (val v) = v.
Proof. apply (cf_inj _ _ _ _ _ _ _ CF). apply val_of, (cf_range _ _ _ _ _ _ _ CF). Qed.
Lemma of_0 : of 0 = 0. Proof. rewrite <- (cf_zero _ _ _ _ _ _ _ CF). apply of_val. Qed.
Lemma of_1 : of 1 = 1. Proof. rewrite <- (cf_one _ _ _ _ _ _ _ CF). apply of_val. Qed.
Lemma of_add a b : of (a + b) = of a + of b.
Proof.
  pose proof p_pos. apply (cf_inj _ _ _ _ _ _ _ CF). rewrite (cf_add _ _ _ _ _ _ _ CF), !(fo_of _ _ OK). apply Z.add_mod. lia.
Qed.
Lemma of_mul a b : of (a * b) = of a * of b.
Proof.
  pose proof p_pos. apply (cf_inj _ _ _ _ _ _ _ CF). rewrite (cf_mul _ _ _ _ _ _ _ CF), !(fo_of _ _ OK). apply Z.mul_mod. lia.
Qed.
Lemma of_sub a b : of (a - b) = of a - of b.
Proof. assert (E : of (a - b) + of b = of a) by (rewrite <- of_add; f_equal; lia). rewrite <- E. ring. Qed.
Lemma of_pow2 k : (1 <= k < 254)%nat -> pf_pow2 F k = of (2 ^ Z.of_nat k).
Proof.
  intros H. assert (E : pf_pow2 F k - 1 = of (2 ^ Z.of_nat k - 1)).
  { apply (cf_inj _ _ _ _ _ _ _ CF). rewrite (cf_pow2 _ _ _ _ _ _ _ CF) by exact H. symmetry. apply val_of. pose proof p_range.
    assert (2 ^ Z.of_nat k <= 2 ^ 253)%Z by (apply Z.pow_le_mono_r; lia). assert (0 < 2 ^ Z.of_nat k)%Z by (apply Z.pow_pos_nonneg; lia). lia. }
  rewrite of_sub, of_1 in E. transitivity (pf_pow2 F k - 1 + 1); [ring|]. rewrite E. ring.
Qed.

(** Rows that stand for integers. *)
Definition zcars cs (l : list (row F)) (ns : list Z) : Prop := Forall2 (carries cs) l (map of ns).
Lemma zcars_rows cs l ns : zcars cs l ns -> rows_ok cs l /\ map (lc (own cs)) l = map of ns.
Proof.
  unfold zcars. generalize (map of ns) as vs. intros vs H. induction H as [|r v l vs [O V] H IH]; [split; [constructor|reflexivity]|].
  destruct IH as [I1 I2]. split; [constructor; assumption|]. cbn [map]. rewrite V, I2. reflexivity.
Qed.
Lemma rows_zcars cs l ns : rows_ok cs l -> map (lc (own cs)) l = map of ns -> zcars cs l ns.
Proof.
  unfold zcars. generalize (map of ns) as vs. intros vs H. revert vs. induction H as [|r l O H IH]; intros vs E; cbn [map] in E; subst vs; constructor; [split; [exact O|reflexivity]|].
  apply IH. reflexivity.
Qed.
Lemma zcars_nil cs ns : zcars cs [] ns -> ns = [].
Proof. intros H. destruct ns; [reflexivity|inversion H]. Qed.
Lemma zcars_cons cs r l ns : zcars cs (r :: l) ns -> exists n ns', ns = n :: ns' /\ carries cs r (of n) /\ zcars cs l ns'.
Proof. intros H. destruct ns as [|n ns]; [inversion H|]. exists n, ns. split; [reflexivity|]. unfold zcars in H. cbn [map] in H. inversion H; subst. split; assumption. Qed.
Lemma zcars_len cs l ns : zcars cs l ns -> length l = length ns.
Proof. intros H. apply Forall2_len in H. rewrite map_length in H. exact H. Qed.

Lemma run_lift {A B} cs (a : A) (k : A -> G F B) Q : runs cs (k a) Q -> runs cs (bind (lift F (Some a)) k) Q.
Proof. intros H. exact H. Qed.
Lemma run_guard {B} cs b (k : unit -> G F B) Q : b = true -> runs cs (k tt) Q -> runs cs (bind (guard F b) k) Q.
Proof. intros -> H. exact H. Qed.
Lemma run_nat_witness cs n : wf_cs cs -> (0 <= n < 2 ^ 511)%Z -> runs cs (nat_witness F n) (fun cs' r => carries cs' r (of n)).
Proof. intros W H. unfold nat_witness. rewrite nat_to_f_ok by exact H. apply run_lift. apply run_witness, W. Qed.
(** Bits of a row, all 256 of them or fewer. *)
Lemma run_to_bits cs x n v : wf_cs cs -> carries cs x v -> (1 <= n <= 256)%nat ->
  runs cs (to_bits x n) (fun cs' ws => exists bs, Forall2 (wcar cs') ws (map (kbit F) bs) /\ length bs = n /\ bval bs = (val v mod 2 ^ Z.of_nat n)%Z).
Proof.
  intros W [O V] H. eapply runs_weaken; [apply runs_of, (to_bits_ok F True val p (pf_bits F) (pf_pow2 F) (pf_modulus F) (pf_nbits F) CF cs x n W O H)|].
  intros cs' ws W' U [(RG & L & bs & B & E) _]. exists bs. rewrite V in E. split; [|split; [|exact E]].
  - clear - RG B. induction B as [|w b ws bs E B IH]; cbn [map]; constructor; inversion RG; subst; [split; assumption|apply IH; assumption].
  - rewrite <- L. symmetry. apply (Forall2_len _ _ _ B).
Qed.
Lemma wcars_split cs ws bs : Forall2 (wcar cs) ws (map (kbit F) bs) -> Forall (in_range cs) ws /\ is_bits (own cs) ws bs.
Proof.
  revert bs. induction ws as [|w ws IH]; intros [|b bs] H; inversion H as [|? ? ? ? [R E] H']; subst; [split; constructor|].
  destruct (IH bs H') as [A B]. split; constructor; assumption.
Qed.
Lemma run_range cs ws bs k : wf_cs cs -> Forall2 (wcar cs) ws (map (kbit F) bs) -> (1 <= k < 254)%nat -> (k <= length bs)%nat -> (bval bs < 2 ^ Z.of_nat k)%Z ->
  runs cs (range_check_bits ws k) (fun _ _ => True).
Proof.
  intros W H K L B. destruct (wcars_split cs ws bs H) as [R IB]. unfold fa_range_check_bits.
  assert (P1 : (2 ^ 1 <= 2 ^ Z.of_nat k)%Z) by (apply Z.pow_le_mono_r; lia).
  assert (EV : bval (pf_bits F (pf_pow2 F k - 1)) = (2 ^ Z.of_nat k - 1)%Z) by (rewrite (cf_bits _ _ _ _ _ _ _ CF); apply (cf_pow2 _ _ _ _ _ _ _ CF), K).
  eapply runs_weaken; [apply runs_of, (range_check_ok F True (pf_bits F) cs ws _ W R)|auto].
  - rewrite EV. lia.
  - rewrite (Forall2_len _ _ _ IB). etransitivity; [|exact L]. apply skip_len. rewrite EV. lia.
  - intros _. exists bs. split; [exact IB|]. rewrite EV. lia.
Qed.

(** *** Allocation and reading *)
Lemma run_witnesses : forall vs cs, wf_cs cs -> runs cs (for_each (fa_witness F) vs) (fun cs' rs => Forall2 (carries cs') rs vs).
Proof.
  intros vs cs W. eapply runs_weaken; [apply (run_for F (fa_witness F) (fun cs v r => carries cs r v)); [intros; eapply car_up; eassumption|exact W|]|].
  - intros v cs' _ W' _. apply run_witness, W'.
  - intros cs' rs _ _ H. induction H; constructor; assumption.
Qed.
Lemma digits_val w k : forall n, (0 <= n < 2 ^ (Z.of_nat k * Z.of_nat w))%Z -> zeval (2 ^ Z.of_nat w)%Z (digits w n k) = n.
Proof.
  induction k as [|k IH]; intros n H; cbn [digits geval].
  - change (Z.of_nat 0 * Z.of_nat w)%Z with 0%Z in H. change (2 ^ 0)%Z with 1%Z in H. lia.
  - assert (P : (0 < 2 ^ Z.of_nat w)%Z) by (apply Z.pow_pos_nonneg; lia). rewrite IH.
    + pose proof (Z.div_mod n (2 ^ Z.of_nat w) ltac:(lia)). lia.
    + split; [apply Z.div_pos; lia|]. apply Z.div_lt_upper_bound; [exact P|]. rewrite <- Z.pow_add_r by lia. replace (Z.of_nat w + Z.of_nat k * Z.of_nat w)%Z with (Z.of_nat (S k) * Z.of_nat w)%Z by lia. apply H.
Qed.
Lemma digits_len w k : forall n, length (digits w n k) = k.
Proof. induction k as [|k IH]; intros n; cbn; [reflexivity|]. rewrite IH. reflexivity. Qed.
Lemma digits_range w k : forall n, Forall (fun d => (0 <= d <= 2 ^ Z.of_nat w - 1)%Z) (digits w n k).
Proof.
  assert (P : (0 < 2 ^ Z.of_nat w)%Z) by (apply Z.pow_pos_nonneg; lia).
  induction k as [|k IH]; intros n; cbn [digits]; constructor; [|apply IH]. pose proof (Z.mod_pos_bound n _ P). lia.
Qed.
(** A number in [k] limbs of [w] bits. *)
Definition is_bn cs (a : bignat F) (ds : list Z) : Prop := zcars cs (bn_limbs a) ds /\ Forall (fun d => (0 <= d <= bn_max_word a)%Z) ds.
Lemma run_bn_witness cs n w k : wf_cs cs -> (w <= 511)%nat -> (0 <= n < 2 ^ (Z.of_nat k * Z.of_nat w))%Z ->
  runs cs (bn_witness F n w k) (fun cs' a => bn_limbs a = bn_limbs a /\ is_bn cs' a (digits w n k) /\ bn_min_bits a = 0%nat /\ bn_max_word a = (2 ^ Z.of_nat w - 1)%Z /\ bn_width a = w /\ bn_n a = k).
Proof.
  intros W Hw H. unfold bn_witness. rewrite nat_to_limbs_ok by assumption. apply run_lift.
  eapply runs_bind; [apply run_witnesses, W|]. intros rs cs1 W1 U1 H1. apply runs_ret; [exact W1|]. unfold is_bn. cbn.
  split; [reflexivity|]. split; [split; [exact H1|apply digits_range]|]. repeat split; reflexivity.
Qed.
Lemma limbs_value w : forall ds, Forall (fun d => (0 <= d < p)%Z) ds -> limbs_to_nat F (map of ds) w = zeval (2 ^ Z.of_nat w)%Z ds.
Proof.
  intros ds H. unfold limbs_to_nat. rewrite <- fold_left_rev_right, rev_involutive. induction H as [|d ds HD H IH]; cbn [map fold_right geval]; [reflexivity|].
  rewrite IH, val_of by exact HD. ring.
Qed.
Lemma run_bn_value {B} cs (a : bignat F) ds (k : Z -> G F B) Q : zcars cs (bn_limbs a) ds -> Forall (fun d => (0 <= d < p)%Z) ds ->
  runs cs (k (zeval (2 ^ Z.of_nat (bn_width a))%Z ds)) Q -> runs cs (bind (bn_value F a) k) Q.
Proof.
  intros H R (b & cs' & new & E & rest). exists b, cs', new. split; [|exact rest]. unfold bind, bn_value.
  assert (V : for_each value_of (bn_limbs a) cs = Some (map of ds, cs)).
  { clear - H. unfold zcars in H. revert H. generalize (map of ds) as vs. intros vs H. induction H as [|r v l vs [[O _] V] H IH]; cbn [for_each]; [reflexivity|].
    unfold bind, value_of in *. rewrite (row_evaluate_ok F cs r O), V. rewrite IH. reflexivity. }
  unfold bind. rewrite V. cbn [ret]. rewrite limbs_value by exact R. exact E.
Qed.
Lemma run_well_formed cs (a : bignat F) ds : wf_cs cs -> zcars cs (bn_limbs a) ds -> (1 <= bn_width a < 254)%nat -> Forall (fun d => (0 <= d < 2 ^ Z.of_nat (bn_width a))%Z) ds ->
  runs cs (bn_enforce_well_formed F a) (fun _ _ => True).
Proof.
  intros W H HW HD. unfold bn_enforce_well_formed. eapply runs_bind; [|intros; apply runs_ret; auto].
  apply (run_for F _ (fun _ _ _ => True)); [auto|exact W|]. intros r cs' I W' U.
  assert (E : exists d, carries cs r (of d) /\ (0 <= d < 2 ^ Z.of_nat (bn_width a))%Z).
  { clear - H HD I. unfold zcars in H. revert ds H HD. induction (bn_limbs a) as [|r' l IH]; intros ds H HD; [destruct I|].
    destruct ds as [|d ds]; inversion H; subst. inversion HD; subst. destruct I as [->|I]; [exists d; auto|]. apply (IH I ds); assumption. }
  destruct E as (d & C & R). ups U. eapply runs_bind; [apply (run_to_bits cs' r 256 _ W' C); lia|]. intros bs cs1 W1 U1 (vs & B & L & V). cbv beta in *.
  assert (P2 : (2 ^ Z.of_nat (bn_width a) <= 2 ^ 253)%Z) by (apply Z.pow_le_mono_r; lia). pose proof p_range.
  apply (run_range cs1 bs vs (bn_width a) W1 B HW); [lia|]. rewrite V, val_of by lia. assert (2 ^ 254 <= 2 ^ Z.of_nat 256)%Z by (apply Z.pow_le_mono_r; lia). rewrite Z.mod_small by lia. apply R.
Qed.
(** *** Polynomials *)
Lemma run_poly_mul cs a b xs ys : wf_cs cs -> zcars cs a xs -> zcars cs b ys -> (0 < length xs + length ys)%nat ->
  runs cs (poly_mul F a b) (fun cs' P => zcars cs' P (zproduct xs ys)).
Proof.
  intros W HA HB HL. destruct (zcars_rows _ _ _ HA) as [RA VA]. destruct (zcars_rows _ _ _ HB) as [RB VB].
  eapply runs_weaken; [apply runs_of, (poly_mul_ok F True cs a b W RA RB); rewrite (zcars_len _ _ _ HA), (zcars_len _ _ _ HB); exact HL|].
  intros cs' P W' [n Gr] [O E]. apply rows_zcars; [exact O|]. rewrite E, (rows_lc F _ _ _ _ Gr RA), (rows_lc F _ _ _ _ Gr RB), VA, VB. symmetry.
  apply hom_product; [apply of_0|apply of_add|apply of_mul].
Qed.
Lemma zcars_plus cs : forall a b xs ys, zcars cs a xs -> zcars cs b ys -> forall c, c = poly_add F a b -> wf_cs cs -> zcars cs c (zsum xs ys).
Proof.
  intros a b xs ys HA HB c -> W. unfold poly_add.
  set (f := fun (a b : list (row F)) k => let s := fa_constant F 0 in let s := match nth_error a k with Some x => fa_plus F s x | None => s end in match nth_error b k with Some y => fa_plus F s y | None => s end).
  assert (G : forall a b xs ys, zcars cs a xs -> zcars cs b ys -> zcars cs (map (f a b) (seq 0 (Nat.max (length a) (length b)))) (zsum xs ys)); [|apply G; assumption].
  clear a b xs ys HA HB.
  assert (SH : forall r a q b n, map (f (r :: a) (q :: b)) (seq 1 n) = map (f a b) (seq 0 n)) by (intros; rewrite <- seq_shift, map_map; reflexivity).
  assert (SN : forall r a n, map (f (r :: a) []) (seq 1 n) = map (f a []) (seq 0 n)) by (intros r a n; rewrite <- seq_shift, map_map; apply map_ext; intros [|k]; reflexivity).
  assert (SM : forall q b n, map (f [] (q :: b)) (seq 1 n) = map (f [] b) (seq 0 n)) by (intros q b n; rewrite <- seq_shift, map_map; apply map_ext; intros [|k]; reflexivity).
  induction a as [|r a IH]; intros b xs ys HA HB.
  - apply zcars_nil in HA as ->. cbn [gsum length Nat.max]. revert ys HB. induction b as [|q b IHb]; intros ys HB.
    + apply zcars_nil in HB as ->. constructor.
    + apply zcars_cons in HB as (y & ys' & -> & D1 & D2). cbn [length seq map]. rewrite SM. unfold zcars. cbn [map]. constructor; [|apply (IHb ys' D2)].
      unfold f. cbn [nth_error]. eapply car_eq; [apply car_plus; [apply car_const, W|exact D1]|ring].
  - apply zcars_cons in HA as (x & xs' & -> & C1 & C2). destruct b as [|q b].
    + apply zcars_nil in HB as ->. cbn [length Nat.max seq map gsum]. rewrite SN. unfold zcars. cbn [map]. constructor.
      * unfold f. cbn [nth_error]. eapply car_eq; [apply car_plus; [apply car_const, W|exact C1]|ring].
      * specialize (IH [] xs' [] C2 ltac:(constructor)). cbn [length] in IH. rewrite Nat.max_0_r in IH. replace (zsum xs' []) with xs' in IH by (destruct xs'; reflexivity). exact IH.
    + apply zcars_cons in HB as (y & ys' & -> & D1 & D2). cbn [length Nat.max seq map gsum]. rewrite SH. unfold zcars. cbn [map]. constructor.
      * unfold f. cbn [nth_error]. rewrite of_add. eapply car_eq; [apply car_plus; [apply car_plus; [apply car_const, W|exact C1]|exact D1]|ring].
      * apply (IH b xs' ys' C2 D2).
Qed.
Lemma run_group cs (a : bignat F) ds lpg : wf_cs cs -> zcars cs (bn_limbs a) ds -> (0 < length ds)%nat -> (0 < lpg)%nat -> (1 <= bn_width a < 254)%nat ->
  runs cs (bn_group_limbs F a lpg) (fun cs' g => zcars cs' (bn_limbs g) (zgroup lpg (2 ^ Z.of_nat (bn_width a))%Z ds) /\ bn_width g = (bn_width a * lpg)%nat /\
    bn_max_word g = (fold_left (fun acc i => Z.setbit acc (Z.of_nat (i * bn_width a))) (seq 0 lpg) 0 * bn_max_word a)%Z).
Proof.
  intros W HA HL HG HW. destruct (zcars_rows _ _ _ HA) as [RA VA].
  eapply runs_weaken; [apply runs_of, (group_ok F True cs a lpg W RA); [rewrite (zcars_len _ _ _ HA); exact HL|exact HG]|].
  intros cs' g W' U [(O & E1 & E2 & E3) _]. split; [|split; assumption]. apply rows_zcars; [exact O|]. rewrite (E3 I), VA, of_pow2 by exact HW. symmetry.
  apply hom_group; [apply of_0|apply of_1|apply of_add|apply of_mul].
Qed.

(** *** Equality up to carries *)
(** [c] bounds the carries. *)
Lemma run_carry_step cs M B cb last carry_in x y extra c xv yv C : wf_cs cs -> (0 <= M < 2 ^ 500)%Z -> (1 < B < 2 ^ 500)%Z -> (1 <= cb < 254)%nat ->
  ((2 * M + C) / B <= C)%Z -> (0 <= C < 2 ^ Z.of_nat cb)%Z ->
  carries cs carry_in (of c) -> carries cs x (of xv) -> carries cs y (of yv) -> (0 <= c <= C)%Z -> (0 <= extra <= C)%Z -> (0 <= xv <= M)%Z -> (0 <= yv <= M)%Z -> (M < p)%Z ->
  forall rest, (xv - yv + B * rest + (c - extra) = 0)%Z -> (last = true -> rest = 0%Z) ->
  runs cs (carry_step F M B cb last carry_in x y extra) (fun cs' st => exists c' extra', carries cs' (fst st) (of c') /\ snd st = extra' /\ (0 <= c' <= C)%Z /\ (0 <= extra' <= C)%Z /\ (rest + (c' - extra') = 0)%Z).
Proof.
  intros W HM HB Hcb HC HC2 Hc Hx Hy Rc Re Rx Ry HMp rest HR HLast. unfold carry_step.
  assert (C253 : (2 ^ Z.of_nat cb <= 2 ^ 253)%Z) by (apply Z.pow_le_mono_r; lia). pose proof p_range as PR.
  eapply run_value; [exact Hx|]. eapply run_value; [exact Hc|]. eapply run_value; [exact Hy|]. rewrite !val_of by lia.
  assert (N0 : (0 <= xv + c + M - yv)%Z) by lia. rewrite Z.quot_div_nonneg by lia.
  set (c' := ((xv + c + M - yv) / B)%Z). set (e' := ((extra + M) / B)%Z).
  assert (NUM : (xv + c + M - yv = (extra + M) + (- rest) * B)%Z) by lia.
  assert (E1 : (c' = e' - rest)%Z) by (unfold c', e'; rewrite NUM, Z.div_add by lia; lia).
  assert (B1 : (0 <= c' <= C)%Z). { split; [apply Z.div_pos; lia|]. etransitivity; [|exact HC]. apply Z.div_le_mono; lia. }
  assert (B2 : (0 <= e' <= C)%Z). { split; [apply Z.div_pos; lia|]. etransitivity; [|exact HC]. apply Z.div_le_mono; lia. }
  assert (P11 : (2 ^ 500 * 2 ^ 11 = 2 ^ 511)%Z) by reflexivity. assert (P253 : (2 ^ 253 < 2 ^ 500)%Z) by reflexivity. set (big := (2 ^ 500)%Z) in *. assert (P2 : (big * 2 < 2 ^ 511)%Z) by reflexivity. clearbody big.
  eapply runs_bind; [apply run_nat_witness; [exact W|lia]|]. intros carry cs1 W1 U1 V1. ups U1.
  eapply runs_bind; [apply run_nat_witness; [exact W1|lia]|]. intros base cs2 W2 U2 V2. ups U2.
  eapply runs_bind; [apply (run_mul F cs2 base carry _ _ W2 V2 V1)|]. intros target cs3 W3 U3 V3. ups U3. cbv zeta.
  rewrite Z.rem_mod_nonneg, Z.quot_div_nonneg by lia. fold e'. pose proof (Z.mod_pos_bound (extra + M) B ltac:(lia)) as MB.
  eapply runs_bind; [apply run_nat_witness; [exact W3|lia]|]. intros acc cs4 W4 U4 V4. ups U4.
  eapply runs_bind; [apply run_nat_witness; [exact W4|lia]|]. intros mw cs5 W5 U5 V5. ups U5.
  eapply runs_bind.
  - apply run_enforce_const; [exact W5|]. eapply car_eq.
    + apply car_minus; [|exact V4]. apply car_minus; [|exact V3]. apply car_plus; [|exact V5]. apply car_minus; [|exact Hy]. apply car_plus; [exact Hc|exact Hx].
    + rewrite <- of_mul, <- !of_add, <- !of_sub, <- !of_add, <- !of_sub. rewrite <- of_0. f_equal. pose proof (Z.div_mod (extra + M) B ltac:(lia)). fold e' in H. nia.
  - intros u cs6 W6 U6 _. ups U6.
    apply runs_bind with (Q1 := fun _ _ => True).
    + destruct last.
      * eapply runs_bind; [apply run_nat_witness; [exact W6|lia]|]. intros e cs7 W7 U7 V7. ups U7. apply run_enforce_const; [exact W7|].
        eapply car_eq; [apply car_minus; [exact V1|exact V7]|]. specialize (HLast eq_refl). replace c' with e' by lia. ring.
      * eapply runs_bind; [apply (run_to_bits cs6 carry 256 _ W6 V1); lia|]. intros bs cs7 W7 U7 (vs & BB & L & V). cbv beta in *.
        apply (run_range cs7 bs vs cb W7 BB Hcb); [lia|]. assert (2 ^ 254 <= 2 ^ Z.of_nat 256)%Z by (apply Z.pow_le_mono_r; lia). rewrite V, val_of, Z.mod_small by lia. lia.
    + intros u7 cs7 W7 U7 _. ups U7. apply runs_ret; [exact W7|]. exists c', e'. cbn [fst snd]. split; [exact V1|]. split; [reflexivity|]. split; [exact B1|]. split; [exact B2|lia].
Qed.
Lemma run_carry_loop M B cb C : (0 <= M < 2 ^ 500)%Z -> (1 < B < 2 ^ 500)%Z -> (1 <= cb < 254)%nat -> ((2 * M + C) / B <= C)%Z -> (0 <= C < 2 ^ Z.of_nat cb)%Z -> (M < p)%Z ->
  forall a b xs ys cs carry_in c extra, wf_cs cs -> zcars cs a xs -> zcars cs b ys -> length xs = length ys ->
  Forall (fun d => (0 <= d <= M)%Z) xs -> Forall (fun d => (0 <= d <= M)%Z) ys ->
  carries cs carry_in (of c) -> (0 <= c <= C)%Z -> (0 <= extra <= C)%Z -> (zeval B xs - zeval B ys + (c - extra) = 0)%Z ->
  runs cs (carry_loop F M B cb carry_in extra (combine a b)) (fun _ _ => True).
Proof.
  intros HM HB Hcb HC HC2 HMp. induction a as [|x a IH]; intros b xs ys cs carry_in c extra W HA HBs HL RX RY Hc Rc Re E.
  - apply runs_ret; auto.
  - apply zcars_cons in HA as (xv & xs' & -> & C1 & C2). destruct ys as [|yv ys]; [discriminate|]. destruct b as [|y b']; [inversion HBs|].
    apply zcars_cons in HBs as (yv' & ys' & EY & D1 & D2). injection EY as <- <-. cbn [combine carry_loop].
    rename xs' into xs. inversion RX; subst. inversion RY; subst. cbn [geval] in E.
    eapply runs_bind; [apply (run_carry_step cs M B cb _ carry_in x y extra c xv yv C W HM HB Hcb HC HC2 Hc C1 D1 Rc Re) with (rest := (zeval B xs - zeval B ys)%Z); try assumption|].
    + lia.
    + intros EL. destruct a as [|x1 a]; [|destruct b' as [|y1 b']; [|discriminate EL]].
      * apply zcars_nil in C2 as ->. destruct ys; [|discriminate]. reflexivity.
      * apply zcars_nil in D2 as ->. destruct xs; [|discriminate]. reflexivity.
    + intros st cs1 W1 U1 (c' & e' & V & <- & R1 & R2 & E3). cbv beta in *.
      apply (IH b' xs ys cs1 (fst st) c' (snd st) W1); try assumption.
      * apply (cars_up F _ _ _ _ U1 C2).
      * apply (cars_up F _ _ _ _ U1 D2).
      * cbn [length] in HL. lia.
Qed.

Lemma zcars_firstn cs n : forall l ds, zcars cs l ds -> zcars cs (firstn n l) (firstn n ds).
Proof.
  induction n as [|n IH]; intros l ds H; [constructor|]. destruct l as [|r l]; [apply zcars_nil in H as ->; constructor|].
  apply zcars_cons in H as (d & ds' & -> & C1 & C2). unfold zcars. cbn [firstn map]. constructor; [exact C1|apply (IH _ _ C2)].
Qed.
Lemma zcars_skipn cs n : forall l ds, zcars cs l ds -> zcars cs (skipn n l) (skipn n ds).
Proof.
  induction n as [|n IH]; intros l ds H; [exact H|]. destruct l as [|r l]; [apply zcars_nil in H as ->; constructor|].
  apply zcars_cons in H as (d & ds' & -> & C1 & C2). cbn [skipn]. apply (IH _ _ C2).
Qed.
Lemma run_zeros cs l ds : wf_cs cs -> zcars cs l ds -> Forall (fun d => d = 0%Z) ds -> runs cs (for_each (fun limb => fa_enforce_eq_constant F limb 0) l) (fun _ _ => True).
Proof.
  intros W H HD. eapply runs_weaken; [apply (run_for F _ (fun _ _ _ => True)); [auto|exact W|]|auto].
  intros r cs' I W' U. apply run_enforce_const; [exact W'|]. apply (car_up F _ _ _ _ U). clear - H HD I OK CF. revert ds H HD.
  induction l as [|q l IH]; intros ds H HD; [destruct I|]. apply zcars_cons in H as (d & ds' & -> & C1 & C2). inversion HD; subst.
  destruct I as [->|I]; [rewrite <- of_0; exact C1|apply (IH I ds'); assumption].
Qed.
Lemma combine_min {A B} : forall (l : list A) (r : list B), combine l r = combine (firstn (Nat.min (length l) (length r)) l) (firstn (Nat.min (length l) (length r)) r).
Proof. induction l as [|a l IH]; intros [|b r]; cbn [combine length Nat.min firstn]; try reflexivity. rewrite <- IH. reflexivity. Qed.
Lemma Forall_firstn {A} (P : A -> Prop) n : forall l, Forall P l -> Forall P (firstn n l).
Proof. induction n as [|n IH]; intros l H; [constructor|]. destruct H; cbn [firstn]; constructor; auto. Qed.
Lemma run_equal_carried cs (a b : bignat F) xs ys M w cb C : wf_cs cs -> zcars cs (bn_limbs a) xs -> zcars cs (bn_limbs b) ys -> bn_width a = w -> bn_width b = w ->
  Z.max (bn_max_word a) (bn_max_word b) = M -> carry_bits_of M w = cb -> (1 <= w < 500)%nat ->
  (0 <= M < 2 ^ 500)%Z -> (1 <= cb < 254)%nat -> ((2 * M + C) / 2 ^ Z.of_nat w <= C)%Z -> (0 <= C < 2 ^ Z.of_nat cb)%Z -> (M < p)%Z ->
  Forall (fun d => (0 <= d <= M)%Z) xs -> Forall (fun d => (0 <= d <= M)%Z) ys -> zeval (2 ^ Z.of_nat w)%Z xs = zeval (2 ^ Z.of_nat w)%Z ys ->
  (zeval (2 ^ Z.of_nat w)%Z xs < (2 ^ Z.of_nat w) ^ Z.of_nat (Nat.min (length xs) (length ys)))%Z ->
  runs cs (bn_equal_when_carried F a b) (fun _ _ => True).
Proof.
  intros W HA HB WA WB HM Hcb Hw RM Rcb HC RC Mp RX RY E HV. unfold bn_equal_when_carried. rewrite WA, WB, HM, Hcb.
  assert (RB : (1 < 2 ^ Z.of_nat w < 2 ^ 500)%Z) by (split; [apply Z.pow_gt_1; lia|apply Z.pow_lt_mono_r; lia]).
  apply run_guard; [apply Nat.eqb_refl|]. cbv zeta. rewrite (zcars_len _ _ _ HA), (zcars_len _ _ _ HB). set (n := Nat.min (length xs) (length ys)) in *.
  assert (NX : Forall (fun d => (0 <= d)%Z) xs) by (revert RX; apply Forall_impl; intros; lia). assert (NY : Forall (fun d => (0 <= d)%Z) ys) by (revert RY; apply Forall_impl; intros; lia).
  assert (ZX := zeval_high (2 ^ Z.of_nat w)%Z ltac:(lia) n xs NX HV). rewrite E in HV. assert (ZY := zeval_high (2 ^ Z.of_nat w)%Z ltac:(lia) n ys NY HV).
  eapply runs_bind.
  - rewrite combine_min, (zcars_len _ _ _ HA), (zcars_len _ _ _ HB). fold n.
    apply (run_carry_loop M (2 ^ Z.of_nat w)%Z cb C RM RB Rcb HC RC Mp _ _ (firstn n xs) (firstn n ys) cs (fa_constant F 0) 0%Z 0%Z W).
    + apply zcars_firstn, HA.
    + apply zcars_firstn, HB.
    + rewrite !firstn_length. unfold n. lia.
    + apply Forall_firstn, RX.
    + apply Forall_firstn, RY.
    + rewrite of_0. apply car_const, W.
    + lia.
    + lia.
    + rewrite !zeval_low by assumption. lia.
  - intros u cs1 W1 U1 _. apply (cars_up F _ _ _ _ U1) in HA. apply (cars_up F _ _ _ _ U1) in HB. fold (zcars cs1 (bn_limbs a) xs) in HA. fold (zcars cs1 (bn_limbs b) ys) in HB.
    eapply runs_bind; [apply (run_zeros cs1 _ (skipn n xs) W1); [apply zcars_skipn, HA|exact ZX]|]. intros u2 cs2 W2 U2 _.
    apply (cars_up F _ _ _ _ U2) in HB. fold (zcars cs2 (bn_limbs b) ys) in HB.
    eapply runs_bind; [apply (run_zeros cs2 _ (skipn n ys) W2); [apply zcars_skipn, HB|exact ZY]|]. intros u3 cs3 W3 U3 _. apply runs_ret; auto.
Qed.
(** The numbers of the library: 64-bit limbs; products of four limbs. *)
Definition M0 : Z := (4 * (2 ^ 64 - 1) * (2 ^ 64 - 1) + (2 ^ 64 - 1))%Z.
Definition M2 : Z := ((1 + 2 ^ 64) * M0)%Z.
Lemma run_regroup cs (a b : bignat F) xs ys : wf_cs cs -> zcars cs (bn_limbs a) xs -> zcars cs (bn_limbs b) ys -> bn_width a = 64%nat -> bn_width b = 64%nat ->
  Z.max (bn_max_word a) (bn_max_word b) = M0 -> Forall (fun d => (0 <= d <= M0)%Z) xs -> Forall (fun d => (0 <= d <= M0)%Z) ys ->
  (0 < length xs)%nat -> (0 < length ys)%nat ->
  Forall (fun d => (d <= M2)%Z) (zgroup 2 (2 ^ 64)%Z (repeat M0 (length xs))) -> Forall (fun d => (d <= M2)%Z) (zgroup 2 (2 ^ 64)%Z (repeat M0 (length ys))) ->
  zeval (2 ^ 64)%Z xs = zeval (2 ^ 64)%Z ys ->
  (zeval (2 ^ 64)%Z xs < (2 ^ 128) ^ Z.of_nat (Nat.min ((length xs - 1) / 2 + 1) ((length ys - 1) / 2 + 1)))%Z ->
  runs cs (bn_equal_regroup F a b) (fun _ _ => True).
Proof.
  intros W HA HB WA WB HM RX RY LX LY GX GY E HV. unfold bn_equal_regroup. rewrite WA, WB, HM. apply run_guard; [reflexivity|]. cbv zeta.
  rewrite (cf_nbits _ _ _ _ _ _ _ CF). replace (carry_bits_of M0 64) with 67%nat by (vm_compute; reflexivity). apply run_guard; [reflexivity|].
  change ((254 - 1 - 67) / 64)%nat with 2%nat.
  eapply runs_bind; [apply (run_group cs a xs 2 W HA LX); [lia|rewrite WA; lia]|]. intros ag cs1 W1 U1 (A1 & A2 & A3). rewrite WA in *.
  apply (cars_up F _ _ _ _ U1) in HB. fold (zcars cs1 (bn_limbs b) ys) in HB.
  eapply runs_bind; [apply (run_group cs1 b ys 2 W1 HB LY); [lia|rewrite WB; lia]|]. intros bg cs2 W2 U2 (B1 & B2 & B3). rewrite WB in *.
  apply (cars_up F _ _ _ _ U2) in A1.
  replace (fold_left (fun acc i => Z.setbit acc (Z.of_nat (i * 64))) (seq 0 2) 0%Z) with (1 + 2 ^ 64)%Z in * by (vm_compute; reflexivity).
  change (2 ^ Z.of_nat 64)%Z with (2 ^ 64)%Z in *.
  assert (BX : Forall (fun d => (0 <= d <= M2)%Z) (zgroup 2 (2 ^ 64)%Z xs)) by (eapply below_all; [apply below_group; [discriminate|apply below_const, RX]|exact GX]).
  assert (BY : Forall (fun d => (0 <= d <= M2)%Z) (zgroup 2 (2 ^ 64)%Z ys)) by (eapply below_all; [apply below_group; [discriminate|apply below_const, RY]|exact GY]).
  assert (VX : zeval (2 ^ 128)%Z (zgroup 2 (2 ^ 64)%Z xs) = zeval (2 ^ 64)%Z xs) by (apply (zev_group 2 (2 ^ 64)%Z); lia).
  assert (VY : zeval (2 ^ 128)%Z (zgroup 2 (2 ^ 64)%Z ys) = zeval (2 ^ 64)%Z ys) by (apply (zev_group 2 (2 ^ 64)%Z); lia).
  apply (run_equal_carried cs2 ag bg (zgroup 2 (2 ^ 64)%Z xs) (zgroup 2 (2 ^ 64)%Z ys) M2 128 67 (2 ^ 67 - 1)%Z W2 A1 B1); try assumption.
  - rewrite A3, B3. rewrite Z.mul_max_distr_nonneg_l by discriminate. rewrite HM. reflexivity.
  - vm_compute. reflexivity.
  - lia.
  - split; [discriminate|reflexivity].
  - lia.
  - vm_compute. discriminate.
  - split; [discriminate|reflexivity].
  - pose proof p_range. assert (M2 < 2 ^ 253)%Z by reflexivity. lia.
  - change (Z.of_nat 128) with 128%Z. rewrite VX, VY. exact E.
  - change (Z.of_nat 128) with 128%Z. rewrite VX, !ggroup_len. exact HV.
Qed.

(** A number below [2^256] in four 64-bit limbs, as [witness_from_big_int] makes them. *)
Definition number cs (a : bignat F) (n : Z) : Prop :=
  zcars cs (bn_limbs a) (digits 64 n 4) /\ (0 <= n < 2 ^ 256)%Z /\ bn_min_bits a = 0%nat /\ bn_max_word a = (2 ^ 64 - 1)%Z /\ bn_width a = 64%nat /\ bn_n a = 4%nat.
Lemma number_up cs cs' a n : above cs cs' -> number cs a n -> number cs' a n.
Proof. intros U [H R]. split; [apply (cars_up F _ _ _ _ U H)|exact R]. Qed.
Lemma digits4 n : (0 <= n < 2 ^ 256)%Z -> zeval (2 ^ 64)%Z (digits 64 n 4) = n.
Proof. intros H. apply (digits_val 64 4). exact H. Qed.
Lemma digits_p k n : Forall (fun d => (0 <= d < p)%Z) (digits 64 n k).
Proof.
  eapply Forall_impl; [|apply digits_range]. cbn beta. intros d H. pose proof p_range. change (2 ^ Z.of_nat 64)%Z with (2 ^ 64)%Z in H. assert (2 ^ 64 < 2 ^ 253)%Z by reflexivity. lia.
Qed.
Lemma run_number_value {B} cs (a : bignat F) n (k : Z -> G F B) Q : number cs a n -> runs cs (k n) Q -> runs cs (bind (bn_value F a) k) Q.
Proof.
  intros (H & R & _ & _ & EW & _) K. apply (run_bn_value cs a (digits 64 n 4)); [exact H|apply digits_p|]. rewrite EW. change (2 ^ Z.of_nat 64)%Z with (2 ^ 64)%Z. rewrite digits4 by exact R. exact K.
Qed.
Lemma run_number cs n : wf_cs cs -> (0 <= n < 2 ^ 256)%Z -> runs cs (bn_witness F n 64 4) (fun cs' a => number cs' a n).
Proof.
  intros W H. eapply runs_weaken; [apply (run_bn_witness cs n 64 4 W); [lia|exact H]|]. intros cs' a _ _ (_ & [C _] & E1 & E2 & E3 & E4). split; [exact C|]. auto.
Qed.
(** Quotient and remainder. *)
Lemma run_div cs (num : G F Z) n nb (m : bignat F) mv ql : wf_cs cs -> number cs m mv -> (0 < mv)%Z -> (0 <= n)%Z ->
  (forall cs' B (k : Z -> G F B) Q, above cs cs' -> runs cs' (k n) Q -> runs cs' (bind num k) Q) ->
  ((nb - 0 - 1) / 64 + 1)%nat = ql -> (n / mv < 2 ^ (Z.of_nat ql * 64))%Z ->
  runs cs (bn_div_witness F num nb 64 m) (fun cs' qr => zcars cs' (bn_limbs (fst qr)) (digits 64 (n / mv) ql) /\ bn_max_word (fst qr) = (2 ^ 64 - 1)%Z /\ number cs' (snd qr) (n mod mv)).
Proof.
  intros W HM M1 N0 HN HQL HQ. unfold bn_div_witness. apply run_guard; [reflexivity|]. cbv zeta. destruct HM as (CM & RM & EM & EX & EW & EN). rewrite EM, HQL.
  assert (HM : number cs m mv) by (split; [exact CM|]; auto).
  apply HN; [apply above_refl|]. eapply run_number_value; [exact HM|]. apply run_guard; [destruct (Z.eqb_spec mv 0); [lia|reflexivity]|].
  rewrite Z.quot_div_nonneg by lia.
  pose proof (Z.div_pos n mv ltac:(lia) M1) as Q0. pose proof (Z.mod_pos_bound n mv M1) as R0.
  eapply runs_bind; [apply (run_bn_witness cs _ 64 ql W); [lia|split; [exact Q0|exact HQ]]|]. intros q cs1 W1 U1 (_ & [CQ RQ] & _ & MQ & WQ & _). cbv beta in *.
  eapply runs_bind; [apply (run_well_formed cs1 q _ W1 CQ); [rewrite WQ; lia|rewrite WQ; eapply Forall_impl; [|apply digits_range]; cbn beta; intros; lia]|]. intros u cs2 W2 U2 _.
  pose proof (above_trans F _ _ _ U1 U2) as U02. apply HN; [exact U02|]. apply (number_up _ _ _ _ U02) in HM. eapply run_number_value; [exact HM|].
  rewrite Z.rem_mod_nonneg by lia. rewrite (zcars_len _ _ _ (proj1 HM)), digits_len.
  eapply runs_bind; [apply (run_number cs2 _ W2); lia|]. intros r cs3 W3 U3 HR. cbv beta in *.
  eapply runs_bind; [apply (run_well_formed cs3 r _ W3 (proj1 HR))|]; try (destruct HR as (_ & _ & _ & _ & -> & _)).
  - lia.
  - eapply Forall_impl; [|apply digits_range]. cbn beta. intros; lia.
  - intros u4 cs4 W4 U4 _. apply runs_ret; [exact W4|]. cbn [fst snd]. split; [|split; [exact MQ|apply (number_up _ _ _ _ U4 HR)]].
    apply (cars_up F _ _ _ _ (above_trans F _ _ _ U2 (above_trans F _ _ _ U3 U4)) CQ).
Qed.
Lemma zprod_bound n : (n = 4 \/ n = 5 \/ n = 8)%nat -> Forall (fun d => (d <= M0)%Z) (zsum (zproduct (repeat (2 ^ 64 - 1) n)%Z (repeat (2 ^ 64 - 1) 4)%Z) (repeat (2 ^ 64 - 1) 4)%Z).
Proof.
  intros H. assert (D : forallb (fun d => (d <=? M0)%Z) (zsum (zproduct (repeat (2 ^ 64 - 1) n)%Z (repeat (2 ^ 64 - 1) 4)%Z) (repeat (2 ^ 64 - 1) 4)%Z) = true) by (destruct H as [-> | [-> | ->]]; vm_compute; reflexivity).
  rewrite forallb_forall in D. apply Forall_forall. intros d I. apply Z.leb_le, D, I.
Qed.
Lemma group_bound n : (4 <= n <= 11)%nat -> Forall (fun d => (d <= M2)%Z) (zgroup 2 (2 ^ 64)%Z (repeat M0 n)).
Proof.
  intros H. assert (D : forallb (fun d => (d <=? M2)%Z) (zgroup 2 (2 ^ 64)%Z (repeat M0 n)) = true) by (do 12 (destruct n as [|n]; [first [lia|vm_compute; reflexivity]|]); lia).
  rewrite forallb_forall in D. apply Forall_forall. intros d I. apply Z.leb_le, D, I.
Qed.
Lemma digits_below k n : below (digits 64 n k) (repeat (2 ^ 64 - 1)%Z k).
Proof. rewrite <- (digits_len 64 k n) at 2. apply below_const. apply (digits_range 64). Qed.
(** [q * m + r]. *)
Lemma run_recompose cs (q m r : bignat F) ql qv mv rv : wf_cs cs -> zcars cs (bn_limbs q) (digits 64 qv ql) -> bn_max_word q = (2 ^ 64 - 1)%Z -> number cs m mv -> number cs r rv ->
  (ql = 4 \/ ql = 5 \/ ql = 8)%nat -> (0 <= qv < 2 ^ (Z.of_nat ql * 64))%Z ->
  runs cs (bn_recompose F q m r 64) (fun cs' b => exists ys, zcars cs' (bn_limbs b) ys /\ Forall (fun d => (0 <= d <= M0)%Z) ys /\ zeval (2 ^ 64)%Z ys = (qv * mv + rv)%Z /\ length ys = (ql + 3)%nat /\ bn_width b = 64%nat /\ bn_max_word b = M0).
Proof.
  intros W CQ MQ (CM & RM & _ & XM & WM & _) (CR & RR & _ & XR & WR & _) HQ RQ. unfold bn_recompose.
  eapply runs_bind; [apply (run_poly_mul cs _ _ _ _ W CQ CM); rewrite !digits_len; lia|]. intros P cs1 W1 U1 CP. cbv beta in *. apply (cars_up F _ _ _ _ U1) in CR. cbv zeta.
  apply runs_ret; [exact W1|]. exists (zsum (zproduct (digits 64 qv ql) (digits 64 mv 4)) (digits 64 rv 4)). cbn [bn_limbs bn_from_poly bn_width bn_max_word].
  split; [eapply zcars_plus; [exact CP|exact CR|reflexivity|exact W1]|]. split; [|split; [|split; [|split; [reflexivity|]]]].
  - eapply below_all; [apply below_sum; [apply below_product; apply digits_below|apply digits_below]|]. apply zprod_bound, HQ.
  - rewrite zev_sum, zev_product, !digits4 by assumption. f_equal. f_equal. apply (digits_val 64 ql). exact RQ.
  - rewrite gsum_len, gproduct_len, !digits_len. lia.
  - rewrite (zcars_len _ _ _ CQ), (zcars_len _ _ _ CM), !digits_len, MQ, XM, XR. unfold M0. destruct HQ as [-> | [-> | ->]]; reflexivity.
Qed.
Theorem run_mult_mod cs (a b m : bignat F) u v mv : wf_cs cs -> number cs a u -> number cs b v -> number cs m mv -> (0 < mv)%Z ->
  runs cs (bn_mult_mod F a b m) (fun cs' (r : bignat F) => number cs' r ((u * v) mod mv)).
Proof.
  intros W HA HB HM M1. unfold bn_mult_mod. pose proof HA as (CA & RA & NA & XA & WA & LA). pose proof HB as (CB & RB & NB & XB & WB & LB). rewrite WA, WB.
  apply run_guard; [reflexivity|]. replace (bn_n_bits F a + bn_n_bits F b)%nat with 512%nat by (unfold bn_n_bits; rewrite XA, XB; vm_compute; reflexivity).
  assert (UV : (0 <= u * v < 2 ^ 512)%Z) by (change (2 ^ 512)%Z with (2 ^ 256 * 2 ^ 256)%Z; generalize dependent (2 ^ 256)%Z; intros; nia).
  assert (QV : (0 <= (u * v) / mv < 2 ^ 512)%Z). { split; [apply Z.div_pos; lia|]. eapply Z.le_lt_trans; [|apply UV]. apply Z.div_le_upper_bound; nia. }
  eapply runs_bind; [apply (run_div cs _ (u * v)%Z 512 m mv 8 W HM M1)|].
  - lia.
  - intros cs' B k Q U K. unfold bind. assert (E := run_number_value cs' a u (fun n => bind (bn_value F b) (fun n' => k (n * n')%Z)) Q (number_up _ _ _ _ U HA)).
    assert (E2 := run_number_value cs' b v (fun n' => k (u * n')%Z) Q (number_up _ _ _ _ U HB) K). specialize (E E2).
    destruct E as (r & cs2 & new & EE & rest). exists r, cs2, new. split; [|exact rest]. unfold bind in EE |- *. destruct (bn_value F a cs') as [[x1 c1]|]; [|discriminate]. destruct (bn_value F b c1) as [[x2 c2]|]; [|discriminate]. exact EE.
  - reflexivity.
  - exact (proj2 QV).
  - intros [q r] cs1 W1 U1 (CQ & MQ & HR). cbn [fst snd] in *. cbv beta in *. pose proof (number_up _ _ _ _ U1 HM) as HM1.
    apply (cars_up F _ _ _ _ U1) in CA. apply (cars_up F _ _ _ _ U1) in CB.
    eapply runs_bind; [apply (run_poly_mul cs1 _ _ _ _ W1 CA CB); rewrite !digits_len; lia|]. intros left cs2 W2 U2 CL. cbv beta in *.
    apply (cars_up F _ _ _ _ U2) in CQ. apply (number_up _ _ _ _ U2) in HM1. apply (number_up _ _ _ _ U2) in HR.
    eapply runs_bind; [apply (run_recompose cs2 q m r 8 _ _ _ W2 CQ MQ HM1 HR); [auto|exact QV]|]. intros right cs3 W3 U3 (ys & CY & RY & VY & LY & WY & XY). cbv beta in *.
    apply (cars_up F _ _ _ _ U3) in CL. apply (number_up _ _ _ _ U3) in HR. cbv zeta.
    assert (DM := Z.div_mod (u * v) mv ltac:(lia)).
    eapply runs_bind.
    + apply (run_regroup cs3 _ right (zproduct (digits 64 u 4) (digits 64 v 4)) ys W3); cbn [bn_from_poly bn_limbs bn_width bn_max_word]; try assumption.
      * reflexivity.
      * rewrite (zcars_len _ _ _ CA), (zcars_len _ _ _ CB), !digits_len, XA, XB, XY. vm_compute. reflexivity.
      * eapply below_all; [apply below_product; apply digits_below|]. eapply Forall_forall. intros d I.
        assert (D : forallb (fun d => (d <=? M0)%Z) (zproduct (repeat (2 ^ 64 - 1) 4)%Z (repeat (2 ^ 64 - 1) 4)%Z) = true) by (vm_compute; reflexivity). rewrite forallb_forall in D. apply Z.leb_le, D, I.
      * rewrite gproduct_len, !digits_len. lia.
      * lia.
      * rewrite gproduct_len, !digits_len. apply group_bound. lia.
      * rewrite LY. apply group_bound. lia.
      * rewrite zev_product, !digits4, VY by assumption. lia.
      * rewrite gproduct_len, !digits_len, LY, zev_product, !digits4 by assumption. exact (proj2 UV).
    + intros u4 cs4 W4 U4 _. apply runs_ret; [exact W4|]. apply (number_up _ _ _ _ U4 HR).
Qed.
(** Sums keep their limbs wide until they are reduced. *)
Definition wide_number cs (a : bignat F) (n : Z) : Prop :=
  exists ds, zcars cs (bn_limbs a) ds /\ length ds = 4%nat /\ Forall (fun d => (0 <= d <= bn_max_word a)%Z) ds /\ zeval (2 ^ 64)%Z ds = n /\ (0 <= n < 2 ^ 256)%Z /\
    (bn_max_word a = 2 ^ 64 - 1 \/ bn_max_word a = 2 ^ 65 - 2)%Z /\ bn_width a = 64%nat.
Lemma wide_up cs cs' a n : above cs cs' -> wide_number cs a n -> wide_number cs' a n.
Proof. intros U (ds & C & R). exists ds. split; [apply (cars_up F _ _ _ _ U C)|exact R]. Qed.
Lemma number_wide cs a n : number cs a n -> wide_number cs a n.
Proof.
  intros (C & R & _ & X & WD & _). exists (digits 64 n 4). split; [exact C|]. split; [apply digits_len|]. split; [rewrite X; apply (digits_range 64)|]. split; [apply digits4, R|]. auto.
Qed.
Lemma zcars_add2 cs : forall (a b : list (row F)) xs ys, zcars cs a xs -> zcars cs b ys -> length xs = length ys -> forall n, length xs = n ->
  exists l, fold_right (fun i acc => match (match nth_error a i, nth_error b i with Some x, Some y => Some (fa_plus F x y) | Some x, None => Some x | None, Some y => Some y | None, None => None end), acc with Some l, Some r => Some (l :: r) | _, _ => None end) (Some []) (seq 0 n) = Some l /\ zcars cs l (zsum xs ys).
Proof.
  set (f := fun (a b : list (row F)) i => match nth_error a i, nth_error b i with Some x, Some y => Some (fa_plus F x y) | Some x, None => Some x | None, Some y => Some y | None, None => None end).
  intros a b xs ys HA HB HL n HN. change (exists l, fold_right (fun i acc => match f a b i, acc with Some l, Some r => Some (l :: r) | _, _ => None end) (Some []) (seq 0 n) = Some l /\ zcars cs l (zsum xs ys)).
  revert b xs ys n HA HB HL HN. induction a as [|x a IH]; intros b xs ys n HA HB HL HN.
  - apply zcars_nil in HA as ->. subst n. cbn [length seq fold_right]. exists []. split; [reflexivity|]. destruct ys; [constructor|discriminate].
  - apply zcars_cons in HA as (xv & xs' & -> & C1 & C2). destruct ys as [|yv ys]; [discriminate|]. destruct b as [|y b]; [inversion HB|]. apply zcars_cons in HB as (yv' & ys' & EY & D1 & D2). injection EY as <- <-.
    subst n. cbn [length] in *. destruct (IH b xs' ys (length xs') C2 D2 ltac:(lia) eq_refl) as (l & El & Cl). cbn [seq fold_right].
    assert (SH : forall n, fold_right (fun i acc => match f (x :: a) (y :: b) i, acc with Some l, Some r => Some (l :: r) | _, _ => None end) (Some []) (seq 1 n) = fold_right (fun i acc => match f a b i, acc with Some l, Some r => Some (l :: r) | _, _ => None end) (Some []) (seq 0 n)).
    { intros n. rewrite <- seq_shift. clear. induction (seq 0 n) as [|k l IH]; [reflexivity|]. cbn [map fold_right]. rewrite IH. reflexivity. }
    rewrite SH, El. exists (fa_plus F x y :: l). split; [reflexivity|]. unfold zcars. cbn [gsum map]. constructor; [|exact Cl]. rewrite of_add. apply car_plus; assumption.
Qed.
Lemma add_number cs (a b : bignat F) u v : number cs a u -> number cs b v -> (u + v < 2 ^ 256)%Z -> exists s, bn_add F a b = Some s /\ wide_number cs s (u + v).
Proof.
  intros (CA & RA & NA & XA & WA & LA) (CB & RB & NB & XB & WB & LB) HS. unfold bn_add. rewrite WA, WB, LA, LB. cbn [Nat.eqb negb Nat.max].
  destruct (zcars_add2 cs _ _ _ _ CA CB ltac:(rewrite !digits_len; reflexivity) 4%nat (digits_len _ _ _)) as (l & El & Cl). rewrite El.
  eexists. split; [reflexivity|]. exists (zsum (digits 64 u 4) (digits 64 v 4)). cbn [bn_limbs bn_max_word bn_width]. rewrite XA, XB.
  split; [exact Cl|]. split; [rewrite gsum_len, !digits_len; reflexivity|]. split; [|split; [rewrite zev_sum, !digits4 by assumption; reflexivity|split; [lia|split; [right; reflexivity|reflexivity]]]].
  eapply below_all; [apply below_sum; apply digits_below|]. cbn. repeat (apply Forall_cons; [lia|]). apply Forall_nil.
Qed.
Theorem run_red_mod cs (a m : bignat F) u mv : wf_cs cs -> wide_number cs a u -> number cs m mv -> (0 < mv)%Z ->
  runs cs (bn_red_mod F a m) (fun cs' (r : bignat F) => number cs' r (u mod mv)).
Proof.
  intros W HA HM M1. pose proof HA as (ds & CA & LA & DA & VA & RA & XA & WA). pose proof HM as (_ & _ & _ & _ & WM & _). unfold bn_red_mod. rewrite WA, WM. apply run_guard; [reflexivity|].
  assert (DP : Forall (fun d => (0 <= d <= M0)%Z) ds) by (eapply Forall_impl; [|exact DA]; cbn beta; intros d; unfold M0; destruct XA as [-> | ->]; lia).
  assert (DQ : Forall (fun d => (0 <= d < p)%Z) ds). { eapply Forall_impl; [|exact DP]. cbn beta. intros d. pose proof p_range. assert (M0 < 2 ^ 253)%Z by reflexivity. lia. }
  assert (QV : (0 <= u / mv < 2 ^ 256)%Z). { split; [apply Z.div_pos; lia|]. eapply Z.le_lt_trans; [|apply RA]. apply Z.div_le_upper_bound; nia. }
  set (ql := ((bn_n_bits F a - 0 - 1) / 64 + 1)%nat).
  assert (HQL : (ql = 4 \/ ql = 5)%nat) by (unfold ql, bn_n_bits; destruct XA as [-> | ->]; [left|right]; vm_compute; reflexivity).
  assert (P4 : (2 ^ 256 <= 2 ^ (Z.of_nat ql * 64))%Z) by (apply Z.pow_le_mono_r; lia).
  eapply runs_bind; [apply (run_div cs _ u (bn_n_bits F a) m mv ql W HM M1)|].
  - lia.
  - intros cs' B k Q U K. eapply run_bn_value; [apply (cars_up F _ _ _ _ U CA)|exact DQ|]. rewrite WA. change (2 ^ Z.of_nat 64)%Z with (2 ^ 64)%Z. rewrite VA. exact K.
  - reflexivity.
  - lia.
  - intros [q r] cs1 W1 U1 (CQ & MQ & HR). cbn [fst snd] in *. cbv beta in *. pose proof (number_up _ _ _ _ U1 HM) as HM1. apply (cars_up F _ _ _ _ U1) in CA.
    eapply runs_bind; [apply (run_recompose cs1 q m r ql _ _ _ W1 CQ MQ HM1 HR); [tauto|lia]|]. intros right cs2 W2 U2 (ys & CY & RY & VY & LY & WY & XY). cbv beta in *.
    apply (cars_up F _ _ _ _ U2) in CA. apply (number_up _ _ _ _ U2) in HR. assert (DM := Z.div_mod u mv ltac:(lia)).
    eapply runs_bind.
    + apply (run_regroup cs2 a right ds ys W2); try assumption.
      * rewrite XY. destruct XA as [-> | ->]; reflexivity.
      * lia.
      * lia.
      * rewrite LA. apply group_bound. lia.
      * rewrite LY. apply group_bound. lia.
      * rewrite VA, VY. lia.
      * rewrite VA, LA, LY. replace (Nat.min ((4 - 1) / 2 + 1) ((ql + 3 - 1) / 2 + 1)) with 2%nat by (destruct HQL as [-> | ->]; reflexivity). exact (proj2 RA).
    + intros u4 cs4 W4 U4 _. apply runs_ret; [exact W4|]. apply (number_up _ _ _ _ U4 HR).
Qed.

(** ** Bits of a number, numbers from field elements, selection *)
Lemma run_enforce_bits cs x ws bs n : wf_cs cs -> carries cs x (of n) -> Forall2 (wcar cs) ws (map (kbit F) bs) -> bval bs = n -> (0 <= n < p)%Z ->
  runs cs (fa_enforce_eq_bits F x ws) (fun _ _ => True).
Proof.
  intros W [OX VX] HB HV R. destruct (wcars_split cs ws bs HB) as [RG IB]. eapply runs_weaken; [apply runs_of, (enforce_bits_ok F True cs x ws W OX RG)|auto].
  intros _. rewrite VX. apply (cf_inj _ _ _ _ _ _ _ CF). rewrite (bits_value_val F val p (pf_bits F) (pf_pow2 F) (pf_modulus F) (pf_nbits F) CF _ _ _ IB), HV, val_of by exact R. symmetry. apply Z.mod_small, R.
Qed.
Lemma zeval_snoc b (l : list Z) (x : Z) : zeval b (l ++ [x]) = (zeval b l + b ^ Z.of_nat (length l) * x)%Z.
Proof. rewrite zeval_app. cbn. ring. Qed.
Lemma run_decompose cs (a : bignat F) n : wf_cs cs -> number cs a n ->
  runs cs (bn_decompose F a) (fun cs' ws => exists bs, Forall2 (wcar cs') ws (map (kbit F) bs) /\ bval bs = n /\ length bs = 256%nat).
Proof.
  intros W (CA & RA & _ & _ & WA & _). unfold bn_decompose. rewrite WA.
  assert (H : forall limbs ds cs, wf_cs cs -> zcars cs limbs ds -> Forall (fun d => (0 <= d <= 2 ^ 64 - 1)%Z) ds ->
    runs cs (for_each (fun limb => to_bits limb 64) limbs) (fun cs' bvs => exists bs, Forall2 (wcar cs') (concat bvs) (map (kbit F) bs) /\ bval bs = zeval (2 ^ 64)%Z (rev ds) /\ length bs = (64 * length ds)%nat)).
  { clear a WA CA RA W cs n. induction limbs as [|l limbs IH]; intros ds cs W C D; cbn [for_each].
    - apply zcars_nil in C as ->. apply runs_ret; [exact W|]. exists []. split; [constructor|]. split; reflexivity.
    - apply zcars_cons in C as (d & ds' & -> & C1 & C2). inversion D as [|? ? D1 D2]; subst.
      eapply runs_bind; [apply (run_to_bits cs l 64 (of d) W C1); lia|]. intros ws cs1 W1 U1 (bs & HB & LB & VB). cbv beta in *. apply (cars_up F _ _ _ _ U1) in C2.
      eapply runs_bind; [apply (IH ds' cs1 W1 C2 D2)|]. intros bvs cs2 W2 U2 (bs2 & HB2 & VB2 & LB2). cbv beta in *. ups U2.
      apply runs_ret; [exact W2|]. exists (bs ++ bs2). split; [|split].
      + cbn [concat]. rewrite map_app. apply Forall2_app; assumption.
      + rewrite bval_app, VB, VB2, LB2. cbn [rev]. rewrite zeval_snoc, rev_length. rewrite val_of by (pose proof p_range; assert (2 ^ 64 < 2 ^ 253)%Z by reflexivity; lia).
        change (2 ^ Z.of_nat 64)%Z with (2 ^ 64)%Z. rewrite Z.mod_small by lia. rewrite <- Z.pow_mul_r by lia. replace (Z.of_nat (64 * length ds')) with (64 * Z.of_nat (length ds'))%Z by lia. ring.
      + rewrite app_length, LB, LB2. cbn [length]. lia. }
  eapply runs_bind; [apply (H (rev (bn_limbs a)) (rev (digits 64 n 4)) cs W)|].
  - unfold zcars in *. rewrite map_rev. clear - CA. induction CA as [|x y l l' H HL IH]; [constructor|]. cbn [rev]. apply Forall2_app; [exact IH|constructor; [exact H|constructor]].
  - apply Forall_rev. apply (digits_range 64).
  - intros bvs cs1 W1 U1 (bs & HB & VB & LB). apply runs_ret; [exact W1|]. exists bs. split; [exact HB|]. split; [rewrite VB, rev_involutive; apply digits4, RA|]. rewrite LB, rev_length, digits_len. reflexivity.
Qed.
Theorem run_from_field cs f v : wf_cs cs -> carries cs f v -> runs cs (bn_from_field F f 64 4) (fun cs' a => number cs' a (val v)).
Proof.
  intros W HF. unfold bn_from_field. eapply run_value; [exact HF|]. pose proof (cf_range _ _ _ _ _ _ _ CF v) as RV. pose proof p_range as PR.
  assert (P : (p <= 2 ^ 256)%Z) by (assert (2 ^ 254 < 2 ^ 256)%Z by reflexivity; lia).
  eapply runs_bind; [apply (run_number cs (val v) W); lia|]. intros a cs1 W1 U1 HA. ups U1.
  eapply runs_bind; [apply (run_decompose cs1 a _ W1 HA)|]. intros ws cs2 W2 U2 (bs & HB & VB & _). ups U2. apply (number_up _ _ _ _ U2) in HA.
  eapply runs_bind; [apply (run_enforce_bits cs2 f ws bs (val v) W2); [|exact HB|exact VB|exact RV]|].
  - eapply car_eq; [exact HF|]. symmetry. apply of_val.
  - intros u cs3 W3 U3 _. apply runs_ret; [exact W3|]. apply (number_up _ _ _ _ U3 HA).
Qed.
Theorem run_bn_select cs (a b : bignat F) u v c e : wf_cs cs -> number cs a u -> number cs b v -> wcar cs c (kbit F e) ->
  runs cs (bn_conditional_select F a b c) (fun cs' (r : bignat F) => number cs' r (if e then u else v)).
Proof.
  intros W (CA & RA & NA & XA & WA & LA) (CB & RB & _) HC. unfold bn_conditional_select.
  apply run_guard; [rewrite (zcars_len _ _ _ CA), (zcars_len _ _ _ CB), !digits_len; reflexivity|].
  eapply runs_bind; [apply (run_for F (fun '(x, y) => fa_conditional_select F x y c) (fun cs' '(x, y) z => exists p q, carries cs' x p /\ carries cs' y q /\ carries cs' z (if e then p else q)))|].
  - intros cs1 cs2 [x y] z U (p0 & q & A & B & C). exists p0, q. ups U. auto.
  - exact W.
  - intros [x y] cs' I W' U. assert (IA := in_combine_l _ _ _ _ I). assert (IB := in_combine_r _ _ _ _ I).
    assert (EX : forall l ds z, zcars cs l ds -> In z l -> exists w, carries cs z w).
    { intros l ds z C IZ. unfold zcars in C. revert IZ. induction C as [|? ? ? ? H C' IH]; intros IZ; [destruct IZ|]. destruct IZ as [<-|IZ]; [eexists; exact H|apply IH, IZ]. }
    destruct (EX _ _ _ CA IA) as [p0 P0]. destruct (EX _ _ _ CB IB) as [q Q0]. ups U.
    eapply runs_weaken; [apply (run_select F cs' x y c p0 q e W' P0 Q0 HC)|]. intros cs2 z W2 U2 HZ. exists p0, q. ups U2. auto.
  - intros ls cs1 W1 U1 H1. apply runs_ret; [exact W1|]. unfold number. cbn [bn_limbs bn_min_bits bn_max_word bn_width bn_n].
    split; [|split; [destruct e; assumption|auto]]. apply (cars_up F _ _ _ _ U1) in CA. apply (cars_up F _ _ _ _ U1) in CB.
    replace (digits 64 (if e then u else v) 4) with (if e then digits 64 u 4 else digits 64 v 4) by (destruct e; reflexivity).
    assert (LL : length (digits 64 u 4) = length (digits 64 v 4)) by (rewrite !digits_len; reflexivity).
    revert CA CB LL H1. generalize (digits 64 u 4), (digits 64 v 4), (bn_limbs a), (bn_limbs b). clear. intros xs ys la lb. revert xs ys lb ls.
    induction la as [|x la IH]; intros xs ys lb ls CA CB LL H1.
    + apply zcars_nil in CA as ->. destruct ys; [|discriminate]. inversion H1; subst. destruct e; constructor.
    + apply zcars_cons in CA as (xv & xs' & -> & C1 & C2). destruct ys as [|yv ys]; [discriminate|]. destruct lb as [|y lb]; [inversion CB|]. apply zcars_cons in CB as (yv' & ys' & EY & D1 & D2). injection EY as <- <-.
      cbn [combine] in H1. inversion H1 as [|? z ? ls' HZ HL]; subst. cbv beta iota in HZ. destruct HZ as (p0 & q & P0 & Q0 & Z0). specialize (IH xs' ys lb ls' C2 D2 ltac:(cbn in LL; lia) HL).
      assert (E1 : p0 = of xv) by (destruct C1 as [_ <-], P0 as [_ <-]; reflexivity). assert (E2 : q = of yv) by (destruct D1 as [_ <-], Q0 as [_ <-]; reflexivity). subst p0 q.
      destruct e; (unfold zcars in *; cbn [map]; constructor; [exact Z0|exact IH]).
Qed.
Lemma run_bn_enforce_eq cs (a b : bignat F) u : wf_cs cs -> number cs a u -> number cs b u -> runs cs (bn_enforce_eq F a b) (fun _ _ => True).
Proof.
  intros W (CA & _) (CB & _). unfold bn_enforce_eq. apply run_guard; [rewrite (zcars_len _ _ _ CA), (zcars_len _ _ _ CB); apply Nat.eqb_refl|].
  eapply runs_bind; [apply (run_for F (fun '(x, y) => fa_enforce_eq F x y) (fun _ _ _ => True)); [auto|exact W|]|].
  - intros [x y] cs' I W' U. assert (H : exists w, carries cs x w /\ carries cs y w).
    { revert CA CB I. generalize (digits 64 u 4), (bn_limbs a), (bn_limbs b). clear. intros ds la lb CA. revert lb. unfold zcars in *. induction CA as [|x' w la' ws HX CA IH]; intros lb CB I; [destruct I|].
      inversion CB as [|y' ? lb' ? HY CB']; subst. cbn [combine] in I. destruct I as [E|I]; [injection E as <- <-; exists w; auto|apply (IH _ CB' I)]. }
    destruct H as (w & HX & HY). ups U. apply (run_enforce_eq F cs' x y w W' HX HY).
  - intros l cs1 W1 U1 _. apply runs_ret; auto.
Qed.
End Run.
