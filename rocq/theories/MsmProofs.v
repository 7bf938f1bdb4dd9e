(** The bucket method computes the sum of the scalar multiples. *)
From Coq Require Import ZArith List Bool Lia.
From Verif Require Import LimbModel FieldModel FieldSpec ClaimsField Algebra CurveSpec CurveGroup WeierModel WeierProofs GroupLib CurveAb MsmModel.
Import ListNotations.
Local Open Scope Z_scope.

(** ** Digits *)
Lemma le_value_bound bs : Forall is_byte bs -> 0 <= le_value bs < 256 ^ Z.of_nat (length bs).
Proof.
  induction 1 as [|x bs Hx H IH]; [cbn; lia|]. cbn [le_value fold_right length]. fold (le_value bs).
  rewrite Nat2Z.inj_succ, Z.pow_succ_r by lia. unfold is_byte in Hx. nia.
Qed.
Lemma le_value_split n bs : Forall is_byte bs ->
  le_value (firstn n bs) = le_value bs mod 256 ^ Z.of_nat n /\ le_value (skipn n bs) = le_value bs / 256 ^ Z.of_nat n.
Proof.
  intros H. assert (E : le_value bs = le_value (firstn n bs) + 256 ^ Z.of_nat n * le_value (skipn n bs) /\
    0 <= le_value (firstn n bs) < 256 ^ Z.of_nat n).
  { split.
    - clear H. revert bs. induction n as [|n IH]; intros bs; [change (le_value (firstn 0 bs)) with 0; change (256 ^ Z.of_nat 0) with 1; cbn [skipn]; lia|].
      destruct bs as [|x bs]; [cbn [firstn skipn]; change (le_value []) with 0; lia|].
      cbn [firstn skipn]. change (le_value (x :: ?l)) with (x + 256 * le_value l). rewrite (IH bs) at 1.
      rewrite Nat2Z.inj_succ, Z.pow_succ_r by lia. ring.
    - pose proof (le_value_bound (firstn n bs) ltac:(apply Forall_forall; intros x Hx; rewrite Forall_forall in H; apply H;
        rewrite <- (firstn_skipn n bs); apply in_or_app; left; exact Hx)) as Bd.
      split; [lia|]. eapply Z.lt_le_trans; [apply Bd|]. apply Z.pow_le_mono_r; [lia|]. rewrite firstn_length. lia. }
  destruct E as [E Bd]. rewrite E. rewrite (Z.mul_comm (256 ^ _)). split.
  - rewrite Z_mod_plus_full, Z.mod_small by exact Bd. reflexivity.
  - rewrite Z_div_plus, Z.div_small by lia. lia.
Qed.
Lemma Forall_skipn {A} (Q : A -> Prop) n l : Forall Q l -> Forall Q (skipn n l).
Proof. intros H. rewrite <- (firstn_skipn n l) in H. apply Forall_app in H. apply H. Qed.
Lemma get_at_spec seg c bs : 0 <= seg -> 0 < c <= 57 -> length bs = 32%nat -> Forall is_byte bs ->
  get_at seg c bs = (le_value bs / 2 ^ (seg * c)) mod 2 ^ c.
Proof.
  intros Hs Hc L H. unfold get_at. pose proof (le_value_bound bs H) as Bd. rewrite L in Bd.
  assert (N : 0 <= seg * c) by nia. set (n := seg * c) in *.
  pose proof (Z.div_mod n 8 ltac:(lia)) as D. pose proof (Z.mod_pos_bound n 8 ltac:(lia)).
  assert (N8 : 0 <= n / 8) by (apply Z.div_pos; lia).
  destruct (Z.leb_spec 32 (n / 8)) as [G|G].
  - rewrite Z.div_small, Z.mod_0_l; [reflexivity|apply Z.pow_nonzero; lia|]. split; [lia|]. eapply Z.lt_le_trans; [apply Bd|].
    change (256 ^ Z.of_nat 32) with (2 ^ 256). apply Z.pow_le_mono_r; lia.
  - pose proof (proj2 (le_value_split (Z.to_nat (n / 8)) bs H)) as E1.
    pose proof (proj1 (le_value_split 8 (skipn (Z.to_nat (n / 8)) bs) (Forall_skipn _ _ _ H))) as E2.
    rewrite E2, E1, Z2Nat.id by lia. set (v := le_value bs) in *.
    change (256 ^ Z.of_nat 8) with (2 ^ 64). replace (256 ^ (n / 8)) with (2 ^ (8 * (n / 8))) by (rewrite Z.pow_mul_r by lia; reflexivity).
    replace (n - n / 8 * 8) with (n mod 8) by lia. rewrite Z.shiftr_div_pow2 by lia.
    set (s := n mod 8) in *. set (t := 8 * (n / 8)) in *. rewrite D. rewrite Z.pow_add_r by lia.
    rewrite <- Z.div_div by (try apply Z.pow_nonzero; lia). generalize (v / 2 ^ t). intros w.
    assert (E : 2 ^ 64 = 2 ^ s * (2 ^ c * 2 ^ (64 - s - c))) by (rewrite <- !Z.pow_add_r by lia; f_equal; lia).
    rewrite E. rewrite Z.rem_mul_r by (try apply Z.pow_nonzero; try apply Z.mul_pos_pos; try apply Z.pow_pos_nonneg; lia).
    rewrite (Z.mul_comm (2 ^ s)), Z_div_plus by (apply Z.lt_gt, Z.pow_pos_nonneg; lia).
    rewrite (Z.div_small (w mod 2 ^ s)) by (apply Z.mod_pos_bound, Z.pow_pos_nonneg; lia). rewrite Z.add_0_l.
    rewrite Z.rem_mul_r by (try apply Z.pow_nonzero; try apply Z.pow_pos_nonneg; lia).
    rewrite (Z.mul_comm (2 ^ c)), Z_mod_plus_full. apply Z.mod_mod, Z.pow_nonzero; lia.
Qed.
Lemma window_bound len : 0 <= len < 2 ^ 64 -> 1 <= msm_window len <= 46.
Proof.
  intros H. unfold msm_window. destruct (Z.ltb_spec len 4); [lia|]. destruct (Z.ltb_spec len 32); [lia|].
  assert (1 <= Z.log2 len) by (apply Z.log2_le_pow2; lia).
  assert (Z.log2 len < 64) by (apply Z.log2_lt_pow2; lia).
  split.
  - assert (0 <= (Z.log2 len + 1) * 69 / 100) by (apply Z.div_pos; lia). lia.
  - assert ((Z.log2 len + 1) * 69 / 100 <= 4416 / 100) by (apply Z.div_le_mono; lia). change (4416 / 100) with 44 in *. lia.
Qed.
(** The base-[2^c] digits recompose. *)
Fixpoint digit_sum (c k : Z) (n : nat) : Z :=
  match n with O => 0 | S n => digit_sum c k n + 2 ^ (c * Z.of_nat n) * ((k / 2 ^ (Z.of_nat n * c)) mod 2 ^ c) end.
Lemma digit_sum_spec c k n : 0 <= c -> 0 <= k -> digit_sum c k n = k mod 2 ^ (c * Z.of_nat n).
Proof.
  intros Hc Hk. induction n as [|n IH]; cbn [digit_sum]; [rewrite Z.mul_0_r, Z.pow_0_r, Z.mod_1_r; reflexivity|].
  rewrite IH, Nat2Z.inj_succ, Z.mul_succ_r, Z.pow_add_r by lia. rewrite Z.rem_mul_r by (try apply Z.pow_nonzero; try apply Z.pow_pos_nonneg; lia).
  rewrite (Z.mul_comm (Z.of_nat n) c). reflexivity.
Qed.

Section Msm.
Variables (K : Fld) (b b3 : K).
Hypothesis Hb3 : b3 = kadd (kadd b b) b.
Hypothesis two : kadd k1 k1 <> (k0 : K).
Hypothesis three : kadd (kadd k1 k1) k1 <> (k0 : K).
Hypothesis bnz : b <> k0.
Variable P : fparams.
Notation G := (cgrp K b two three bnz).
Notation reps := (reps K b two three bnz).
Notation areps := (areps K b two three bnz).
Local Infix "+!" := (@aadd G) (at level 50, left associativity).

Definition breps (x : bucket K) (X : G) : Prop :=
  match x with BNone _ => X = a0 | BAffine _ a => areps a X | BProjective _ p => reps p X end.
Lemma breps_assign x X a A : breps x X -> areps a A -> breps (bucket_add_assign K b3 x a) (X +! A).
Proof.
  destruct x; cbn [breps bucket_add_assign]; intros HX HA.
  - rewrite HX, aid. exact HA.
  - apply reps_aff_add; assumption.
  - unfold proj_add_aff. rewrite acomm. apply reps_mixed; assumption.
Qed.
Lemma breps_add x X s S : breps x X -> reps s S -> reps (bucket_add K b3 x s) (S +! X).
Proof.
  destruct x; cbn [breps bucket_add]; intros HX HS.
  - rewrite HX, aid_r. exact HS.
  - unfold proj_add_aff. rewrite acomm. apply reps_mixed; assumption.
  - apply reps_add; assumption.
Qed.
(** The weight of a list of buckets: bucket [j] counts [j + 1] times. *)
Fixpoint weight (l : list G) : G := match l with [] => a0 | X :: l => (X +! asum l) +! weight l end.
Fixpoint put (l : list G) (i : nat) (A : G) : list G :=
  match l, i with [], _ => [] | X :: l, O => (X +! A) :: l | X :: l, S i => X :: put l i A end.
Lemma put_sum l : forall i A, (i < length l)%nat -> asum (put l i A) = asum l +! A.
Proof.
  induction l as [|X l IH]; intros i A L; [cbn in L; lia|]. destruct i as [|i]; cbn [put asum fold_right].
  - rewrite <- !aassoc. f_equal. apply acomm.
  - cbn [length] in L. change (fold_right aadd a0 ?l) with (asum l). rewrite IH by lia. apply aassoc.
Qed.
Lemma put_weight l : forall i A, (i < length l)%nat -> weight (put l i A) = weight l +! zmul (Z.of_nat i + 1) A.
Proof.
  induction l as [|X l IH]; intros i A L; [cbn in L; lia|]. destruct i as [|i]; cbn [put weight].
  - change (Z.of_nat 0 + 1) with 1. rewrite zmul_1. rewrite <- !aassoc. f_equal. rewrite (acomm G A). rewrite <- !aassoc. reflexivity.
  - cbn [length] in L. rewrite put_sum, IH by lia. rewrite Nat2Z.inj_succ, <- Z.add_1_r, (zmul_add G (_ + 1) 1), zmul_1.
    rewrite (acomm G (zmul _ A) A). rewrite (aassoc G X (asum l) A), <- (aassoc G (X +! asum l) A). rewrite <- (aassoc G (X +! asum l) (weight l)). f_equal.
    rewrite !aassoc. f_equal. apply acomm.
Qed.
Lemma update_ok l L : Forall2 breps l L -> forall i a A, (i < length L)%nat -> areps a A ->
  exists l', bucket_update K b3 l i a = Some l' /\ Forall2 breps l' (put L i A).
Proof.
  induction 1 as [|x X l L HX HL IH]; intros i a A Hi HA; [cbn in Hi; lia|]. destruct i as [|i]; cbn [bucket_update put].
  - eexists. split; [reflexivity|]. constructor; [apply breps_assign; assumption|assumption].
  - cbn [length] in Hi. destruct (IH i a A) as (l' & E & H'); [lia|assumption|]. rewrite E. eexists; split; [reflexivity|]. constructor; assumption.
Qed.
Lemma put_length l : forall i A, length (put l i A) = length l.
Proof. induction l as [|X l IH]; intros [|i] A; cbn; try reflexivity. rewrite IH. reflexivity. Qed.

(** An item: limbs and a base standing for the integer and the group element. *)
Definition item_ok (it : l4 * aff K) (v : Z * G) : Prop :=
  0 <= fst v < 2 ^ 256 /\ length (to_bytes P (fst it)) = 32%nat /\ Forall is_byte (to_bytes P (fst it)) /\
  le_value (to_bytes P (fst it)) = fst v /\ areps (snd it) (snd v).
Definition seg_of (c i k : Z) : Z := (k / 2 ^ (i * c)) mod 2 ^ c.
Lemma fill_ok c i items vs : 0 < c <= 57 -> 0 <= i -> Forall2 item_ok items vs -> forall l L, Forall2 breps l L ->
  length L = Z.to_nat (2 ^ c - 1) ->
  exists l' L', fill K b3 P i c items l = Some l' /\ Forall2 breps l' L' /\
    weight L' = weight L +! asum (map (fun v => zmul (seg_of c i (fst v)) (snd v)) vs).
Proof.
  intros Hc Hi. induction 1 as [|[co ba] [k A] items vs HI HIs IH]; intros l L HL Ln; cbn [fill map asum fold_right].
  - exists l, L. rewrite aid_r. auto.
  - destruct HI as (Hk & L32 & By & V & HA). cbn [fst snd] in *.
    rewrite (get_at_spec i c _ Hi Hc L32 By), V. fold (seg_of c i k).
    assert (S : 0 <= seg_of c i k < 2 ^ c) by (apply Z.mod_pos_bound, Z.pow_pos_nonneg; lia).
    destruct (Z.eqb_spec (seg_of c i k) 0) as [E0|N0].
    + rewrite E0, zmul_0, aid. apply IH; assumption.
    + assert (Hj : (Z.to_nat (seg_of c i k - 1) < length L)%nat) by (rewrite Ln; apply Z2Nat.inj_lt; lia).
      destruct (update_ok l L HL _ ba A Hj HA) as (l1 & E1 & H1). rewrite E1.
      destruct (IH l1 (put L (Z.to_nat (seg_of c i k - 1)) A) H1 ltac:(rewrite put_length; exact Ln)) as (l2 & L2 & E2 & H2 & W).
      exists l2, L2. split; [exact E2|]. split; [exact H2|]. rewrite W, put_weight by exact Hj. rewrite Z2Nat.id by lia.
      replace (seg_of c i k - 1 + 1) with (seg_of c i k) by lia. rewrite <- aassoc. reflexivity.
Qed.
Lemma by_parts_ok l L : Forall2 breps l L -> reps (by_parts K b3 l) (weight L).
Proof.
  intros H. unfold by_parts.
  pose proof (fold_left_rev_right (fun y x => by_parts_step K b3 x y) (rev l) (proj_identity K, proj_identity K)) as FR. rewrite rev_involutive in FR.
  change (fold_left (fun x y => by_parts_step K b3 x y)) with (fold_left (by_parts_step K b3)) in FR. rewrite <- FR. clear FR.
  set (f := fun y x => by_parts_step K b3 x y).
  assert (Q : reps (fst (fold_right f (proj_identity K, proj_identity K) l)) (asum L) /\ reps (snd (fold_right f (proj_identity K, proj_identity K) l)) (weight L)).
  { induction H as [|x X l L HX HL IH]; cbn [fold_right weight asum].
    - split; apply reps_identity.
    - destruct (fold_right f (proj_identity K, proj_identity K) l) as [s a]. cbn [fst snd] in IH. destruct IH as [IS IA]. unfold f, by_parts_step. cbn [fst snd].
      pose proof (breps_add x X s _ HX IS) as N. rewrite acomm in N.
      split; [exact N|]. rewrite acomm. apply reps_add; assumption. }
  apply Q.
Qed.
Lemma doubles_ok n : forall p X, reps p X -> reps (doubles K b3 n p) (zmul (2 ^ Z.of_nat n) X).
Proof.
  induction n as [|n IH]; intros p X H; cbn [doubles]; [rewrite Z.pow_0_r, zmul_1; exact H|].
  rewrite Nat2Z.inj_succ, Z.pow_succ_r, (Z.mul_comm 2 (2 ^ _)), zmul_mul by lia. apply IH.
  change 2 with (2 * 1). rewrite zmul_double, zmul_1. apply reps_double; assumption.
Qed.
Lemma none_repeat n : Forall2 breps (repeat (BNone K) n) (repeat (a0 : G) n).
Proof. induction n; cbn; constructor; [reflexivity|assumption]. Qed.
Lemma weight_repeat n : weight (repeat (a0 : G) n) = a0 /\ asum (repeat (a0 : G) n) = a0.
Proof. induction n as [|n [IH1 IH2]]; cbn [repeat weight]; [auto|]. change (asum (a0 :: ?l)) with ((a0 : G) +! asum l). rewrite IH1, IH2, !aid. auto. Qed.
Lemma segment_ok c items vs i : 0 < c <= 57 -> 0 <= i -> Forall2 item_ok items vs ->
  exists s, segment K b3 P c items i = Some s /\ reps s (asum (map (fun v => zmul (2 ^ (c * i) * seg_of c i (fst v)) (snd v)) vs)).
Proof.
  intros Hc Hi H. unfold segment.
  destruct (fill_ok c i items vs Hc Hi H _ _ (none_repeat (Z.to_nat (2 ^ c - 1))) ltac:(apply repeat_length)) as (l & L & E & HL & W).
  rewrite E. eexists. split; [reflexivity|]. rewrite (proj1 (weight_repeat _)), aid in W.
  pose proof (doubles_ok (Z.to_nat (c * i)) _ _ (by_parts_ok l L HL)) as D. rewrite W, Z2Nat.id in D by nia.
  rewrite <- asum_map_zmul in D. rewrite (map_ext _ (fun v => zmul (2 ^ (c * i)) (zmul (seg_of c i (fst v)) (snd v)))); [exact D|]. intros v. apply zmul_mul.
Qed.
Lemma segments_ok c items vs : 0 < c <= 57 -> Forall2 item_ok items vs -> forall n acc A, reps acc A ->
  exists r, msm_segments K b3 P c items acc (rev (seq 0 n)) = Some r /\
    reps r (A +! asum (map (fun v => zmul (digit_sum c (fst v) n) (snd v)) vs)).
Proof.
  intros Hc H. induction n as [|n IH]; intros acc A HA.
  - exists acc. split; [reflexivity|]. cbn [digit_sum].
    replace (asum _) with (a0 : G); [rewrite aid_r; exact HA|]. clear. induction vs as [|v vs IH]; [reflexivity|].
    cbn [map]. rewrite (zmul_0 G (snd v)). change (asum (a0 :: ?l)) with ((a0 : G) +! asum l). rewrite aid. exact IH.
  - rewrite seq_S, rev_app_distr. cbn [rev app msm_segments plus].
    destruct (segment_ok c items vs (Z.of_nat n) Hc ltac:(lia) H) as (s & E & Hs). rewrite E.
    destruct (IH (proj_add K b3 acc s) _ (reps_add K b b3 Hb3 two three bnz _ _ _ _ HA Hs)) as (r & Er & Hr).
    exists r. split; [exact Er|]. rewrite <- aassoc, <- asum_map_add in Hr. 
    rewrite (map_ext _ (fun v => zmul (2 ^ (c * Z.of_nat n) * seg_of c (Z.of_nat n) (fst v)) (snd v) +! zmul (digit_sum c (fst v) n) (snd v))); [exact Hr|].
    intros v. cbn [digit_sum]. rewrite Z.add_comm, zmul_add. reflexivity.
Qed.
Lemma items_ok m coeffs ks bases As : bn_field P m -> Forall2 (represents m) coeffs ks -> Forall2 areps bases As ->
  Forall2 item_ok (combine coeffs bases) (combine ks As).
Proof.
  intros F H. revert bases As. induction H as [|co k coeffs ks HC HCs IH]; intros bases As HB; [constructor|].
  destruct HB as [|ba A bases As HA HAs]; cbn [combine]; constructor; [|apply IH; assumption].
  destruct (C05_to_bytes P m co k F HC) as (L & By & V). repeat split; cbn [fst snd]; try assumption.
  - destruct HC as (_ & R & _). lia.
  - destruct HC as (_ & R & _). destruct F as [[_ ->]|[_ ->]]; (eapply Z.lt_trans; [apply R|vm_compute; reflexivity]).
Qed.
Lemma msm_ok m coeffs ks bases As : bn_field P m -> Forall2 (represents m) coeffs ks -> Forall2 areps bases As ->
  Z.of_nat (length bases) < 2 ^ 64 ->
  exists r, msm K b3 P bases coeffs = Some r /\ reps r (asum (map (fun v => zmul (fst v) (snd v)) (combine ks As))).
Proof.
  intros F HC HB L. pose proof (items_ok m _ _ _ _ F HC HB) as HI.
  pose proof (window_bound (Z.of_nat (length bases)) ltac:(lia)) as Hc. unfold msm.
  set (c := msm_window (Z.of_nat (length bases))) in *.
  destruct (segments_ok c _ _ ltac:(lia) HI (Z.to_nat (256 / c + 1)) (proj_identity K) a0 (reps_identity K b two three bnz)) as (r & E & Hr).
  exists r. split; [exact E|]. rewrite aid in Hr.
  assert (EQ : map (fun v => zmul (digit_sum c (fst v) (Z.to_nat (256 / c + 1))) (snd v)) (combine ks As) = map (fun v => zmul (fst v) (snd v)) (combine ks As)).
  { apply map_ext_in. intros [k A] Hin.
    assert (Hk : 0 <= k < 2 ^ 256). { clear - HI Hin. induction HI as [|x y l l' Hxy HI IH]; [contradiction|]. destruct Hin as [E|Hin]; [rewrite E in Hxy; exact (proj1 Hxy)|apply IH, Hin]. }
    cbn [fst snd]. f_equal. rewrite digit_sum_spec by lia. apply Z.mod_small. split; [lia|]. eapply Z.lt_le_trans; [apply Hk|].
    apply Z.pow_le_mono_r; [lia|]. rewrite Z2Nat.id by (pose proof (Z.div_pos 256 c); lia).
    pose proof (Z.div_mod 256 c ltac:(lia)). pose proof (Z.mod_pos_bound 256 c ltac:(lia)). lia. }
  rewrite EQ in Hr. exact Hr.
Qed.
End Msm.
