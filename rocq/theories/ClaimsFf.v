(** C51: the fields as instances of the traits of [ff]. *)
From Coq Require Import ZArith List Bool Lia Znumtheory Zpow_facts.
From Verif Require Import LimbModel FieldModel FieldSpec Primes LimbProofs MontProofs FieldProofs DigitProofs FieldMore ClaimsField FfModel FfSpec.
Import ListNotations.
Local Open Scope Z_scope.

Lemma repr_is_bytes P a : ff_to_repr P a = to_bytes P a.
Proof. unfold ff_to_repr, to_bytes, limbs. cbn [flat_map]. rewrite app_nil_r. reflexivity. Qed.
Lemma ct_eq_eqb a b : ct_eq a b = eqb4 a b. Proof. reflexivity. Qed.

(** [to_repr] is the 32 little-endian bytes of the residue. *)
Theorem C51_to_repr P m a x : bn_field P m -> represents m a x ->
  length (ff_to_repr P a) = 32%nat /\ Forall is_byte (ff_to_repr P a) /\ le_value (ff_to_repr P a) = x.
Proof. intros F H. rewrite repr_is_bytes. exact (C05_to_bytes P m a x F H). Qed.
(** [from_repr] accepts every string and takes its value modulo [m]. *)
Theorem C51_from_repr P m bs : bn_field P m -> length bs = 32%nat -> Forall is_byte bs ->
  exists a, ff_from_repr P bs = Some a /\ represents m a (le_value bs mod m).
Proof.
  intros F L H. rewrite Forall_forall in H. eexists. split; [reflexivity|].
  set (l := L4 (slice8 bs 0) (slice8 bs 8) (slice8 bs 16) (slice8 bs 24)).
  assert (W : wf l) by (unfold wf, l; cbn [w0 w1 w2 w3]; auto using slice8_word).
  change (represents m (fto_mont_form P l) (le_value bs mod m)). rewrite lev_le, <- (slices4 bs L). fold l. rewrite <- limb_value_val.
  apply C04_to_mont_form; [exact F|]. apply limbs_ok_wf, W.
Qed.
Theorem C51_round_trip P m a : bn_field P m -> reduced m a -> ff_from_repr P (ff_to_repr P a) = Some a.
Proof.
  intros F H. destruct (proj1 (proj1 (C01_representation P m F) a) H) as [x R]. destruct (C51_to_repr P m a x F R) as (L & B & E).
  destruct (C51_from_repr P m _ F L B) as (a' & E' & R'). rewrite E', E in *. rewrite Z.mod_small in R' by (destruct R as (_ & R & _); exact R).
  apply (f_equal Some). exact (proj2 (proj2 (proj2 (C01_representation P m F))) _ _ _ R' R).
Qed.
(** The other way round exactly on the canonical strings: a user cannot rely on [from_repr] to reject. *)
Theorem C51_from_repr_canonical P m bs : bn_field P m -> length bs = 32%nat -> Forall is_byte bs ->
  (le_value bs < m <-> exists a, ff_from_repr P bs = Some a /\ ff_to_repr P a = bs).
Proof.
  intros F L H. destruct (C51_from_repr P m bs F L H) as (a & E & R). destruct (C51_to_repr P m a _ F R) as (L' & H' & V). split.
  - intros Hl. exists a. split; [exact E|]. rewrite !lev_le in *. rewrite Z.mod_small in V by (split; [apply lev_range; [lia|apply Forall_forall, H]|exact Hl]).
    rewrite Forall_forall in H, H'. apply (lev_inj 256); auto; lia.
  - intros (a' & E' & V'). rewrite E in E'. injection E' as <-. rewrite V' in V. pose proof (bn_gt P m F). pose proof (Z.mod_pos_bound (le_value bs) m). lia.
Qed.
Theorem C51_from_repr_rejects_refuted P m : bn_field P m ->
  exists bs bs', length bs = 32%nat /\ length bs' = 32%nat /\ Forall is_byte bs /\ Forall is_byte bs' /\ bs <> bs' /\ m <= le_value bs' /\
    ff_from_repr P bs = ff_from_repr P bs' /\ ff_from_repr P bs' <> None /\ from_bytes P bs' = None.
Proof.
  intros F. exists (repeat 0 32), (flat_map le_bytes (limbs (fmod P))).
  assert (W : wf (fmod P)) by (exact (p_wf P m (bn_ok P m F))). destruct (bytes_of_limbs (fmod P) W) as (V & L & H). rewrite (m_val P m (bn_ok P m F)) in V.
  pose proof (bn_gt P m F) as G. assert (HB : Forall is_byte (repeat 0 32)) by (apply Forall_forall; intros x Hx; apply repeat_spec in Hx; subst; unfold is_byte; lia).
  assert (HB' : Forall is_byte (flat_map le_bytes (limbs (fmod P)))) by (apply Forall_forall, H).
  destruct (C51_from_repr P m _ F (repeat_length 0 32) HB) as (a & E & R). destruct (C51_from_repr P m _ F L HB') as (b & E' & R').
  split; [apply repeat_length|]. split; [exact L|]. split; [exact HB|]. split; [exact HB'|]. split.
  { intros C. rewrite <- C in V. change (lev 256 (repeat 0 32)) with 0 in V. lia. }
  split; [rewrite lev_le, V; lia|]. split; [|split].
  - rewrite E, E'. apply (f_equal Some). change (le_value (repeat 0 32)) with 0 in R. rewrite lev_le, V, Z.mod_same in R' by lia.
    exact (proj2 (proj2 (proj2 (C01_representation P m F))) _ _ _ R R').
  - rewrite E'. discriminate.
  - apply (C05_from_bytes P m _ F L HB'). rewrite lev_le, V. lia.
Qed.
(** The parity is that of the residue, and the bits are its bits. *)
Theorem C51_is_odd P m a x : bn_field P m -> represents m a x -> ff_is_odd P a = Z.odd x.
Proof.
  intros F H. destruct (C51_to_repr P m a x F H) as (L & B & V). unfold ff_is_odd. change 1 with (Z.ones 1) at 1. rewrite Z.land_ones by lia. change (2 ^ 1) with 2.
  destruct (ff_to_repr P a) as [|d r]; [discriminate L|]. cbn [nth]. cbn [le_value fold_right] in V. rewrite <- V.
  replace (d + 256 * fold_right (fun d acc => d + 256 * acc) 0 r) with (d + 2 * (128 * fold_right (fun d acc => d + 256 * acc) 0 r)) by ring.
  rewrite Z.odd_add_mul_2. rewrite Zmod_odd. destruct (Z.odd d); reflexivity.
Qed.
Lemma word_bits_digits w : map (fun i => (w / 2 ^ Z.of_nat i) mod 2) (seq 0 64) = digits 2 64 w.
Proof. reflexivity. Qed.
Lemma field_bits_spec l : wf l -> length (field_bits l) = 256%nat /\ Forall is_bit (field_bits l) /\ le_bits_value (field_bits l) = val l.
Proof.
  intros W. split; [reflexivity|]. split.
  - unfold field_bits. apply Forall_flat_map. apply Forall_forall. intros w _. rewrite word_bits_digits. apply Forall_forall. intros d Hd. apply digits_range in Hd; [|lia]. unfold is_bit. lia.
  - change (le_bits_value (field_bits l)) with (lev 2 (field_bits l)). unfold field_bits. rewrite (flat_map_lev 2 64); [apply limbs_lev|].
    intros w Hw. split; [reflexivity|]. rewrite word_bits_digits, digits_lev by lia. apply Z.mod_small. pose proof (limbs_word l w W Hw) as A. unfold word in A. rewrite Bval in A. exact A.
Qed.
Theorem C51_to_le_bits P m a x : bn_field P m -> represents m a x ->
  length (ff_to_le_bits P a) = 256%nat /\ Forall is_bit (ff_to_le_bits P a) /\ le_bits_value (ff_to_le_bits P a) = x.
Proof.
  intros F H. destruct (C51_to_repr P m a x F H) as (L & B & V). rewrite lev_le, <- (slices4 _ L) in V. rewrite <- V. unfold ff_to_le_bits. apply field_bits_spec.
  rewrite Forall_forall in B. unfold wf; cbn [w0 w1 w2 w3]. auto using slice8_word.
Qed.
Theorem C51_char_le_bits P m : bn_field P m ->
  length (ff_char_le_bits P) = 256%nat /\ Forall is_bit (ff_char_le_bits P) /\ le_bits_value (ff_char_le_bits P) = m.
Proof. intros F. rewrite <- (m_val P m (bn_ok P m F)). apply field_bits_spec. exact (p_wf P m (bn_ok P m F)). Qed.
(** Selection and comparison. *)
Theorem C51_select_and_eq a b : conditional_select a b false = a /\ conditional_select a b true = b /\ (ct_eq a b = true <-> a = b).
Proof. destruct a, b. split; [reflexivity|]. split; [reflexivity|]. rewrite ct_eq_eqb. apply eqb4_eq. Qed.
(** The inverse of a non-zero element agrees with the field's own, and is the inverse when that one is exact. *)
Theorem C51_invert P m a x : bn_field P m -> represents m a x -> x <> 0 ->
  exists i, finvert P a = Some i /\ ff_invert P a = if feqb i fzero then None else Some i.
Proof.
  intros F H N. destruct (finvert P a) as [i|] eqn:E.
  - exists i. split; [reflexivity|]. unfold ff_invert. rewrite E, ct_eq_eqb. unfold feqb. destruct (eqb4 i fzero); reflexivity.
  - apply (C03_invert_none P m a x F H) in E. contradiction.
Qed.
Theorem C51_invert_when_exact P m a x : bn_field P m -> represents m a x -> x <> 0 -> carry_free m x (m - 2) ->
  exists i, ff_invert P a = Some i /\ fmul P a i = fone P.
Proof.
  intros F H N C. destruct (C03_invert_when_exact P m a x F H N C) as (i & y & E & R & XY & M & _). exists i. split; [|exact M].
  unfold ff_invert. rewrite E, ct_eq_eqb. destruct (eqb4 i fzero) eqn:Z; [|reflexivity]. exfalso. apply eqb4_eq in Z. subst i.
  assert (y = 0) by (exact (proj1 (proj2 (C01_representation P m F)) _ _ _ R (C01_zero P m F))). subst y. rewrite Z.mul_0_r in XY.
  pose proof (bn_gt P m F). rewrite Z.mod_0_l in XY by lia. discriminate XY.
Qed.
(** Of zero it should be none; it is one. *)
Theorem C51_invert_zero_refuted P m : bn_field P m -> ff_invert P fzero = Some (fone P).
Proof.
  intros F. unfold ff_invert. rewrite (proj2 (C03_invert_none P m fzero 0 F (C01_zero P m F)) eq_refl). rewrite ct_eq_eqb.
  destruct (eqb4 (fdefault P) fzero) eqn:E; [|reflexivity]. exfalso. apply eqb4_eq in E. pose proof (C02_one P m F) as R1. change (fone P) with (fdefault P) in R1. rewrite E in R1.
  pose proof (proj1 (proj2 (C01_representation P m F)) _ _ _ R1 (C01_zero P m F)) as C. discriminate C.
Qed.

(** ** Constants *)
Lemma const_rep P m l : bn_field P m -> limbs_ok l -> limb_value l < m -> represents m (fto_mont_form P l) (limb_value l).
Proof.
  intros F W H. pose proof (C04_to_mont_form P m l F W) as R. rewrite Z.mod_small in R; [exact R|]. split; [|exact H].
  destruct W as (A & B & C & D). unfold limb_ok in *. unfold limb_value. lia.
Qed.
Ltac limbs := clear; apply limbs_ok_wf; unfold wf, word; rewrite Bval; cbn; lia.
Lemma fr_root_pow : powmod 7 ((R_MOD - 1) / 2 ^ 28) R_MOD = 0x03ddb9f5166d18b798865ea93dd31f743215cf6dd39329c8d34f1ed960c37c9c.
Proof.
  rewrite powmod_spec by (rewrite R_MOD_val; (reflexivity || discriminate)). assert (O : Z.odd R_MOD = true) by (rewrite R_MOD_val; reflexivity).
  assert (H : 0 < R_MOD) by (rewrite R_MOD_val; reflexivity). pose proof (fastpow_spec R_MOD H O 7 (Z.to_pos ((R_MOD - 1) / 2 ^ 28))) as E.
  rewrite Z2Pos.id in E by (rewrite R_MOD_val; reflexivity). rewrite <- E. apply Z.eqb_eq. vm_cast_no_check (eq_refl true).
Qed.
Lemma fr_root_half : powmod 0x03ddb9f5166d18b798865ea93dd31f743215cf6dd39329c8d34f1ed960c37c9c (2 ^ 27) R_MOD = R_MOD - 1.
Proof. vm_cast_no_check (eq_refl (R_MOD - 1)). Qed.
Lemma pow_steps m g t root s x : 0 < m -> 0 <= t -> 0 <= s -> g ^ t mod m = root -> root ^ s mod m = x -> g ^ (t * s) mod m = x.
Proof. intros M T S E <-. rewrite Z.pow_mul_r by assumption. rewrite Zpower_mod, E by assumption. reflexivity. Qed.
(** The constants of the scalar field are what [ff] asks for. *)
Theorem C51_fr_constants : good_consts R_MOD fr_ff ((R_MOD + 1) / 2) 7
  0x03ddb9f5166d18b798865ea93dd31f743215cf6dd39329c8d34f1ed960c37c9c 0x048127174daabc261bbe587180f34361b22625f59115aba70ed3e50a414e6dba
  0x09226b6e22c6f0ca64ec26aad4c86e715b5f898e5e963f25870e56bbe533e9a2.
Proof.
  assert (F : bn_field fr R_MOD) by (left; split; reflexivity).
  assert (M0 : 0 < R_MOD) by (rewrite R_MOD_val; reflexivity).
  assert (T0 : 0 <= (R_MOD - 1) / 2 ^ 28) by (rewrite R_MOD_val; vm_compute; discriminate).
  assert (T1 : 0 <= 2 ^ 27) by (vm_compute; discriminate). assert (T2 : 0 <= 2 ^ 28) by (vm_compute; discriminate).
  pose proof fr_root_pow as RP. rewrite (powmod_spec _ _ _ M0 T0) in RP.
  pose proof fr_root_half as RH. rewrite (powmod_spec _ _ _ M0 T1) in RH.
  set (root := 0x03ddb9f5166d18b798865ea93dd31f743215cf6dd39329c8d34f1ed960c37c9c) in *.
  constructor; cbn [c_two_inv c_generator c_root c_root_inv c_delta c_s c_num_bits c_capacity fr_ff].
  - split; [|split; [|split; [|split]]].
    + replace ((R_MOD + 1) / 2) with (limb_value (L4 0xa1f0fac9f8000001 0x9419f4243cdcb848 0xdc2822db40c0ac2e 0x183227397098d014)) by (rewrite R_MOD_val; vm_compute; reflexivity).
      apply (const_rep fr R_MOD (L4 0xa1f0fac9f8000001 0x9419f4243cdcb848 0xdc2822db40c0ac2e 0x183227397098d014)); [exact F|limbs|rewrite R_MOD_val; vm_compute; reflexivity].
    + apply (const_rep fr R_MOD (L4 7 0 0 0)); [exact F|limbs|rewrite R_MOD_val; vm_compute; reflexivity].
    + apply (const_rep fr R_MOD (L4 0xd34f1ed960c37c9c 0x3215cf6dd39329c8 0x98865ea93dd31f74 0x03ddb9f5166d18b7)); [exact F|limbs|rewrite R_MOD_val; vm_compute; reflexivity].
    + apply (const_rep fr R_MOD (L4 0x0ed3e50a414e6dba 0xb22625f59115aba7 0x1bbe587180f34361 0x048127174daabc26)); [exact F|limbs|rewrite R_MOD_val; vm_compute; reflexivity].
    + apply (const_rep fr R_MOD (L4 0x870e56bbe533e9a2 0x5b5f898e5e963f25 0x64ec26aad4c86e71 0x09226b6e22c6f0ca)); [exact F|limbs|rewrite R_MOD_val; vm_compute; reflexivity].
  - unfold bit_sizes. rewrite R_MOD_val. split; [|reflexivity]. split; [|reflexivity]. discriminate.
  - split; [discriminate|]. exists ((R_MOD - 1) / 2 ^ 28). rewrite R_MOD_val. split; vm_compute; reflexivity.
  - rewrite R_MOD_val. vm_compute. reflexivity.
  - replace ((R_MOD - 1) / 2) with ((R_MOD - 1) / 2 ^ 28 * 2 ^ 27) by (rewrite R_MOD_val; vm_compute; reflexivity).
    exact (pow_steps _ _ _ _ _ _ M0 T0 T1 RP RH).
  - symmetry. exact RP.
  - split; [|intros _; exact RH]. change (2 ^ fr_S) with (2 ^ 27 * 2). apply (pow_steps R_MOD root (2 ^ 27) (R_MOD - 1) 2 1 M0 T1); [discriminate|exact RH|]. rewrite R_MOD_val. vm_compute. reflexivity.
  - unfold root. rewrite R_MOD_val. vm_compute. reflexivity.
  - rewrite <- (powmod_spec _ _ _ M0 T2). rewrite R_MOD_val. vm_compute. reflexivity.
Qed.
(** Those of the base field are not: the two-adicity is 1, not 0; the root of unity is -1, whose [2^S]-th
    power is not one; and the limbs of the generator are not the Montgomery form of 3. *)
Theorem C51_fq_constants_refuted :
  ~ two_adicity Q_MOD (c_s fq_ff) /\ two_adicity Q_MOD 1 /\
  (represents Q_MOD (c_root fq_ff) (Q_MOD - 1) /\ (Q_MOD - 1) ^ (2 ^ c_s fq_ff) mod Q_MOD <> 1) /\
  (reduced Q_MOD (c_generator fq_ff) /\ ~ represents Q_MOD (c_generator fq_ff) 3) /\
  (forall gen delta, represents Q_MOD (c_generator fq_ff) gen -> represents Q_MOD (c_delta fq_ff) delta ->
     delta <> gen ^ (2 ^ c_s fq_ff) mod Q_MOD /\ delta <> gen ^ (2 ^ 1) mod Q_MOD) /\
  (forall two_inv gen root root_inv delta, ~ good_consts Q_MOD fq_ff two_inv gen root root_inv delta).
Proof.
  assert (F : bn_field fq Q_MOD) by (right; split; reflexivity).
  assert (N : ~ two_adicity Q_MOD (c_s fq_ff)).
  { intros [_ (t & O & E)]. change (2 ^ c_s fq_ff) with 1 in E. rewrite Z.mul_1_r in E. rewrite <- E, Q_MOD_val in O. discriminate O. }
  assert (R9 : represents Q_MOD (c_delta fq_ff) 9) by (apply (const_rep fq Q_MOD (L4 9 0 0 0)); [exact F|limbs|rewrite Q_MOD_val; vm_compute; reflexivity]).
  split; [exact N|]. split; [|split; [|split; [|split]]].
  - split; [discriminate|]. exists ((Q_MOD - 1) / 2). rewrite Q_MOD_val. split; vm_compute; reflexivity.
  - split.
    + replace (Q_MOD - 1) with (limb_value (L4 0x3c208c16d87cfd46 0x97816a916871ca8d 0xb85045b68181585d 0x30644e72e131a029)) by (rewrite Q_MOD_val; vm_compute; reflexivity).
      apply (const_rep fq Q_MOD (L4 0x3c208c16d87cfd46 0x97816a916871ca8d 0xb85045b68181585d 0x30644e72e131a029)); [exact F|limbs|rewrite Q_MOD_val; vm_compute; reflexivity].
    + change (2 ^ c_s fq_ff) with 1. rewrite Z.pow_1_r, Q_MOD_val. vm_compute. discriminate.
  - split; [split; [limbs|rewrite Q_MOD_val; vm_compute; reflexivity]|]. intros (_ & _ & E). rewrite Q_MOD_val in E. vm_compute in E. discriminate E.
  - intros gen delta RG RD. rewrite (proj1 (proj2 (C01_representation fq Q_MOD F)) _ _ _ RD R9). clear RD R9.
    destruct RG as (_ & B & E). change (limb_value (c_generator fq_ff)) with 3 in E.
    change (2 ^ c_s fq_ff) with 1. rewrite Z.pow_1_r. change (gen ^ 2 ^ 1) with (gen * (gen * 1)). rewrite Z.mul_1_r.
    split; intros C.
    + rewrite (Z.mod_small gen) in C by exact B. subst gen. rewrite Q_MOD_val in E. vm_compute in E. discriminate E.
    + assert (X : 9 mod Q_MOD = (9 * (2 ^ 256 * 2 ^ 256)) mod Q_MOD).
      { transitivity ((3 * 3) mod Q_MOD); [reflexivity|]. rewrite E at 1. rewrite E. rewrite <- Zmult_mod.
        replace (gen * 2 ^ 256 * (gen * 2 ^ 256)) with (gen * gen * (2 ^ 256 * 2 ^ 256)) by ring. rewrite (Zmult_mod (gen * gen)). rewrite <- C. rewrite <- Zmult_mod_idemp_r. reflexivity. }
      rewrite Q_MOD_val in X. vm_compute in X. discriminate X.
  - intros a b c d e G. exact (N (g_adic _ _ _ _ _ _ _ G)).
Qed.
(** The rest of them is right. *)
Theorem C51_fq_constants : exists two_inv root root_inv, represents Q_MOD (c_two_inv fq_ff) two_inv /\ (2 * two_inv) mod Q_MOD = 1 /\
  represents Q_MOD (c_root fq_ff) root /\ represents Q_MOD (c_root_inv fq_ff) root_inv /\ (root * root_inv) mod Q_MOD = 1 /\
  bit_sizes Q_MOD (c_num_bits fq_ff) (c_capacity fq_ff).
Proof.
  assert (F : bn_field fq Q_MOD) by (right; split; reflexivity).
  exists (limb_value (L4 0x9e10460b6c3e7ea4 0xcbc0b548b438e546 0xdc2822db40c0ac2e 0x183227397098d014)),
    (limb_value (L4 0x3c208c16d87cfd46 0x97816a916871ca8d 0xb85045b68181585d 0x30644e72e131a029)),
    (limb_value (L4 0x3c208c16d87cfd46 0x97816a916871ca8d 0xb85045b68181585d 0x30644e72e131a029)).
  split; [apply const_rep; [exact F|limbs|rewrite Q_MOD_val; vm_compute; reflexivity]|].
  split; [rewrite Q_MOD_val; vm_compute; reflexivity|].
  split; [apply const_rep; [exact F|limbs|rewrite Q_MOD_val; vm_compute; reflexivity]|].
  split; [apply const_rep; [exact F|limbs|rewrite Q_MOD_val; vm_compute; reflexivity]|].
  split; [rewrite Q_MOD_val; vm_compute; reflexivity|].
  unfold bit_sizes. rewrite Q_MOD_val. split; [|reflexivity]. split; [|reflexivity]. discriminate.
Qed.
Example C51_example : ff_to_repr fr (ffrom_u64 fr 258) = 2 :: 1 :: repeat 0 30 /\ ff_from_repr fr (2 :: 1 :: repeat 0 30) = Some (ffrom_u64 fr 258) /\
  ff_is_odd fr (ffrom_u64 fr 258) = false /\ carry_free R_MOD 1 (R_MOD - 2).
Proof. do 3 (split; [vm_compute; reflexivity|]). apply (carry_free_one fr). left. split; reflexivity. Qed.
