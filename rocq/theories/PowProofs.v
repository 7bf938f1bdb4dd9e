(** Exponentiation, inversion, division, byte strings, order, conversions. *)
From Coq Require Import ZArith List Bool Lia Znumtheory Zdiv Zpow_facts.
From Verif Require Import LimbModel LimbProofs MontProofs FieldModel FieldSpec FieldProofs DigitProofs Primes.
Import ListNotations.
Local Open Scope Z_scope.

Lemma be_value_range l : (forall d, In d l -> d = 0 \/ d = 1) -> 0 <= be_value 2 l < 2 ^ Z.of_nat (length l).
Proof.
  intros H. assert (E : be_value 2 l = lev 2 (rev l)) by (rewrite <- be_value_rev, rev_involutive; reflexivity).
  rewrite E, <- (rev_length l).
  apply lev_range; [lia|]. intros d Hd. apply in_rev in Hd. destruct (H d Hd); lia.
Qed.
Lemma be_value_cons b d l : be_value b (d :: l) = d * b ^ Z.of_nat (length l) + be_value b l.
Proof. change (d :: l) with ([d] ++ l). rewrite be_value_app. change (be_value b [d]) with (b * 0 + d). f_equal. f_equal. lia. Qed.

Section Pow.
Variables (P : fparams) (m : Z).
Hypothesis OK : params_ok P m.
Notation p := (fmod P).
Notation inv := (finv P).
Let m1 : 1 < m := m_gt1 P m OK.

Lemma one_mod : 1 mod m = 1. Proof. apply Z.mod_1_l. lia. Qed.
Lemma mulmod x y : (x mod m * (y mod m)) mod m = (x * y) mod m.
Proof. rewrite <- Z.mul_mod by lia. reflexivity. Qed.
Lemma mulmod_l x y : (x mod m * y) mod m = (x * y) mod m.
Proof. apply Z.mul_mod_idemp_l. lia. Qed.
Lemma mulmod_r x y : (x * (y mod m)) mod m = (x * y) mod m.
Proof. apply Z.mul_mod_idemp_r. lia. Qed.

Lemma rep_square a x : rep m a x -> drops_carry a = false -> rep m (fsquare P a) ((x * x) mod m).
Proof. intros R D. rewrite (square_is_mul P m OK a x R D). apply (rep_mul P m OK); assumption. Qed.

(** One step, and the whole ladder. *)
Lemma ladder_step acc a k d x : rep m a x -> rep m acc (x ^ k mod m) -> drops_carry acc = false -> 0 <= k ->
  d = 0 \/ d = 1 ->
  rep m (if d =? 1 then fmul P (fsquare P acc) a else fsquare P acc) (x ^ (2 * k + d) mod m).
Proof.
  intros Ra Rc D Hk Hd. pose proof (rep_square acc _ Rc D) as Rs. rewrite mulmod in Rs.
  rewrite <- Z.pow_add_r in Rs by lia.
  destruct Hd as [->| ->]; cbn [Z.eqb].
  - replace (2 * k + 0) with (k + k) by ring. exact Rs.
  - pose proof (rep_mul P m OK _ _ _ _ Rs Ra) as R. rewrite mulmod_l in R. change (Pos.eqb 1 1) with true. cbv iota.
    replace (2 * k + 1) with (Z.succ (k + k)) by ring. rewrite Z.pow_succ_r by lia. rewrite (Z.mul_comm x). exact R.
Qed.

Lemma ladder_spec a x e : rep m a x -> carry_free m x e ->
  forall bits acc k, (forall d, In d bits -> d = 0 \/ d = 1) -> 0 <= k ->
  e = k * 2 ^ Z.of_nat (length bits) + be_value 2 bits ->
  rep m acc (x ^ k mod m) ->
  rep m (fold_left (fun acc bit => let acc := fsquare P acc in if bit =? 1 then fmul P acc a else acc) bits acc) (x ^ e mod m).
Proof.
  intros Ra CF. induction bits as [|d bits IH]; intros acc k Hb Hk He Rc.
  - cbn [fold_left]. change (Z.of_nat (length (@nil Z))) with 0 in He. change (be_value 2 []) with 0 in He.
    rewrite Z.pow_0_r in He. replace e with k by lia. exact Rc.
  - cbn [fold_left]. cbv zeta. pose proof (Hb d (or_introl eq_refl)) as Hd.
    rewrite be_value_cons in He. pose proof (be_value_range bits ltac:(intros; apply Hb; right; assumption)) as Rg.
    set (n := Z.of_nat (length bits)) in *.
    assert (El : Z.of_nat (length (d :: bits)) = Z.succ n) by (cbn [length]; lia).
    rewrite El, Z.pow_succ_r in He by lia.
    apply (IH _ (2 * k + d)).
    + intros; apply Hb; right; assumption.
    + destruct Hd; lia.
    + rewrite He. fold n. ring.
    + apply ladder_step; auto. apply (CF (Z.succ n)); [lia|]. apply represents_rep.
      replace (e / 2 ^ Z.succ n) with k; [exact Rc|]. rewrite Z.pow_succ_r by lia.
      apply (Z.div_unique_pos _ _ _ (d * 2 ^ n + be_value 2 bits)); [|lia].
      assert (0 < 2 ^ n) by (apply Z.pow_pos_nonneg; lia). destruct Hd as [->| ->]; lia.
Qed.

Lemma pow_spec a b x : rep m a x -> wf b -> carry_free m x (val b) ->
  rep m (pow a b (fR P) p inv) (x ^ val b mod m).
Proof.
  intros Ra Wb CF. unfold pow.
  destruct (eqb4 b zero4) eqn:Eb.
  { apply eqb4_eq in Eb. subst b. change (val zero4) with (val fzero). destruct (rep_zero P m OK) as (_ & _ & E).
    rewrite E, Z.mul_0_l, Z.mod_0_l, Z.pow_0_r, one_mod by lia. apply (rep_one P m OK). }
  destruct (eqb4 a zero4) eqn:Ea.
  { apply eqb4_eq in Ea. subst a. pose proof (rep_fun P m OK _ _ _ Ra (rep_zero P m OK)). subst x.
    rewrite Z.pow_0_l; [rewrite Z.mod_0_l by lia; apply (rep_zero P m OK)|].
    pose proof (val_range b Wb). assert (val b <> 0); [|lia]. intros E.
    assert (b = zero4); [|subst b; discriminate].
    apply val_inj; [exact Wb|unfold wf; cbn; auto using word0|]. rewrite E. reflexivity. }
  apply (ladder_spec a x (val b) Ra CF (to_bits b) (fR P) 0).
  - apply to_bits_bit.
  - lia.
  - rewrite to_bits_value by exact Wb. lia.
  - rewrite Z.pow_0_r, one_mod. apply (rep_one P m OK).
Qed.

Lemma pow_vartime_spec a b x : rep m a x -> wf b -> carry_free m x (val b) ->
  rep m (pow_vartime P a b) (x ^ val b mod m).
Proof.
  intros Ra Wb CF. unfold pow_vartime.
  apply (ladder_spec a x (val b) Ra CF _ (fone P) 0).
  - apply vartime_bits_bit.
  - lia.
  - rewrite vartime_bits_value by exact Wb. lia.
  - rewrite Z.pow_0_r, one_mod. apply (rep_one P m OK).
Qed.

Lemma u64_limbs v : word v -> wf (L4 v 0 0 0) /\ val (L4 v 0 0 0) = v.
Proof. intros H. split; [unfold wf; cbn; auto using word0|unfold val; cbn [w0 w1 w2 w3]; ring]. Qed.

Lemma fpow_spec a v x : rep m a x -> word v -> carry_free m x v -> rep m (fpow P a v) (x ^ v mod m).
Proof.
  intros Ra Hv CF. destruct (u64_limbs v Hv) as [W E]. unfold fpow.
  rewrite <- E in CF |- * at 2. apply pow_spec; assumption.
Qed.

Lemma from_u64_spec v : word v -> rep m (ffrom_u64 P v) (v mod m).
Proof. intros Hv. destruct (u64_limbs v Hv) as [W E]. rewrite <- E at 2. apply (rep_to_mont P m OK), W. Qed.

Lemma pow_of_2_spec v : word v -> carry_free m (2 mod m) v -> rep m (pow_of_2 P v) (2 ^ v mod m).
Proof.
  intros Hv CF.
  assert (R2 : rep m (ffrom_u64 P 2) (2 mod m)) by (apply from_u64_spec; unfold word; rewrite Bval; lia).
  pose proof (ladder_spec _ _ v R2 CF (word_bits_be v) (fone P) 0 (word_bits_be_bit v) ltac:(lia)) as L.
  rewrite word_bits_be_value in L by exact Hv.
  specialize (L ltac:(lia)). rewrite Z.pow_0_r, one_mod in L. specialize (L (rep_one P m OK)).
  rewrite pow_mod_idem in L by (try lia; unfold word in Hv; lia). exact L.
Qed.

(** ** Inversion *)
Hypothesis PR : prime m.

Lemma little_fermat_spec : wf (little_fermat p) /\ val (little_fermat p) = m - 2.
Proof.
  unfold little_fermat.
  assert (Wz : wf zero4) by (unfold wf; cbn; auto using word0).
  destruct (u64_limbs 2) as [W2 E2]; [unfold word; rewrite Bval; lia|].
  assert (Ez : val zero4 = 0) by (unfold val; cbn; ring).
  destruct (sub_spec zero4 (L4 2 0 0 0) p Wz W2 (p_wf P m OK)) as [W E].
  { rewrite Ez, E2, (m_val P m OK). pose proof (prime_ge_2 m PR). lia. }
  rewrite Ez, E2, (m_val P m OK) in E. cbn [Z.ltb Z.compare] in E. split; [exact W|]. rewrite E. ring.
Qed.

Lemma inverse_pow x : 0 < x < m -> (x * x ^ (m - 2)) mod m = 1.
Proof.
  intros Hx. pose proof (prime_ge_2 m PR). rewrite <- Z.pow_succ_r by lia. replace (Z.succ (m - 2)) with (m - 1) by lia.
  rewrite (fermat m x PR); [apply one_mod|]. intros D. apply Z.divide_pos_le in D; lia.
Qed.

Lemma invert_spec a x : rep m a x -> x <> 0 -> carry_free m x (m - 2) ->
  exists i y, finvert P a = Some i /\ rep m i y /\ (x * y) mod m = 1.
Proof.
  intros Ra Hx CF. unfold finvert, invert. pose proof (rep_is_zero P m OK a x Ra) as E.
  rewrite is_zero_eqb in E. destruct (Z.eqb_spec x 0) as [|_]; [contradiction|]. rewrite E.
  destruct little_fermat_spec as [W V].
  eexists; exists (x ^ (m - 2) mod m). split; [reflexivity|]. split.
  - rewrite <- V in CF |- *. apply pow_spec; assumption.
  - rewrite mulmod_r. apply inverse_pow. destruct Ra as (_ & Hr & _). lia.
Qed.
Lemma invert_zero a : rep m a 0 -> finvert P a = None.
Proof. intros Ra. unfold finvert, invert. rewrite <- is_zero_eqb, (rep_is_zero P m OK a 0 Ra). reflexivity. Qed.
Lemma invert_none a x : rep m a x -> finvert P a = None -> x = 0.
Proof.
  intros Ra. unfold finvert, invert. rewrite <- is_zero_eqb, (rep_is_zero P m OK a x Ra).
  destruct (Z.eqb_spec x 0); [auto|discriminate].
Qed.

Lemma div_spec a b x y : rep m a x -> rep m b y -> y <> 0 -> carry_free m y (m - 2) ->
  exists q z, fdiv P a b = Some q /\ rep m q z /\ (z * y) mod m = x.
Proof.
  intros Ra Rb Hy CF. destruct (invert_spec b y Rb Hy CF) as (i & w & E & Ri & V).
  unfold fdiv. rewrite E. eexists; exists ((x * w) mod m). split; [reflexivity|].
  split; [apply (rep_mul P m OK); assumption|].
  rewrite mulmod_l. replace (x * w * y) with (x * (y * w)) by ring. rewrite <- mulmod_r, V, Z.mul_1_r.
  apply Z.mod_small. destruct Ra as (_ & H & _). exact H.
Qed.

(** ** Bytes *)
Lemma to_bytes_spec a x : rep m a x -> lev 256 (to_bytes P a) = x /\ length (to_bytes P a) = 32%nat /\
  (forall d, In d (to_bytes P a) -> 0 <= d < 256).
Proof.
  intros Ra. destruct (bytes_of_limbs (montgomery_reduce P a) (reduce_wf P m OK a (rep_wf m _ _ Ra))) as (E & L & R).
  rewrite (rep_reduce P m OK a x Ra) in E. split; [exact E|split; [exact L|exact R]].
Qed.

Lemma sbb_halves x y b : sbb x y b = halves (w128 (x - (y + shr b 63))). Proof. reflexivity. Qed.
(** The chain of [sbb] calls computes the borrow of a four-limb subtraction. *)
Lemma sbb_chain l q : wf l -> wf q ->
  (let (_, brw) := sbb (w0 l) (w0 q) 0 in
   let (_, brw) := sbb (w1 l) (w1 q) brw in
   let (_, brw) := sbb (w2 l) (w2 q) brw in
   let (_, brw) := sbb (w3 l) (w3 q) brw in brw) = if val l <? val q then B - 1 else 0.
Proof.
  intros (A0 & A1 & A2 & A3) (Q0 & Q1 & Q2 & Q3). 
  rewrite sbb_halves.
  destruct (halves_sub (w0 l) (w0 q) 0 0 A0 Q0 ltac:(left; auto)) as (r0 & h0 & k0 & E0 & R0 & K0 & S0). rewrite E0. cbv iota beta.
  rewrite sbb_halves.
  destruct (halves_sub (w1 l) (w1 q) k0 h0 A1 Q1 K0) as (r1 & h1 & k1 & E1 & R1 & K1 & S1). rewrite E1. cbv iota beta.
  rewrite sbb_halves.
  destruct (halves_sub (w2 l) (w2 q) k1 h1 A2 Q2 K1) as (r2 & h2 & k2 & E2 & R2 & K2 & S2). rewrite E2. cbv iota beta.
  rewrite sbb_halves.
  destruct (halves_sub (w3 l) (w3 q) k2 h2 A3 Q3 K2) as (r3 & h3 & k3 & E3 & R3 & K3 & S3). rewrite E3. cbv iota beta.
  unfold word in *. unfold val.
  assert (E : w0 l + B * w1 l + B^2 * w2 l + B^3 * w3 l - (w0 q + B * w1 q + B^2 * w2 q + B^3 * w3 q)
              = r0 + B * r1 + B^2 * r2 + B^3 * r3 - B^4 * k3).
  { replace (w0 l) with (r0 - B * k0 + w0 q) by lia. replace (w1 l) with (r1 - B * k1 + w1 q + k0) by lia.
    replace (w2 l) with (r2 - B * k2 + w2 q + k1) by lia. replace (w3 l) with (r3 - B * k3 + w3 q + k2) by lia. ring. }
  clear - E R0 R1 R2 R3 K3.
  destruct (Z.ltb_spec (w0 l + B * w1 l + B^2 * w2 l + B^3 * w3 l) (w0 q + B * w1 q + B^2 * w2 q + B^3 * w3 q)) as [H|H];
    destruct K3 as [[-> ->]|[-> ->]]; auto; exfalso; rewrite Bval in *; lia.
Qed.
Lemma brw_odd : (B - 1) mod 2 = 1. Proof. rewrite Bval. reflexivity. Qed.

Lemma from_bytes_spec bytes : length bytes = 32%nat -> (forall d, In d bytes -> 0 <= d < 256) ->
  (lev 256 bytes < m -> exists a, from_bytes P bytes = Some a /\ rep m a (lev 256 bytes)) /\
  (m <= lev 256 bytes -> from_bytes P bytes = None).
Proof.
  intros L R. unfold from_bytes.
  set (l := L4 (slice8 bytes 0) (slice8 bytes 8) (slice8 bytes 16) (slice8 bytes 24)).
  assert (W : wf l) by (unfold wf, l; cbn [w0 w1 w2 w3]; auto using slice8_word).
  assert (V : val l = lev 256 bytes) by (apply slices4, L).
  pose proof (sbb_chain l p W (p_wf P m OK)) as S. rewrite V, (m_val P m OK) in S.
  destruct (sbb (w0 l) (w0 p) 0) as [? b0]. destruct (sbb (w1 l) (w1 p) b0) as [? b1].
  destruct (sbb (w2 l) (w2 p) b1) as [? b2]. destruct (sbb (w3 l) (w3 p) b2) as [? b3].
  subst b3. split; intros C; destruct (Z.ltb_spec (lev 256 bytes) m); try lia.
  - rewrite brw_odd. cbn [Z.eqb Pos.eqb]. eexists. split; [reflexivity|].
    pose proof (rep_to_mont P m OK l W) as Rm. rewrite V, Z.mod_small in Rm; [exact Rm|].
    split; [|exact C]. pose proof (lev_range 256 bytes ltac:(lia) R). lia.
  - reflexivity.
Qed.

Lemma from_bytes_wide_spec bytes : length bytes = 64%nat -> (forall d, In d bytes -> 0 <= d < 256) ->
  rep m (from_bytes_wide P bytes) (lev 256 bytes mod m).
Proof.
  intros L R. unfold from_bytes_wide. rewrite <- (slices8 bytes L). apply (rep_from_u512 P m OK).
  unfold wf8; cbn [v0 v1 v2 v3 v4 v5 v6 v7]. auto 20 using slice8_word.
Qed.

Lemma from_hash_wide bytes : from_hash P bytes = from_bytes_wide P bytes.
Proof. reflexivity. Qed.

(** ** Order *)
Lemma cmp_lex_limbs a b : wf a -> wf b -> fcmp a b = (val a ?= val b).
Proof.
  intros (A0 & A1 & A2 & A3) (B0 & B1 & B2 & B3). unfold fcmp, limbs, val. cbn [rev app cmp_lex].
  unfold word in *. rewrite Bval in *.
  destruct (Z.ltb_spec (w3 a) (w3 b)); [symmetry; apply Z.compare_lt_iff; lia|].
  destruct (Z.ltb_spec (w3 b) (w3 a)); [symmetry; apply Z.compare_gt_iff; lia|].
  destruct (Z.ltb_spec (w2 a) (w2 b)); [symmetry; apply Z.compare_lt_iff; lia|].
  destruct (Z.ltb_spec (w2 b) (w2 a)); [symmetry; apply Z.compare_gt_iff; lia|].
  destruct (Z.ltb_spec (w1 a) (w1 b)); [symmetry; apply Z.compare_lt_iff; lia|].
  destruct (Z.ltb_spec (w1 b) (w1 a)); [symmetry; apply Z.compare_gt_iff; lia|].
  destruct (Z.ltb_spec (w0 a) (w0 b)); [symmetry; apply Z.compare_lt_iff; lia|].
  destruct (Z.ltb_spec (w0 b) (w0 a)); [symmetry; apply Z.compare_gt_iff; lia|].
  symmetry. apply Z.compare_eq_iff. lia.
Qed.
Lemma first_diff_cmp a b :
  first_diff Z.ltb false a b = (match cmp_lex a b with Lt => true | _ => false end) /\
  first_diff Z.ltb true a b = (match cmp_lex a b with Gt => false | _ => true end) /\
  first_diff Z.gtb false a b = (match cmp_lex a b with Gt => true | _ => false end) /\
  first_diff Z.gtb true a b = (match cmp_lex a b with Lt => false | _ => true end).
Proof.
  revert b. induction a as [|x a IH]; intros [|y b]; cbn [first_diff cmp_lex]; try (repeat split; reflexivity).
  rewrite !Z.gtb_ltb. destruct (Z.eqb_spec x y) as [->|N]; cbn [negb].
  - rewrite Z.ltb_irrefl. apply IH.
  - destruct (Z.ltb_spec x y), (Z.ltb_spec y x); try lia; repeat split; reflexivity.
Qed.

(** ** Sums and products *)
Lemma fsum_spec l xs : Forall2 (rep m) l xs -> rep m (fsum P l) (fold_right Z.add 0 xs mod m).
Proof.
  intros F. unfold fsum.
  assert (G : forall acc y, rep m acc (y mod m) -> rep m (fold_left (fadd P) l acc) ((y + fold_right Z.add 0 xs) mod m)).
  { induction F as [|a x l xs Ra F IH]; intros acc y Rc; cbn [fold_left fold_right].
    - rewrite Z.add_0_r. exact Rc.
    - rewrite Z.add_assoc. apply IH. pose proof (rep_add P m OK _ _ _ _ Rc Ra) as R.
      rewrite Z.add_mod_idemp_l in R by lia. exact R. }
  apply (G fzero 0). rewrite Z.mod_0_l by lia. apply (rep_zero P m OK).
Qed.
Lemma fproduct_spec l xs : Forall2 (rep m) l xs -> rep m (fproduct P l) (fold_right Z.mul 1 xs mod m).
Proof.
  intros F. unfold fproduct.
  assert (G : forall acc y, rep m acc (y mod m) -> rep m (fold_left (fmul P) l acc) ((y * fold_right Z.mul 1 xs) mod m)).
  { induction F as [|a x l xs Ra F IH]; intros acc y Rc; cbn [fold_left fold_right].
    - rewrite Z.mul_1_r. exact Rc.
    - rewrite Z.mul_assoc. apply IH. pose proof (rep_mul P m OK _ _ _ _ Rc Ra) as R.
      rewrite mulmod_l in R. exact R. }
  replace (fold_right Z.mul 1 xs) with (1 * fold_right Z.mul 1 xs) by ring.
  apply G. rewrite one_mod. apply (rep_one P m OK).
Qed.

End Pow.
