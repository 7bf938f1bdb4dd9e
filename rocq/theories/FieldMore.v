(** Square roots in Fq, parity, field conversions, bit operations, refutations. *)
From Coq Require Import ZArith List Bool Lia Znumtheory Zdiv Zpow_facts.
From Verif Require Import LimbModel LimbProofs MontProofs FieldModel FieldSpec FieldProofs DigitProofs PowProofs Primes.
Import ListNotations.
Local Open Scope Z_scope.

Lemma R_MOD_val : R_MOD = 21888242871839275222246405745257275088548364400416034343698204186575808495617.
Proof. Transparent R_MOD. reflexivity. Opaque R_MOD. Qed.
Lemma Q_MOD_val : Q_MOD = 21888242871839275222246405745257275088696311157297823662689037894645226208583.
Proof. Transparent Q_MOD. reflexivity. Opaque Q_MOD. Qed.

(** ** [one] does not drop a carry. *)
Lemma one_no_drop_fr : drops_carry (fone fr) = false. Proof. vm_compute. reflexivity. Qed.
Lemma one_no_drop_fq : drops_carry (fone fq) = false. Proof. vm_compute. reflexivity. Qed.

(** ** Fq::sqrt *)
Definition fq_sqrt_exp : l4 := L4 0x4f082305b61f3f52 0x65e05aa45a1c72a3 0x6e14116da0605617 0x0c19139cb84c680a.
Lemma fq_sqrt_exp_val : wf fq_sqrt_exp /\ val fq_sqrt_exp = (Q_MOD + 1) / 4.
Proof. rewrite Q_MOD_val. unfold wf, word, val. rewrite Bval. vm_compute. intuition congruence. Qed.

Lemma fq_sqrt_unfold a : fq_sqrt a =
  if eqb4 (fsquare fq (pow_vartime fq a fq_sqrt_exp)) a then Some (pow_vartime fq a fq_sqrt_exp) else None.
Proof. reflexivity. Qed.

Lemma fq_sqrt_sound a s x y : rep Q_MOD a x -> fq_sqrt a = Some s -> rep Q_MOD s y -> drops_carry s = false ->
  (y * y) mod Q_MOD = x.
Proof.
  intros Ra E Rs D. rewrite fq_sqrt_unfold in E. set (v := pow_vartime fq a fq_sqrt_exp) in *. clearbody v. destruct (eqb4 _ a) eqn:Q; [|discriminate]. injection E as E. rewrite E in Q.
  apply eqb4_eq in Q. pose proof (rep_square fq Q_MOD fq_ok s y Rs D) as R. rewrite Q in R.
  apply (rep_fun fq Q_MOD fq_ok a); assumption.
Qed.

Lemma fq_sqrt_complete a x z : rep Q_MOD a x -> (z * z) mod Q_MOD = x ->
  carry_free Q_MOD x ((Q_MOD + 1) / 4) ->
  (forall s, represents Q_MOD s (x ^ ((Q_MOD + 1) / 4) mod Q_MOD) -> drops_carry s = false) ->
  exists s y, fq_sqrt a = Some s /\ rep Q_MOD s y /\ (y * y) mod Q_MOD = x.
Proof.
  intros Ra Hz CF D. destruct fq_sqrt_exp_val as [We Ve].
  assert (R : rep Q_MOD (pow_vartime fq a fq_sqrt_exp) (x ^ ((Q_MOD + 1) / 4) mod Q_MOD)).
  { rewrite <- Ve in CF |- *. apply (pow_vartime_spec fq Q_MOD fq_ok); assumption. }
  pose proof (D _ (proj2 (represents_rep _ _ _) R)) as D1.
  pose proof (rep_square fq Q_MOD fq_ok _ _ R D1) as R2.
  assert (Hq : 4 < Q_MOD /\ Q_MOD = 4 * ((Q_MOD + 1) / 4) - 1) by (rewrite Q_MOD_val; split; reflexivity).
  destruct Hq as [Hq1 Hq2]. set (e := (Q_MOD + 1) / 4) in *.
  assert (V : ((x ^ e mod Q_MOD) * (x ^ e mod Q_MOD)) mod Q_MOD = x).
  { rewrite <- Z.mul_mod, <- Z.pow_add_r by lia. rewrite <- Hz.
    rewrite pow_mod_idem by lia. rewrite Z.pow_mul_l, <- Z.pow_add_r by lia.
    replace (e + e + (e + e)) with (2 + (Q_MOD - 1)) by lia.
    rewrite Z.pow_add_r by lia.
    destruct (Z.eq_dec (z mod Q_MOD) 0) as [Z0|NZ].
    - apply Z.mod_divide in Z0; [|lia].
      assert (D2 : (Q_MOD | z ^ 2)) by (rewrite Z.pow_2_r; apply Z.divide_mul_l, Z0).
      rewrite (proj2 (Z.mod_divide (z * z) Q_MOD ltac:(lia)) (Z.divide_mul_l _ _ _ Z0)).
      apply Z.mod_divide; [lia|]. apply Z.divide_mul_l, D2.
    - rewrite <- Z.mul_mod_idemp_r by lia. rewrite (fermat Q_MOD z Q_MOD_prime).
      + rewrite Z.mul_mod_idemp_r by lia. f_equal. rewrite Z.pow_2_r. ring.
      + intros Dv. apply NZ. apply Z.mod_divide; [lia|exact Dv]. }
  rewrite V in R2. exists (pow_vartime fq a fq_sqrt_exp), (x ^ e mod Q_MOD). rewrite fq_sqrt_unfold.
  rewrite (proj2 (eqb4_eq _ _) (rep_inj Q_MOD _ _ _ R2 Ra)). auto.
Qed.

(** ** Fq::lexicographically_largest *)
Definition half_q : l4 := L4 0x9e10460b6c3e7ea4 0xcbc0b548b438e546 0xdc2822db40c0ac2e 0x183227397098d014.
Lemma half_q_val : wf half_q /\ val half_q = (Q_MOD - 1) / 2 + 1.
Proof. rewrite Q_MOD_val. unfold wf, word, val. rewrite Bval. vm_compute. intuition congruence. Qed.
Lemma lex_largest_spec a x : rep Q_MOD a x -> lexicographically_largest a = ((Q_MOD - 1) / 2 <? x).
Proof.
  intros Ra. unfold lexicographically_largest. set (t := montgomery_reduce fq a).
  assert (W : wf t) by (apply (reduce_wf fq Q_MOD fq_ok), (rep_wf Q_MOD _ _ Ra)).
  assert (V : val t = x) by (apply (rep_reduce fq Q_MOD fq_ok), Ra).
  destruct half_q_val as [Wh Vh]. pose proof (sbb_chain t half_q W Wh) as S. rewrite V, Vh in S.
  cbn [half_q w0 w1 w2 w3] in S.
  destruct (sbb (w0 t) 0x9e10460b6c3e7ea4 0) as [? b0]. destruct (sbb (w1 t) 0xcbc0b548b438e546 b0) as [? b1].
  destruct (sbb (w2 t) 0xdc2822db40c0ac2e b1) as [? b2]. destruct (sbb (w3 t) 0x183227397098d014 b2) as [? b3]. subst b3.
  set (h := (Q_MOD - 1) / 2). clearbody h.
  destruct (Z.ltb_spec x (h + 1)); [rewrite brw_odd|]; destruct (Z.ltb_spec h x); try lia; reflexivity.
Qed.

(** ** Fr <-> Fq *)
Lemma fq_of_fr_spec a x : rep R_MOD a x -> rep Q_MOD (fq_of_fr a) x.
Proof.
  intros Ra. pose proof (rep_to_mont fq Q_MOD fq_ok (montgomery_reduce fr a) (reduce_wf fr R_MOD fr_ok a (rep_wf _ _ _ Ra))) as R.
  rewrite (rep_reduce fr R_MOD fr_ok a x Ra), Z.mod_small in R; [exact R|].
  destruct Ra as (_ & H & _). rewrite R_MOD_val in H. rewrite Q_MOD_val. lia.
Qed.
Lemma fr_of_fq_spec a x : rep Q_MOD a x -> rep R_MOD (fr_of_fq a) (x mod R_MOD).
Proof.
  intros Ra. pose proof (rep_to_mont fr R_MOD fr_ok (montgomery_reduce fq a) (reduce_wf fq Q_MOD fq_ok a (rep_wf _ _ _ Ra))) as R.
  rewrite (rep_reduce fq Q_MOD fq_ok a x Ra) in R. exact R.
Qed.

(** ** Parity, xor, and. *)
Lemma is_odd_spec a x : rep R_MOD a x -> is_odd fr a = Z.odd x.
Proof.
  intros Ra. unfold is_odd. rewrite <- (rep_reduce fr R_MOD fr_ok a x Ra).
  set (t := montgomery_reduce fr a). unfold val. rewrite Zmod_odd.
  rewrite !Z.odd_add, !Z.odd_mul, !Z.odd_pow by lia. replace (Z.odd B) with false by (rewrite Bval; reflexivity).
  cbn [andb]. rewrite !xorb_false_r. destruct (Z.odd (w0 t)); reflexivity.
Qed.

Lemma val_testbit_gen a n : wf a -> 0 <= n ->
  Z.testbit (val a) n = if n <? 64 then Z.testbit (w0 a) n else if n <? 128 then Z.testbit (w1 a) (n - 64)
     else if n <? 192 then Z.testbit (w2 a) (n - 128) else Z.testbit (w3 a) (n - 192).
Proof.
  intros W Hn.
  assert (step : forall x y k, 0 <= k -> word x -> Z.testbit (x + B * y) k = if k <? 64 then Z.testbit x k else Z.testbit y (k - 64)).
  { intros x y k Hk Hx. replace (B * y) with (Z.shiftl y 64) by (rewrite Z.shiftl_mul_pow2, Bval by lia; ring).
    assert (Hz : Z.land x (Z.shiftl y 64) = 0).
    { apply Z.bits_inj'. intros i Hi. rewrite Z.land_spec, Z.bits_0, Z.shiftl_spec by lia.
      destruct (Z_lt_le_dec i 64).
      - rewrite (Z.testbit_neg_r y) by lia. apply andb_false_r.
      - destruct (Z.eq_dec x 0) as [->|N]; [rewrite Z.bits_0; reflexivity|].
        rewrite (Z.bits_above_log2 x i); [reflexivity|unfold word in Hx; lia|].
        apply (Z.lt_le_trans _ 64); [|lia]. apply Z.log2_lt_pow2; unfold word in Hx; rewrite Bval in Hx; [lia|exact (proj2 Hx)]. }
    rewrite (Z.add_nocarry_lxor x _ Hz), Z.lxor_spec, Z.shiftl_spec by lia.
    destruct (Z.ltb_spec k 64).
    - rewrite (Z.testbit_neg_r y) by lia. apply xorb_false_r.
    - replace (Z.testbit x k) with false; [apply xorb_false_l|]. symmetry.
      destruct (Z.eq_dec x 0) as [->|N]; [apply Z.bits_0|].
      apply Z.bits_above_log2; [unfold word in Hx; lia|].
      apply (Z.lt_le_trans _ 64); [|lia]. apply Z.log2_lt_pow2; unfold word in Hx; rewrite Bval in Hx; [lia|exact (proj2 Hx)]. }
  destruct W as (A0 & A1 & A2 & A3).
  replace (val a) with (w0 a + B * (w1 a + B * (w2 a + B * w3 a))) by (unfold val; ring).
  rewrite step by assumption. destruct (Z.ltb_spec n 64); [reflexivity|].
  rewrite step by (assumption || lia). destruct (Z.ltb_spec (n - 64) 64), (Z.ltb_spec n 128); try lia.
  rewrite step by (assumption || lia). destruct (Z.ltb_spec (n - 64 - 64) 64), (Z.ltb_spec n 192); try lia;
    f_equal; lia.
Qed.

Lemma bitwise_word f x y : (forall u v, 0 <= u -> 0 <= v -> 0 <= f u v) ->
  (forall u v n, Z.testbit (f u v) n = true -> Z.testbit u n = true \/ Z.testbit v n = true) ->
  word x -> word y -> word (f x y).
Proof.
  intros Hpos Hbit Hx Hy. unfold word in *. rewrite Bval in *. split; [apply Hpos; lia|].
  destruct (Z.eq_dec (f x y) 0) as [E|N]; [rewrite E; lia|].
  assert (0 < f x y) by (specialize (Hpos x y); lia).
  apply (Z.log2_lt_pow2 (f x y) 64); [assumption|].
  destruct (Z_lt_le_dec (Z.log2 (f x y)) 64) as [|L]; [assumption|exfalso].
  pose proof (Z.bit_log2 (f x y) ltac:(assumption)) as T. apply Hbit in T.
  assert (G : forall u, 0 <= u < 18446744073709551616 -> Z.testbit u (Z.log2 (f x y)) = false).
  { intros u Hu. destruct (Z.eq_dec u 0) as [->|]; [apply Z.bits_0|]. apply Z.bits_above_log2; [lia|].
    apply (Z.lt_le_trans _ 64); [|exact L]. apply Z.log2_lt_pow2; [lia|exact (proj2 Hu)]. }
  destruct T as [T|T]; rewrite G in T; auto; discriminate.
Qed.
Lemma lxor_word x y : word x -> word y -> word (Z.lxor x y).
Proof.
  apply bitwise_word.
  - intros. apply Z.lxor_nonneg. tauto.
  - intros u v n H. rewrite Z.lxor_spec in H. destruct (Z.testbit u n), (Z.testbit v n); auto.
Qed.
Lemma land_word x y : word x -> word y -> word (Z.land x y).
Proof.
  apply bitwise_word.
  - intros. apply Z.land_nonneg. tauto.
  - intros u v n H. rewrite Z.land_spec in H. apply andb_prop in H. tauto.
Qed.

Lemma fxor_spec a b x y : rep R_MOD a x -> rep R_MOD b y -> rep R_MOD (fxor fr a b) (Z.lxor x y mod R_MOD).
Proof.
  intros Ra Rb. unfold fxor. cbv zeta.
  pose proof (reduce_wf fr R_MOD fr_ok a (rep_wf _ _ _ Ra)) as Wa. pose proof (reduce_wf fr R_MOD fr_ok b (rep_wf _ _ _ Rb)) as Wb.
  rewrite <- (rep_reduce fr R_MOD fr_ok a x Ra), <- (rep_reduce fr R_MOD fr_ok b y Rb).
  set (u := montgomery_reduce fr a) in *. set (v := montgomery_reduce fr b) in *.
  set (w := L4 _ _ _ _).
  assert (W : wf w) by (destruct Wa as (?&?&?&?), Wb as (?&?&?&?); unfold wf, w; cbn [w0 w1 w2 w3]; auto using lxor_word).
  replace (Z.lxor (val u) (val v)) with (val w); [apply (rep_to_mont fr R_MOD fr_ok), W|].
  apply Z.bits_inj'. intros n Hn. rewrite Z.lxor_spec, !val_testbit_gen by assumption. unfold w; cbn [w0 w1 w2 w3].
  rewrite !Z.lxor_spec. destruct (n <? 64), (n <? 128), (n <? 192); reflexivity.
Qed.
Lemma fand_spec a b x y : rep R_MOD a x -> rep R_MOD b y -> rep R_MOD (fand fr a b) (Z.land x y mod R_MOD).
Proof.
  intros Ra Rb. unfold fand. cbv zeta.
  pose proof (reduce_wf fr R_MOD fr_ok a (rep_wf _ _ _ Ra)) as Wa. pose proof (reduce_wf fr R_MOD fr_ok b (rep_wf _ _ _ Rb)) as Wb.
  rewrite <- (rep_reduce fr R_MOD fr_ok a x Ra), <- (rep_reduce fr R_MOD fr_ok b y Rb).
  set (u := montgomery_reduce fr a) in *. set (v := montgomery_reduce fr b) in *.
  set (w := L4 _ _ _ _).
  assert (W : wf w) by (destruct Wa as (?&?&?&?), Wb as (?&?&?&?); unfold wf, w; cbn [w0 w1 w2 w3]; auto using land_word).
  replace (Z.land (val u) (val v)) with (val w); [apply (rep_to_mont fr R_MOD fr_ok), W|].
  apply Z.bits_inj'. intros n Hn. rewrite Z.land_spec, !val_testbit_gen by assumption. unfold w; cbn [w0 w1 w2 w3].
  rewrite !Z.land_spec. destruct (n <? 64), (n <? 128), (n <? 192); reflexivity.
Qed.

(** ** The dropped carry: a concrete reduced element, in both fields. *)
Definition bad : l4 := L4 0 0xffffffffffffffff 0xffffffffffffffff 1.
Lemma bad_drops : drops_carry bad = true. Proof. vm_compute. reflexivity. Qed.
Lemma bad_wf : wf bad. Proof. unfold wf, word. rewrite Bval. vm_compute. intuition congruence. Qed.

(** ** Deciding [carry_free] for concrete bases and exponents. *)
Definition enc (P : fparams) (c : Z) : l4 :=
  fto_mont_form P (L4 (c mod 2 ^ 64) (c / 2 ^ 64 mod 2 ^ 64) (c / 2 ^ 128 mod 2 ^ 64) (c / 2 ^ 192 mod 2 ^ 64)).
Lemma enc_rep P m c : params_ok P m -> 0 <= c < m -> rep m (enc P c) c.
Proof.
  intros OK Hc. pose proof (m_half P m OK) as Hm. rewrite B4 in Hm.
  set (v := L4 (c mod 2 ^ 64) (c / 2 ^ 64 mod 2 ^ 64) (c / 2 ^ 128 mod 2 ^ 64) (c / 2 ^ 192 mod 2 ^ 64)).
  assert (W : wf v) by (unfold wf, word, v; cbn [w0 w1 w2 w3]; rewrite Bval;
    change (2 ^ 64) with 18446744073709551616; repeat split; apply Z.mod_pos_bound; lia).
  assert (V : val v = c).
  { pose proof (digits_lev (2 ^ 64) 4 c ltac:(lia)) as D. unfold digits in D. cbn [seq map] in D.
    change ((2 ^ 64) ^ Z.of_nat 0) with 1 in D. change ((2 ^ 64) ^ Z.of_nat 1) with (2 ^ 64) in D.
    change ((2 ^ 64) ^ Z.of_nat 2) with (2 ^ 128) in D. change ((2 ^ 64) ^ Z.of_nat 3) with (2 ^ 192) in D.
    change ((2 ^ 64) ^ Z.of_nat 4) with (2 ^ 256) in D. rewrite Z.div_1_r, (Z.mod_small c (2 ^ 256)) in D by lia.
    rewrite <- limbs_lev. exact D. }
  pose proof (rep_to_mont P m OK v W) as R. rewrite V, Z.mod_small in R by exact Hc. exact R.
Qed.

(** The same test with a mask for the remainder, and the ladder on limbs. *)
Definition drops_fast (a : l4) : bool :=
  2 ^ 320 <=? Z.land (cross_sum a) (Z.ones 320) + 2 ^ 128 * (w1 a * w2 a).
Lemma drops_fast_eq a : drops_fast a = drops_carry a.
Proof. unfold drops_fast, drops_carry. rewrite Z.land_ones by lia. reflexivity. Qed.

Fixpoint cf_check (P : fparams) (x : l4) (bits : list Z) (acc : l4) : bool :=
  match bits with
  | [] => true
  | d :: r => negb (drops_fast acc) &&
      cf_check P x r (if d =? 1 then fmul P (fmul P acc acc) x else fmul P acc acc)
  end.

Lemma cf_check_sound P m x lx : params_ok P m -> rep m lx x -> drops_carry (fone P) = false ->
  forall bits, (forall d, In d bits -> d = 0 \/ d = 1) -> cf_check P lx bits (fone P) = true ->
  carry_free m x (be_value 2 bits).
Proof.
  intros OK Rx D1 bits Hb H. pose proof (m_gt1 P m OK) as M1.
  intros j a Hj Ra. apply represents_rep in Ra.
  assert (G : forall bits k acc, (forall d, In d bits -> d = 0 \/ d = 1) -> 0 <= k -> rep m acc (x ^ k mod m) ->
    cf_check P lx bits acc = true -> forall i a', 0 < i <= Z.of_nat (length bits) ->
    rep m a' (x ^ ((k * 2 ^ Z.of_nat (length bits) + be_value 2 bits) / 2 ^ i) mod m) -> drops_carry a' = false).
  { clear - OK M1 Rx. induction bits as [|d bits IH]; intros k acc Hb Hk Ek H i a' Hi Ra; [cbn in Hi; lia|].
    cbn [cf_check] in H. apply andb_true_iff in H as [H1 H2]. apply negb_true_iff in H1. rewrite drops_fast_eq in H1.
    pose proof (Hb d (or_introl eq_refl)) as Hd. rewrite be_value_cons in Ra.
    assert (El : Z.of_nat (length (d :: bits)) = Z.succ (Z.of_nat (length bits))) by (cbn [length]; lia).
    pose proof (be_value_range bits ltac:(intros; apply Hb; right; assumption)) as Rg.
    rewrite El in Ra, Hi. rewrite Z.pow_succ_r in Ra by lia.
    destruct (Z.eq_dec i (Z.succ (Z.of_nat (length bits)))) as [->|Ni].
    - replace ((k * (2 * 2 ^ Z.of_nat (length bits)) + (d * 2 ^ Z.of_nat (length bits) + be_value 2 bits)) / 2 ^ Z.succ (Z.of_nat (length bits))) with k in Ra.
      + rewrite (rep_inj m _ _ _ Ra Ek). exact H1.
      + rewrite Z.pow_succ_r by lia. set (T := 2 ^ Z.of_nat (length bits)) in *.
        apply (Z.div_unique_pos _ _ _ (d * T + be_value 2 bits)); [|ring]. destruct Hd as [->| ->]; lia.
    - apply (IH (2 * k + d) (if d =? 1 then fmul P (fmul P acc acc) lx else fmul P acc acc)) with (i := i).
      + intros; apply Hb; right; assumption.
      + destruct Hd; lia.
      + pose proof (rep_mul P m OK _ _ _ _ Ek Ek) as R2. rewrite <- Z.mul_mod, <- Z.pow_add_r in R2 by lia.
        destruct Hd as [->| ->]; cbn [Z.eqb Pos.eqb].
        * replace (2 * k + 0) with (k + k) by lia. exact R2.
        * pose proof (rep_mul P m OK _ _ _ _ R2 Rx) as R3. rewrite Z.mul_mod_idemp_l in R3 by lia.
          replace (2 * k + 1) with (Z.succ (k + k)) by lia. rewrite Z.pow_succ_r, Z.mul_comm by lia. exact R3.
      + exact H2.
      + lia.
      + replace ((2 * k + d) * 2 ^ Z.of_nat (length bits) + be_value 2 bits)
          with (k * (2 * 2 ^ Z.of_nat (length bits)) + (d * 2 ^ Z.of_nat (length bits) + be_value 2 bits)) by ring. exact Ra. }
  destruct (Z_le_gt_dec j (Z.of_nat (length bits))) as [L|L].
  - apply (G bits 0 (fone P) Hb ltac:(lia)) with (i := j); [rewrite Z.pow_0_r, Z.mod_1_l by lia; apply (rep_one P m OK)|exact H|lia|].
    rewrite Z.mul_0_l, Z.add_0_l. exact Ra.
  - pose proof (be_value_range bits Hb) as Rg. rewrite Z.div_small, Z.pow_0_r, Z.mod_1_l in Ra.
    + rewrite (rep_inj m _ _ _ Ra (rep_one P m OK)). exact D1.
    + lia.
    + split; [lia|]. apply (Z.lt_le_trans _ _ _ (proj2 Rg)). apply Z.pow_le_mono_r; lia.
Qed.

(** The inverse of [bad], as the code computes it, is not an inverse. *)
Lemma bad_invert_fr : exists i, finvert fr bad = Some i /\ eqb4 (fmul fr bad i) (fone fr) = false.
Proof. eexists. split; [vm_compute; reflexivity|vm_compute; reflexivity]. Qed.

Lemma bad_square_fr : eqb4 (fsquare fr bad) (fmul fr bad bad) = false. Proof. vm_compute. reflexivity. Qed.
Lemma bad_square_fq : eqb4 (fsquare fq bad) (fmul fq bad bad) = false. Proof. vm_compute. reflexivity. Qed.
Lemma bad_reduced : val bad < R_MOD /\ val bad < Q_MOD.
Proof. rewrite R_MOD_val, Q_MOD_val. unfold val. rewrite Bval. vm_compute. intuition congruence. Qed.
