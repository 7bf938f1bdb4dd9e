(** C45, C46: numbers of several limbs, natively and inside circuits. *)
From Coq Require Import ZArith List Bool Lia Field.
From Verif Require Import FieldSpec Algebra R1csModel R1csSpec R1csProofs GadgetProofs RangeProofs R1csShape ForgeProofs NovaModel NovaSpec NovaProofs NovaFields BigNatModel BigNatSpec HonestRun LimbVec BigNatProofs BigNatRun BigNatForge.
Import ListNotations.
Local Open Scope fld_scope.

Section Claims.
Variable F : pfield.
Variable p : Z.
Hypothesis OK : field_ok F p.
Let CF := fo_cf F p OK.
Notation val := (pf_val F).
Notation of := (pf_of F).
Implicit Types (cs : r1cs F).
Add Field clbn : (kth F).

(** ** Conversions *)
Lemma zev_base b ds : zeval b ds = base_value b ds.
Proof. induction ds as [|d ds IH]; [reflexivity|]. cbn [geval base_value]. rewrite IH. reflexivity. Qed.
Theorem C45_limbs_round_trip n w k : (1 <= w <= 253)%nat -> (0 <= n < 2 ^ (Z.of_nat k * Z.of_nat w))%Z ->
  exists limbs, nat_to_limbs F n w k = Some limbs /\ length limbs = k /\ Forall (fun l => (0 <= val l < 2 ^ Z.of_nat w)%Z) limbs /\
    base_value (2 ^ Z.of_nat w) (map val limbs) = n /\ limbs_to_nat F limbs w = n.
Proof.
  intros Hw H. exists (map of (digits w n k)). assert (PW : (2 ^ Z.of_nat w <= 2 ^ 253)%Z) by (apply Z.pow_le_mono_r; lia). pose proof (p_range F p OK) as PR.
  assert (DP : Forall (fun d => (0 <= d < p)%Z) (digits w n k)) by (eapply Forall_impl; [|apply digits_range]; cbn beta; intros; lia).
  assert (MV : map val (map of (digits w n k)) = digits w n k).
  { rewrite map_map. rewrite <- (map_id (digits w n k)) at 2. apply map_ext_in. intros d I. rewrite Forall_forall in DP. apply (val_of F p OK), DP, I. }
  split; [apply nat_to_limbs_ok; [lia|exact H]|]. split; [rewrite map_length; apply digits_len|]. split; [|split].
  - apply Forall_forall. intros l I. apply in_map_iff in I as (d & <- & I). pose proof (digits_range w k n) as R. rewrite Forall_forall in R, DP. rewrite (val_of F p OK) by (apply DP, I). specialize (R d I). cbn beta in R. lia.
  - rewrite MV, <- zev_base. apply digits_val, H.
  - rewrite (limbs_value F p OK) by exact DP. apply digits_val, H.
Qed.
Theorem C45_limbs_refuse n w k : (2 ^ (Z.of_nat k * Z.of_nat w) <= n)%Z -> nat_to_limbs F n w k = None.
Proof.
  intros H. unfold nat_to_limbs. pose proof (bit_count_gt n _ H ltac:(lia)). destruct (Z.leb_spec (bit_count n) (Z.of_nat k * Z.of_nat w)); [lia|reflexivity].
Qed.
(** The converse conversion keeps the value of the limbs whatever they are. *)
Theorem C45_limbs_value_exact limbs w : limbs_to_nat F limbs w = base_value (2 ^ Z.of_nat w) (map val limbs).
Proof.
  replace limbs with (map of (map val limbs)) at 1 by (rewrite map_map; rewrite <- (map_id limbs) at 2; apply map_ext; intros v; apply (of_val F p OK)).
  rewrite (limbs_value F p OK); [apply zev_base|]. apply Forall_forall. intros d I. apply in_map_iff in I as (v & <- & _). apply (cf_range _ _ _ _ _ _ _ CF).
Qed.
Theorem C45_field_nat_round_trip : (forall v : F, nat_to_f F (val v) = Some v) /\
  (forall n, (0 <= n < 2 ^ 511)%Z -> exists v, nat_to_f F n = Some v /\ val v = (n mod p)%Z).
Proof.
  split.
  - intros v. pose proof (cf_range _ _ _ _ _ _ _ CF v). pose proof (p_range F p OK). rewrite nat_to_f_ok; [f_equal; apply (of_val F p OK)|]. assert (2 ^ 254 < 2 ^ 511)%Z by reflexivity. lia.
  - intros n H. exists (of n). split; [apply nat_to_f_ok, H|apply (fo_of F p OK)].
Qed.

(** ** Polynomials and groups *)
Lemma gev_poly (l : list F) X : geval 0 kadd kmul X l = poly_value l X.
Proof. induction l as [|c l IH]; [reflexivity|]. cbn [geval poly_value]. rewrite IH. reflexivity. Qed.
Theorem C45_polynomial_product cs (a b : list (row F)) : wf_cs cs -> Forall (row_ok cs) a -> Forall (row_ok cs) b -> a <> [] ->
  complete_at cs (poly_mul F a b) (fun cs' P => Forall (row_ok cs') P /\ length P = (length a + length b - 1)%nat) /\
  sound_at cs (poly_mul F a b) (fun s P => forall X, poly_value (map (lc s) P) X = poly_value (map (lc s) a) X * poly_value (map (lc s) b) X).
Proof.
  intros W HA HB HL. assert (LL : (0 < length a + length b)%nat) by (destruct a; [contradiction|cbn; lia]). pose proof (poly_mul_ok F True cs a b W HA HB LL) as H. split.
  - eapply complete_weaken; [apply (computes_complete F True cs _ _ _ I W H)|]. cbn beta. intros cs' P W' [O V]. split; [exact O|]. apply (f_equal (@length _)) in V. rewrite gproduct_len, !map_length in V. exact V.
  - intros P cs' E s HS X. rewrite <- !gev_poly. rewrite (computes_sound F True cs _ _ _ H P cs' E s HS). apply (geval_product _ _ _ _ _ (fld_sr F)).
Qed.
(** Grouping keeps the value in base [2^w] for an honest prover; in a general assignment, in some base the
    prover may choose. *)
Theorem C45_grouping_value cs (a : bignat F) g : wf_cs cs -> Forall (row_ok cs) (bn_limbs a) -> bn_limbs a <> [] -> (0 < g)%nat ->
  complete_at cs (bn_group_limbs F a g) (fun cs' r =>
    length (bn_limbs r) = ((length (bn_limbs a) - 1) / g + 1)%nat /\ bn_width r = (bn_width a * g)%nat /\
    poly_value (map (lc (own cs')) (bn_limbs r)) (kpow (pf_pow2 F (bn_width a)) g) = poly_value (map (lc (own cs)) (bn_limbs a)) (pf_pow2 F (bn_width a))) /\
  sound_at cs (bn_group_limbs F a g) (fun s r => exists X, poly_value (map (lc s) (bn_limbs r)) (kpow X g) = poly_value (map (lc s) (bn_limbs a)) X).
Proof.
  intros W HA HL HG. assert (LL : (0 < length (bn_limbs a))%nat) by (destruct (bn_limbs a); [contradiction|cbn; lia]). pose proof (group_ok F True cs a g W HA LL HG) as H.
  assert (GP : forall X n, gpow k1 kmul X n = kpow (X : F) n) by (intros X n; induction n as [|n IH]; cbn [gpow kpow]; [reflexivity|rewrite IH; ring]).
  split.
  - eapply complete_weaken; [apply (computes_complete F True cs _ _ _ I W H)|]. cbn beta. intros cs' r W' [(O & D & _ & V) _]. specialize (V I).
    split; [apply (f_equal (@length _)) in V; rewrite ggroup_len, !map_length in V; exact V|]. split; [exact D|]. rewrite V, <- !gev_poly, <- GP. apply (geval_group _ _ _ _ _ (fld_sr F)), HG.
  - intros r cs' E s HS. destruct (computes_sound F True cs _ _ _ H r cs' E s HS) as [X V]. exists X. rewrite V, <- !gev_poly, <- GP. apply (geval_group _ _ _ _ _ (fld_sr F)), HG.
Qed.

(** ** Reduction *)
Lemma number_iff cs (a : bignat F) n : is_number cs a n <-> number F cs a n.
Proof.
  pose proof (p_range F p OK) as PR. assert (P64 : (2 ^ 64 < 2 ^ 253)%Z) by reflexivity. split.
  - intros (RO & L & RG & V & REST). set (ds := map (fun r => val (lc (own cs) r)) (bn_limbs a)) in *.
    assert (ZC : zcars F cs (bn_limbs a) ds) by (apply rows_zcars; [exact RO|]; unfold ds; rewrite map_map; apply map_ext; intros r; symmetry; apply (of_val F p OK)).
    assert (DR : Forall (fun d => (0 <= d < 2 ^ 64)%Z) ds) by (unfold ds; apply Forall_forall; intros d I; apply in_map_iff in I as (r & <- & I); rewrite Forall_forall in RG; apply (RG r I)).
    assert (LD : length ds = 4%nat) by (unfold ds; rewrite map_length; exact L). clearbody ds.
    assert (ED : ds = digits 64 n 4 /\ (0 <= n < 2 ^ 256)%Z).
    { destruct ds as [|d0 [|d1 [|d2 [|d3 [|]]]]]; try discriminate. inversion DR as [|? ? D0 DR1]; subst. inversion DR1 as [|? ? D1 DR2]; subst. inversion DR2 as [|? ? D2 DR3]; subst. inversion DR3 as [|? ? D3 _]; subst.
      cbn [base_value digits]. change (2 ^ Z.of_nat 64)%Z with (2 ^ 64)%Z. rewrite Z.mul_0_r, Z.add_0_r. change (2 ^ 256)%Z with (2 ^ 64 * 2 ^ 64 * 2 ^ 64 * 2 ^ 64)%Z. clear - D0 D1 D2 D3. revert D0 D1 D2 D3. generalize (2 ^ 64)%Z. intros B D0 D1 D2 D3.
      assert (DM : forall d r, (0 <= d < B)%Z -> ((d + B * r) mod B = d)%Z /\ ((d + B * r) / B = r)%Z).
      { intros d r D. replace (d + B * r)%Z with (r * B + d)%Z by ring. rewrite Z.div_add_l, Z.div_small, Z.add_0_r by lia. rewrite Z.add_comm, Z_mod_plus_full, Z.mod_small by lia. auto. }
      rewrite !(proj1 (DM _ _ D0)), !(proj2 (DM _ _ D0)), !(proj1 (DM _ _ D1)), !(proj2 (DM _ _ D1)), !(proj1 (DM _ _ D2)), !(proj2 (DM _ _ D2)). rewrite (Z.mod_small d3) by lia. split; [reflexivity|].
      assert (B1 : (0 <= d2 + B * d3 < B * B)%Z) by nia. assert (B2 : (0 <= d1 + B * (d2 + B * d3) < B * B * B)%Z) by nia. nia. }
    destruct ED as [-> RN]. split; [exact ZC|]. split; [exact RN|exact REST].
  - intros (ZC & RN & REST). destruct (zcars_rows F _ _ _ ZC) as [RO VO].
    assert (MV : map (fun r => val (lc (own cs) r)) (bn_limbs a) = digits 64 n 4).
    { rewrite <- map_map, VO, map_map. rewrite <- (map_id (digits 64 n 4)) at 2. apply map_ext_in. intros d I. pose proof (digits_p F p OK 4 n) as DP. rewrite Forall_forall in DP. apply (val_of F p OK), DP, I. }
    split; [exact RO|]. split; [rewrite (zcars_len F _ _ _ ZC); apply digits_len|]. split; [|split; [rewrite MV, <- zev_base; apply digits4, RN|exact REST]].
    apply Forall_forall. intros r I. apply (in_map (fun r => val (lc (own cs) r))) in I. rewrite MV in I. pose proof (digits_range 64 4 n) as DR. rewrite Forall_forall in DR. specialize (DR _ I). cbn beta in DR. change (2 ^ Z.of_nat 64)%Z with (2 ^ 64)%Z in DR. lia.
Qed.
Lemma sum_wide cs (a : bignat F) n : is_sum cs a n -> wide_number F cs a n.
Proof.
  intros (RO & L & RG & V & RN & XA & WA). set (ds := map (fun r => val (lc (own cs) r)) (bn_limbs a)) in *.
  assert (ZC : zcars F cs (bn_limbs a) ds) by (apply rows_zcars; [exact RO|]; unfold ds; rewrite map_map; apply map_ext; intros r; symmetry; apply (of_val F p OK)).
  assert (DR : Forall (fun d => (0 <= d <= bn_max_word a)%Z) ds) by (unfold ds; apply Forall_forall; intros d I; apply in_map_iff in I as (r & <- & I); rewrite Forall_forall in RG; apply (RG r I)).
  exists ds. split; [exact ZC|]. split; [unfold ds; rewrite map_length; exact L|]. split; [exact DR|]. split; [rewrite zev_base; exact V|]. split; [|auto].
  split; [|exact RN]. rewrite <- V, <- zev_base. clear - DR. induction DR as [|d ds D DR IH]; [cbn; lia|]. cbn [geval]. nia.
Qed.
Lemma wide_sum cs (a : bignat F) n : wide_number F cs a n -> is_sum cs a n.
Proof.
  intros (ds & ZC & L & DR & V & RN & XA & WA). destruct (zcars_rows F _ _ _ ZC) as [RO VO].
  assert (MV : map (fun r => val (lc (own cs) r)) (bn_limbs a) = ds).
  { rewrite <- map_map, VO, map_map. rewrite <- (map_id ds) at 2. apply map_ext_in. intros d I. rewrite Forall_forall in DR. apply (val_of F p OK). specialize (DR d I). cbn beta in DR. pose proof (p_range F p OK). assert (2 ^ 65 < 2 ^ 253)%Z by reflexivity. destruct XA as [X|X]; lia. }
  split; [exact RO|]. split; [rewrite (zcars_len F _ _ _ ZC); exact L|]. split; [|split; [rewrite MV, <- zev_base; exact V|split; [apply RN|auto]]].
  apply Forall_forall. intros r I. apply (in_map (fun r => val (lc (own cs) r))) in I. rewrite MV in I. rewrite Forall_forall in DR. apply (DR _ I).
Qed.
(** Honest provers: the gadgets succeed, all gates hold and the results are right. *)
Theorem C46_mult_mod_complete cs (a b m : bignat F) u v n : wf_cs cs -> is_number cs a u -> is_number cs b v -> is_number cs m n -> n <> 0%Z ->
  complete_at cs (bn_mult_mod F a b m) (fun cs' r => is_number cs' r ((u * v) mod n)).
Proof.
  intros W HA HB HM N. apply number_iff in HA, HB, HM. apply runs_complete; [exact W|]. eapply runs_weaken; [apply (run_mult_mod F p OK cs a b m u v n W HA HB HM); destruct HM as (_ & R & _); lia|].
  cbn beta. intros cs' r _ _ H. apply number_iff, H.
Qed.
Theorem C46_red_mod_complete cs (a m : bignat F) u n : wf_cs cs -> is_sum cs a u -> is_number cs m n -> n <> 0%Z ->
  complete_at cs (bn_red_mod F a m) (fun cs' r => is_number cs' r (u mod n)).
Proof.
  intros W HA HM N. apply sum_wide in HA. apply number_iff in HM. apply runs_complete; [exact W|]. eapply runs_weaken; [apply (run_red_mod F p OK cs a m u n W HA HM); destruct HM as (_ & R & _); lia|].
  cbn beta. intros cs' r _ _ H. apply number_iff, H.
Qed.
Theorem C46_add_sum cs (a b : bignat F) u v : is_number cs a u -> is_number cs b v -> (u + v < 2 ^ 256)%Z -> exists r, bn_add F a b = Some r /\ is_sum cs r (u + v).
Proof.
  intros HA HB H. apply number_iff in HA, HB. destruct (add_number F p OK cs a b u v HA HB H) as (r & E & HR). exists r. split; [exact E|apply wide_sum, HR].
Qed.
Theorem C46_number_of_field cs f : wf_cs cs -> row_ok cs f -> complete_at cs (bn_from_field F f 64 4) (fun cs' a => is_number cs' a (val (lc (own cs) f))).
Proof.
  intros W HF. apply runs_complete; [exact W|]. eapply runs_weaken; [apply (run_from_field F p OK cs f (lc (own cs) f) W); split; [exact HF|reflexivity]|]. cbn beta. intros cs' a _ _ H. apply number_iff, H.
Qed.
Theorem C46_number_witness cs n : wf_cs cs -> (0 <= n < 2 ^ 256)%Z -> complete_at cs (bn_witness F n 64 4) (fun cs' a => is_number cs' a n).
Proof.
  intros W H. apply runs_complete; [exact W|]. eapply runs_weaken; [apply (run_number F cs n W H)|]. cbn beta. intros cs' a _ _ R. apply number_iff, R.
Qed.
Theorem C46_select_number cs (a b : bignat F) u v c e : wf_cs cs -> is_number cs a u -> is_number cs b v -> in_range cs c -> own cs c = kbit F e ->
  complete_at cs (bn_conditional_select F a b c) (fun cs' r => is_number cs' r (if e then u else v)).
Proof.
  intros W HA HB RC VC. apply number_iff in HA, HB. apply runs_complete; [exact W|]. eapply runs_weaken; [apply (run_bn_select F cs a b u v c e W HA HB); split; assumption|]. cbn beta. intros cs' r _ _ H. apply number_iff, H.
Qed.
(** Adversaries: nothing ties the result to the operands.  The supposed constants of the carry chain
    (base, offset, accumulated offset) are free witnesses. *)
Theorem C46_red_mod_any_result_refuted cs (a m : bignat F) u n (target : list F) : wf_cs cs -> is_number cs a u -> is_number cs m n -> n <> 0%Z -> length target = 4%nat ->
  admits cs (bn_red_mod F a m) (fun s r => map (lc s) (bn_limbs r) = target).
Proof.
  intros W HA HM N HT. apply number_iff in HA, HM. pose proof HM as (CM & RM & NM & XM & WM & LM). pose proof HA as (CA & RA & NA & XA & WA & LA).
  apply (admits_by1 F cs _ _ _ W (run_red_mod F p OK cs a m u n W (number_wide F cs a u HA) HM ltac:(lia))). intros s HS.
  set (ts := map val target). set (ql := ((bn_n_bits F a - 0 - 1) / 64 + 1)%nat).
  exists (bind (div_adv F ts ql) (fun qr => bind (bn_recompose F (fst qr) m (snd qr) 64) (fun right => bind (regroup_adv F a right) (fun _ => ret (snd qr))))). split.
  - unfold bn_red_mod. apply s1_guard. intros _. rewrite WA. apply s1_bind; [apply (s1_div F p OK); [apply reads_bn|exact NM|rewrite (zcars_len F _ _ _ CM); apply digits_len|unfold ts; rewrite map_length; exact HT]|]. intros qr.
    apply s1_bind; [apply s1_of, sh_recompose|]. intros right. apply s1_bind; [apply (s1_regroup F p OK)|]. intros _. apply s1_ret.
  - assert (W' : wf_cs (with_values F s cs)) by (apply wv_wf; [exact W|apply HS]).
    assert (LIFT : forall l ns, zcars F cs l ns -> zcars F (with_values F s cs) l (map (fun r => val (lc s r)) l)).
    { intros l ns Z. destruct (zcars_rows F _ _ _ Z) as [RO _]. apply rows_zcars; [revert RO; apply Forall_impl; intros r; apply wv_ok|]. rewrite map_map.
      clear Z. induction RO as [|r l O RO IH]; [reflexivity|]. cbn [map]. rewrite IH, wv_lc, (of_val F p OK) by apply O. reflexivity. }
    pose proof (LIFT _ _ CA) as CA'. pose proof (LIFT _ _ CM) as CM'. apply zcars_len in CA, CM. rewrite digits_len in CA, CM.
    eapply runs_bind; [apply (run_div_adv F p OK _ ts ql W')|]. intros qr cs1 W1 U1 (HQ & HR & XQ & XR). apply (cars_up F _ _ _ _ U1) in CA'. apply (cars_up F _ _ _ _ U1) in CM'.
    eapply runs_weaken; [apply (run_forged F p OK cs1 a m (fst qr) (snd qr) _ _ ts ql W1 CA' CM' HQ HR); try assumption|].
    + rewrite XA. reflexivity.
    + unfold ql, bn_n_bits. rewrite XA. left. vm_compute. reflexivity.
    + rewrite map_length. exact CM.
    + unfold ts. rewrite map_length. exact HT.
    + rewrite map_length, CA. unfold ql. lia.
    + apply Forall_forall. intros d I. apply in_map_iff in I as (r & <- & _). apply (cf_range _ _ _ _ _ _ _ CF).
    + apply Forall_forall. intros d I. apply in_map_iff in I as (r & <- & _). apply (cf_range _ _ _ _ _ _ _ CF).
    + cbn beta. intros cs' r _ _ H. destruct (zcars_rows F _ _ _ H) as [_ V]. rewrite V. unfold ts. rewrite map_map. rewrite <- (map_id target) at 2. apply map_ext. intros v. apply (of_val F p OK).
Qed.
Theorem C46_mult_mod_any_result_refuted cs (a b m : bignat F) u v n (target : list F) : wf_cs cs -> is_number cs a u -> is_number cs b v -> is_number cs m n -> n <> 0%Z -> length target = 4%nat ->
  admits cs (bn_mult_mod F a b m) (fun s r => map (lc s) (bn_limbs r) = target).
Proof.
  intros W HA HB HM N HT. apply number_iff in HA, HB, HM. pose proof HM as (CM & RM & NM & XM & WM & LM). pose proof HA as (CA & RA & NA & XA & WA & LA). pose proof HB as (CB & RB & NB & XB & WB & LB).
  apply (admits_by1 F cs _ _ _ W (run_mult_mod F p OK cs a b m u v n W HA HB HM ltac:(lia))). intros s HS.
  set (ts := map val target). set (ql := ((bn_n_bits F a + bn_n_bits F b - 0 - 1) / 64 + 1)%nat).
  set (lw := (Z.of_nat (Nat.min (length (bn_limbs a)) (length (bn_limbs b))) * bn_max_word a * bn_max_word b)%Z).
  exists (bind (div_adv F ts ql) (fun qr => bind (poly_mul F (bn_limbs a) (bn_limbs b)) (fun left => bind (bn_recompose F (fst qr) m (snd qr) 64) (fun right => bind (regroup_adv F (bn_from_poly F left 64 lw) right) (fun _ => ret (snd qr)))))). split.
  - unfold bn_mult_mod. apply s1_guard. intros _. rewrite WA. apply s1_bind; [apply (s1_div F p OK); [|exact NM|rewrite (zcars_len F _ _ _ CM); apply digits_len|unfold ts; rewrite map_length; exact HT]|].
    { apply reads_bind; [apply reads_bn|]. intros x. apply reads_bind; [apply reads_bn|]. intros y. apply reads_ret. }
    intros qr. apply s1_bind; [apply s1_of, sh_poly_mul|]. intros left.
    apply s1_bind; [apply s1_of, sh_recompose|]. intros right. cbv zeta. apply s1_bind; [apply (s1_regroup F p OK)|]. intros _. apply s1_ret.
  - assert (W' : wf_cs (with_values F s cs)) by (apply wv_wf; [exact W|apply HS]).
    assert (LIFT : forall l ns, zcars F cs l ns -> zcars F (with_values F s cs) l (map (fun r => val (lc s r)) l)).
    { intros l ns Z. destruct (zcars_rows F _ _ _ Z) as [RO _]. apply rows_zcars; [revert RO; apply Forall_impl; intros r; apply wv_ok|]. rewrite map_map.
      clear Z. induction RO as [|r l O RO IH]; [reflexivity|]. cbn [map]. rewrite IH, wv_lc, (of_val F p OK) by apply O. reflexivity. }
    pose proof (LIFT _ _ CA) as CA'. pose proof (LIFT _ _ CB) as CB'. pose proof (LIFT _ _ CM) as CM'. apply zcars_len in CA, CB, CM. rewrite digits_len in CA, CB, CM.
    eapply runs_bind; [apply (run_div_adv F p OK _ ts ql W')|]. intros qr cs1 W1 U1 (HQ & HR & XQ & XR). apply (cars_up F _ _ _ _ U1) in CA'. apply (cars_up F _ _ _ _ U1) in CB'. apply (cars_up F _ _ _ _ U1) in CM'.
    eapply runs_bind; [apply (run_poly_mul F p OK cs1 _ _ _ _ W1 CA' CB'); rewrite map_length; lia|]. intros left cs2 W2 U2 HL. apply (cars_up F _ _ _ _ U2) in CM'. apply (cars_up F _ _ _ _ U2) in HQ. apply (cars_up F _ _ _ _ U2) in HR.
    eapply runs_weaken; [apply (run_forged F p OK cs2 (bn_from_poly F left 64 lw) m (fst qr) (snd qr) _ _ ts ql W2 HL CM' HQ HR); try assumption|].
    + reflexivity.
    + cbn [bn_from_poly bn_max_word]. unfold lw. rewrite CA, CB, XA, XB. reflexivity.
    + unfold ql, bn_n_bits. rewrite XA, XB. right. right. vm_compute. reflexivity.
    + rewrite map_length. exact CM.
    + unfold ts. rewrite map_length. exact HT.
    + rewrite gproduct_len, !map_length, CA, CB. unfold ql, bn_n_bits. rewrite XA, XB. vm_compute. lia.
    + apply Forall_forall. intros d I. apply in_map_iff in I as (r & <- & _). apply (cf_range _ _ _ _ _ _ _ CF).
    + apply Forall_forall. intros d I. apply in_map_iff in I as (r & <- & _). apply (cf_range _ _ _ _ _ _ _ CF).
    + cbn beta. intros cs' r _ _ H. destruct (zcars_rows F _ _ _ H) as [_ V]. rewrite V. unfold ts. rewrite map_map. rewrite <- (map_id target) at 2. apply map_ext. intros w. apply (of_val F p OK).
Qed.
End Claims.

(** ** Concrete cases, over the base field of bn254 *)
Definition FQ : pfield := fq_pf [].
Definition FQ_ok : field_ok FQ Q_MOD := fq_field_ok [].
(** [7], [12] and the modulus [10], allocated in an empty system. *)
Example numbers_exist : exists (cs : r1cs FQ) a b m, wf_cs cs /\ is_number cs a 7 /\ is_number cs b 12 /\ is_number cs m 10.
Proof.
  assert (H : runs (r1cs_default FQ) (bind (bn_witness FQ 7 64 4) (fun a => bind (bn_witness FQ 12 64 4) (fun b => bind (bn_witness FQ 10 64 4) (fun m => ret (a, b, m)))))
    (fun cs '(a, b, m) => number FQ cs a 7 /\ number FQ cs b 12 /\ number FQ cs m 10)).
  { eapply runs_bind; [apply run_number; [repeat split; repeat constructor|lia]|]. intros a cs1 W1 U1 H1. eapply runs_bind; [apply run_number; [exact W1|lia]|]. intros b cs2 W2 U2 H2.
    eapply runs_bind; [apply run_number; [exact W2|lia]|]. intros m cs3 W3 U3 H3. apply runs_ret; [exact W3|].
    split; [apply (number_up _ _ _ _ _ (above_trans _ _ _ _ U2 U3) H1)|]. split; [apply (number_up _ _ _ _ _ U3 H2)|exact H3]. }
  destruct H as ([[a b] m] & cs & _ & _ & W & _ & _ & HA & HB & HM). exists cs, a, b, m. split; [exact W|]. split; [apply (number_iff _ _ FQ_ok), HA|]. split; [apply (number_iff _ _ FQ_ok), HB|apply (number_iff _ _ FQ_ok), HM].
Qed.
(** The honest product of 7 and 12 modulo 10 is 4; an adversary makes it 9, or four limbs that are all [-1]. *)
Example mult_mod_case : exists (cs : r1cs FQ) a b m,
  complete_at cs (bn_mult_mod FQ a b m) (fun cs' r => is_number cs' r 4) /\
  admits cs (bn_mult_mod FQ a b m) (fun s r => map (lc s) (bn_limbs r) = [pf_of FQ 9; 0; 0; 0]) /\
  admits cs (bn_mult_mod FQ a b m) (fun s r => map (lc s) (bn_limbs r) = [- k1; - k1; - k1; - k1]).
Proof.
  destruct numbers_exist as (cs & a & b & m & W & HA & HB & HM). exists cs, a, b, m. split; [|split].
  - exact (C46_mult_mod_complete FQ _ FQ_ok cs a b m 7 12 10 W HA HB HM ltac:(lia)).
  - apply (C46_mult_mod_any_result_refuted FQ _ FQ_ok cs a b m 7 12 10 _ W HA HB HM); [lia|reflexivity].
  - apply (C46_mult_mod_any_result_refuted FQ _ FQ_ok cs a b m 7 12 10 _ W HA HB HM); [lia|reflexivity].
Qed.
Example red_mod_case : exists (cs : r1cs FQ) a m,
  complete_at cs (bn_red_mod FQ a m) (fun cs' r => is_number cs' r 2) /\ admits cs (bn_red_mod FQ a m) (fun s r => map (lc s) (bn_limbs r) = [0; 0; k1; 0]).
Proof.
  destruct numbers_exist as (cs & a & b & m & W & HA & HB & HM). exists cs, b, m. split.
  - refine (C46_red_mod_complete FQ _ FQ_ok cs b m 12 10 W _ HM ltac:(lia)). apply (wide_sum _ _ FQ_ok), number_wide, (number_iff _ _ FQ_ok), HB.
  - apply (C46_red_mod_any_result_refuted FQ _ FQ_ok cs b m 12 10 _ W HB HM); [lia|reflexivity].
Qed.
Example sum_case : exists (cs : r1cs FQ) a b r, bn_add FQ a b = Some r /\ is_sum cs r 19.
Proof.
  destruct numbers_exist as (cs & a & b & m & W & HA & HB & _). destruct (C46_add_sum FQ _ FQ_ok cs a b 7 12 HA HB ltac:(lia)) as (r & E & H). exists cs, a, b, r. auto.
Qed.
Example limbs_case : exists l, nat_to_limbs FQ (2 ^ 100 + 3) 64 2 = Some l /\ limbs_to_nat FQ l 64 = (2 ^ 100 + 3)%Z /\ nat_to_limbs FQ (2 ^ 128) 64 2 = None.
Proof.
  destruct (C45_limbs_round_trip FQ _ FQ_ok (2 ^ 100 + 3) 64 2 ltac:(lia)) as (l & E & _ & _ & _ & V); [cbn; lia|]. exists l. split; [exact E|]. split; [exact V|]. apply C45_limbs_refuse. cbn. lia.
Qed.
