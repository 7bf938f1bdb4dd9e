(** Pedersen commitments, folding, satisfaction checks and the transfers between the two fields
    (C37-C41, C47).  The two drivers of the crate meet [driver_ok]: NovaFields.bn254_driver_ok and
    grumpkin_driver_ok. *)
From Coq Require Import ZArith List Bool Lia Field.
From Verif Require Import FieldModel FieldSpec FieldMore FieldProofs Primes Algebra GroupLib R1csModel R1csSpec R1csProofs Groth16Spec CurveParams ExtParams CurveOrder NovaModel NovaSpec NovaProofs NovaFields.
Import ListNotations.
Local Open Scope fld_scope.

Section Claims.
Variables (B S : pfield) (C : driver B S) (q p : Z).
Hypothesis OK : driver_ok C q p.
Add Field cnf : (kth S).
Notation pt := (d_pt C).
Local Infix "+!" := aadd (at level 50, left associativity).
Let ML := do_mul _ _ _ OK. Let OB := do_base _ _ _ OK. Let OS := do_scalar _ _ _ OK.

(** ** C37 *)
Theorem C37_additive (g : list pt) (a b c : list S) : vadd a b = Some c -> commit C g c = commit C g a +! commit C g b.
Proof.
  intros E. assert (L : length a = length b) by (unfold vadd in E; destruct (Nat.eqb_spec (length a) (length b)); [assumption|discriminate]).
  destruct (vadd_ok S a b L) as (v & E' & Lv & N). rewrite E in E'. injection E' as <-.
  rewrite (commit_comb B S C ML g c a b 1 Lv L) by (intros i; rewrite N; ring). destruct ML as (_ & _ & _ & M1). rewrite M1. reflexivity.
Qed.
Theorem C37_scales (g : list pt) (a : list S) (r : S) : commit C g (vscale a r) = d_mul C (commit C g a) r.
Proof. apply (commit_scale B S C ML); [apply length_vscale|intros i; apply nth_vscale]. Qed.
(** A position beyond the generators changes nothing. *)
Theorem C37_truncates (g : list pt) (m extra : list S) : length m = length g -> commit C g (m ++ extra) = commit C g m.
Proof.
  revert m. induction g as [|g0 g IH]; intros [|v m] L; try discriminate; [rewrite !commit_nil_l; reflexivity|].
  cbn [app]. rewrite !commit_cons, IH by (cbn in L; congruence). reflexivity.
Qed.
Theorem C37_not_binding_beyond (g : list pt) (m : list S) : (length g < length m)%nat -> exists m', length m' = length m /\ m' <> m /\ commit C g m' = commit C g m.
Proof.
  intros L. rewrite <- (firstn_skipn (length g) m). assert (L1 : length (firstn (length g) m) = length g) by (rewrite firstn_length; lia).
  assert (L2 : length (skipn (length g) m) <> O) by (rewrite skipn_length; lia).
  destruct (skipn (length g) m) as [|x l]; [exfalso; exact (L2 eq_refl)|]. exists (firstn (length g) m ++ (x + 1) :: l).
  split; [rewrite !app_length; reflexivity|]. split; [|rewrite !C37_truncates by exact L1; reflexivity].
  intros E. apply app_inv_head in E. injection E as E. apply (k1_neq0 S). transitivity (x + 1 - x); [ring|]. rewrite E. ring.
Qed.

(** ** C38, C39 *)
Variable sh : shape S.
Hypothesis W : wf_shape sh.
Theorem C38_folding_preserves (g : list pt) (U : rinst C) (V : rwit S) (i2 : inst C) (w2 : list S) : relaxed_pair sh g U V -> strict_pair sh g i2 w2 ->
  exists t, compute_cross_term sh U V i2 w2 = Some t /\ forall r, exists U' V',
    fold_inst U i2 r (commit C g t) = Some U' /\ fold_wit V w2 r t = Some V' /\ relaxed_pair sh g U' V'.
Proof. apply (fold_preserves B S C ML sh W). Qed.
Theorem C38_prove (g : list pt) (U : rinst C) (V : rwit S) (i2 : inst C) (w2 : list S) : relaxed_pair sh g U V -> strict_pair sh g i2 w2 ->
  exists U' V' T, fold_prove sh g U V i2 w2 = Some (U', V', T) /\ relaxed_pair sh g U' V'.
Proof.
  intros H1 H2. destruct (C38_folding_preserves g U V i2 w2 H1 H2) as (t & E & H).
  destruct (challenge_total B S C p q OB OS (commit C g t) U) as (r & Er & _). destruct (H r) as (U' & V' & E1 & E2 & H3).
  exists U', V', (commit C g t). unfold fold_prove. rewrite E, Er, E1, E2. split; [reflexivity|exact H3].
Qed.
(** A fresh instance, read as a relaxed one, is one: the first step of the folding. *)
Theorem C38_relax (g : list pt) (i : inst C) (w : list S) : strict_pair sh g i w -> relaxed_pair sh g (from_r1cs_instance i) (from_r1cs_witness sh w).
Proof.
  intros (L1 & L2 & H & O). split; [split; [exact L1|split; [exact L2|apply repeat_length]]|]. cbn. split; [exact H|]. split; [exact O|].
  symmetry. apply (commit_zeros B S C ML).
Qed.
(** The dummy pair the folding of the other curve starts from is satisfied too. *)
Theorem C38_dummy (g : list pt) : relaxed_pair sh g (rinst_dummy C (sh_l sh)) (rwit_dummy (sh_w sh) (sh_m sh)).
Proof.
  split; [split; [|split]; apply repeat_length|]. cbn. split; [|split; symmetry; apply (commit_zeros B S C ML)].
  intros i _. assert (Z : forall rw : row S, lc (asg_of 0 (repeat 0 (sh_l sh)) (repeat 0 (sh_w sh))) rw = 0).
  { intros rw. rewrite (lc_scale S _ (fun _ => 0) 0) by (intros [[|j]|j]; cbn; rewrite ?nth_zeros; ring). ring. }
  rewrite !Z, nth_zeros. ring.
Qed.
Theorem C39_verifier_agrees (g : list pt) (U U' : rinst C) (V V' : rwit S) (i2 : inst C) (w2 : list S) T :
  fold_prove sh g U V i2 w2 = Some (U', V', T) -> fold_verify T U i2 = Some U'.
Proof.
  unfold fold_prove, fold_verify. destruct (compute_cross_term sh U V i2 w2) as [t|]; [|discriminate].
  destruct (challenge (commit C g t) U) as [r|] eqn:E; [|discriminate]. destruct (fold_inst U i2 r (commit C g t)) as [X|] eqn:EX; [|discriminate].
  destruct (fold_wit V w2 r t) as [Y|]; [|discriminate]. intros H. injection H as <- <- <-. rewrite E. exact EX.
Qed.

(** ** C40 *)
Theorem C40_special_soundness (g : list pt) (U : rinst C) (i2 : inst C) (T : pt) (r1 r2 r3 : S) U1 U2 U3 V1 V2 V3 :
  r1 <> r2 -> r1 <> r3 -> r2 <> r3 ->
  fold_inst U i2 r1 T = Some U1 -> fold_inst U i2 r2 T = Some U2 -> fold_inst U i2 r3 T = Some U3 ->
  relaxed_pair sh g U1 V1 -> relaxed_pair sh g U2 V2 -> relaxed_pair sh g U3 V3 ->
  collision C g \/ exists V w2, relaxed_pair sh g U V /\ strict_pair sh g i2 w2.
Proof.
  intros N12 N13 N23 F1 F2 F3 P1 P2 P3.
  destruct (special_sound B S C ML sh W g U i2 T r1 r2 r3 U1 U2 U3 V1 V2 V3 N12 N13 N23 F1 F2 F3 P1 P2 P3) as [H|[H1 H2]]; [left; exact H|right; eauto].
Qed.
(** The challenge is fixed before the second instance: one [r] for all of them. *)
Theorem C40_challenge_ignores_second (T : pt) (U : rinst C) : exists r, (0 <= pf_val S r < 2 ^ 128)%Z /\ forall i2, fold_verify T U i2 = fold_inst U i2 r T.
Proof.
  destruct (challenge_total B S C p q OB OS T U) as (r & E & R). exists r. split; [exact R|]. intros i2. unfold fold_verify. rewrite E. reflexivity.
Qed.
(** So, whatever the circuit: from one honest witness [x], [w] of the circuit and any error-free pair, one
    makes a second instance, with public inputs forced by the challenge, whose folding is satisfied. *)
Theorem C40_forging (g : list pt) (U : rinst C) (V : rwit S) (x w : list S) (r : S) :
  relaxed_pair sh g U V -> rw_e V = repeat 0 (sh_m sh) -> length x = sh_l sh -> length w = sh_w sh -> strict_holds sh x w ->
  challenge a0 U = Some r -> r <> 0 ->
  exists i2 U' V', (forall i, nth i (i_x i2) 0 = (nth i x 0 * (ri_u U + r) - nth i (ri_x U) 0) / r) /\ length (i_x i2) = sh_l sh /\
    fold_verify a0 U i2 = Some U' /\ relaxed_pair sh g U' V'.
Proof.
  intros ((L1 & L2 & L3) & H1 & O1 & O2) EZ Lx Lw HS EC NR. pose proof ML as (M1 & M2 & M3 & M4).
  set (u := ri_u U + r).
  set (mkv := fun (s a : list S) => map (fun '(s, a) => (s * u - a) / r) (combine s a)).
  assert (Nv : forall s a, length s = length a -> forall i, nth i (mkv s a) 0 = (nth i s 0 * u - nth i a 0) / r).
  { intros s a L. apply (nth_map2 S (fun s a => (s * u - a) / r)); [field; exact NR|exact L]. }
  assert (Lv : forall s a, length s = length a -> length (mkv s a) = length s) by (intros s a; apply (length_map2 S (fun s a => (s * u - a) / r))).
  set (x2 := mkv x (ri_x U)). set (w2 := mkv w (rw_w V)).
  assert (Lx2 : length x2 = sh_l sh) by (unfold x2; rewrite Lv; congruence). assert (Lw2 : length w2 = sh_w sh) by (unfold w2; rewrite Lv; congruence).
  set (i2 := mkInst (commit C g w2) x2 : inst C).
  destruct (fold_inst_ok B S C U i2 r a0) as (U' & EU & Eu & Ew & Ee & Lx' & Nx); [cbn; congruence|].
  exists i2, U', (mkRwit (vscale w u) (repeat 0 (sh_m sh))).
  split; [intros i; apply Nv; congruence|]. split; [exact Lx2|]. split; [unfold fold_verify; rewrite EC; exact EU|].
  assert (NX : forall i, nth i (ri_x U') 0 = nth i x 0 * u).
  { intros i. rewrite Nx. cbn [i_x i2]. unfold x2. rewrite Nv by congruence. field. exact NR. }
  assert (NW : forall i, nth i (vscale w u) 0 = nth i (rw_w V) 0 + nth i w2 0 * r).
  { intros i. rewrite nth_vscale. unfold w2. rewrite Nv by congruence. field. exact NR. }
  split; [split; [congruence|split; [cbn; rewrite length_vscale; exact Lw|apply repeat_length]]|]. cbn [rw_w rw_e]. split; [|split].
  - apply (relaxed_all S sh W); [apply repeat_length|]. intros i. rewrite nth_zeros, Eu. fold u.
    assert (SC : forall v, asg_of u (ri_x U') (vscale w u) v = asg_of 1 x w v * u).
    { intros [[|j]|j]; cbn; [ring|apply NX|apply nth_vscale]. }
    rewrite !(lc_scale S _ _ _ _ SC). rewrite (strict_all S sh W) in HS. specialize (HS i).
    match goal with |- ?a * u * (?b * u) = _ => transitivity (a * b * (u * u)); [ring|] end. rewrite HS. ring.
  - rewrite Ew, O1. cbn [i_w i2]. symmetry. apply (commit_comb B S C ML); [rewrite length_vscale; congruence|congruence|exact NW].
  - rewrite Ee, O2, EZ, (commit_zeros B S C ML), (mul_0_l B S C ML). apply aid.
Qed.

(** ** C41 *)
Theorem C41_relaxed_check (U : rinst C) (V : rwit S) : sized sh U V ->
  exists b, is_sat_relaxed sh U V = Some b /\ (b = true <-> relaxed_holds sh (ri_u U) (ri_x U) (rw_w V) (rw_e V)).
Proof. apply (is_sat_relaxed_ok B S C sh W). Qed.
Theorem C41_strict_check (g : list pt) (i : inst C) (w : list S) : length (i_x i) = sh_l sh -> length w = sh_w sh ->
  exists b, is_sat_single sh g i w = Some b /\ (b = true <-> strict_pair sh g i w).
Proof. apply (is_sat_single_ok B S C sh W (do_eq _ _ _ OK)). Qed.
(** Any instance is accepted, with any witness vector of the right length and a suitable error vector. *)
Theorem C41_any_instance_accepted (U : rinst C) (w : list S) : length (ri_x U) = sh_l sh -> length w = sh_w sh ->
  exists e, is_sat_relaxed sh U (mkRwit w e) = Some true.
Proof.
  intros L1 L2. set (s := asg_of (ri_u U) (ri_x U) w).
  exists (map (fun i => lc s (nth i (sh_a sh) []) * lc s (nth i (sh_b sh) []) - ri_u U * lc s (nth i (sh_c sh) [])) (seq 0 (sh_m sh))).
  match goal with |- is_sat_relaxed sh U ?V = _ => destruct (C41_relaxed_check U V) as (b & E & H) end.
  { split; [exact L1|]. split; [exact L2|]. cbn. rewrite map_length, seq_length. reflexivity. }
  rewrite E. apply (f_equal Some). apply H. cbn [rw_w rw_e]. intros i I. fold s.
  set (f := fun i => lc s (nth i (sh_a sh) []) * lc s (nth i (sh_b sh) []) - ri_u U * lc s (nth i (sh_c sh) [])).
  rewrite (nth_indep _ 0 (f O)) by (rewrite map_length, seq_length; exact I). rewrite map_nth, seq_nth by exact I. unfold f. rewrite Nat.add_0_l. ring.
Qed.
Theorem C41_commitments_unchecked (U : rinst C) (V : rwit S) (P Q : pt) : is_sat_relaxed sh (mkRinst P Q (ri_u U) (ri_x U)) V = is_sat_relaxed sh U V.
Proof. reflexivity. Qed.
Theorem C41_wrong_length_panics (U : rinst C) (V : rwit S) : length (ri_x U) = sh_l sh -> length (rw_w V) = sh_w sh -> length (rw_e V) <> sh_m sh -> is_sat_relaxed sh U V = None.
Proof. apply (is_sat_relaxed_panics B S C sh W). Qed.
End Claims.

(** The Fiat-Shamir transform fails on a concrete circuit: its public input must be zero or one. *)
Section Bit.
Variables (B S : pfield) (C : driver B S) (q p : Z).
Hypothesis OK : driver_ok C q p.
Add Field cnb : (kth S).
Definition bit_shape : shape S := mkShape 1 1 0 [[(Inst 1, 1)]] [[(Inst 1, 1)]] [[(Inst 1, 1)]].
Lemma bit_wf : wf_shape bit_shape.
Proof. repeat split. cbn. repeat constructor. Qed.
Lemma bit_holds (x : S) w : strict_holds bit_shape [x] w <-> x * x = x.
Proof.
  rewrite (strict_all S bit_shape bit_wf). assert (L : forall s : asg S, lc s [(Inst 1, 1)] = s (Inst 1)) by (intros s; rewrite lc_cons, lc_nil; ring).
  split.
  - intros H. specialize (H O). cbn [bit_shape sh_a sh_b sh_c nth] in H. rewrite !L in H. exact H.
  - intros H [|i]; cbn [bit_shape sh_a sh_b sh_c nth]; [rewrite !L; exact H|]. destruct i; rewrite !lc_nil; ring.
Qed.
Theorem C40_fiat_shamir_refuted (g : list (d_pt C)) :
  exists (U : rinst C) V i2 T U' V', relaxed_pair bit_shape g U V /\ (forall w, ~ strict_holds bit_shape (i_x i2) w) /\
    fold_verify T U i2 = Some U' /\ relaxed_pair bit_shape g U' V'.
Proof.
  pose proof (do_mul _ _ _ OK) as ML. pose proof (fo_cf _ _ (do_scalar _ _ _ OK)) as CF. pose proof (cf_two_neq _ _ _ _ _ _ _ CF) as two.
  set (U := from_r1cs_instance (mkInst a0 [0]) : rinst C). set (V := from_r1cs_witness bit_shape [] : rwit S).
  assert (PU : relaxed_pair bit_shape g U V).
  { apply (C38_relax B S C q p OK). split; [reflexivity|]. split; [reflexivity|]. split; [cbn [i_x]; apply bit_holds; ring|]. cbn [i_w]. rewrite commit_nil_r. reflexivity. }
  destruct (challenge_total B S C p q (do_base _ _ _ OK) (do_scalar _ _ _ OK) a0 U) as (r & Er & Rr).
  exists U, V. destruct (kdec S r 0) as [Z|NZ].
  - exists (mkInst a0 [1 + 1]), a0, U, V. split; [exact PU|]. split.
    + intros w H. cbn [i_x] in H. apply bit_holds in H. apply two. assert (E : (1 + 1) * ((1 + 1) - 1) = (0 : S)) by (transitivity ((1 + 1) * (1 + 1) - (1 + 1) : S); [ring|rewrite H; ring]).
      destruct (kmul_eq0 S _ _ E) as [D|D]; [exact D|]. exfalso. apply (k1_neq0 S). etransitivity; [|exact D]. ring.
    + split; [|exact PU]. unfold fold_verify. rewrite Er. unfold fold_inst. cbn [U from_r1cs_instance ri_x i_x vscale map vadd length Nat.eqb combine ri_w ri_e ri_u i_w].
      rewrite Z, !(mul_0_r B S C ML), aid. replace (1 + 0) with (1 : S) by ring. replace (0 + (1 + 1) * 0) with (0 : S) by ring. reflexivity.
  - destruct (C40_forging B S C q p OK bit_shape bit_wf g U V [1] [] r PU eq_refl eq_refl eq_refl (proj2 (bit_holds 1 []) ltac:(ring)) Er NZ) as (i2 & U' & V' & Nx & Lx & EV & PV).
    exists i2, a0, U', V'. split; [exact PU|]. split; [|split; [exact EV|exact PV]].
    intros w H. destruct (i_x i2) as [|x [|? ?]]; try discriminate Lx. apply bit_holds in H. pose proof (Nx O) as E. cbn in E.
    assert (X : x * (x - 1) = 0) by (transitivity (x * x - x); [ring|rewrite H; ring]).
    destruct (kmul_eq0 S _ _ X) as [D|D].
    + (* 1 + r = 0 *) assert (R1 : 1 + r = 0). { transitivity (x * r); [rewrite E; field; exact NZ|rewrite D; ring]. }
      apply (f_equal (pf_val S)) in R1. rewrite (cf_add _ _ _ _ _ _ _ CF), (cf_one _ _ _ _ _ _ _ CF), (cf_zero _ _ _ _ _ _ _ CF) in R1.
      pose proof (cf_p _ _ _ _ _ _ _ CF). pose proof (Z.pow_lt_mono_r 2 128 253). rewrite Z.mod_small in R1; lia.
    + apply (proj1 (ksub_eq0 S _ _)) in D. assert (1 * r = 1 + r) as R2. { transitivity (x * r); [rewrite D; reflexivity|]. rewrite E. field. exact NZ. }
      apply (k1_neq0 S). transitivity (1 + r - 1 * r); [ring|]. rewrite R2. ring.
Qed.
End Bit.

(** ** C47 *)
Section Transfer.
Variables (A B : pfield) (p q : Z).
Hypothesis OA : field_ok A p.
Hypothesis OB : field_ok B q.
Theorem C47_reduces x : pf_val B (transfer A B x) = (pf_val A x mod q)%Z.
Proof. apply (transfer_val A B p q OA OB). Qed.
Theorem C47_same x y : transfer A B x = transfer A B y <-> (pf_val A x mod q = pf_val A y mod q)%Z.
Proof.
  rewrite <- !C47_reduces. split; [intros ->; reflexivity|]. apply (cf_inj _ _ _ _ _ _ _ (fo_cf _ _ OB)).
Qed.
Theorem C47_injective_below x y : (pf_val A x < q)%Z -> (pf_val A y < q)%Z -> transfer A B x = transfer A B y -> x = y.
Proof.
  intros Hx Hy E. apply C47_same in E. pose proof (cf_range _ _ _ _ _ _ _ (fo_cf _ _ OA) x). pose proof (cf_range _ _ _ _ _ _ _ (fo_cf _ _ OA) y).
  rewrite !Z.mod_small in E by lia. apply (cf_inj _ _ _ _ _ _ _ (fo_cf _ _ OA)). exact E.
Qed.
Theorem C47_injective_iff : (forall x y, transfer A B x = transfer A B y -> x = y) <-> (p <= q)%Z.
Proof.
  pose proof (cf_p _ _ _ _ _ _ _ (fo_cf _ _ OA)). pose proof (cf_p _ _ _ _ _ _ _ (fo_cf _ _ OB)). split.
  - intros I. destruct (Z.le_gt_cases p q) as [L|L]; [exact L|]. exfalso.
    assert (E : pf_of A q = pf_of A 0). { apply I. apply C47_same. rewrite !(fo_of _ _ OA), (Z.mod_small q p), (Z.mod_0_l p), Z.mod_same, Z.mod_0_l by lia. reflexivity. }
    apply (f_equal (pf_val A)) in E. rewrite !(fo_of _ _ OA), Z.mod_small, Z.mod_0_l in E by lia. lia.
  - intros L x y. pose proof (cf_range _ _ _ _ _ _ _ (fo_cf _ _ OA) x). pose proof (cf_range _ _ _ _ _ _ _ (fo_cf _ _ OA) y). apply C47_injective_below; lia.
Qed.
Theorem C47_round_trip x : (pf_val A x < q)%Z -> transfer B A (transfer A B x) = x.
Proof.
  intros L. apply (cf_inj _ _ _ _ _ _ _ (fo_cf _ _ OA)). pose proof (cf_range _ _ _ _ _ _ _ (fo_cf _ _ OA) x).
  rewrite (transfer_val B A q p OB OA), C47_reduces, (Z.mod_small _ q), Z.mod_small by lia. reflexivity.
Qed.
End Transfer.
(** Scalars of G1 (Fr) embed into its base field (Fq), which is larger; the other direction is not injective. *)
Theorem C47_fr_to_fq cr cq x y : transfer (fr_pf cr) (fq_pf cq) x = transfer (fr_pf cr) (fq_pf cq) y -> x = y.
Proof.
  apply (proj2 (C47_injective_iff (fr_pf cr) (fq_pf cq) R_MOD Q_MOD (fr_field_ok cr) (fq_field_ok cq))). apply Z.leb_le. vm_cast_no_check (eq_refl true).
Qed.
Theorem C47_fq_to_fr cr cq : exists x y, x <> y /\ transfer (fq_pf cq) (fr_pf cr) x = transfer (fq_pf cq) (fr_pf cr) y.
Proof.
  assert (L : (R_MOD < Q_MOD)%Z) by (apply Z.ltb_lt; vm_cast_no_check (eq_refl true)). assert (R0 : (0 < R_MOD)%Z) by (apply Z.ltb_lt; vm_cast_no_check (eq_refl true)).
  exists (fq_mk R_MOD), (fq_mk 0). split.
  - intros E. apply (f_equal fq_val) in E. rewrite !fq_mk_val, Z.mod_small, Z.mod_0_l in E by lia. lia.
  - apply (C47_same _ _ Q_MOD R_MOD (fq_field_ok cq) (fr_field_ok cr)). change (pf_val (fq_pf cq)) with fq_val. rewrite !fq_mk_val, (Z.mod_small R_MOD Q_MOD), (Z.mod_0_l Q_MOD), Z.mod_same, Z.mod_0_l by lia. reflexivity.
Qed.

(** ** The hypotheses are met: both curves, the circuit above, and two of its satisfied instances. *)
Example C37_C47_drivers cr cq : driver_ok (bn254_driver cr cq) Q_MOD R_MOD /\ driver_ok (grumpkin_driver cr cq) R_MOD Q_MOD.
Proof. split; [apply bn254_driver_ok|apply grumpkin_driver_ok]. Qed.
Example C38_pairs cr cq (g : list (d_pt (bn254_driver cr cq))) :
  wf_shape (bit_shape (fr_pf cr)) /\
  relaxed_pair (C := bn254_driver cr cq) (bit_shape (fr_pf cr)) g (from_r1cs_instance (mkInst a0 [k0])) (from_r1cs_witness (bit_shape (fr_pf cr)) []) /\
  strict_pair (C := bn254_driver cr cq) (bit_shape (fr_pf cr)) g (mkInst a0 [k1]) [].
Proof.
  set (F := fr_pf cr). assert (SP : forall x : F, kmul x x = x -> strict_pair (C := bn254_driver cr cq) (bit_shape F) g (mkInst a0 [x]) []).
  { intros x E. split; [reflexivity|]. split; [reflexivity|]. split; [apply (proj2 (bit_holds F x [])); exact E|]. cbn [i_w]. rewrite commit_nil_r. reflexivity. }
  split; [apply bit_wf|]. split; [apply (C38_relax _ _ _ _ _ (bn254_driver_ok cr cq))|]; apply SP; apply (keqb_eq FrFld); vm_compute; reflexivity.
Qed.
