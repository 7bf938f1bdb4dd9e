(** The point gadgets of zkstd/src/circuit/gadget/curve.rs in the calculus of R1csProofs. *)
From Coq Require Import ZArith List Bool Lia Field.
From Verif Require Import Algebra CurveSpec CurveGroup WeierModel WeierProofs GroupLib CurveAb CompleteAdd R1csModel R1csSpec R1csProofs GadgetProofs RangeProofs.
Import ListNotations.
Local Open Scope fld_scope.

Section Pts.
Variable F : Fld.
Add Field pgfield : (kth F).
Variable HON : Prop.
Variable b3 : F.
Implicit Types (cs : r1cs F) (s : asg F) (p q : point_asg F).

(** The coordinates of a point assignment, and its rows being in order. *)
Definition pval s p : proj F := Prj (lc s (pa_x p)) (lc s (pa_y p)) (lc s (pa_z p)).
Definition pok cs p : Prop := row_ok cs (pa_x p) /\ row_ok cs (pa_y p) /\ row_ok cs (pa_z p).
Lemma grow_pok cs cs' new p : grow cs cs' new -> pok cs p -> pok cs' p.
Proof. intros Gr (A & B & C). split; [|split]; apply (grow_ok F _ _ _ _ Gr); assumption. Qed.
Lemma grow_pval cs cs' new p : grow cs cs' new -> pok cs p -> pval (own cs') p = pval (own cs) p.
Proof. intros Gr (A & B & C). unfold pval. rewrite !(grow_lc F _ _ _ _ Gr) by (apply A || apply B || apply C). reflexivity. Qed.

Ltac lcs_in H := unfold fa_plus, fa_minus, fa_bit in H;
  repeat first [ rewrite lc_add in H by nd | rewrite lc_sub in H by nd | rewrite lc_scale in H | rewrite lc_wire in H | rewrite lc_constant in H by assumption | rewrite lc_const in H by assumption ].
Ltac mulstep t G O :=
  let n := fresh "n" in let c := fresh "cs" in let W := fresh "W" in
  eapply computes_bind; [apply mul_ok; [assumption|rok|rok]|];
  intros t c n W G O _; lift G.

Lemma pa_add_ok cs p q : wf_cs cs -> pok cs p -> pok cs q ->
  computes HON cs (pa_add F b3 p q) (fun cs' r => pok cs' r) (fun s r => pval s r = complete_add F b3 (pval s p) (pval s q)).
Proof.
  intros W (HX1 & HY1 & HZ1) (HX2 & HY2 & HZ2). unfold pa_add, pval. destruct p as [x1 y1 z1], q as [x2 y2 z2]. cbn [pa_x pa_y pa_z] in *. cbv zeta.
  mulstep t0 G0 O0. mulstep t1 G1 O1. mulstep t2 G2 O2. mulstep t3 G3 O3. mulstep t4 G4 O4. mulstep t5 G5 O5. mulstep t6 G6 O6. mulstep t7 G7 O7.
  mulstep t8 G8 O8. mulstep t9 G9 O9. mulstep t10 G10 O10. mulstep t11 G11 O11. mulstep t12 G12 O12. mulstep t13 G13 O13.
  apply computes_ret; [assumption|split; [|split]; cbn [pa_x pa_y pa_z]; rok|].
  intros s S H13 H12 H11 H10 H9 H8 H7 H6 H5 H4 H3 H2 H1 H0. cbn [pa_x pa_y pa_z].
  lcs_in H13. lcs_in H12. lcs_in H11. lcs_in H10. lcs_in H9. lcs_in H8. lcs_in H7. lcs_in H6. lcs_in H5. lcs_in H4. lcs_in H3. lcs_in H2. lcs_in H1. lcs_in H0.
  unfold complete_add. cbn [jx jy jz]. apply proj_ext; lcs; rewrite ?H13, ?H12, ?H11, ?H10, ?H9, ?H8, ?H7, ?H6, ?H5, ?H4, ?H3, ?H2, ?H1, ?H0; ring.
Qed.
Lemma pa_double_ok cs p : wf_cs cs -> pok cs p ->
  computes HON cs (pa_double F b3 p) (fun cs' r => pok cs' r) (fun s r => pval s r = double_projective_point F b3 (pval s p)).
Proof.
  intros W (HX1 & HY1 & HZ1). unfold pa_double, pval. destruct p as [x1 y1 z1]. cbn [pa_x pa_y pa_z] in *. cbv zeta.
  mulstep t0 G0 O0. mulstep t1 G1 O1. mulstep t2 G2 O2. mulstep t3 G3 O3. mulstep t4 G4 O4. mulstep t5 G5 O5. mulstep t6 G6 O6. mulstep t7 G7 O7. mulstep t8 G8 O8.
  apply computes_ret; [assumption|split; [|split]; cbn [pa_x pa_y pa_z]; rok|].
  intros s S H8 H7 H6 H5 H4 H3 H2 H1 H0. cbn [pa_x pa_y pa_z].
  lcs_in H8. lcs_in H7. lcs_in H6. lcs_in H5. lcs_in H4. lcs_in H3. lcs_in H2. lcs_in H1. lcs_in H0.
  unfold double_projective_point, kdbl, ksq. cbn [jx jy jz]. cbv zeta. apply proj_ext; lcs; rewrite ?H8, ?H7, ?H6, ?H5, ?H4, ?H3, ?H2, ?H1, ?H0; ring.
Qed.
(** [select_identity]: the point when the bit is one, the identity when it is zero. *)
Lemma pa_select_ok cs p c : wf_cs cs -> pok cs p -> in_range cs c ->
  computes HON cs (pa_select_identity F p c) (fun cs' r => pok cs' r)
    (fun s r => pval s r = Prj (lc s (pa_x p) * s c) (lc s (pa_y p) * s c + (1 - s c)) (lc s (pa_z p) * s c)).
Proof.
  intros W (HX1 & HY1 & HZ1) HC. unfold pa_select_identity, pval. destruct p as [x1 y1 z1]. cbn [pa_x pa_y pa_z] in *. cbv zeta.
  mulstep t0 G0 O0. mulstep t1 G1 O1. mulstep t2 G2 O2.
  apply computes_ret; [assumption|split; [|split]; cbn [pa_x pa_y pa_z]; rok|].
  intros s S H2 H1 H0. cbn [pa_x pa_y pa_z]. lcs_in H2. lcs_in H1. lcs_in H0. apply proj_ext; lcs; rewrite ?H2, ?H1, ?H0; ring.
Qed.
Lemma pa_cond_select_ok cs p q c : wf_cs cs -> pok cs p -> pok cs q -> in_range cs c ->
  computes HON cs (pa_conditional_select F p q c) (fun cs' r => pok cs' r)
    (fun s r => (s c = 1 -> pval s r = pval s p) /\ (s c = 0 -> pval s r = pval s q)).
Proof.
  intros W (HX1 & HY1 & HZ1) (HX2 & HY2 & HZ2) HC. unfold pa_conditional_select, pval. destruct p as [x1 y1 z1], q as [x2 y2 z2]. cbn [pa_x pa_y pa_z] in *.
  eapply computes_bind; [apply select_ok; assumption|]. intros t0 cs1 n1 W1 G1 O1 _. lift G1.
  eapply computes_bind; [apply select_ok; assumption|]. intros t1 cs2 n2 W2 G2 O2 _. lift G2.
  eapply computes_bind; [apply select_ok; assumption|]. intros t2 cs3 n3 W3 G3 O3 _. lift G3.
  apply computes_ret; [assumption|split; [|split]; assumption|]. intros s S H2 H1 H0. cbn [pa_x pa_y pa_z].
  split; intros E; rewrite H2, H1, H0, E; apply proj_ext; ring.
Qed.
(** [assert_equal_public_point]. *)
Definition same_ratio (p q : proj F) : Prop := jx p * jz q = jx q * jz p /\ jy p * jz q = jy q * jz p.
Lemma pa_assert_ok cs p (q : proj F) : wf_cs cs -> pok cs p -> (HON -> same_ratio (pval (own cs) p) q) ->
  computes HON cs (pa_assert_equal_public_point F p q) (fun _ _ => True) (fun s _ => same_ratio (pval s p) q).
Proof.
  intros W (HX1 & HY1 & HZ1) H. unfold pa_assert_equal_public_point, pval, same_ratio in *. destruct p as [x1 y1 z1]. cbn [pa_x pa_y pa_z jx jy jz] in *.
  eapply computes_bind; [apply mul_ok; [assumption|rok|rok]|]. intros t0 cs1 n1 W1 G1 O1 R1. lift G1.
  eapply computes_bind; [apply mul_ok; [assumption|rok|rok]|]. intros t1 cs2 n2 W2 G2 O2 R2. lift G2.
  pose proof (own_one F cs1 W1) as OO1. pose proof (own_one F cs2 W2) as OO2.
  assert (G02 : grow cs cs2 (n1 ++ n2)) by (eapply grow_trans; eassumption).
  eapply computes_bind; [apply enforce_eq_ok; [assumption|rok|rok|]|].
  { intros h. rewrite (R2 h), (grow_lc F _ _ _ _ G2), (R1 h) by apply O1. lcs.
    rewrite (grow_lc F _ _ _ _ G1), (grow_lc F _ _ _ _ G02) by (apply HX1 || apply HZ1). apply (H h). }
  intros u cs3 n3 W3 G3 _ _. lift G3.
  eapply computes_bind; [apply mul_ok; [assumption|rok|rok]|]. intros t4 cs4 n4 W4 G4 O4 R4. lift G4.
  eapply computes_bind; [apply mul_ok; [assumption|rok|rok]|]. intros t5 cs5 n5 W5 G5 O5 R5. lift G5.
  pose proof (own_one F cs4 W4) as OO4. pose proof (own_one F cs5 W5) as OO5.
  assert (G04 : grow cs cs4 ((n1 ++ n2) ++ n3 ++ n4)) by (eapply grow_trans; [eassumption|eapply grow_trans; eassumption]).
  assert (G05 : grow cs cs5 (((n1 ++ n2) ++ n3 ++ n4) ++ n5)) by (eapply grow_trans; eassumption).
  eapply computes_weaken; [apply enforce_eq_ok; [assumption|rok|rok|]| |].
  { intros h. rewrite (R5 h), (grow_lc F _ _ _ _ G5), (R4 h) by apply O4. lcs.
    rewrite (grow_lc F _ _ _ _ G04), (grow_lc F _ _ _ _ G05) by (apply HY1 || apply HZ1). apply (H h). }
  - auto.
  - intros s u0 S E H5 H4 E2 H2 H1. lcs_in H1. lcs_in H2. lcs_in H4. lcs_in H5. split; [rewrite <- H1, <- H2; exact E2|rewrite <- H4, <- H5; exact E].
Qed.
Lemma pa_witness_ok cs (xv yv : F) inf : wf_cs cs ->
  computes HON cs (pa_witness F xv yv inf) (fun cs' r => pok cs' r /\ pval (own cs') r = Prj xv yv (if inf then 0 else 1)) (fun _ _ => True).
Proof.
  intros W. unfold pa_witness, pval. eapply computes_bind; [apply witness_ok, W|]. intros x cs1 n1 W1 G1 [O1 V1] _. lift G1.
  eapply computes_bind; [apply witness_ok, W1|]. intros y cs2 n2 W2 G2 [O2 V2] _. lift G2.
  eapply computes_bind; [apply witness_ok, W2|]. intros z cs3 n3 W3 G3 [O3 V3] _. lift G3.
  apply computes_ret; [assumption| |auto]. split; [split; [|split]; assumption|]. cbn [pa_x pa_y pa_z].
  rewrite V3, (grow_lc F _ _ _ y G3), V2 by apply O2. rewrite (grow_lc F _ _ _ x G3) by apply (grow_ok F _ _ _ _ G2 O1). rewrite (grow_lc F _ _ _ x G2), V1 by apply O1. reflexivity.
Qed.
Lemma pa_instance_ok cs (a : aff F) : wf_cs cs ->
  computes HON cs (pa_instance F a) (fun cs' r => pok cs' r /\ pval (own cs') r = Prj (ax a) (ay a) (if ainf a then 0 else 1)) (fun _ _ => True).
Proof.
  intros W. unfold pa_instance, pval. eapply computes_bind; [apply instance_ok, W|]. intros x cs1 n1 W1 G1 [O1 V1] _. lift G1.
  eapply computes_bind; [apply instance_ok, W1|]. intros y cs2 n2 W2 G2 [O2 V2] _. lift G2.
  eapply computes_bind; [apply instance_ok, W2|]. intros z cs3 n3 W3 G3 [O3 V3] _. lift G3.
  apply computes_ret; [assumption| |auto]. split; [split; [|split]; assumption|]. cbn [pa_x pa_y pa_z].
  rewrite V3, (grow_lc F _ _ _ y G3), V2 by apply O2. rewrite (grow_lc F _ _ _ x G3) by apply (grow_ok F _ _ _ _ G2 O1). rewrite (grow_lc F _ _ _ x G2), V1 by apply O1. reflexivity.
Qed.
(** [descale]: the honest result has [z] one (or is the identity); no more is enforced than that the
    result is a multiple chosen by the prover, or mixed with the identity. *)
Lemma pa_descale_ok cs p : wf_cs cs -> pok cs p ->
  computes HON cs (pa_descale F p)
    (fun cs' r => pok cs' r /\ (HON -> let '(Prj x y z) := pval (own cs) p in
       pval (own cs') r = if keqb z 0 then Prj 0 1 0 else Prj (x * kinv z) (y * kinv z) 1))
    (fun s r => exists i t, pval s r = Prj (lc s (pa_x p) * i * t) (lc s (pa_y p) * i * t + (1 - t)) t).
Proof.
  intros W HP. pose proof HP as (HX & HY & HZ). unfold pa_descale. destruct p as [x y z]. cbn [pa_x pa_y pa_z] in *.
  eapply computes_bind; [apply is_neq_ok; [assumption|assumption|rok]|]. intros tv cs1 n1 W1 G1 [O1 V1] _. lift G1.
  pose proof (own_one F cs W) as OO. rewrite lc_constant in V1 by assumption.
  apply value_bind; [apply (grow_ok F _ _ _ _ G1 HZ)|]. rewrite (grow_lc F _ _ _ _ G1) by apply HZ.
  eapply computes_bind; [apply witness_ok, W1|]. intros i cs2 n2 W2 G2 [O2 V2] _. lift G2.
  eapply computes_bind; [apply mul_ok; [assumption|rok|rok]|]. intros t0 cs3 n3 W3 G3 O3 R3. lift G3.
  eapply computes_bind; [apply mul_ok; [assumption|rok|rok]|]. intros t1 cs4 n4 W4 G4 O4 R4. lift G4.
  assert (G34 : grow cs3 cs4 n4) by exact G4. assert (G24 : grow cs2 cs4 (n3 ++ n4)) by (eapply grow_trans; eassumption).
  assert (G14 : grow cs1 cs4 (n2 ++ n3 ++ n4)) by (eapply grow_trans; eassumption).
  assert (G03 : grow cs cs3 (n1 ++ n2 ++ n3)) by (eapply grow_trans; [eassumption|eapply grow_trans; eassumption]).
  assert (G02 : grow cs cs2 (n1 ++ n2)) by (eapply grow_trans; eassumption).
  eapply computes_weaken; [apply (pa_select_ok cs4 (PA t0 t1 (fa_constant F 1)) tv W4); [split; [|split]; cbn [pa_x pa_y pa_z]; rok|assumption]| |].
  - intros cs' nw r W' G' O' R'. split; [exact O'|]. intros h. unfold pval at 1. cbn [pa_x pa_y pa_z].
    specialize (R' h). rewrite R'. cbn [pa_x pa_y pa_z]. pose proof (own_one F cs' W') as OO'. rewrite lc_constant by assumption.
    rewrite (grow_own F _ _ _ _ G') by assumption. rewrite (grow_own F _ _ _ _ G14) by assumption. rewrite V1.
    rewrite !(grow_lc F _ _ _ _ G') by (apply O4 || apply (grow_ok F _ _ _ _ G34 O3)). rewrite (R4 h).
    rewrite (grow_lc F _ _ _ t0 G4), (R3 h) by apply O3.
    rewrite (grow_lc F _ _ _ i G24), (grow_lc F _ _ _ i G3), V2 by apply O2.
    assert (G04 : grow cs cs4 (n1 ++ n2 ++ n3 ++ n4)) by (eapply grow_trans; eassumption).
    rewrite (grow_lc F _ _ _ _ G03), (grow_lc F _ _ _ _ G04) by (apply HX || apply HY).
    unfold kinvert, kis0. destruct (keqb_spec F (lc (own cs) z) 0) as [E|E]; cbn [negb kbit]; apply proj_ext; ring.
  - intros s r S H1 H4 H3 _ _. cbn [pa_x pa_y pa_z] in *. rewrite lc_constant in H1 by assumption. exists (lc s i), (s tv). rewrite H1, H4, H3. apply proj_ext; ring.
Qed.
End Pts.

(** ** Multiplication by a scalar *)
Section Scalar.
Variable F : Fld.
Add Field psfield : (kth F).
Variable HON : Prop.
Variables (b b3 : F).
Hypothesis Hb3 : b3 = b + b + b.
Hypothesis two : (1 + 1 : F) <> 0.
Hypothesis three : (1 + 1 + 1 : F) <> 0.
Hypothesis bnz : b <> 0.
Hypothesis no2 : forall x : F, x * x * x + b <> 0.
Notation onp := (on_proj_curve F b).
Notation C := (cgrp F b two three bnz).
Implicit Types (cs : r1cs F) (s : asg F) (p q : point_asg F).
Definition sp_step p (res : point_asg F) (bit : wire) : G F (point_asg F) :=
  bind (pa_double F b3 res) (fun res => bind (pa_select_identity F p bit) (fun q => pa_add F b3 res q)).
Lemma sp_step_ok cs p res bit : wf_cs cs -> pok F cs p -> pok F cs res -> in_range cs bit ->
  computes HON cs (sp_step p res bit) (fun cs' r => pok F cs' r)
    (fun s r => forall (c : bool) (P R : C), s bit = kbit F c -> onp (pval F s p) -> proj_pt F (pval F s p) = cval F b P ->
       onp (pval F s res) -> proj_pt F (pval F s res) = cval F b R ->
       onp (pval F s r) /\ proj_pt F (pval F s r) = cval F b (aadd (aadd R R) (if c then P else (a0 : C)))).
Proof.
  intros W HP HR HB. unfold sp_step. eapply computes_bind; [apply pa_double_ok; assumption|]. intros d cs1 n1 W1 G1 O1 _.
  eapply computes_bind; [apply pa_select_ok; [assumption|apply (grow_pok F _ _ _ _ G1 HP)|apply (grow_range F _ _ _ _ G1 HB)]|]. intros q cs2 n2 W2 G2 O2 _.
  eapply computes_weaken; [apply pa_add_ok; [assumption|apply (grow_pok F _ _ _ _ G2 O1)|assumption]| |]; [auto|].
  intros s r S E1 E2 E3 c P R HC HP1 HP2 HR1 HR2.
  destruct (double_complete F b b3 Hb3 two three bnz no2 _ HR1) as [D1 D2]. rewrite <- E3 in D1, D2.
  assert (Q : onp (pval F s q) /\ proj_pt F (pval F s q) = cval F b (if c then P else (a0 : C))).
  { rewrite E2, HC. destruct c; cbn [kbit].
    - assert (EQ : Prj (lc s (pa_x p) * 1) (lc s (pa_y p) * 1 + (1 - 1)) (lc s (pa_z p) * 1) = pval F s p) by (apply proj_ext; ring).
      rewrite EQ. split; assumption.
    - assert (EQ : Prj (lc s (pa_x p) * 0) (lc s (pa_y p) * 0 + (1 - 0)) (lc s (pa_z p) * 0) = Prj (0:F) 1 0) by (apply proj_ext; ring).
      rewrite EQ. split; [apply inf_on|apply inf_pt]. }
  destruct (complete_ok F b b3 Hb3 two three bnz no2 _ _ D1 (proj1 Q)) as [A1 A2]. rewrite E1. split; [exact A1|].
  rewrite A2, D2, HR2, (proj2 Q). reflexivity.
Qed.
Lemma sp_fold_ok p : forall ws cs res, wf_cs cs -> pok F cs p -> pok F cs res -> Forall (in_range cs) ws ->
  computes HON cs (fold_g (sp_step p) res ws) (fun cs' r => pok F cs' r)
    (fun s r => forall bs (P : C) k, is_bits s ws bs -> onp (pval F s p) -> proj_pt F (pval F s p) = cval F b P ->
       onp (pval F s res) -> proj_pt F (pval F s res) = cval F b (zmul (A := C) k P) ->
       onp (pval F s r) /\ proj_pt F (pval F s r) = cval F b (zmul (A := C) (k * 2 ^ Z.of_nat (length bs) + bval bs) P)).
Proof.
  induction ws as [|w ws IH]; intros cs res W HP HR HW; cbn [fold_g].
  - apply computes_ret; [exact W|exact HR|]. intros s S bs P k HB. inversion HB; subst. intros _ _ A B. cbn [length bval]. change (2 ^ Z.of_nat 0)%Z with 1%Z.
    rewrite Z.mul_1_r, Z.add_0_r. split; assumption.
  - inversion HW as [|? ? Hw HW']; subst. eapply computes_bind; [apply sp_step_ok; assumption|]. intros r cs1 n1 W1 G1 O1 _.
    eapply computes_weaken; [apply (IH cs1 r W1); [apply (grow_pok F _ _ _ _ G1 HP)|assumption|apply (grow_ranges F _ _ _ _ G1 HW')]| |]; [auto|].
    intros s r2 S E1 E2 bs P k HB HP1 HP2 HR1 HR2. inversion HB as [|? c ? bs' Hc HB']; subst.
    destruct (E2 c P (zmul (A := C) k P) Hc HP1 HP2 HR1 HR2) as [A1 A2].
    destruct (E1 bs' P (2 * k + Z.b2z c)%Z HB' HP1 HP2 A1) as [B1 B2].
    + rewrite A2, zmul_add, zmul_double. do 2 apply f_equal. destruct c; cbn [Z.b2z]; [rewrite zmul_1|rewrite zmul_0]; reflexivity.
    + split; [exact B1|]. rewrite B2. do 2 f_equal. cbn [length bval]. rewrite Nat2Z.inj_succ, Z.pow_succ_r by lia. ring.
Qed.
Variables (val : F -> Z) (p0 : Z) (bits : F -> list bool) (pow2 : nat -> F) (modulus : F) (nbits : nat).
Hypothesis CF : circuit_field F val p0 bits pow2 modulus nbits.
Lemma pa_scalar_ok cs p x : wf_cs cs -> pok F cs p -> row_ok cs x ->
  computes HON cs (pa_scalar_point F b3 bits pow2 modulus nbits p x)
    (fun cs' r => pok F cs' r /\ (HON -> onp (pval F (own cs) p) ->
       onp (pval F (own cs') r) /\ proj_pt F (pval F (own cs') r) = pt_zmul (val (lc (own cs) x)) (proj_pt F (pval F (own cs) p))))
    (fun s r => onp (pval F s p) -> exists k, (0 <= k < p0)%Z /\ onp (pval F s r) /\ proj_pt F (pval F s r) = pt_zmul k (proj_pt F (pval F s p))).
Proof.
  intros W HP HX. unfold pa_scalar_point. eapply computes_bind; [apply (to_bits_ok F HON _ _ _ _ _ _ CF); [assumption|assumption|lia]|].
  intros ws cs1 n1 W1 G1 (O1 & L1 & bs & B1 & V1) _.
  assert (PI : pok F cs1 (pa_identity F)) by (split; [|split]; cbn; apply (ok_constant F), W1).
  assert (KEY : forall s r bs0, s ONE = 1 -> is_bits s ws bs0 -> onp (pval F s p) ->
     (forall bs (P : C) k, is_bits s ws bs -> onp (pval F s p) -> proj_pt F (pval F s p) = cval F b P ->
       onp (pval F s (pa_identity F)) -> proj_pt F (pval F s (pa_identity F)) = cval F b (zmul (A := C) k P) ->
       onp (pval F s r) /\ proj_pt F (pval F s r) = cval F b (zmul (A := C) (k * 2 ^ Z.of_nat (length bs) + bval bs) P)) ->
     onp (pval F s r) /\ proj_pt F (pval F s r) = pt_zmul (bval bs0) (proj_pt F (pval F s p))).
  { intros s r bs0 S HB HPO H. pose proof (on_proj_on F b _ HPO) as ON.
    assert (EI : pval F s (pa_identity F) = Prj (0:F) 1 0) by (unfold pval, pa_identity; cbn [pa_x pa_y pa_z]; rewrite !lc_constant by exact S; reflexivity).
    destruct (H bs0 (cmk F b _ ON) 0%Z HB HPO eq_refl) as [A1 A2]; [rewrite EI; apply inf_on|rewrite EI; apply inf_pt|].
    split; [exact A1|]. rewrite A2. rewrite Z.mul_0_l, Z.add_0_l, cval_zmul. reflexivity. }
  eapply computes_weaken; [apply (sp_fold_ok p ws cs1 (pa_identity F) W1); [apply (grow_pok F _ _ _ _ G1 HP)|assumption|assumption]| |].
  - intros cs' nw r W' G' O' R'. split; [exact O'|]. intros h HPO. assert (G0 : grow cs cs' (n1 ++ nw)) by (eapply grow_trans; eassumption).
    rewrite <- (grow_pval F _ _ _ _ G0 HP) in HPO |- *.
    pose proof (KEY (own cs') r bs (own_one F cs' W') (is_bits_own F _ _ _ _ _ G' O1 B1) HPO (R' h)) as [A1 A2]. split; [exact A1|]. rewrite A2, V1. f_equal.
    change (Z.of_nat 256) with 256%Z. pose proof (cf_range _ _ _ _ _ _ _ CF (lc (own cs) x)). pose proof (cf_p _ _ _ _ _ _ _ CF) as PP.
    apply Z.mod_small. assert (2 ^ 254 < 2 ^ 256)%Z by (apply Z.pow_lt_mono_r; lia). lia.
  - intros s r S H (bs2 & B2 & V2) HPO. exists (bval bs2). pose proof (bval_range bs2). pose proof (bits_bound_lt F _ _ _ _ _ _ CF 256). split; [lia|].
    apply (KEY s r bs2 S B2 HPO H).
Qed.
Lemma assert_same (p q : proj F) : onp p -> onp q -> (same_ratio F p q <-> proj_pt F p = proj_pt F q).
Proof.
  intros [EP NP] [EQ NQ]. destruct p as [x1 y1 z1], q as [x2 y2 z2]. unfold same_ratio. cbn [jx jy jz] in *.
  assert (X0 : forall x y z : F, y * y * z = x * x * x + b * z * z * z -> z = 0 -> x = 0).
  { intros x y z E Z. subst z. assert (E' : x * x * x = 0) by (transitivity (x * x * x + b * 0 * 0 * 0); [ring|rewrite <- E; ring]).
    apply (kmul_eq0 F) in E' as [E'|E']; [apply (kmul_eq0 F) in E' as [E'|E']|]; exact E'. }
  destruct (kdec F z1 0) as [Z1|Z1], (kdec F z2 0) as [Z2|Z2].
  - rewrite !proj_pt_inf by assumption. split; [reflexivity|]. intros _. subst z1 z2. split; ring.
  - rewrite (proj_pt_inf _ _ _ _ Z1), (proj_pt_fin _ _ _ _ Z2). split; [|discriminate]. intros [A B]. exfalso. apply NP. subst z1.
    pose proof (X0 _ _ _ EP eq_refl) as X. split; [exact X|]. split; [|reflexivity].
    assert (E : y1 * z2 = 0) by (rewrite B; ring). apply (kmul_eq0 F) in E as [E|E]; [exact E|contradiction].
  - rewrite (proj_pt_inf _ _ _ _ Z2), (proj_pt_fin _ _ _ _ Z1). split; [|discriminate]. intros [A B]. exfalso. apply NQ. subst z2.
    pose proof (X0 _ _ _ EQ eq_refl) as X. split; [exact X|]. split; [|reflexivity].
    assert (E : y2 * z1 = 0) by (rewrite <- B; ring). apply (kmul_eq0 F) in E as [E|E]; [exact E|contradiction].
  - rewrite !proj_pt_fin by assumption. split.
    + intros [A B]. apply pt_ext; apply (ksub_eq0 F), kneq_div; assumption.
    + intros E. injection E as A B. split; apply kneq_div; assumption.
Qed.
End Scalar.
