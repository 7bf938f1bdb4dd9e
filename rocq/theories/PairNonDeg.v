(** The pairing of the two generators is not one: the computation, with the products of Dig64.v, and its meaning. *)
From Coq Require Import ZArith List Bool Lia Field Ring Znumtheory.
From Verif Require Import LimbModel FieldModel FieldSpec FieldProofs FieldMore Primes
  Algebra ExtModel ExtSpec ExtProofs ExtParams RingPow ExtFrob FinalExp PairingModel PairingFinal CurveOrder G2Order Dig64 PairNum PairNonDegData.
Import ListNotations.
Local Open Scope Z_scope.
Local Notation F := FqFld.
Add Field ndf : (kth F).

(** ** Integers times 64^43 modulo q. *)
Definition qz : Z := 21888242871839275222246405745257275088696311157297823662689037894645226208583.
Definition q_digits : list dg := [D7; D53; D15; D31; D24; D27; D1; D35; D32; D48; D19; D35; D10; D7; D7; D26; D17; D42; D22; D32; D23; D54; D5; D22; D1; D6; D40; D45; D5; D1; D5; D46; D41; D0; D26; D12; D33; D11; D39; D19; D36; D1; D3].
Definition wnrm (v : Z) : Z := v - Z.shiftr (Z.shiftr v 250 * 21) 8 * qz.
Definition wred (x : Z) : Z := wnrm (redc q_digits D9 x).
Lemma qz_ok : Q_MOD = qz. Proof. exact Q_MOD_val. Qed.
Definition phi (z : Z) : F := fq_mk (z * w_inv).
Definition psi (z : Z) : F := fq_mk (z * w_inv * w_inv).
Lemma fq_mk_kq a k : fq_mk (a + k * qz) = fq_mk a.
Proof. rewrite <- qz_ok. replace (k * Q_MOD) with (Q_MOD * k) by ring. rewrite fq_mk_add, fq_mk_q. ring. Qed.
Lemma phi_add a b : phi (a + b) = kadd (phi a) (phi b). Proof. unfold phi. rewrite Z.mul_add_distr_r. apply fq_mk_add. Qed.
Lemma psi_add a b : psi (a + b) = kadd (psi a) (psi b). Proof. unfold psi. rewrite !Z.mul_add_distr_r. apply fq_mk_add. Qed.
Lemma psi_mul a b : psi (Dig64.fmul a b) = kmul (phi a) (phi b).
Proof. unfold psi, phi. rewrite fmul_ok, <- fq_mk_mul. f_equal. ring. Qed.
Lemma phi_nrm x : phi (wnrm x) = phi x.
Proof. unfold phi, wnrm. generalize (Z.shiftr (Z.shiftr x 250 * 21) 8). intros k. rewrite <- (fq_mk_kq (x * w_inv) (- k * w_inv)). f_equal. ring. Qed.
Lemma w_inv_ok : (64 ^ 43 * w_inv) mod qz = 1. Proof. vm_compute. reflexivity. Qed.
Lemma w_one_inv : (w_one * w_inv) mod qz = 1. Proof. vm_compute. reflexivity. Qed.
Lemma mk_w : fq_mk (64 ^ 43 * w_inv) = fq_mk 1. Proof. rewrite <- fq_mk_mod, qz_ok, w_inv_ok. reflexivity. Qed.
Lemma mk_1 : fq_mk 1 = k1. Proof. rewrite <- g1_x. reflexivity. Qed.
Lemma phi_one : phi w_one = k1. Proof. unfold phi. rewrite <- fq_mk_mod, qz_ok, w_one_inv. exact mk_1. Qed.
Lemma phi_red x : phi (wred x) = psi x.
Proof.
  unfold wred. rewrite phi_nrm. unfold phi, psi.
  destruct (redc_ok q_digits D9 qz) with (x := x) as [k K]; [vm_compute; reflexivity|vm_compute; reflexivity|discriminate|].
  change (Z.of_nat (length q_digits)) with 43 in K. revert K. generalize (redc q_digits D9 x). intros y K.
  pose proof mk_w as W. revert K W. generalize w_inv (64 ^ 43). intros w m K W.
  transitivity (fq_mk (y * w * (m * w))).
  - rewrite (fq_mk_mul (y * w)), W, mk_1. ring.
  - replace (y * w * (m * w)) with (x * w * w + (k * w * w) * qz); [apply fq_mk_kq|].
    replace (y * w * (m * w)) with (y * m * w * w) by ring. rewrite K. ring.
Qed.
Notation zM := Dig64.fmul.
Definition nm12 : Z12 -> Z12 -> Z12 := m12 zM wred.
Definition ncsq : Z12 -> Z12 := csq zM wred wnrm.
Definition nfrob1 : Z12 -> Z12 := zfrob zM wred cj2 w_c61 w_u1 w_g1.
Definition nfrob2 : Z12 -> Z12 := zfrob zM wred (fun a => a) w_c62 w_u2 w_g2.
Notation p2 := (h2 F phi). Notation p12 := (h12 F phi).
Lemma nm12_ok a b : p12 (nm12 a b) = q12_mul F (p12 a) (p12 b). Proof. exact (m12_ok zM wred F phi psi phi_add psi_add psi_mul phi_red a b). Qed.
Lemma ncsq_ok a : p12 (ncsq a) = cyclotomic_square F (p12 a). Proof. exact (csq_ok zM wred wnrm F phi psi phi_add psi_add psi_mul phi_red phi_nrm a). Qed.
Lemma ncj_ok a : p12 (cj12 a) = q12_conj F (p12 a). Proof. exact (h12_conj F phi phi_add a). Qed.
Lemma t_c61 : nth 1 frob_fq6_c1 (q2_0 F) = p2 w_c61. Proof. apply raw_eqb_eq. vm_cast_no_check (eq_refl true). Qed.
Lemma t_c62 : nth 2 frob_fq6_c1 (q2_0 F) = p2 w_c62. Proof. apply raw_eqb_eq. vm_cast_no_check (eq_refl true). Qed.
Lemma t_u1 : nth 1 frob_fq6_c2 (q2_0 F) = p2 w_u1. Proof. apply raw_eqb_eq. vm_cast_no_check (eq_refl true). Qed.
Lemma t_u2 : nth 2 frob_fq6_c2 (q2_0 F) = p2 w_u2. Proof. apply raw_eqb_eq. vm_cast_no_check (eq_refl true). Qed.
Lemma t_g1 : nth 1 frob_fq12_c1 (q2_0 F) = p2 w_g1. Proof. apply raw_eqb_eq. vm_cast_no_check (eq_refl true). Qed.
Lemma t_g2 : nth 2 frob_fq12_c1 (q2_0 F) = p2 w_g2. Proof. apply raw_eqb_eq. vm_cast_no_check (eq_refl true). Qed.
Lemma t_xih : xi_to_q_minus_1_over_2 = p2 w_xih. Proof. apply raw_eqb_eq. vm_cast_no_check (eq_refl true). Qed.
Lemma t_gx : g2_generator_x = p2 w_gx. Proof. apply raw_eqb_eq. vm_cast_no_check (eq_refl true). Qed.
Lemma t_gy : g2_generator_y = p2 w_gy. Proof. apply raw_eqb_eq. vm_cast_no_check (eq_refl true). Qed.
Lemma nfrob2_ok a : p12 (nfrob2 a) = frob12s (p12 a) 2.
Proof.
  refine (zfrob_ok zM wred F phi psi phi_add psi_add psi_mul phi_red frob_fq2_c1 frob_fq6_c1 frob_fq6_c2 frob_fq12_c1 2 (fun a => a) w_c62 w_u2 w_g2 _ t_c62 t_u2 t_g2 a).
  intros b. symmetry. exact (frob2s_even (p2 b) 2 eq_refl).
Qed.
Section FrobGen.
Variable G : Fld.
Add Field ndg : (kth G).
Lemma frobs_1_gen (tab : list G) : q2_frobs G tab (Q2 k0 k1) 1 = Q2 k0 (kopp k1) -> forall b, q2_frobs G tab b 1 = q2_conj G b.
Proof.
  intros E b. destruct b as [x y]. unfold q2_frobs, q2_conj in *. cbn [c0 c1] in *. apply (f_equal c1) in E. cbn [c1] in E. apply q2_eq; cbn [c0 c1]; [reflexivity|].
  transitivity (kmul y (kmul k1 (nth (1 mod 2) tab k0))); [ring|]. rewrite E. ring.
Qed.
End FrobGen.
Lemma frob_unit : q2_frobs F frob_fq2_c1 (Q2 k0 k1) 1 = Q2 k0 (kopp k1). Proof. apply raw_eqb_eq. vm_cast_no_check (eq_refl true). Qed.
Lemma frob2s_1 (b : q2 F) : frob2s b 1 = q2_conj F b.
Proof. exact (frobs_1_gen F frob_fq2_c1 frob_unit b). Qed.
Lemma nfrob1_ok a : p12 (nfrob1 a) = frob12s (p12 a) 1.
Proof.
  refine (zfrob_ok zM wred F phi psi phi_add psi_add psi_mul phi_red frob_fq2_c1 frob_fq6_c1 frob_fq6_c2 frob_fq12_c1 1 cj2 w_c61 w_u1 w_g1 _ t_c61 t_u1 t_g1 a).
  intros b. rewrite (h2_conj F phi phi_add). symmetry. exact (frob2s_1 (p2 b)).
Qed.

(** ** The final exponentiation. *)
Definition dv (d : Z) : Z := if d =? 1 then 1 else if d =? -1 then -1 else 0.
Fixpoint zexp (ds : list Z) (z zi acc : Z12) : Z12 :=
  match ds with
  | [] => acc
  | d :: r => let t := ncsq acc in zexp r z zi (if d =? 1 then nm12 t z else if d =? -1 then nm12 t zi else t)
  end.
Definition nexp (z : Z12) : Z12 := zexp (tl x_naf) z (cj12 z) z.
Definition nhard (g : Z12) : Z12 :=
  let x1 := nexp g in let x2 := nexp x1 in let x3 := nexp x2 in
  let x2q := nfrob1 x2 in
  let y6 := nm12 (nm12 (ncsq (cj12 (nm12 x3 (nfrob1 x3)))) (cj12 (nm12 x1 x2q))) (cj12 x2) in
  let t1 := nm12 (nm12 (cj12 (nfrob1 x1)) (cj12 x2)) y6 in
  let t1 := ncsq (nm12 (ncsq t1) (nm12 y6 (nfrob2 x2))) in
  let gq2 := nfrob2 g in
  nm12 (ncsq (nm12 t1 (cj12 g))) (nm12 t1 (nm12 (nm12 (nfrob1 g) gq2) (nfrob1 gq2))).
Section Hard.
Variable g : F12.
Hypothesis GN : pz g NN = q12_1 F.
Definition At (z : Z12) (a : Z) : Prop := p12 z = pe g a.
Lemma at_mul z w a b : At z a -> At w b -> At (nm12 z w) (a + b). Proof. unfold At. intros A B. rewrite nm12_ok, A, B. exact (pe_add g GN a b). Qed.
Lemma at_csq z a : At z a -> At (ncsq z) (2 * a). Proof. unfold At. intros A. rewrite ncsq_ok, A. exact (pe_csq g GN a). Qed.
Lemma at_cj z a : At z a -> At (cj12 z) (- a). Proof. unfold At. intros A. rewrite ncj_ok, A. exact (pe_conj g GN a). Qed.
Lemma at_frob1 z a : At z a -> At (nfrob1 z) (a * Q_MOD). Proof. unfold At. intros A. rewrite nfrob1_ok, A, (pe_frobs g GN a 1). change (Z.of_nat 1) with 1. rewrite Z.pow_1_r. reflexivity. Qed.
Lemma at_frob2 z a : At z a -> At (nfrob2 z) (a * Q_MOD ^ 2). Proof. unfold At. intros A. rewrite nfrob2_ok, A. exact (pe_frobs g GN a 2). Qed.
Lemma at_zexp z a : At z a -> forall ds acc k, At acc (k * a) -> At (zexp ds z (cj12 z) acc) (fold_left (fun k d => 2 * k + dv d) ds k * a).
Proof.
  intros A. induction ds as [|d ds IH]; intros acc k H; [exact H|]. cbn [zexp fold_left]. cbv zeta. apply IH. unfold dv.
  destruct (d =? 1); [|destruct (d =? -1)].
  - replace ((2 * k + 1) * a) with (2 * (k * a) + a) by ring. apply at_mul; [apply at_csq, H|exact A].
  - replace ((2 * k + -1) * a) with (2 * (k * a) + - a) by ring. apply at_mul; [apply at_csq, H|apply at_cj, A].
  - replace ((2 * k + 0) * a) with (2 * (k * a)) by ring. apply at_csq, H.
Qed.
Lemma at_nexp z a : At z a -> At (nexp z) (BN_X * a).
Proof.
  intros A. unfold nexp. assert (E : BN_X = fold_left (fun k d => 2 * k + dv d) (tl x_naf) 1) by (vm_compute; reflexivity). rewrite E.
  apply at_zexp; [exact A|]. rewrite Z.mul_1_l. exact A.
Qed.
Lemma at_hard z : At z 1 -> At (nhard z) (fexp Q_MOD BN_X).
Proof.
  intros A. pose proof (at_nexp _ _ A) as X1. pose proof (at_nexp _ _ X1) as X2. pose proof (at_nexp _ _ X2) as X3.
  unfold nhard. revert X1 X2 X3. generalize (nexp (nexp (nexp z))) (nexp (nexp z)) (nexp z). intros x3 x2 x1 X1 X2 X3. cbv zeta.
  pose proof (at_mul _ _ _ _ (at_mul _ _ _ _ (at_csq _ _ (at_cj _ _ (at_mul _ _ _ _ X3 (at_frob1 _ _ X3)))) (at_cj _ _ (at_mul _ _ _ _ X1 (at_frob1 _ _ X2)))) (at_cj _ _ X2)) as Y6.
  revert Y6. generalize (nm12 (nm12 (ncsq (cj12 (nm12 x3 (nfrob1 x3)))) (cj12 (nm12 x1 (nfrob1 x2)))) (cj12 x2)). intros y6 Y6.
  pose proof (at_mul _ _ _ _ (at_mul _ _ _ _ (at_cj _ _ (at_frob1 _ _ X1)) (at_cj _ _ X2)) Y6) as T.
  pose proof (at_csq _ _ (at_mul _ _ _ _ (at_csq _ _ T) (at_mul _ _ _ _ Y6 (at_frob2 _ _ X2)))) as T'.
  revert T'. generalize (ncsq (nm12 (ncsq (nm12 (nm12 (cj12 (nfrob1 x1)) (cj12 x2)) y6)) (nm12 y6 (nfrob2 x2)))). intros t T'.
  exact (at_mul _ _ _ _ (at_csq _ _ (at_mul _ _ _ _ T' (at_cj _ _ A))) (at_mul _ _ _ _ T' (at_mul _ _ _ _ (at_mul _ _ _ _ (at_frob1 _ _ A) (at_frob2 _ _ A)) (at_frob1 _ _ (at_frob2 _ _ A))))).
Qed.
Lemma hard_val z : At z 1 -> 0 <= NN / R_MOD -> p12 (nhard z) = pz g (NN / R_MOD).
Proof.
  intros A DP. transitivity (pe g (fexp Q_MOD BN_X)); [exact (at_hard z A)|].
  transitivity (pe g (NN / R_MOD)); [exact (pe_mod g _ _ fexp_val)|]. symmetry. exact (pe_red g GN _ DP).
Qed.
End Hard.

(** ** The check. *)
Definition zmult (v : Z) : bool := v mod qz =? 0.
Definition z2_list (a : Z2) : list Z := let (x, y) := a in [x; y].
Definition z6_list (a : Z6) : list Z := let '(x, y, z) := a in z2_list x ++ z2_list y ++ z2_list z.
Definition z12_list (a : Z12) : list Z := let (x, y) := a in z6_list x ++ z6_list y.
Definition same12 (a b : Z12) : bool := forallb (fun p => zmult (fst p - snd p)) (combine (z12_list a) (z12_list b)).
Definition is_one (a : Z12) : bool := same12 a (zone w_one).
Definition not_one (a : Z12) : bool := match z12_list a with v :: _ => negb (zmult ((v - w_one) * w_inv)) | [] => false end.
Lemma zmult_phi a b : zmult (a - b) = true -> phi a = phi b.
Proof.
  unfold zmult. intros H. apply Z.eqb_eq in H. unfold phi. pose proof (Z.div_mod (a - b) qz ltac:(discriminate)) as D. rewrite H, Z.add_0_r in D.
  rewrite <- (fq_mk_kq (b * w_inv) ((a - b) / qz * w_inv)). f_equal. generalize dependent ((a - b) / qz). intros k D. generalize w_inv. intros w.
  replace a with (b + qz * k) by lia. ring.
Qed.
Lemma same12_ok a b : same12 a b = true -> p12 a = p12 b.
Proof.
  intros H. destruct a as [[[[a1 a2] [a3 a4]] [a5 a6]] [[[a7 a8] [a9 a10]] [a11 a12]]], b as [[[[b1 b2] [b3 b4]] [b5 b6]] [[[b7 b8] [b9 b10]] [b11 b12]]].
  unfold same12 in H. cbn [z12_list z6_list z2_list app combine forallb fst snd] in H. rewrite !andb_true_iff in H.
  destruct H as (H1 & H2 & H3 & H4 & H5 & H6 & H7 & H8 & H9 & H10 & H11 & H12 & _).
  cbn [h12 h6 h2].
  rewrite (zmult_phi _ _ H1), (zmult_phi _ _ H2), (zmult_phi _ _ H3), (zmult_phi _ _ H4), (zmult_phi _ _ H5), (zmult_phi _ _ H6),
    (zmult_phi _ _ H7), (zmult_phi _ _ H8), (zmult_phi _ _ H9), (zmult_phi _ _ H10), (zmult_phi _ _ H11), (zmult_phi _ _ H12). reflexivity.
Qed.
Lemma is_one_ok a : is_one a = true -> p12 a = q12_1 F.
Proof. intros H. rewrite <- (p12_one F phi phi_add w_one phi_one). exact (same12_ok _ _ H). Qed.
Lemma not_one_ok a : not_one a = true -> p12 a <> q12_1 F.
Proof.
  intros H E. rewrite <- (p12_one F phi phi_add w_one phi_one) in E. destruct a as [[[[a b] [c d]] [e f]] [[[g h] [i j]] [k l]]].
  unfold not_one in H. cbn [z12_list z6_list z2_list app] in H. unfold zone in E. cbn [h12 h6 h2] in E.
  apply (f_equal (fun u => fq_val (c0 (d0 (e0 u))))) in E. cbn [e0 d0 c0] in E. unfold phi in E. rewrite !fq_mk_val, qz_ok in E.
  apply negb_true_iff in H. unfold zmult in H. apply Z.eqb_neq in H. apply H. rewrite Z.mul_sub_distr_r.
  rewrite Zminus_mod, E, Z.sub_diag. reflexivity.
Qed.
Definition ncoeffs : list zcoeff := zprep zM wred wnrm w_c61 w_c62 w_xih w_one ate_digits w_gx w_gy.
Definition nmiller : option Z12 := zmiller zM wred w_one ate_digits ncoeffs.
Definition neasy (f finv : Z12) : Z12 := let h := nm12 finv (cj12 f) in nm12 (nfrob2 h) h.
Definition nd_verify (m : option Z12) (finv : Z12) : bool :=
  match m with
  | None => false
  | Some f => is_one (nm12 f finv) && same12 (nhard (neasy f finv)) w_e
  end.
Lemma nd_check_ok : nd_verify nmiller w_finv = true. Proof. vm_cast_no_check (eq_refl true). Qed.

Add Ring nd12 : (q12_ring F).
Lemma P6 : 0 <= Q_MOD ^ 6 - 1. Proof. pose proof (Z.pow_pos_nonneg Q_MOD 6 qpos). lia. Qed.
Lemma P2 : 0 <= Q_MOD ^ 2 + 1. Proof. pose proof (Z.pow_nonneg Q_MOD 2). pose proof qpos. lia. Qed.
Section Meaning.
Variables f finv : Z12.
Hypothesis FI : p12 (nm12 f finv) = q12_1 F.
Lemma fi_mul : q12_mul F (p12 finv) (p12 f) = q12_1 F.
Proof. rewrite <- FI, nm12_ok. ring. Qed.
Lemma f_nonzero : p12 f <> q12_0 F.
Proof.
  intros E. pose proof fi_mul as H. rewrite E in H. assert (B : q12_0 F = q12_1 F) by (rewrite <- H; ring).
  apply (f_equal (fun u => fq_val (c0 (d0 (e0 u))))) in B. cbn [e0 d0 c0 q12_0 q12_1 q6_0 q6_1 q2_0 q2_1] in B.
  rewrite fq_val_0, <- mk_1, fq_mk_val, qz_ok in B. discriminate B.
Qed.
Let P := (Q_MOD ^ 6 - 1) * (Q_MOD ^ 2 + 1).
Lemma P_nonneg : 0 <= P. Proof. exact (Z.mul_nonneg_nonneg _ _ P6 P2). Qed.
Lemma neasy_ok : p12 (neasy f finv) = pz (p12 f) P.
Proof.
  unfold neasy. cbv zeta. rewrite nm12_ok, nfrob2_ok, nm12_ok, ncj_ok. pose proof P6 as P6. pose proof qpos as QP.
  assert (E1 : q12_mul F (p12 finv) (q12_conj F (p12 f)) = pz (p12 f) (Q_MOD ^ 6 - 1)).
  { rewrite conj_pz. replace (Q_MOD ^ 6) with (1 + (Q_MOD ^ 6 - 1)) at 1 by ring. rewrite pz_add, pz_1 by lia.
    transitivity (q12_mul F (q12_mul F (p12 finv) (p12 f)) (pz (p12 f) (Q_MOD ^ 6 - 1))); [ring|]. rewrite fi_mul. ring. }
  rewrite E1, frob12s_pz. change (Z.of_nat 2) with 2. unfold P. rewrite (pz_mul (p12 f) (Q_MOD ^ 6 - 1) _ P6 P2).
  rewrite pz_add, pz_1 by (try apply Z.pow_nonneg; lia). reflexivity.
Qed.
Lemma nhard_ok : fe (p12 f) = Some (p12 (nhard (neasy f finv))).
Proof.
  rewrite (final_exp_pow _ f_nonzero). apply (f_equal Some). pose proof NNpos as NP. pose proof r_pos as RP. pose proof P_nonneg as PP.
  assert (GN : pz (pz (p12 f) P) NN = q12_1 F) by (rewrite <- pz_mul by lia; unfold P; rewrite fe_num2; apply pz_order, f_nonzero).
  pose proof (Z.div_pos NN R_MOD ltac:(lia) RP) as DP.
  assert (A : At (pz (p12 f) P) (neasy f finv) 1).
  { unfold At. rewrite neasy_ok. rewrite <- (pe_red _ GN 1) by lia. symmetry. apply pz_1. }
  transitivity (pz (pz (p12 f) P) (NN / R_MOD)); [rewrite <- fe_num; exact (pz_mul (p12 f) P (NN / R_MOD) PP DP)|].
  symmetry. exact (hard_val _ GN _ A DP).
Qed.
End Meaning.
Lemma prep_ok : ate_prepare (Aff2 F g2_generator_x g2_generator_y false) = Prep F (map (pc F phi) ncoeffs) false.
Proof.
  unfold ate_prepare. rewrite t_c61, t_c62, t_xih, t_gx, t_gy.
  exact (zprep_ok zM wred wnrm F phi psi phi_add psi_add psi_mul phi_red phi_nrm w_one phi_one w_c61 w_c62 w_xih ate_digits w_gx w_gy).
Qed.
Lemma g1_y2 : g1_generator_y = kadd k1 k1. Proof. rewrite g1_y, <- mk_1, <- fq_mk_add. reflexivity. Qed.
Lemma miller_ok : ate_multi [(Aff1 F g1_generator_x g1_generator_y false, ate_prepare (Aff2 F g2_generator_x g2_generator_y false))] =
  match nmiller with None => None | Some f => Some (p12 f) end.
Proof.
  rewrite prep_ok, g1_y2. change g1_generator_x with (k1 (f := F)).
  exact (zmiller_ok zM wred F phi psi phi_add psi_add psi_mul phi_red w_one phi_one ate_digits ncoeffs).
Qed.
Lemma w_e_not_one : not_one w_e = true. Proof. vm_cast_no_check (eq_refl true). Qed.
Lemma verify_meaning m finv : nd_verify m finv = true -> exists f, m = Some f /\ fe (p12 f) = Some (p12 w_e).
Proof.
  destruct m as [f|]; [|discriminate]. cbn [nd_verify]. intros H. apply andb_true_iff in H. destruct H as [A B].
  exists f. split; [reflexivity|]. rewrite <- (same12_ok _ _ B). exact (nhard_ok f finv (is_one_ok _ A)).
Qed.
Lemma nd_general g1 g2 m finv : ate_multi [(g1, ate_prepare g2)] = match m with None => None | Some f => Some (p12 f) end -> nd_verify m finv = true ->
  ate_pairing g1 g2 = Some (p12 w_e).
Proof.
  intros L V. destruct (verify_meaning m finv V) as (f & M & E).
  rewrite M in L. transitivity (bind (ate_multi [(g1, ate_prepare g2)]) fe); [reflexivity|]. rewrite L. exact E.
Qed.
Theorem generators_pairing_value : ate_pairing (Aff1 F g1_generator_x g1_generator_y false) (Aff2 F g2_generator_x g2_generator_y false) = Some (p12 w_e).
Proof. exact (nd_general _ _ nmiller w_finv miller_ok nd_check_ok). Qed.
Theorem generators_pairing : exists e, ate_pairing (Aff1 F g1_generator_x g1_generator_y false) (Aff2 F g2_generator_x g2_generator_y false) = Some e /\ e <> q12_1 F.
Proof. exists (p12 w_e). split; [exact generators_pairing_value|exact (not_one_ok _ w_e_not_one)]. Qed.
