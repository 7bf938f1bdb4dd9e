(** Property C65: the curve operations computed with the limb-level [square] of the base field, which loses a
    carry on some elements (property C02): when the results are the group's, and when they are not.
    Specification: CurveSpec.v ([on_curve], [pt_add], [pt_mul]); FieldSpec.v ([drops_carry]); the elements an
    operation squares are listed by the [.._squares] functions of WeierSqModel.v. *)
From Coq Require Import ZArith List Bool Field Lia.
From Verif Require Import LimbModel LimbProofs FieldModel FieldSpec FieldProofs FieldMore ClaimsField Algebra ExtModel ExtParams ExtProofs ExtFrob
  CurveSpec CurveGroup WeierModel WeierProofs GroupLib CurveAb CurveParams CurveOrder ClaimsCurve WeierSqModel WeierSqProofs.
Import ListNotations.
Local Open Scope Z_scope.

(** The elements that [square] gets wrong: those on whose limbs a carry is lost; over Fq2, where one square is
    subtracted from the other, those with a loss on one coefficient and not on the other. *)
Definition fq_lost (a : FqFld) : bool := drops_carry (lf_limbs Q_MOD a).
Definition fr_lost (a : FrFld) : bool := drops_carry (lf_limbs R_MOD a).
Definition fq2_lost (a : Fq2Fld) : bool := xorb (fq_lost (c0 a)) (fq_lost (c1 a)).

(** A curve, the [square] function of its base field and the elements on which it is wrong. *)
Definition code_curve (K : Fld) (sq : K -> K) (lost : K -> bool) (b b3 : K) : Prop :=
  curve_ok K b b3 /\ forall a, sq a = kmul a a <-> lost a = false.

Definition fq_dl : FqFld := lf_dl fq Q_MOD fq_ok Q_MOD_prime.
Definition fr_dl : FrFld := lf_dl fr R_MOD fr_ok R_MOD_prime.
Lemma fq_sq_form a : fq_sq a = kadd (kmul a a) (if fq_lost a then fq_dl else k0).
Proof. refine (lf_sq_form fq Q_MOD fq_ok Q_MOD_prime _ a). vm_compute. discriminate. Qed.
Lemma fr_sq_form a : fr_sq a = kadd (kmul a a) (if fr_lost a then fr_dl else k0).
Proof. refine (lf_sq_form fr R_MOD fr_ok R_MOD_prime _ a). vm_compute. discriminate. Qed.
Lemma fq_dl_nz : fq_dl <> k0. Proof. apply keqb_neq. vm_compute. reflexivity. Qed.
Lemma fr_dl_nz : fr_dl <> k0. Proof. apply keqb_neq. vm_compute. reflexivity. Qed.

Section Form.
Variable F : Fld.
Local Open Scope fld_scope.
Add Field FormF : (kth F).
Lemma form_iff (s x dl : F) (d : bool) : dl <> 0 -> s = x * x + (if d then dl else 0) -> (s = x * x <-> d = false).
Proof.
  intros N ->. destruct d; split; intros E; [|discriminate|reflexivity|ring]. exfalso. apply N, (k_cancel F (x * x)). rewrite E. ring.
Qed.
Lemma form2_iff (s t x y dl i : F) (d e : bool) : dl <> 0 -> s = x * x + (if d then dl else 0) -> t = y * y + (if e then dl else 0) ->
  (Q2 (s - t) i = Q2 (x * x - y * y) i <-> xorb d e = false).
Proof.
  intros N -> ->. split.
  - intros E. injection E as E. destruct d, e; try reflexivity; exfalso; apply N.
    + apply (k_cancel F (x * x - y * y)). transitivity (x * x + dl - (y * y + 0)); [ring|]. rewrite E. ring.
    + apply (k_cancel F (x * x - y * y - dl)). symmetry. transitivity (x * x + 0 - (y * y + dl)); [ring|]. rewrite E. ring.
  - intros E. f_equal. destruct d, e; try discriminate; ring.
Qed.
Lemma q2_sq_parts (x : q2 F) : q2_mul F x x = Q2 (c0 x * c0 x - c1 x * c1 x) (kdbl (c0 x * c1 x)).
Proof. destruct x as [x y]. unfold q2_mul. cbn [c0 c1]. f_equal. unfold kdbl. ring. Qed.
End Form.

Theorem C65_curves :
  code_curve FqFld fq_sq fq_lost g1_param_b g1_param_b3 /\
  code_curve Fq2Fld fq2_sq fq2_lost g2_param_b g2_param_b3 /\
  code_curve FrFld fr_sq fr_lost grumpkin_param_b grumpkin_param_b3.
Proof.
  split; [split; [exact g1_ok|intros a; apply (form_iff FqFld _ a fq_dl _ fq_dl_nz), fq_sq_form]|].
  split; [split; [exact g2_ok|intros a]|split; [exact grumpkin_ok|intros a; apply (form_iff FrFld _ a fr_dl _ fr_dl_nz), fr_sq_form]].
  change (kmul a a) with (q2_mul FqFld a a). rewrite (q2_sq_parts FqFld a).
  exact (form2_iff FqFld _ _ (c0 a) (c1 a) fq_dl _ _ _ fq_dl_nz (fq_sq_form (c0 a)) (fq_sq_form (c1 a))).
Qed.

Section Any.
Variables (K : Fld) (sq : K -> K) (lost : K -> bool) (b b3 : K).
Hypothesis OK : code_curve K sq lost b b3.
Notation on := (on_curve b).
(** No element of [l] is one that [square] gets wrong. *)
Definition none_lost (l : list K) : Prop := forall a, In a l -> lost a = false.
Lemma none_exact l : none_lost l -> sq_exact K sq l.
Proof. intros H. apply Forall_forall. intros a I. apply (proj2 OK), H, I. Qed.
Let CO := proj1 OK.

Theorem C65_addition_and_doubling_when_exact :
  (forall p q, on (aff_pt K p) -> on (aff_pt K q) -> none_lost (add_affine_squares K p q) ->
     proj_pt K (sq_add_affine_point K sq b3 p q) = pt_add (aff_pt K p) (aff_pt K q)) /\
  (forall p q, on (aff_pt K p) -> on (proj_pt K q) -> none_lost (add_mixed_squares K p q) ->
     proj_pt K (sq_add_mixed_point K sq b3 p q) = pt_add (aff_pt K p) (proj_pt K q)) /\
  (forall p q, on (proj_pt K p) -> on (proj_pt K q) -> none_lost (add_projective_squares K p q) ->
     proj_pt K (sq_add_projective_point K sq b3 p q) = pt_add (proj_pt K p) (proj_pt K q)) /\
  (forall p, on (proj_pt K p) -> none_lost (double_projective_squares K p) ->
     proj_pt K (sq_double_projective_point K sq b3 p) = pt_add (proj_pt K p) (proj_pt K p)) /\
  (forall p, aff_is_identity K p = false -> on (aff_pt K p) -> none_lost (double_affine_squares K p) ->
     proj_pt K (sq_double_affine_point K sq b3 p) = pt_add (aff_pt K p) (aff_pt K p)).
Proof.
  destruct (C18_addition_and_doubling K b b3 CO) as (A1 & A2 & A3 & A4 & A5 & A6).
  repeat split; intros.
  - rewrite ex_add_affine by (apply none_exact; assumption). apply A1; assumption.
  - rewrite ex_add_mixed by (apply none_exact; assumption). apply A3; assumption.
  - rewrite ex_add by (apply none_exact; assumption). apply A2; assumption.
  - rewrite ex_double by (apply none_exact; assumption). apply A5; assumption.
  - rewrite ex_double_affine by (apply none_exact; assumption). apply A6; assumption.
Qed.
Theorem C65_is_on_curve_when_exact :
  (forall p, none_lost (on_curve_squares K p) -> (sq_aff_is_on_curve K sq b p = true <-> on (aff_pt K p))) /\
  (forall p, none_lost (proj_on_curve_squares K p) -> (sq_proj_is_on_curve K sq b p = true <-> on (proj_pt K p))).
Proof.
  destruct (C19_is_on_curve K b) as (A1 & A2 & _). split; intros p H.
  - rewrite ex_on_curve by (apply none_exact, H). apply A2.
  - rewrite ex_proj_on_curve by (apply none_exact, H). apply A1.
Qed.
Theorem C65_scalar_multiplication_when_exact P m a k p : bn_field P m -> represents m a k -> on (proj_pt K p) ->
  none_lost (scalar_squares K b3 P p a) ->
  exists q, sq_scalar_point K sq b3 P p a = Some q /\ proj_pt K q = pt_mul (Z.to_nat k) (proj_pt K p).
Proof.
  intros F R H E. rewrite ex_scalar by (apply none_exact, E).
  destruct (C21_scalar_multiplication K b b3 CO P m a k p F R H) as (q & E' & V & _). exists q. split; assumption.
Qed.
End Any.

(** ** G1 and Grumpkin: for points on the curve the conditions are exact. *)
Section Killed.
Variable G : AbGrp.
Lemma no_three_torsion n (P : G) : n mod 3 = 1 -> zmul n P = a0 -> aadd P (aadd P P) = a0 -> P = a0.
Proof.
  intros N K T. assert (T3 : zmul 3 P = a0). { rewrite <- T. change 3 with (1 + (1 + 1)). rewrite !(zmul_add G), !(zmul_1 G). reflexivity. }
  rewrite <- K, <- (zmul_mod G 3 n P T3), N. symmetry. apply zmul_1.
Qed.
End Killed.

Section NoFlex.
Variables (K : Fld) (b : K).
Hypotheses (two : kadd (k1 : K) k1 <> k0) (three : kadd (kadd (k1 : K) k1) k1 <> k0) (bnz : b <> k0).
Local Open Scope fld_scope.
Add Field NfF : (kth K).
Lemma flex_double (y : K) : y <> 0 -> pt_add (Pt 0 y) (Pt 0 y) = Pt 0 (- y).
Proof.
  intros N. unfold pt_add.
  assert (Y2 : y + y <> 0). { intros E. apply (kmul_neq0 K (1 + 1) y two N). transitivity (y + y); [ring|exact E]. }
  assert (E0 : keqb (0 : K) 0 = true) by (apply keqb_eq; reflexivity).
  assert (E1 : keqb y (- y) = false). { destruct (keqb y (- y)) eqn:Q; [|reflexivity]. exfalso. apply (keqb_eq K) in Q. apply Y2. transitivity (y + - y); [f_equal; exact Q|ring]. }
  rewrite E0, E1. cbn [andb]. cbv zeta. f_equal; field; exact Y2.
Qed.
Lemma no_flex (n : Z) (x y : K) : (n mod 3 = 1)%Z -> (forall P : cgrp K b two three bnz, zmul n P = a0) -> on_curve b (Pt x y) -> x <> 0.
Proof.
  intros N KL H ->. assert (NY : y <> 0). { intros ->. apply bnz. cbn in H. transitivity (0 * 0 * 0 + b); [ring|]. rewrite <- H. ring. }
  pose (P := cmk K b _ H : cgrp K b two three bnz). pose proof (no_three_torsion (cgrp K b two three bnz) n P N (KL P)) as T.
  assert (Z3 : @aadd (cgrp K b two three bnz) P (aadd P P) = a0).
  { apply cpt_eq. change (pt_add (Pt 0 y) (pt_add (Pt 0 y) (Pt 0 y)) = Inf). rewrite (flex_double y NY). apply add_neg. }
  apply T in Z3. apply (f_equal (@cval K b)) in Z3. discriminate.
Qed.
End NoFlex.

Lemma r_mod3 : R_MOD mod 3 = 1. Proof. vm_compute. reflexivity. Qed.
Lemma q_mod3 : Q_MOD mod 3 = 1. Proof. vm_compute. reflexivity. Qed.
Theorem C65_g1_on_curve_iff x y : on_curve g1_param_b (Pt x y) ->
  (sq_aff_is_on_curve FqFld fq_sq g1_param_b (Aff x y false) = true <-> fq_lost x = false /\ fq_lost y = false).
Proof.
  intros H. refine (on_curve_iff FqFld fq_sq g1_param_b fq_lost fq_dl fq_sq_form fq_dl_nz _ _ x y H); vm_compute; reflexivity.
Qed.
Theorem C65_grumpkin_on_curve_iff x y : on_curve grumpkin_param_b (Pt x y) ->
  (sq_aff_is_on_curve FrFld fr_sq grumpkin_param_b (Aff x y false) = true <-> fr_lost x = false /\ fr_lost y = false).
Proof.
  intros H. refine (on_curve_iff FrFld fr_sq grumpkin_param_b fr_lost fr_dl fr_sq_form fr_dl_nz _ _ x y H); vm_compute; reflexivity.
Qed.
Theorem C65_g1_double_iff x y : on_curve g1_param_b (Pt x y) ->
  (proj_pt FqFld (sq_double_affine_point FqFld fq_sq g1_param_b3 (Aff x y false)) = pt_add (Pt x y) (Pt x y) <-> fq_lost y = false).
Proof.
  intros H. pose proof (proj1 g1_ok) as B3. pose proof (proj1 (proj2 g1_ok)) as two. pose proof (proj1 (proj2 (proj2 g1_ok))) as three. pose proof (proj2 (proj2 (proj2 g1_ok))) as bnz. destruct (C18_addition_and_doubling FqFld _ _ g1_ok) as (_ & _ & _ & _ & _ & D).
  specialize (D (Aff x y false) eq_refl H). cbn [aff_pt ainf ax ay] in D. rewrite <- D. split.
  - intros E. destruct (fq_lost y) eqn:L; [|reflexivity]. exfalso. revert E.
    assert (NX : x <> k0) by exact (no_flex FqFld g1_param_b _ _ _ R_MOD x y r_mod3 g1_killed H).
    refine (double_wrong FqFld fq_sq g1_param_b g1_param_b3 fq_lost fq_dl fq_sq_form fq_dl_nz _ two three bnz B3 x y H NX L). vm_compute. reflexivity.
  - intros L. f_equal. apply (ex_double_affine FqFld fq_sq). constructor; [|constructor]. apply (proj2 (proj1 C65_curves)), L.
Qed.
Theorem C65_grumpkin_double_iff x y : on_curve grumpkin_param_b (Pt x y) ->
  (proj_pt FrFld (sq_double_affine_point FrFld fr_sq grumpkin_param_b3 (Aff x y false)) = pt_add (Pt x y) (Pt x y) <-> fr_lost y = false).
Proof.
  intros H. pose proof (proj1 grumpkin_ok) as B3. pose proof (proj1 (proj2 grumpkin_ok)) as two. pose proof (proj1 (proj2 (proj2 grumpkin_ok))) as three. pose proof (proj2 (proj2 (proj2 grumpkin_ok))) as bnz. destruct (C18_addition_and_doubling FrFld _ _ grumpkin_ok) as (_ & _ & _ & _ & _ & D).
  specialize (D (Aff x y false) eq_refl H). cbn [aff_pt ainf ax ay] in D. rewrite <- D. split.
  - intros E. destruct (fr_lost y) eqn:L; [|reflexivity]. exfalso. revert E.
    assert (NX : x <> k0) by exact (no_flex FrFld grumpkin_param_b _ _ _ Q_MOD x y q_mod3 grumpkin_killed H).
    refine (double_wrong FrFld fr_sq grumpkin_param_b grumpkin_param_b3 fr_lost fr_dl fr_sq_form fr_dl_nz _ two three bnz B3 x y H NX L). vm_compute. reflexivity.
  - intros L. f_equal. apply (ex_double_affine FrFld fr_sq). constructor; [|constructor]. apply (proj2 (proj2 (proj2 C65_curves))), L.
Qed.

(** ** Points on which the code is wrong. *)
Definition g1_bad_x := fq_mk 0xb6ea36e4e149ba9c64abe88e4cbb584b7e6cb5aee29bc8838e5117a767d6eca.
Definition g1_bad_y := fq_mk 0x189db6f32b2e0b1a741fcb90f60e45f72bfe2c4401cc7a38ed25427f2b10a89e.
Definition g1_off_x := fq_mk 0x2a6b8928b318f78276429e1fab19953f575c7d238a46f2b34dd2606497f37cf0.
Definition g1_off_y := fq_mk 0x72b68557aa8e1e7415f3978055f1d56c932789ef3faf31004b4a4c6c0f9ee4d.
Definition gru_bad_x := fr_mk 0x277671ed41ef6f0161ffe2fcbe181494e990f5156dc0080211f15c82d74f20cf.
Definition gru_bad_y := fr_mk 0x2e6c728c39ea6031f2cf9e8b6f5a3afc0b984222a9b8a8da5958568cd91a3af6.
Definition gru_off_x := fr_mk 0x4b7878ef804d94091eaa76fb2167c115eaff5c53888ed87577a3ffdab633102.
Definition gru_off_y := fr_mk 0x1ce48d84eb6221baa6b7de3ce7ef201bd4187f35dc8c7649fcae027bb9270046.
Definition g2_bad_x : Fq2Fld := Q2 (fq_mk 0x10241463fd0d415e69d8d7b870caf45ae1b7c58205c162073d43805770f5a32b) (fq_mk 0x18c5a221781a69057c8518e8d94dfba7638996cd7b2784bdb15a3650f55ed7e5).
Definition g2_bad_y : Fq2Fld := Q2 (fq_mk 0x1dce8cc6710d9ae861880bfe059546130b3f7a9fa1b1ebc04ea118763f7d2921) (fq_mk 7).
Definition g2_off_x : Fq2Fld := Q2 (fq_mk 0x1627cd88fe8018c0e6ad0f2ba241450534d31b78d39c77cc8197911e939ffef9) (fq_mk 0x156359174462931f9f3699675f68bcf7137cc23a7ad5f18ea2272310270f3fca).
Definition g2_off_y : Fq2Fld := Q2 (fq_mk 0x189db6f32b2e0b1a741fcb90f60e45f72bfe2c4401cc7a38ed25427f2b10a89e) (fq_mk 9).
Lemma dec_on (K : Fld) (b x y : K) (v : bool) : keqb (kmul y y) (kadd (kmul (kmul x x) x) b) = v -> if v then on_curve b (Pt x y) else ~ on_curve b (Pt x y).
Proof. intros E. destruct v; cbn; [apply (keqb_eq K), E|apply keqb_neq, E]. Qed.
(** A point of the curve that [is_on_curve] rejects, and a pair off the curve that it accepts. *)
Theorem C65_g1_on_curve_refuted :
  (on_curve g1_param_b (Pt g1_bad_x g1_bad_y) /\ sq_aff_is_on_curve FqFld fq_sq g1_param_b (Aff g1_bad_x g1_bad_y false) = false) /\
  (~ on_curve g1_param_b (Pt g1_off_x g1_off_y) /\ sq_aff_is_on_curve FqFld fq_sq g1_param_b (Aff g1_off_x g1_off_y false) = true).
Proof.
  split; (split; [|vm_compute; reflexivity]);
  [apply (dec_on FqFld g1_param_b _ _ true)|apply (dec_on FqFld g1_param_b _ _ false)]; vm_compute; reflexivity.
Qed.
Theorem C65_g2_on_curve_refuted :
  (on_curve (K := Fq2Fld) g2_param_b (Pt g2_bad_x g2_bad_y) /\ sq_aff_is_on_curve Fq2Fld fq2_sq g2_param_b (Aff g2_bad_x g2_bad_y false) = false) /\
  (~ on_curve (K := Fq2Fld) g2_param_b (Pt g2_off_x g2_off_y) /\ sq_aff_is_on_curve Fq2Fld fq2_sq g2_param_b (Aff g2_off_x g2_off_y false) = true).
Proof.
  split; (split; [|vm_compute; reflexivity]);
  [apply (dec_on Fq2Fld g2_param_b _ _ true)|apply (dec_on Fq2Fld g2_param_b _ _ false)]; vm_compute; reflexivity.
Qed.
Theorem C65_grumpkin_on_curve_refuted :
  (on_curve grumpkin_param_b (Pt gru_bad_x gru_bad_y) /\ sq_aff_is_on_curve FrFld fr_sq grumpkin_param_b (Aff gru_bad_x gru_bad_y false) = false) /\
  (~ on_curve grumpkin_param_b (Pt gru_off_x gru_off_y) /\ sq_aff_is_on_curve FrFld fr_sq grumpkin_param_b (Aff gru_off_x gru_off_y false) = true).
Proof.
  split; (split; [|vm_compute; reflexivity]);
  [apply (dec_on FrFld grumpkin_param_b _ _ true)|apply (dec_on FrFld grumpkin_param_b _ _ false)]; vm_compute; reflexivity.
Qed.
(** Doubling, by either function, and multiplication by two of a curve point give a point off the curve. *)
Definition leaves (K : Fld) (b : K) (p : proj K) : bool := negb (keqb (jz p) k0) && negb (proj_is_on_curve K b p).
Lemma leaves_off K b p : leaves K b p = true -> ~ on_curve b (proj_pt K p).
Proof.
  unfold leaves. intros H. apply andb_true_iff in H as [_ H]. apply negb_true_iff in H. intros O.
  apply (proj1 (C19_is_on_curve K b)) in O. rewrite O in H. discriminate.
Qed.
Theorem C65_g1_doubling_refuted : let p := Aff g1_bad_x g1_bad_y false in let p' := to_extended FqFld p in
  on_curve g1_param_b (Pt g1_bad_x g1_bad_y) /\
  ~ on_curve g1_param_b (proj_pt FqFld (sq_double_affine_point FqFld fq_sq g1_param_b3 p)) /\
  ~ on_curve g1_param_b (proj_pt FqFld (sq_double_projective_point FqFld fq_sq g1_param_b3 p')) /\
  ~ on_curve g1_param_b (proj_pt FqFld (sq_add_projective_point FqFld fq_sq g1_param_b3 p' p')) /\
  (exists q, sq_scalar_point FqFld fq_sq g1_param_b3 fr p' (fadd fr (fone fr) (fone fr)) = Some q /\ ~ on_curve g1_param_b (proj_pt FqFld q)).
Proof.
  split; [apply (dec_on FqFld g1_param_b _ _ true); vm_compute; reflexivity|].
  split; [apply leaves_off; vm_compute; reflexivity|]. split; [apply leaves_off; vm_compute; reflexivity|]. split; [apply leaves_off; vm_compute; reflexivity|].
  assert (E : match sq_scalar_point FqFld fq_sq g1_param_b3 fr (to_extended FqFld (Aff g1_bad_x g1_bad_y false)) (fadd fr (fone fr) (fone fr)) with
    | Some q => leaves FqFld g1_param_b q | None => false end = true) by (vm_compute; reflexivity).
  destruct (sq_scalar_point FqFld fq_sq g1_param_b3 fr (to_extended FqFld (Aff g1_bad_x g1_bad_y false)) (fadd fr (fone fr) (fone fr))) as [q|]; [|discriminate].
  exists q. split; [reflexivity|]. apply leaves_off, E.
Qed.

(** The generators meet the hypotheses: the whole run of a multiplication by 5 loses no carry. *)
Lemma none_lost_b (K : Fld) (lost : K -> bool) l : forallb (fun a => negb (lost a)) l = true -> none_lost K lost l.
Proof. intros H a I. rewrite forallb_forall in H. apply negb_true_iff, H, I. Qed.
Example C65_example :
  let g := to_extended FqFld (Aff g1_generator_x g1_generator_y false) in let g' := to_extended FrFld (Aff grumpkin_generator_x grumpkin_generator_y false) in
  let k := enc fr 5 in let k' := enc fq 5 in
  on_curve g1_param_b (proj_pt FqFld g) /\ represents R_MOD k 5 /\ none_lost FqFld fq_lost (scalar_squares FqFld g1_param_b3 fr g k) /\
  on_curve grumpkin_param_b (proj_pt FrFld g') /\ none_lost FrFld fr_lost (scalar_squares FrFld grumpkin_param_b3 fq g' k') /\
  (8 <= length (scalar_squares FqFld g1_param_b3 fr g k))%nat /\
  none_lost FqFld fq_lost (on_curve_squares FqFld (Aff g1_generator_x g1_generator_y false)) /\
  fq_lost g1_bad_y = true /\ fq_lost g1_bad_x = false /\ fq2_lost g2_bad_y = true /\ fr_lost gru_bad_y = true.
Proof.
  assert (O1 : forall p, proj_is_on_curve FqFld g1_param_b p = true -> on_curve g1_param_b (proj_pt FqFld p)) by (intros p; apply C19_is_on_curve).
  assert (O2 : forall p, proj_is_on_curve FrFld grumpkin_param_b p = true -> on_curve grumpkin_param_b (proj_pt FrFld p)) by (intros p; apply C19_is_on_curve).
  cbv zeta. split; [apply O1; vm_compute; reflexivity|]. split; [apply of_rep, enc_rep; [exact fr_ok|rewrite R_MOD_val; lia]|].
  split; [apply none_lost_b; vm_compute; reflexivity|].
  split; [apply O2; vm_compute; reflexivity|]. split; [apply none_lost_b; vm_compute; reflexivity|].
  split; [apply Nat.leb_le; vm_compute; reflexivity|].
  split; [apply none_lost_b; vm_compute; reflexivity|]. repeat split; vm_compute; reflexivity.
Qed.
