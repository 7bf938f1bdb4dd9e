(** C23: twisted Edwards points. *)
From Coq Require Import ZArith List Bool Field Lia.
From Verif Require Import LimbModel FieldModel FieldSpec Algebra GroupLib ClaimsField EdwardsModel EdwardsSpec EdwardsProofs.
Import ListNotations.
Local Open Scope fld_scope.

Section Claims.
Variable K : Fld.
Add Field cedfield : (kth K).
Variable d : K.
Hypothesis EC : ed_complete d.
Notation on := (ed_on d).

(** No exceptional case: the denominators of the addition law never vanish. *)
Theorem C23_complete (x1 y1 x2 y2 : K) : on (x1, y1) -> on (x2, y2) ->
  1 + d * x1 * x2 * y1 * y2 <> 0 /\ 1 - d * x1 * x2 * y1 * y2 <> 0.
Proof. intros H1 H2. split; [apply (ed_den_plus K d EC)|apply (ed_den_minus K d EC)]; assumption. Qed.

(** The addition law makes the points of the curve a commutative group. *)
Theorem C23_group P Q R : on P -> on Q -> on R ->
  on (ed_add d P Q) /\ on (ed_neg P) /\ on ed_zero /\
  ed_add d (ed_add d P Q) R = ed_add d P (ed_add d Q R) /\ ed_add d P Q = ed_add d Q P /\
  ed_add d ed_zero P = P /\ ed_add d P (ed_neg P) = ed_zero.
Proof.
  intros HP HQ HR. split; [apply (ed_add_on K d EC); assumption|]. split; [apply ed_neg_on, HP|]. split; [apply ed_zero_on|].
  split; [apply (ed_add_assoc K d EC); assumption|]. split; [apply ed_add_comm|]. split; [apply ed_zero_l|apply (ed_add_neg K d EC), HP].
Qed.

(** Every addition, subtraction and doubling of the two point types computes that law, with a
    consistent [t] and a non-zero [z]. *)
Theorem C23_extended p q P Q : on P -> on Q -> ed_ext p P -> ed_ext q Q ->
  ed_ext (eext_add K d p q) (ed_add d P Q) /\ ed_ext (eext_sub K d p q) (ed_add d P (ed_neg Q)) /\
  ed_ext (ed_double_ext K p) (ed_add d P P) /\ ed_ext (eext_neg K p) (ed_neg P) /\ ed_ext (eext_identity K) (ed_zero (K := K)).
Proof.
  intros HP HQ Hp Hq. split; [apply (ed_ext_ok K d EC); assumption|]. split; [apply (ed_sub_ext_ok K d EC); assumption|].
  split; [apply (ed_double_ext_ok K d EC); assumption|]. split; [apply ed_neg_ext_ok, Hp|apply ed_identity_ok].
Qed.
Theorem C23_affine p q : on (ed_aff p) -> on (ed_aff q) ->
  ed_ext (eaff_add K d p q) (ed_add d (ed_aff p) (ed_aff q)) /\
  ed_ext (ed_add_affine K d p q) (ed_add d (ed_aff p) (ed_aff q)) /\
  ed_ext (eaff_sub K d p q) (ed_add d (ed_aff p) (ed_neg (ed_aff q))) /\
  ed_ext (ed_double_affine K d p) (ed_add d (ed_aff p) (ed_aff p)) /\
  ed_aff (eaff_neg K p) = ed_neg (ed_aff p) /\ ed_aff (eaff_identity K) = ed_zero (K := K).
Proof.
  intros HP HQ.
  split; [apply (ed_ext_ok K d EC); try assumption; apply ed_extend_ok|]. split; [apply (ed_aff_ok K d EC); assumption|].
  split; [apply (ed_ext_ok K d EC); try assumption; [apply (ed_neg_on K d (ed_aff q)), HQ|apply ed_extend_ok|apply (ed_extend_ok K (eaff_neg K q))]|].
  split; [apply (ed_double_aff_ok K d EC); assumption|]. split; reflexivity.
Qed.
Theorem C23_mixed p q Q : on (ed_aff p) -> on Q -> ed_ext q Q ->
  ed_ext (eaff_add_ext K d p q) (ed_add d (ed_aff p) Q) /\ ed_ext (eaff_sub_ext K d p q) (ed_add d (ed_aff p) (ed_neg Q)) /\
  ed_ext (eext_add_aff K d q p) (ed_add d Q (ed_aff p)) /\ ed_ext (eext_sub_aff K d q p) (ed_add d Q (ed_neg (ed_aff p))).
Proof.
  intros HP HQ Hq. split; [apply (ed_mixed_ok K d EC); assumption|].
  split; [apply (ed_mixed_ok K d EC); [assumption|apply ed_neg_on, HQ|apply ed_neg_ext_ok, Hq]|].
  rewrite (ed_add_comm K d Q (ed_aff p)), (ed_add_comm K d Q (ed_neg (ed_aff p))).
  split; [apply (ed_mixed_ok K d EC); assumption|].
  apply (ed_mixed_ok K d EC (eaff_neg K p) q Q); [apply (ed_neg_on K d (ed_aff p)), HP|assumption|assumption].
Qed.

(** A representation stands for one point only. *)
Theorem C23_denotes_one p (P Q : K * K) : ed_ext p P -> ed_ext p Q -> P = Q.
Proof.
  destruct P as [x y], Q as [x' y']. cbn. intros (N & E1 & E2 & _) (_ & E3 & E4 & _). apply f_equal2.
  - apply (kmul_cancel_l K (eez p)); [exact N|]. transitivity (eex p); [rewrite E1; ring|rewrite E3; ring].
  - apply (kmul_cancel_l K (eez p)); [exact N|]. transitivity (eey p); [rewrite E2; ring|rewrite E4; ring].
Qed.

(** Subtraction of an extended from an affine point through references adds instead: the result is
    wrong for every subtrahend other than the two points with [x = 0]. *)
Theorem C23_reference_subtraction_refuted p q Q : on (ed_aff p) -> on Q -> ed_ext q Q -> fst Q <> 0 ->
  ed_ext (eaff_ref_sub_ext K d p q) (ed_add d (ed_aff p) Q) /\ ~ ed_ext (eaff_ref_sub_ext K d p q) (ed_add d (ed_aff p) (ed_neg Q)).
Proof.
  intros HP HQ Hq NX. assert (A : ed_ext (eaff_ref_sub_ext K d p q) (ed_add d (ed_aff p) Q)) by (apply (ed_mixed_ok K d EC); assumption).
  split; [exact A|]. intros H. pose proof (C23_denotes_one _ _ _ A H) as E.
  assert (C : Q = ed_neg Q).
  { pose (P' := edmk K d _ HP : edgrp K d EC). pose (Q' := edmk K d _ HQ : edgrp K d EC).
    assert (E' : aadd P' Q' = aadd P' (aneg Q')) by (apply edpt_eq; exact E).
    apply acancel in E'. exact (f_equal (edval K d) E'). }
  destruct Q as [x y]. cbn in *. apply NX. injection C as C. apply (f_equal (fun z => z + x)) in C.
  assert (T : (1 + 1) * x = 0) by (transitivity (x + x); [ring|rewrite C; ring]).
  apply kmul_eq0 in T as [T|T]; [destruct (ec_two d EC T)|exact T].
Qed.

(** Multiplication by a scalar, an element [a] of Fr or Fq that stands for the integer [k]. *)
Theorem C23_scalar_multiplication C m a k p P : bn_field C m -> represents m a k -> on P -> ed_ext p P ->
  exists q, ed_scalar_point K d C p a = Some q /\ ed_ext q (ed_mul d (Z.to_nat k) P) /\ on (ed_mul d (Z.to_nat k) P).
Proof.
  intros F H HP Hp. destruct (C08_to_nafs C m a k F H) as (ds & E & V & _). unfold ed_scalar_point. rewrite E.
  eexists; split; [reflexivity|].
  pose proof (ereps_scalar K d EC p (edmk K d P HP) ds Hp) as R. unfold ereps in R. rewrite V in R.
  assert (Hk : (k <? 0)%Z = false). { apply Z.ltb_ge. destruct H as (_ & H & _). lia. }
  unfold zmul in R. rewrite Hk, (edval_nmul K d EC) in R. split; [exact R|].
  pose proof (edval_on K d (nmul (Z.to_nat k) (edmk K d P HP : edgrp K d EC))) as O. rewrite (edval_nmul K d EC) in O. exact O.
Qed.
Theorem C23_affine_scalar_multiplication C m a k p : bn_field C m -> represents m a k -> on (ed_aff p) ->
  exists q, eaff_mul K d C p a = Some q /\ ed_ext q (ed_mul d (Z.to_nat k) (ed_aff p)).
Proof.
  intros F H HP. destruct (C23_scalar_multiplication C m a k _ _ F H HP (ed_extend_ok K p)) as (q & E & R & _).
  exists q. split; [exact E|exact R].
Qed.

(** Conversions, equality, the identity test. *)
Theorem C23_conversions (p : eext K) (q : eaff K) x y : 
  (ed_ext p (x, y) -> eext_to_affine K p = Some (mkEaff x y)) /\ ed_ext (eaff_to_extended K q) (ed_aff q) /\
  ed_ext (eext_from_xy K x y) (x, y) /\ (eext_to_affine K p = None <-> eez p = 0).
Proof.
  split; [|split; [apply ed_extend_ok|split; [exact (ed_extend_ok K (mkEaff x y))|]]].
  - cbn. intros (N & E1 & E2 & _). unfold eext_to_affine, kinvert, kis0. destruct (keqb_spec K (eez p) 0); [contradiction|].
    rewrite E1, E2. apply (f_equal Some). apply f_equal2; field; exact N.
  - unfold eext_to_affine, kinvert, kis0. destruct (keqb_spec K (eez p) 0); split; congruence.
Qed.
Theorem C23_equality (p q : eext K) P Q : ed_ext p P -> ed_ext q Q ->
  (eext_eqb K p q = true <-> P = Q) /\ (eext_is_identity K p = true <-> P = ed_zero).
Proof.
  destruct P as [x y], Q as [x' y']. cbn. intros (N & E1 & E2 & _) (N' & E3 & E4 & _).
  pose proof (kmul_neq0 K _ _ N N') as NN. unfold eext_eqb, eext_is_identity. rewrite !andb_true_iff, !keqb_eq, E1, E2, E3, E4.
  split; split.
  - intros [A C]. apply f_equal2.
    + apply (kmul_cancel_l K (eez p * eez q)); [exact NN|]. transitivity (x * eez p * eez q); [ring|rewrite A; ring].
    + apply (kmul_cancel_l K (eez p * eez q)); [exact NN|]. transitivity (y * eez p * eez q); [ring|rewrite C; ring].
  - intros E. injection E as -> ->. split; ring.
  - intros [A C]. unfold ed_zero. apply f_equal2.
    + apply kmul_eq0 in A as [A|A]; [exact A|contradiction].
    + apply (kmul_cancel_l K (eez p)); [exact N|]. transitivity (y * eez p); [ring|rewrite C; ring].
  - unfold ed_zero. intros E. injection E as -> ->. split; ring.
Qed.
Theorem C23_affine_equality (p q : eaff K) :
  (eaff_eqb K p q = true <-> ed_aff p = ed_aff q) /\ (eaff_is_identity K p = true <-> ed_aff p = ed_zero).
Proof.
  assert (A : forall p q, eaff_eqb K p q = true <-> ed_aff p = ed_aff q).
  { intros [x y] [x' y']. unfold eaff_eqb, ed_aff. cbn. rewrite andb_true_iff, !keqb_eq. split; [intros [-> ->]; reflexivity|intros E; injection E; auto]. }
  split; [apply A|apply (A p (eaff_identity K))].
Qed.

(** [is_on_curve] decides the curve equation when [x] is not zero, but accepts every point with
    [x = 0] (only [(0, 1)] and [(0, -1)] are on the curve) and every extended point with [z = 0]; it never looks at [t]. *)
Theorem C23_on_curve (p : eaff K) (q : eext K) x y : eax p <> 0 ->
  (eaff_is_on_curve K d p = true <-> on (ed_aff p)) /\
  (x <> 0 -> eez q <> 0 -> eex q = x * eez q -> eey q = y * eez q -> exists r, eext_is_on_curve K d q = Some r /\ (r = true <-> on (x, y))).
Proof.
  assert (A : forall a b : K, a <> 0 -> (eaff_is_on_curve K d (mkEaff a b) = true <-> on (a, b))).
  { intros a b N. unfold eaff_is_on_curve, kis0, ksq. cbn [eax eay]. destruct (keqb_spec K a 0); [contradiction|]. rewrite keqb_eq. cbn.
    split; intros H.
    - transitivity ((1 + d * (a * a) * (b * b) + a * a) - a * a); [rewrite <- H; ring|ring].
    - transitivity ((b * b - a * a) + a * a); [ring|rewrite H; ring]. }
  intros N. split; [destruct p as [a b]; apply A, N|]. intros NX NZ E1 E2.
  unfold eext_is_on_curve, kis0, eext_to_affine, kinvert, kis0. destruct (keqb_spec K (eez q) 0); [contradiction|].
  eexists; split; [reflexivity|]. rewrite E1, E2.
  assert (X : x * eez q * kinv (eez q) = x) by (field; exact NZ). assert (Y : y * eez q * kinv (eez q) = y) by (field; exact NZ).
  rewrite X, Y. apply A, NX.
Qed.
Theorem C23_on_curve_refuted (x y t : K) :
  eaff_is_on_curve K d (mkEaff 0 y) = true /\ (on (0, y) <-> y = 1 \/ y = - (1)) /\ eext_is_on_curve K d (mkEext x y t 0) = Some true.
Proof.
  assert (Z : kis0 (0 : K) = true) by (apply keqb_eq; reflexivity).
  split; [unfold eaff_is_on_curve; cbn [eax]; rewrite Z; reflexivity|]. split.
  - cbn. split.
    + intros H. assert (E : (y - 1) * (y + 1) = 0) by (transitivity ((y * y - 0 * 0) - (1 + d * (0 * 0) * (y * y))); [ring|rewrite H; ring]).
      apply kmul_eq0 in E as [E|E]; [left; transitivity ((y - 1) + 1); [ring|rewrite E; ring]|right; transitivity ((y + 1) - 1); [ring|rewrite E; ring]].
    + intros [->| ->]; ring.
  - unfold eext_is_on_curve. cbn [eez]. rewrite Z. reflexivity.
Qed.

(** [invert]: the inverse when [x] is not zero; but the two points with [x = 0], their own inverses,
    are reported to have none.  The extended form always answers on representations of points. *)
Theorem C23_invert (p : eaff K) (q : eext K) Q : ed_ext q Q ->
  (eax p <> 0 -> exists r, eaff_invert K p = Some r /\ ed_aff r = ed_neg (ed_aff p)) /\
  (exists r, eext_invert K q = Some r /\ ed_ext r (ed_neg Q)).
Proof.
  intros H. unfold eaff_invert, eext_invert, kis0. split.
  - intros N. destruct (keqb_spec K (eax p) 0); [contradiction|]. eexists; split; reflexivity.
  - destruct (keqb_spec K (eez q) 0) as [E|_]; [destruct Q; destruct H; contradiction|]. eexists; split; [reflexivity|].
    exact (ed_neg_ext_ok K q Q H).
Qed.
Theorem C23_invert_refuted (y : K) : on (0, y) ->
  eaff_invert K (mkEaff 0 y) = None /\ ed_add d (0, y) (0, y) = ed_zero.
Proof.
  intros H. assert (Z : kis0 (0 : K) = true) by (apply keqb_eq; reflexivity).
  split; [unfold eaff_invert; cbn [eax]; rewrite Z; reflexivity|].
  pose proof (ed_add_neg K d EC _ H) as E. cbn [ed_neg] in E. assert (O : - 0 = (0 : K)) by ring. rewrite O in E. exact E.
Qed.
End Claims.

(** A complete curve: [d = 2] over the field with 13 elements ([5 * 5 = -1]). *)
Lemma ed13 : ed_complete (f13 2).
Proof.
  constructor.
  - intros E. apply (f_equal (zp_val 13)) in E. vm_compute in E. discriminate E.
  - exists (f13 5). apply zp_eq. vm_compute. reflexivity.
  - intros s E. apply (f_equal (zp_val 13)) in E. pose proof (zp_range 13 s) as R. 
    change (zp_val 13 (s * s)) with ((zp_val 13 s * zp_val 13 s) mod 13)%Z in E. change (zp_val 13 (f13 2)) with 2%Z in E.
    revert R E. generalize (zp_val 13 s). intros z R.
    assert (C : (z = 0 \/ z = 1 \/ z = 2 \/ z = 3 \/ z = 4 \/ z = 5 \/ z = 6 \/ z = 7 \/ z = 8 \/ z = 9 \/ z = 10 \/ z = 11 \/ z = 12)%Z) by lia.
    repeat destruct C as [->|C]; [..|rewrite C]; discriminate.
Qed.
(** Points and representations that meet the hypotheses, and some sums. *)
Example C23_points : ed_on (f13 2) (f13 2, f13 4) /\ ed_on (f13 2) (f13 3, f13 2) /\ f13 3 <> 0 /\
  ed_ext (mkEext (f13 4) (f13 8) (f13 3) (f13 2)) (f13 2, f13 4) /\
  ed_add (f13 2) (f13 2, f13 4) (f13 3, f13 2) = (f13 7, f13 3) /\
  ed_add (f13 2) (f13 2, f13 4) (ed_neg (f13 3, f13 2)) = (f13 2, f13 9) /\
  ed_mul (f13 2) 5 (f13 2, f13 4) = (f13 6, f13 3).
Proof.
  assert (PE : forall P Q : F13 * F13, zp_val 13 (fst P) = zp_val 13 (fst Q) -> zp_val 13 (snd P) = zp_val 13 (snd Q) -> P = Q).
  { intros [a b] [a' b'] E1 E2. apply f_equal2; apply zp_eq; assumption. }
  assert (NE : forall a b : F13, zp_val 13 a <> zp_val 13 b -> a <> b) by congruence.
  split; [apply zp_eq; vm_compute; reflexivity|]. split; [apply zp_eq; vm_compute; reflexivity|].
  split; [apply NE; vm_compute; discriminate|].
  split; [split; [apply NE; vm_compute; discriminate|]; split; [apply zp_eq; vm_compute; reflexivity|]; split; apply zp_eq; vm_compute; reflexivity|].
  split; [apply PE; vm_compute; reflexivity|]. split; apply PE; vm_compute; reflexivity.
Qed.
Example C23_example :
  (exists q, eaff_mul F13 (f13 2) fr (mkEaff (f13 2) (f13 4)) (ffrom_u64 fr 5) = Some q /\ ed_ext q (f13 6, f13 3)) /\
  eaff_is_on_curve F13 (f13 2) (mkEaff 0 (f13 7)) = true /\ eaff_invert F13 (eaff_identity F13) = None.
Proof.
  split; [|split; [exact (proj1 (C23_on_curve_refuted F13 (f13 2) 0 (f13 7) 0))|exact (proj1 (C23_invert_refuted F13 (f13 2) ed13 1 (ed_zero_on F13 (f13 2))))]].
  destruct (C23_affine_scalar_multiplication F13 (f13 2) ed13 fr R_MOD (ffrom_u64 fr 5) 5 (mkEaff (f13 2) (f13 4))) as (q & E & R).
  - left. split; reflexivity.
  - exact (proj1 C01_example).
  - exact (proj1 C23_points).
  - exists q. split; [exact E|]. change (Z.to_nat 5) with 5%nat in R.
    assert (M : ed_mul (f13 2) 5 (f13 2, f13 4) = (f13 6, f13 3)) by (destruct C23_points as (_ & _ & _ & _ & _ & _ & M); exact M).
    rewrite <- M. exact R.
Qed.
(** The constants of the instance in zkstd/tests/jubjub.rs:95-121: the generator is on the curve and its [T] is [X * Y]. *)
Example C23_jubjub_constants :
  let q := 0x73eda753299d7d483339d80809a1d80553bda402fffe5bfeffffffff00000001%Z in
  let d := 0x2a9318e74bfa2b48f5fd9207e6bd7fd4292d7f6d37579d2601065fd6d6343eb1%Z in
  let x := 0x3fd2814c43ac65a6f1fbf02d0fd6cce62e3ebb21fd6c54ed4df7b7ffec7beaca%Z in
  let y := 0x12%Z in let t := 0x697235704b95be3336ae4ae2c669cfff4ebe6448d1acbcb87b6af007a0b6822b%Z in
  ((y * y - x * x - 1 - d * (x * x) * (y * y)) mod q = 0 /\ (x * y - t) mod q = 0)%Z.
Proof. vm_compute. split; reflexivity. Qed.
