(** Property C69: the Jubjub curve of zkstd/tests/jubjub.rs, on limbs.
    Specification: EdwardsSpec.v (the curve, its addition law, what the point types stand for); MacroSpec.v; the elements an operation
    squares are listed by the [.._squares] functions of EdwardsSqModel.v. *)
From Coq Require Import ZArith List Bool Field Lia Znumtheory.
From Verif Require Import LimbModel LimbProofs FieldModel FieldSpec FieldProofs FieldMore Primes ClaimsField Algebra GroupLib ExtModel CurveParams
  WeierSqModel WeierSqProofs EdwardsModel EdwardsSpec EdwardsProofs ClaimsEdwards EdwardsSqModel EdwardsSqProofs
  MacroSpec JubjubModel JubjubPrime ClaimsMacro.
Import ListNotations.
Local Open Scope Z_scope.

Section Shift.
Variable F : Fld.
Add Field ShF : (kth F).
Lemma shift_eq (u t c : F) : (c <> 0 -> (u + - (t / c) = 0 <-> u * c = t))%fld.
Proof.
  intros N. split; intros E.
  - transitivity ((u + - (t / c)) * c + t)%fld; [field; exact N|]. rewrite E. ring.
  - rewrite <- E. field. exact N.
Qed.
(** A test that no point of the curve passes: the curve equation on extended coordinates fails. *)
Definition ed_leaves (d : F) (p : eext F) : bool :=
  negb (keqb ((eey p * eey p - eex p * eex p) * (eez p * eez p)) (eez p * eez p * (eez p * eez p) + d * (eex p * eex p) * (eey p * eey p)))%fld.
Lemma ed_leaves_off d p Q : ed_leaves d p = true -> ed_ext p Q -> ~ ed_on d Q.
Proof.
  destruct Q as [x y]. unfold ed_leaves. intros L (_ & EX & EY & _) H. apply negb_true_iff, keqb_neq in L. apply L. rewrite EX, EY. cbn in H.
  transitivity ((y * y - x * x) * (eez p * eez p * (eez p * eez p)))%fld; [ring|]. rewrite H. ring.
Qed.
End Shift.

(** The base field: the limb operations of the macro on the constants of jubjub.rs; its elements; its [square] and the elements on
    which that loses a carry. *)
Definition BlsFld : Fld := LimbFld bls BLS_MOD bls_ok BLS_prime.
Definition bls_mk (v : Z) : BlsFld := lf_mk bls BLS_MOD bls_ok v.
Definition bls_sq : BlsFld -> BlsFld := lf_sq bls BLS_MOD bls_ok.
Definition bls_lost (a : BlsFld) : bool := drops_carry (lf_limbs BLS_MOD a).
Definition bls_dl : BlsFld := lf_dl bls BLS_MOD bls_ok BLS_prime.
(** EDWARDS_D, X, Y, T. *)
Definition jubD : BlsFld := bls_mk 0x2a9318e74bfa2b48f5fd9207e6bd7fd4292d7f6d37579d2601065fd6d6343eb1.
Definition jubX : BlsFld := bls_mk 0x3fd2814c43ac65a6f1fbf02d0fd6cce62e3ebb21fd6c54ed4df7b7ffec7beaca.
Definition jubY : BlsFld := bls_mk 0x12.
Definition jubT : BlsFld := bls_mk 0x697235704b95be3336ae4ae2c669cfff4ebe6448d1acbcb87b6af007a0b6822b.

Lemma bls_sq_form a : bls_sq a = kadd (kmul a a) (if bls_lost a then bls_dl else k0).
Proof. refine (lf_sq_form bls BLS_MOD bls_ok BLS_prime _ a). vm_compute. discriminate. Qed.
Lemma bls_dl_nz : bls_dl <> k0. Proof. apply keqb_neq. vm_compute. reflexivity. Qed.

(** 7 is not a square (C68) and [d * c^2 = 7] for the [c] below, so [d] is not a square. *)
Definition jub_c : Z := 0x3d8ce0d26012a58a7b85258e661a83b9347a3d9fdffc7307084507cfe7f17a25.
Lemma jub_nonsquare (s : Z) : (s * s) mod BLS_MOD <> lf_val bls BLS_MOD jubD.
Proof.
  intros E. apply (proj1 (proj2 C68_bls_constants) (s * jub_c)).
  replace (s * jub_c * (s * jub_c)) with (s * s * (jub_c * jub_c)) by ring.
  rewrite <- Z.mul_mod_idemp_l by discriminate. rewrite E. vm_compute. reflexivity.
Qed.

(** The addition law of Jubjub has no exceptional case: [-1] is a square and [d] is not. *)
Theorem C69_complete : ed_complete jubD.
Proof.
  constructor.
  - apply keqb_neq. vm_compute. reflexivity.
  - exists (bls_mk 0x8d51ccce760304d0ec030002760300000001000000000000). apply (keqb_eq BlsFld). vm_compute. reflexivity.
  - intros s E. apply (f_equal (lf_val bls BLS_MOD)) in E.
    change (lf_val bls BLS_MOD (lf_mul bls BLS_MOD bls_ok s s) = lf_val bls BLS_MOD jubD) in E. rewrite lf_val_mul in E.
    exact (jub_nonsquare _ E).
Qed.

(** The constants are those of the source; the generator is on the curve, its [T] is [X Y], and it is not the identity. *)
Theorem C69_constants :
  lf_limbs BLS_MOD jubD = jub_d /\ lf_limbs BLS_MOD jubX = jub_x /\ lf_limbs BLS_MOD jubY = jub_y /\ lf_limbs BLS_MOD jubT = jub_t /\
  ed_on jubD (jubX, jubY) /\ ed_ext (mkEext jubX jubY jubT k1) (jubX, jubY) /\ (jubX, jubY) <> ed_zero.
Proof.
  split; [vm_compute; reflexivity|]. split; [vm_compute; reflexivity|]. split; [vm_compute; reflexivity|]. split; [vm_compute; reflexivity|].
  split; [apply (keqb_eq BlsFld); vm_compute; reflexivity|]. split.
  - split; [apply keqb_neq; vm_compute; reflexivity|]. split; [apply (keqb_eq BlsFld); vm_compute; reflexivity|].
    split; apply (keqb_eq BlsFld); vm_compute; reflexivity.
  - intros E. apply (f_equal fst) in E. revert E. apply keqb_neq. vm_compute. reflexivity.
Qed.

Notation on := (ed_on jubD).
(** The operations that use no [square], on every pair of points: additions and subtractions of extended, affine and mixed operands. *)
Theorem C69_additions :
  (forall p q P Q, on P -> on Q -> ed_ext p P -> ed_ext q Q ->
     on (ed_add jubD P Q) /\ ed_ext (eext_add BlsFld jubD p q) (ed_add jubD P Q) /\ ed_ext (eext_sub BlsFld jubD p q) (ed_add jubD P (ed_neg Q)) /\
     ed_ext (eext_neg BlsFld p) (ed_neg P)) /\
  (forall p q, on (ed_aff p) -> on (ed_aff q) ->
     ed_ext (eaff_add BlsFld jubD p q) (ed_add jubD (ed_aff p) (ed_aff q)) /\
     ed_ext (ed_add_affine BlsFld jubD p q) (ed_add jubD (ed_aff p) (ed_aff q)) /\
     ed_ext (eaff_sub BlsFld jubD p q) (ed_add jubD (ed_aff p) (ed_neg (ed_aff q)))) /\
  (forall p q Q, on (ed_aff p) -> on Q -> ed_ext q Q ->
     ed_ext (eaff_add_ext BlsFld jubD p q) (ed_add jubD (ed_aff p) Q) /\ ed_ext (eaff_sub_ext BlsFld jubD p q) (ed_add jubD (ed_aff p) (ed_neg Q)) /\
     ed_ext (eext_add_aff BlsFld jubD q p) (ed_add jubD Q (ed_aff p)) /\ ed_ext (eext_sub_aff BlsFld jubD q p) (ed_add jubD Q (ed_neg (ed_aff p)))).
Proof.
  split; [|split].
  - intros p q P Q HP HQ Rp Rq. destruct (C23_extended BlsFld jubD C69_complete p q P Q HP HQ Rp Rq) as (A & S & _ & N & _).
    split; [apply (ed_add_on BlsFld jubD C69_complete); assumption|]. auto.
  - intros p q HP HQ. destruct (C23_affine BlsFld jubD C69_complete p q HP HQ) as (A & S & D & _). auto.
  - intros p q Q HP HQ Rq. exact (C23_mixed BlsFld jubD C69_complete p q Q HP HQ Rq).
Qed.

(** No element of [l] is one that [square] gets wrong. *)
Definition bls_none_lost (l : list BlsFld) : Prop := forall a, In a l -> bls_lost a = false.
Lemma bls_exact l : bls_none_lost l -> esq_exact BlsFld bls_sq l.
Proof.
  intros H. apply Forall_forall. intros a I. rewrite bls_sq_form, (H a I). unfold ksq.
  apply (lf_val_inj bls BLS_MOD bls_ok). change (lf_val bls BLS_MOD (lf_add bls BLS_MOD bls_ok (lf_mul bls BLS_MOD bls_ok a a) (lf_0 bls BLS_MOD bls_ok)) = lf_val bls BLS_MOD (lf_mul bls BLS_MOD bls_ok a a)).
  rewrite lf_val_add, lf_val_0, Z.add_0_r, !lf_val_mul, Z.mod_mod by discriminate. reflexivity.
Qed.

(** Doubling is right if no square loses a carry, and on an extended point outside the small-order cases only then; for affine points
    likewise unless both coordinates lose one. *)
Theorem C69_double_iff :
  (forall p P, on P -> ed_ext p P -> bls_none_lost (ed_double_ext_squares BlsFld p) -> ed_ext (sqe_double_ext BlsFld bls_sq p) (ed_add jubD P P)) /\
  (forall p, on (ed_aff p) -> bls_none_lost (ed_double_affine_squares BlsFld p) ->
     ed_ext (sqe_double_affine BlsFld bls_sq jubD p) (ed_add jubD (ed_aff p) (ed_aff p))) /\
  (forall p x y, on (x, y) -> ed_ext p (x, y) -> x <> k0 -> y <> k0 -> kadd (kmul x x) (kmul y y) <> k0 ->
     (ed_ext (sqe_double_ext BlsFld bls_sq p) (ed_add jubD (x, y) (x, y)) <->
      bls_lost (eex p) = false /\ bls_lost (eey p) = false /\ bls_lost (eez p) = false)) /\
  (forall x y, on (x, y) -> bls_lost x = false \/ bls_lost y = false ->
     (ed_ext (sqe_double_affine BlsFld bls_sq jubD (mkEaff x y)) (ed_add jubD (x, y) (x, y)) <->
      bls_lost x = false /\ bls_lost y = false /\ bls_lost (kadd x y) = false)).
Proof.
  split; [|split; [|split]].
  - intros p P HP Rp N. rewrite (eex_double_ext BlsFld bls_sq p (bls_exact _ N)). apply (ed_double_ext_ok BlsFld jubD C69_complete); assumption.
  - intros p HP N. rewrite (eex_double_affine BlsFld bls_sq jubD p (bls_exact _ N)). apply (ed_double_aff_ok BlsFld jubD C69_complete); assumption.
  - intros p x y H R NX NY NS. exact (e_double_ext_iff BlsFld bls_sq jubD bls_lost bls_dl bls_sq_form bls_dl_nz C69_complete p x y H R NX NY NS).
  - intros x y H ND. apply (e_double_affine_iff BlsFld bls_sq jubD bls_lost bls_dl bls_sq_form bls_dl_nz C69_complete x y H).
    destruct ND as [-> | ->]; [reflexivity|apply andb_false_r].
Qed.

(** Multiplication by the scalar [a] of residue [k], when no square on the way loses a carry. *)
Theorem C69_scalar_multiplication_when_exact a k p P : represents BLS_MOD a k -> on P -> ed_ext p P ->
  bls_none_lost (ed_scalar_squares BlsFld jubD bls p a) ->
  exists q, sqe_scalar_point BlsFld bls_sq jubD bls p a = Some q /\ ed_ext q (ed_mul jubD (Z.to_nat k) P) /\ on (ed_mul jubD (Z.to_nat k) P).
Proof.
  intros H HP Hp N. rewrite (eex_scalar BlsFld bls_sq jubD bls p a (bls_exact _ N)).
  destruct C68_bls_instance as (MP & SZ & _). destruct (C68_digits bls BLS_MOD MP SZ a k H) as (_ & _ & (ds & E & V & _) & _).
  unfold ed_scalar_point. rewrite E. eexists; split; [reflexivity|].
  pose proof (ereps_scalar BlsFld jubD C69_complete p (edmk BlsFld jubD P HP) ds Hp) as R. unfold ereps in R. rewrite V in R.
  assert (Hk : (k <? 0) = false). { apply Z.ltb_ge. destruct H as (_ & H & _). lia. }
  unfold zmul in R. rewrite Hk, (edval_nmul BlsFld jubD C69_complete) in R. split; [exact R|].
  pose proof (edval_on BlsFld jubD (nmul (Z.to_nat k) (edmk BlsFld jubD P HP : edgrp BlsFld jubD C69_complete))) as O.
  rewrite (edval_nmul BlsFld jubD C69_complete) in O. exact O.
Qed.

(** [is_on_curve] on an affine point of the curve with [x <> 0]: accepted exactly when neither coordinate loses a carry, or both do and
    [x^2 + y^2 = 2 / 2^128].  Exact for every affine point when neither does. *)
Theorem C69_on_curve_iff :
  (forall x y, x <> k0 -> bls_lost x = false -> bls_lost y = false ->
     (sqe_aff_is_on_curve BlsFld bls_sq jubD (mkEaff x y) = true <-> on (x, y))) /\
  (forall x y, x <> k0 -> on (x, y) ->
     (sqe_aff_is_on_curve BlsFld bls_sq jubD (mkEaff x y) = true <->
      (bls_lost x = false /\ bls_lost y = false) \/
      (bls_lost x = true /\ bls_lost y = true /\ kmul (kadd (kmul x x) (kmul y y)) (bls_mk (2 ^ 128)) = bls_mk 2))).
Proof.
  split.
  - intros x y NX DX DY. rewrite eex_on_curve.
    + apply (C23_on_curve BlsFld jubD (mkEaff x y) (mkEext k0 k1 k0 k1) k0 k0 NX).
    + apply bls_exact. intros a I. unfold ed_on_curve_squares in I. cbn [eax eay] in I. destruct (kis0 x); [destruct I|].
      destruct I as [<-|[<-|[]]]; assumption.
  - intros x y NX H. rewrite (e_on_curve_iff BlsFld bls_sq jubD bls_lost bls_dl bls_sq_form bls_dl_nz C69_complete x y H NX).
    rewrite (shift_eq BlsFld _ (bls_mk 2) (bls_mk (2 ^ 128))); [reflexivity|]. apply keqb_neq. vm_compute. reflexivity.
Qed.

(** A point of the curve with a lost carry in [y], and a pair off the curve. *)
Definition jub_bad_x : BlsFld := bls_mk 0x3a37e41fec4c184d7ea2b0bfe8121a9617699e87ef6d885baad450d3b78b72b0.
Definition jub_bad_y : BlsFld := bls_mk 0xa920d33368c0d0c365d227d013088fbdf897b629f920b32181206542bc7c400.
Definition jub_off_x : BlsFld := bls_mk 0x1e8098d14a8c83658df210f65602b17849d68a15454fb6c2a948bb3f12da2a42.
Definition jub_off_y : BlsFld := bls_mk 0x3d830596c84639dd6c874c7d6b24257da37fc0237d0a891788f95d8bd7ca0dbb.
Theorem C69_on_curve_refuted :
  (on (jub_bad_x, jub_bad_y) /\ sqe_aff_is_on_curve BlsFld bls_sq jubD (mkEaff jub_bad_x jub_bad_y) = false) /\
  (~ on (jub_off_x, jub_off_y) /\ sqe_aff_is_on_curve BlsFld bls_sq jubD (mkEaff jub_off_x jub_off_y) = true).
Proof.
  split; (split; [|vm_compute; reflexivity]).
  - apply (keqb_eq BlsFld). vm_compute. reflexivity.
  - refine (keqb_neq BlsFld _ _ _). vm_compute. reflexivity.
Qed.
(** Doubling it, by either function, or multiplying it by two, gives a value that stands for no point of the curve. *)
Theorem C69_doubling_refuted : let p := mkEaff jub_bad_x jub_bad_y in let p' := eaff_to_extended BlsFld p in
  on (ed_aff p) /\ ed_ext p' (ed_aff p) /\
  (forall Q, ed_ext (sqe_double_affine BlsFld bls_sq jubD p) Q -> ~ on Q) /\
  (forall Q, ed_ext (sqe_double_ext BlsFld bls_sq p') Q -> ~ on Q) /\
  (exists q, sqe_aff_mul BlsFld bls_sq jubD bls p (fadd bls (fone bls) (fone bls)) = Some q /\ forall Q, ed_ext q Q -> ~ on Q).
Proof.
  intros p p'. split; [exact (proj1 (proj1 C69_on_curve_refuted))|]. split; [apply ed_extend_ok|].
  split; [intros Q; apply (ed_leaves_off BlsFld); vm_compute; reflexivity|]. split; [intros Q; apply (ed_leaves_off BlsFld); vm_compute; reflexivity|].
  assert (E : match sqe_aff_mul BlsFld bls_sq jubD bls p (fadd bls (fone bls) (fone bls)) with Some q => ed_leaves BlsFld jubD q | None => false end = true)
    by (vm_compute; reflexivity).
  destruct (sqe_aff_mul BlsFld bls_sq jubD bls p (fadd bls (fone bls) (fone bls))) as [q|]; [|discriminate].
  exists q. split; [reflexivity|]. intros Q. apply (ed_leaves_off BlsFld), E.
Qed.

(** The generator meets the hypotheses: it is no small-order point, its doublings lose no carry, and so do the doublings on the way
    to its multiple by 5, which is not the identity. *)
Example C69_example :
  on (jubX, jubY) /\ jubX <> k0 /\ jubY <> k0 /\ kadd (kmul jubX jubX) (kmul jubY jubY) <> k0 /\
  bls_none_lost (ed_double_ext_squares BlsFld (mkEext jubX jubY jubT k1)) /\ bls_none_lost (ed_double_affine_squares BlsFld (mkEaff jubX jubY)) /\
  represents BLS_MOD (ffrom_u64 bls 5) 5 /\ bls_none_lost (ed_scalar_squares BlsFld jubD bls (mkEext jubX jubY jubT k1) (ffrom_u64 bls 5)) /\
  exists q, sqe_scalar_point BlsFld bls_sq jubD bls (mkEext jubX jubY jubT k1) (ffrom_u64 bls 5) = Some q /\ ed_ext q (ed_mul jubD 5 (jubX, jubY)) /\
    eext_is_identity BlsFld q = false.
Proof.
  assert (A : forall l, forallb (fun a => negb (bls_lost a)) l = true -> bls_none_lost l).
  { intros l H a I. rewrite forallb_forall in H. apply negb_true_iff, H, I. }
  pose proof C69_constants as (_ & _ & _ & _ & O & R & _).
  split; [exact O|]. split; [apply keqb_neq; vm_compute; reflexivity|]. split; [apply keqb_neq; vm_compute; reflexivity|].
  split; [apply keqb_neq; vm_compute; reflexivity|]. split; [apply A; vm_compute; reflexivity|]. split; [apply A; vm_compute; reflexivity|].
  assert (R5 : represents BLS_MOD (ffrom_u64 bls 5) 5).
  { destruct C68_bls_instance as (MP & SZ & _). exact (proj1 (C68_conversions bls BLS_MOD MP SZ) 5 ltac:(split; [discriminate|reflexivity])). }
  split; [exact R5|].
  assert (N : bls_none_lost (ed_scalar_squares BlsFld jubD bls (mkEext jubX jubY jubT k1) (ffrom_u64 bls 5))) by (apply A; vm_compute; reflexivity).
  split; [exact N|].
  destruct (C69_scalar_multiplication_when_exact _ 5 _ _ R5 O R N) as (q & E & V & _). exists q. split; [exact E|]. split; [exact V|].
  assert (I : match sqe_scalar_point BlsFld bls_sq jubD bls (mkEext jubX jubY jubT k1) (ffrom_u64 bls 5) with Some q => eext_is_identity BlsFld q | None => true end = false)
    by (vm_compute; reflexivity).
  rewrite E in I. exact I.
Qed.
