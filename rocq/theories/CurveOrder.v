(** Every point of G1 and of Grumpkin is a multiple of the generator, so the two groups have prime order.
    The curve has at most 2q+1 < 3r points; a point outside the multiples of the generator would give,
    with its negative, three disjoint cosets of r points, unless it differed from a multiple by a point
    of order two, and there is none. *)
From Coq Require Import ZArith List Bool Lia Znumtheory Field.
From Verif Require Import LimbModel FieldModel FieldSpec FieldMore Primes Algebra GroupLib CurveSpec CurveGroup WeierModel WeierProofs CurveAb CurveParams R1csSpec CircuitFields ExtParams FieldProofs CurveCert.
From Verif Require Dig64.
Import ListNotations.
Local Open Scope Z_scope.

Section Cyclic.
Variable A : AbGrp.
Local Infix "+!" := aadd (at level 50, left associativity).
Variables (code : A -> Z) (M r : Z) (g : A).
Hypothesis code_inj : forall P Q, code P = code Q -> P = Q.
Hypothesis code_range : forall P, 0 <= code P < M.
Hypothesis Hr : prime r.
Hypothesis Hodd : r mod 2 = 1.
Hypothesis HM : M < 3 * r.
Hypothesis Hg : zmul r g = a0.
Hypothesis Hg0 : g <> a0.
Hypothesis no2 : forall P : A, P +! P = a0 -> P = a0.
Lemma small_inj k : zmul k g = a0 -> 0 <= k < r -> k = 0.
Proof.
  intros E R. destruct (Z.eq_dec k 0) as [->|N]; [reflexivity|]. exfalso.
  assert (RP : rel_prime k r). { apply rel_prime_sym, prime_rel_prime; [exact Hr|]. intros D. apply Z.divide_pos_le in D; lia. }
  destruct (rel_prime_bezout _ _ RP) as [u v H]. apply Hg0. rewrite <- (zmul_1 A g), <- H, zmul_add, !zmul_mul, E, Hg, !zmul_a0. apply aid.
Qed.
Lemma mult_inj j k : 0 <= j < r -> 0 <= k < r -> zmul j g = zmul k g -> j = k.
Proof.
  intros Hj Hk E. destruct (Z.le_ge_cases j k) as [L|L].
  - assert (k - j = 0); [|lia]. apply small_inj; [|lia]. rewrite zmul_sub, E. apply ainv.
  - assert (j - k = 0); [|lia]. apply small_inj; [|lia]. rewrite zmul_sub, E. apply ainv.
Qed.
Definition coset (P : A) : list Z := map (fun k => code (P +! zmul (Z.of_nat k) g)) (seq 0 (Z.to_nat r)).
Lemma in_coset P c : In c (coset P) <-> exists k, 0 <= k < r /\ c = code (P +! zmul k g).
Proof.
  unfold coset. rewrite in_map_iff. split.
  - intros (k & <- & I). apply in_seq in I. exists (Z.of_nat k). split; [lia|reflexivity].
  - intros (k & R & ->). exists (Z.to_nat k). rewrite Z2Nat.id by lia. split; [reflexivity|]. apply in_seq. lia.
Qed.
Lemma in_coset_any P k : In (code (P +! zmul k g)) (coset P).
Proof.
  apply in_coset. pose proof (prime_ge_2 _ Hr). exists (k mod r). split; [apply Z.mod_pos_bound; lia|]. rewrite (zmul_mod A r k g Hg). reflexivity.
Qed.
Lemma NoDup_map_inj {X Y} (f : X -> Y) l : NoDup l -> (forall x y, In x l -> In y l -> f x = f y -> x = y) -> NoDup (map f l).
Proof.
  induction 1 as [|x l NI ND IH]; intros H; [constructor|]. cbn. constructor.
  - rewrite in_map_iff. intros (y & E & I). apply NI. rewrite (H x y (or_introl eq_refl) (or_intror I) (eq_sym E)). exact I.
  - apply IH. intros y z Iy Iz. apply H; right; assumption.
Qed.
Lemma coset_NoDup P : NoDup (coset P).
Proof.
  unfold coset. apply NoDup_map_inj; [apply seq_NoDup|]. intros j k Ij Ik E. apply in_seq in Ij, Ik. apply code_inj, acancel in E. apply mult_inj in E; lia.
Qed.
Lemma NoDup_app_intro {X} (l1 l2 : list X) : NoDup l1 -> NoDup l2 -> (forall x, In x l1 -> In x l2 -> False) -> NoDup (l1 ++ l2).
Proof.
  induction 1 as [|x l NI ND IH]; intros N2 D; [exact N2|]. cbn. constructor.
  - rewrite in_app_iff. intros [I|I]; [exact (NI I)|exact (D x (or_introl eq_refl) I)].
  - apply IH; [exact N2|]. intros y I1 I2. apply (D y (or_intror I1) I2).
Qed.
Lemma move (P Q X Y : A) : P +! X = Q +! Y -> P +! aneg Q = Y +! aneg X.
Proof.
  intros E. apply (acancel A (Q +! X)). rewrite (acomm A P), aswap, ainv, aid. rewrite (acomm A Q X), (acomm A Y (aneg X)), aswap, ainv, aid.
  rewrite <- E. apply acomm.
Qed.
Theorem generated P : exists k, 0 <= k < r /\ P = zmul k g.
Proof.
  pose proof (prime_ge_2 _ Hr) as R2.
  destruct (in_dec Z.eq_dec (code P) (coset a0)) as [I|NI].
  { apply in_coset in I. destruct I as (k & R & E). apply code_inj in E. rewrite aid in E. exists k. tauto. }
  exfalso.
  assert (OUT : forall k, P <> zmul k g).
  { intros k ->. apply NI. rewrite <- (aid A (zmul k g)). apply in_coset_any. }
  assert (ND : NoDup (coset a0 ++ coset P ++ coset (aneg P))).
  { apply NoDup_app_intro; [apply coset_NoDup|apply NoDup_app_intro; try apply coset_NoDup|].
    - intros x I1 I2. apply in_coset in I1, I2. destruct I1 as (j & _ & E1), I2 as (k & _ & E2). rewrite E1 in E2. apply code_inj, move in E2. rewrite aneg_neg, <- zmul_sub in E2.
      set (m := (k - j) * ((r + 1) / 2)). apply (OUT m).
      assert (D : (P +! aneg (zmul m g)) +! (P +! aneg (zmul m g)) = a0).
      { rewrite aswap, E2, <- aneg_add, <- zmul_add. replace (m + m) with ((k - j) + (k - j) * r).
        - rewrite zmul_add, zmul_mul, Hg, zmul_a0, aid_r. apply ainv.
        - unfold m. assert (2 * ((r + 1) / 2) = r + 1); [|nia]. pose proof (Z.div_mod (r + 1) 2). rewrite Zplus_mod, Hodd in H. change ((1 + 1 mod 2) mod 2) with 0 in H. lia. }
      apply no2 in D. apply (acancel A (aneg (zmul m g))). rewrite ainv_l, (acomm A _ P). exact D.
    - intros x I1 I2. rewrite in_app_iff in I2. apply in_coset in I1. destruct I1 as (j & _ & ->). rewrite aid in I2. destruct I2 as [I2|I2]; apply in_coset in I2; destruct I2 as (k & _ & E); apply code_inj in E.
      + apply (OUT (j - k)). rewrite zmul_sub. apply (acancel A (zmul k g)). rewrite (acomm A _ P), <- E, (acomm A (zmul j g)), aassoc, ainv, aid. reflexivity.
      + apply (OUT (k - j)). rewrite zmul_sub, E, aneg_add, aneg_neg, (acomm A P), aassoc, ainv, aid. reflexivity. }
  assert (IN : incl (coset a0 ++ coset P ++ coset (aneg P)) (map Z.of_nat (seq 0 (Z.to_nat M)))).
  { assert (ALL : forall Q, incl (coset Q) (map Z.of_nat (seq 0 (Z.to_nat M)))).
    { intros Q x I. apply in_coset in I. destruct I as (k & _ & ->). pose proof (code_range (Q +! zmul k g)). apply in_map_iff.
      exists (Z.to_nat (code (Q +! zmul k g))). split; [lia|]. apply in_seq. lia. }
    repeat apply incl_app; apply ALL. }
  pose proof (NoDup_incl_length ND IN) as L. unfold coset in L. rewrite !app_length, !map_length, !seq_length in L. lia.
Qed.
Corollary killed (P : A) : zmul r P = a0.
Proof. destruct (generated P) as (k & _ & ->). rewrite <- zmul_mul, Z.mul_comm, zmul_mul, Hg. apply zmul_a0. Qed.
End Cyclic.

Section Curve.
Local Open Scope fld_scope.
Variable K : Fld.
Add Field cof : (kth K).
Variables b b3 : K.
Hypothesis Hb3 : b3 = b + b + b.
Hypothesis two : (1 + 1 : K) <> 0.
Hypothesis three : (1 + 1 + 1 : K) <> 0.
Hypothesis bnz : b <> 0.
Hypothesis no2 : forall x : K, x * x * x + b <> 0.
Variables (val : K -> Z) (p : Z) (bits : K -> list bool) (pow2 : nat -> K) (md : K) (nb : nat).
Hypothesis CF : circuit_field K val p bits pow2 md nb.
Hypothesis podd : (p mod 2 = 1)%Z.
Notation G := (cgrp K b two three bnz).
Definition pcode (P : point K) : Z := match P with Inf => 2 * p | Pt x y => 2 * val x + val y mod 2 end.
Lemma pcode_inj (P Q : G) : pcode (cval K b P) = pcode (cval K b Q) -> P = Q.
Proof.
  intros E. apply cpt_eq. pose proof (cval_on K b P) as HP. pose proof (cval_on K b Q) as HQ. revert E HP HQ.
  generalize (cval K b P) (cval K b Q). clear P Q. intros [|x y] [|x' y'] E HP HQ; [reflexivity| | |]; cbn [pcode] in E.
  - pose proof (cf_range _ _ _ _ _ _ _ CF x'). pose proof (Z.mod_pos_bound (val y') 2). lia.
  - pose proof (cf_range _ _ _ _ _ _ _ CF x). pose proof (Z.mod_pos_bound (val y) 2). lia.
  - pose proof (Z.mod_pos_bound (val y) 2). pose proof (Z.mod_pos_bound (val y') 2). assert (EX : val x = val x') by lia. assert (EY : (val y mod 2 = val y' mod 2)%Z) by lia.
    apply (cf_inj _ _ _ _ _ _ _ CF) in EX. subst x'. cbn in HP, HQ.
    assert (D : (y - y') * (y + y') = 0). { transitivity (y * y - y' * y'); [ring|]. rewrite HP, HQ. ring. }
    destruct (kmul_eq0 K _ _ D) as [D'|D']; [apply (proj1 (ksub_eq0 K _ _)) in D'; subst; reflexivity|].
    apply (f_equal val) in D'. rewrite (cf_add _ _ _ _ _ _ _ CF), (cf_zero _ _ _ _ _ _ _ CF) in D'.
    pose proof (cf_range _ _ _ _ _ _ _ CF y) as R1. pose proof (cf_range _ _ _ _ _ _ _ CF y') as R2.
    assert (val y = val y') as V; [|apply (cf_inj _ _ _ _ _ _ _ CF) in V; subst; reflexivity].
    apply Z.mod_divide in D'; [|lia]. destruct D' as [k Dk].
    assert (k = 0 \/ k = 1)%Z as [->| ->] by nia; [lia|]. exfalso.
    assert (X : ((val y + val y') mod 2 = 1)%Z) by (rewrite Dk, Z.mul_1_l; exact podd). rewrite Zplus_mod, EY, <- Zplus_mod in X. replace (val y' + val y')%Z with (val y' * 2)%Z in X by lia. rewrite Z.mod_mul in X; lia.
Qed.
Lemma pcode_range (P : G) : (0 <= pcode (cval K b P) < 2 * p + 1)%Z.
Proof.
  pose proof (cf_p _ _ _ _ _ _ _ CF). destruct (cval K b P) as [|x y]; cbn [pcode]; [lia|]. pose proof (cf_range _ _ _ _ _ _ _ CF x). pose proof (Z.mod_pos_bound (val y) 2). lia.
Qed.
Lemma curve_no2 (P : G) : aadd P P = a0 -> P = a0.
Proof.
  intros E. apply cpt_eq. apply (f_equal (cval K b)) in E. rewrite cval_add in E. pose proof (cval_on K b P) as HP. change (cval K b (a0 : G)) with (Inf (K := K)) in *. revert E HP. generalize (cval K b P). clear P.
  intros [|x y] E HP; [reflexivity|]. exfalso. cbn in E, HP. rewrite (keqb_refl K) in E. cbn in E.
  destruct (keqb y (- y)) eqn:Y; cbn in E.
  - apply keqb_eq in Y. apply (no2 x). rewrite <- HP. assert (Z : (1 + 1) * y = 0) by (transitivity (y - - y); [ring|rewrite <- Y; ring]).
    destruct (kmul_eq0 K _ _ Z) as [D|D]; [exfalso; exact (two D)|]. rewrite D. ring.
  - discriminate E.
Qed.
(** Integer coordinates and the checked chain. *)
Variable mk : Z -> K.
Hypothesis Hmk : forall a, val (mk a) = (a mod p)%Z.
Lemma p_pos : (0 < p)%Z. Proof. pose proof (cf_p _ _ _ _ _ _ _ CF). lia. Qed.
Lemma mk_add a c : mk (a + c)%Z = mk a + mk c.
Proof. apply (cf_inj _ _ _ _ _ _ _ CF). rewrite (cf_add _ _ _ _ _ _ _ CF), !Hmk. apply Zplus_mod. Qed.
Lemma mk_mul a c : mk (a * c)%Z = mk a * mk c.
Proof. apply (cf_inj _ _ _ _ _ _ _ CF). rewrite (cf_mul _ _ _ _ _ _ _ CF), !Hmk. apply Zmult_mod. Qed.
Lemma mk_0 : mk 0%Z = 0.
Proof. apply (cf_inj _ _ _ _ _ _ _ CF). rewrite (cf_zero _ _ _ _ _ _ _ CF), Hmk. apply Z.mod_0_l. pose proof p_pos. lia. Qed.
Lemma mk_1 : mk 1%Z = 1.
Proof. apply (cf_inj _ _ _ _ _ _ _ CF). rewrite (cf_one _ _ _ _ _ _ _ CF), Hmk. apply Z.mod_small. pose proof (cf_range _ _ _ _ _ _ _ CF 1) as R. rewrite (cf_one _ _ _ _ _ _ _ CF) in R. exact R. Qed.
Lemma mk_p : mk p = 0.
Proof. apply (cf_inj _ _ _ _ _ _ _ CF). rewrite (cf_zero _ _ _ _ _ _ _ CF), Hmk. apply Z.mod_same. pose proof p_pos. lia. Qed.
Lemma mk_sub a c : mk (a - c)%Z = mk a - mk c.
Proof. assert (E : mk (a - c + c)%Z = mk a) by (f_equal; lia). rewrite mk_add in E. rewrite <- E. ring. Qed.
Lemma mk_2 : mk 2%Z = 1 + 1. Proof. change 2%Z with (1 + 1)%Z. rewrite mk_add, mk_1. reflexivity. Qed.
Lemma mk_3 : mk 3%Z = 1 + 1 + 1. Proof. change 3%Z with (1 + 1 + 1)%Z. rewrite !mk_add, mk_1. reflexivity. Qed.
(** [mul64] is the product of two integers, computed on base-64 digits because the kernel does that faster. *)
Local Notation mul64 := Dig64.fmul.
Definition step_dbl (xy : Z * Z) (c : cert) : option (Z * Z) :=
  let '(x, y) := xy in
  if (mul64 (c_l c) (2 * y) =? 3 * mul64 x x + mul64 (c_k1 c) p)%Z then
    let x3 := (mul64 (c_l c) (c_l c) - (x + x) - mul64 (c_k2 c) p)%Z in Some (x3, mul64 (c_l c) (x - x3) - y - mul64 (c_k3 c) p)%Z
  else None.
Definition step_add (gx gy : Z) (xy : Z * Z) (c : cert) : option (Z * Z) :=
  let '(x, y) := xy in
  if ((mul64 (c_l c) (x - gx) =? y - gy + mul64 (c_k1 c) p) && (0 <=? x) && (x <? p) && negb (x =? gx))%Z%bool then
    let x3 := (mul64 (c_l c) (c_l c) - x - gx - mul64 (c_k2 c) p)%Z in Some (x3, mul64 (c_l c) (x - x3) - y - mul64 (c_k3 c) p)%Z
  else None.
Fixpoint chain (gx gy : Z) (l : list step) (xy : Z * Z) : option (Z * Z) :=
  match l with
  | [] => Some xy
  | Dbl c :: l => match step_dbl xy c with Some xy => chain gx gy l xy | None => None end
  | DblAdd c a :: l => match step_dbl xy c with Some xy => match step_add gx gy xy a with Some xy => chain gx gy l xy | None => None end | None => None end
  | DblSub c a :: l => match step_dbl xy c with Some xy => match step_add gx (- gy) xy a with Some xy => chain gx gy l xy | None => None end | None => None end
  end.
Fixpoint chain_value (l : list step) (k : Z) : Z :=
  match l with [] => k | Dbl _ :: l => chain_value l (2 * k) | DblAdd _ _ :: l => chain_value l (2 * k + 1) | DblSub _ _ :: l => chain_value l (2 * k - 1) end.
Definition at_point (xy : Z * Z) (P : G) : Prop := cval K b P = Pt (mk (fst xy)) (mk (snd xy)).
Lemma step_dbl_ok xy c xy' P : at_point xy P -> step_dbl xy c = Some xy' -> at_point xy' (aadd P P).
Proof.
  destruct xy as [x y]. unfold at_point, step_dbl. cbv zeta. rewrite !Dig64.fmul_ok. cbn [fst snd]. intros HP. destruct (Z.eqb_spec (c_l c * (2 * y)) (3 * (x * x) + c_k1 c * p)) as [E|]; [|discriminate].
  intros H. injection H as <-. cbn [fst snd]. pose proof (cval_on K b P) as On. rewrite cval_add, HP in *. cbn in On.
  apply (f_equal mk) in E. rewrite !mk_add, !mk_mul, mk_p, mk_2, mk_3 in E. rewrite !mk_sub, !mk_mul, !mk_sub, !mk_mul, !mk_add, mk_p.
  revert E On. generalize (mk (c_l c)) (mk x) (mk y) (mk (c_k1 c)) (mk (c_k2 c)) (mk (c_k3 c)). intros l X Y k1 k2 k3 E On.
  cbn. rewrite (keqb_refl K). destruct (keqb_spec K Y (- Y)) as [D|D]; cbn [andb].
  - exfalso. apply (no2 X). rewrite <- On. assert (Z : (1 + 1) * Y = 0) by (transitivity (Y - - Y); [ring|rewrite <- D; ring]).
    destruct (kmul_eq0 K _ _ Z) as [D'|D']; [exfalso; exact (two D')|]. rewrite D'. ring.
  - assert (NZ : Y + Y <> 0). { intros Z. apply D. transitivity (Y + Y - Y); [ring|]. rewrite Z. ring. }
    assert (L : (X * X + X * X + X * X) / (Y + Y) = l).
    { transitivity (l * ((1 + 1) * Y) / (Y + Y)); [rewrite E; field; exact NZ|field; exact NZ]. }
    rewrite L. f_equal; ring.
Qed.
Lemma step_add_ok gx gy xy c xy' P Q : at_point xy P -> at_point (gx, gy) Q -> (0 <= gx < p)%Z -> step_add gx gy xy c = Some xy' -> at_point xy' (aadd P Q).
Proof.
  destruct xy as [x y]. unfold at_point, step_add. cbv zeta. rewrite !Dig64.fmul_ok. cbn [fst snd]. intros HP HQ Rg.
  destruct (Z.eqb_spec (c_l c * (x - gx)) (y - gy + c_k1 c * p)) as [E|]; [|discriminate]. destruct (Z.leb_spec 0 x) as [R1|]; [|discriminate].
  destruct (Z.ltb_spec x p) as [R2|]; [|discriminate]. destruct (Z.eqb_spec x gx) as [|NE]; [discriminate|]. cbn [negb andb].
  intros H. injection H as <-. cbn [fst snd]. rewrite cval_add, HP, HQ.
  assert (NX : mk x <> mk gx). { intros D. apply (f_equal val) in D. rewrite !Hmk, !Z.mod_small in D by lia. exact (NE D). }
  apply (f_equal mk) in E. rewrite !mk_add, !mk_mul, !mk_sub, mk_p in E. rewrite !mk_sub, !mk_mul, !mk_sub, !mk_mul, mk_p.
  revert E NX. generalize (mk (c_l c)) (mk x) (mk y) (mk (c_k1 c)) (mk (c_k2 c)) (mk (c_k3 c)) (mk gx) (mk gy). intros l X Y k1 k2 k3 GX GY E NX.
  cbn. destruct (keqb_spec K X GX) as [D|D]; [exfalso; exact (NX D)|]. cbn [andb].
  assert (NZ : X - GX <> 0). { intros Z. apply NX. apply (proj1 (ksub_eq0 K _ _)) in Z. exact Z. }
  assert (L : (Y - GY) / (X - GX) = l). { transitivity (l * (X - GX) / (X - GX)); [rewrite E; field; exact NZ|field; exact NZ]. }
  rewrite L. f_equal; ring.
Qed.
Variables (r gx gy : Z).
Hypothesis Rgx : (0 <= gx < p)%Z.
Hypothesis Hg : on_curve b (Pt (mk gx) (mk gy)).
Notation gen := (cmk K b (Pt (mk gx) (mk gy)) Hg : G).
Lemma chain_ok : forall l xy k xy', at_point xy (zmul k gen) -> chain gx gy l xy = Some xy' -> at_point xy' (zmul (chain_value l k) gen).
Proof.
  assert (AG : at_point (gx, gy) gen) by reflexivity.
  assert (AN : at_point (gx, - gy)%Z (aneg gen)).
  { unfold at_point. cbn [fst snd]. rewrite cval_neg. cbn. f_equal. replace (- gy)%Z with (0 - gy)%Z by lia. rewrite mk_sub, mk_0. ring. }
  induction l as [|[c|c a|c a] l IH]; intros xy k xy' A E; cbn [chain chain_value] in *; [injection E as <-; exact A| | |];
    (destruct (step_dbl xy c) as [xy1|] eqn:E1; [|discriminate]; pose proof (step_dbl_ok _ _ _ _ A E1) as A1; rewrite <- zmul_double in A1).
  - exact (IH _ _ _ A1 E).
  - destruct (step_add gx gy xy1 a) as [xy2|] eqn:E2; [|discriminate]. pose proof (step_add_ok _ _ _ _ _ _ _ A1 AG Rgx E2) as A2.
    apply (IH xy2 _ _); [|exact E]. rewrite zmul_add, zmul_1. exact A2.
  - destruct (step_add gx (- gy) xy1 a) as [xy2|] eqn:E2; [|discriminate]. pose proof (step_add_ok _ _ _ _ _ _ _ A1 AN Rgx E2) as A2.
    apply (IH xy2 _ _); [|exact E]. rewrite zmul_sub, zmul_1. exact A2.
Qed.
Variable l : list step.
Definition chain_check : bool :=
  ((chain_value l 1 =? r - 1) && match chain gx gy l (gx, gy) with Some (x, y) => (x =? gx) && (y =? p - gy) | None => false end)%Z%bool.
Hypothesis Hr : prime r.
Hypothesis rodd : (r mod 2 = 1)%Z.
Hypothesis Hpr : (2 * p + 1 < 3 * r)%Z.
Hypothesis Hrun : chain_check = true.
Lemma gen_killed : zmul r gen = a0.
Proof.
  unfold chain_check in Hrun. apply andb_true_iff in Hrun. destruct Hrun as [Hv Hc]. apply Z.eqb_eq in Hv.
  destruct (chain gx gy l (gx, gy)) as [[x y]|] eqn:E; [|discriminate]. apply andb_true_iff in Hc. destruct Hc as [Hx Hy]. apply Z.eqb_eq in Hx, Hy. subst x y.
  assert (A : at_point (gx, gy) (zmul 1 gen)) by (rewrite zmul_1; reflexivity). pose proof (chain_ok _ _ _ _ A E) as A'. rewrite Hv in A'.
  assert (N : zmul (r - 1) gen = aneg gen).
  { apply cpt_eq. rewrite A', cval_neg. cbn. f_equal. rewrite mk_sub, mk_p. ring. }
  replace r with (r - 1 + 1)%Z by lia. rewrite zmul_add, N, zmul_1. apply ainv_l.
Qed.
Theorem curve_generated (P : G) : exists k, (0 <= k < r)%Z /\ P = zmul k gen.
Proof.
  apply (generated G (fun P => pcode (cval K b P)) (2 * p + 1) r gen pcode_inj pcode_range Hr rodd Hpr gen_killed); [|exact curve_no2].
  intros E. apply (f_equal (cval K b)) in E. discriminate E.
Qed.
Theorem curve_killed (P : G) : zmul r P = a0.
Proof. destruct (curve_generated P) as (k & _ & ->). rewrite <- zmul_mul, Z.mul_comm, zmul_mul, gen_killed. apply zmul_a0. Qed.
End Curve.

(** ** The two curves *)
Lemma q_odd : Q_MOD mod 2 = 1. Proof. apply Z.eqb_eq. vm_cast_no_check (eq_refl true). Qed.
Lemma r_odd : R_MOD mod 2 = 1. Proof. apply Z.eqb_eq. vm_cast_no_check (eq_refl true). Qed.
Lemma qr_bound : 2 * Q_MOD + 1 < 3 * R_MOD. Proof. apply Z.ltb_lt. vm_cast_no_check (eq_refl true). Qed.
Lemma r_pos : 0 < R_MOD. Proof. apply Z.ltb_lt. vm_cast_no_check (eq_refl true). Qed.
Lemma q_pos : 0 < Q_MOD. Proof. apply Z.ltb_lt. vm_cast_no_check (eq_refl true). Qed.
Lemma rq_bound : 2 * R_MOD + 1 < 3 * Q_MOD. Proof. apply Z.ltb_lt. vm_cast_no_check (eq_refl true). Qed.
Section G1.
Let two := proj1 (proj2 g1_ok). Let three := proj1 (proj2 (proj2 g1_ok)). Let bnz := proj2 (proj2 (proj2 g1_ok)).
Definition g1_group : AbGrp := cgrp FqFld g1_param_b two three bnz.
Lemma g1_chain_ok : chain_check Q_MOD R_MOD 1 2 g1_chain = true.
Proof. vm_cast_no_check (eq_refl true). Qed.
Lemma fq_mk_val a : fq_val (fq_mk a) = a mod Q_MOD. Proof. apply (lf_val_mk fq Q_MOD fq_ok). Qed.
Lemma g1_x : g1_generator_x = fq_mk 1. Proof. apply keqb_eq. vm_cast_no_check (eq_refl true). Qed.
Lemma g1_y : g1_generator_y = fq_mk 2. Proof. apply keqb_eq. vm_cast_no_check (eq_refl true). Qed.
Lemma one_lt_q : 0 <= 1 < Q_MOD. Proof. split; [lia|]. apply Z.ltb_lt. vm_cast_no_check (eq_refl true). Qed.
Lemma g1_on' : on_curve g1_param_b (Pt (fq_mk 1) (fq_mk 2)). Proof. rewrite <- g1_x, <- g1_y. exact g1_generator_on. Qed.
Definition g1_gen : g1_group := cmk FqFld g1_param_b _ g1_generator_on.
Lemma g1_gen_eq : g1_gen = cmk FqFld g1_param_b _ g1_on'. Proof. apply cpt_eq. cbn. rewrite <- g1_x, <- g1_y. reflexivity. Qed.
(** Every point on the curve is a multiple of the generator, and [R_MOD] kills it. *)
Theorem g1_generated (P : g1_group) : exists k, 0 <= k < R_MOD /\ P = zmul k g1_gen.
Proof.
  rewrite g1_gen_eq. exact (curve_generated FqFld g1_param_b two three bnz g1_no2 fq_val Q_MOD fq_bits fq_pow2 k0 254 fq_circuit q_odd fq_mk fq_mk_val
    R_MOD 1 2 one_lt_q g1_on' g1_chain R_MOD_prime r_odd qr_bound g1_chain_ok P).
Qed.
Theorem g1_killed (P : g1_group) : zmul R_MOD P = a0.
Proof.
  exact (curve_killed FqFld g1_param_b two three bnz g1_no2 fq_val Q_MOD fq_bits fq_pow2 k0 254 fq_circuit q_odd fq_mk fq_mk_val
    R_MOD 1 2 one_lt_q g1_on' g1_chain R_MOD_prime r_odd qr_bound g1_chain_ok P).
Qed.
End G1.
Section Grumpkin.
Let two := proj1 (proj2 grumpkin_ok). Let three := proj1 (proj2 (proj2 grumpkin_ok)). Let bnz := proj2 (proj2 (proj2 grumpkin_ok)).
Definition grumpkin_group : AbGrp := cgrp FrFld grumpkin_param_b two three bnz.
Definition grumpkin_y : Z := 0x2cf135e7506a45d632d270d45f1181294833fc48d823f272c.
Lemma grumpkin_chain_ok : chain_check R_MOD Q_MOD 1 grumpkin_y grumpkin_chain = true.
Proof. vm_cast_no_check (eq_refl true). Qed.
Lemma fr_mk_val a : fr_val (fr_mk a) = a mod R_MOD. Proof. apply (lf_val_mk fr R_MOD fr_ok). Qed.
Lemma gru_x : grumpkin_generator_x = fr_mk 1. Proof. apply keqb_eq. vm_cast_no_check (eq_refl true). Qed.
Lemma gru_y : grumpkin_generator_y = fr_mk grumpkin_y. Proof. apply keqb_eq. vm_cast_no_check (eq_refl true). Qed.
Lemma one_lt_r : 0 <= 1 < R_MOD. Proof. split; [lia|]. apply Z.ltb_lt. vm_cast_no_check (eq_refl true). Qed.
Lemma gru_on' : on_curve grumpkin_param_b (Pt (fr_mk 1) (fr_mk grumpkin_y)). Proof. rewrite <- gru_x, <- gru_y. exact grumpkin_generator_on. Qed.
Definition grumpkin_gen : grumpkin_group := cmk FrFld grumpkin_param_b _ grumpkin_generator_on.
Lemma grumpkin_gen_eq : grumpkin_gen = cmk FrFld grumpkin_param_b _ gru_on'. Proof. apply cpt_eq. cbn. rewrite <- gru_x, <- gru_y. reflexivity. Qed.
Theorem grumpkin_generated (P : grumpkin_group) : exists k, 0 <= k < Q_MOD /\ P = zmul k grumpkin_gen.
Proof.
  rewrite grumpkin_gen_eq. exact (curve_generated FrFld grumpkin_param_b two three bnz grumpkin_no2 fr_val R_MOD fr_bits fr_pow2 k0 254 fr_circuit r_odd fr_mk fr_mk_val
    Q_MOD 1 grumpkin_y one_lt_r gru_on' grumpkin_chain Q_MOD_prime q_odd rq_bound grumpkin_chain_ok P).
Qed.
Theorem grumpkin_killed (P : grumpkin_group) : zmul Q_MOD P = a0.
Proof.
  exact (curve_killed FrFld grumpkin_param_b two three bnz grumpkin_no2 fr_val R_MOD fr_bits fr_pow2 k0 254 fr_circuit r_odd fr_mk fr_mk_val
    Q_MOD 1 grumpkin_y one_lt_r gru_on' grumpkin_chain Q_MOD_prime q_odd rq_bound grumpkin_chain_ok P).
Qed.
End Grumpkin.
