(** C11: square roots. *)
From Coq Require Import ZArith List Bool Lia Znumtheory Zpow_facts.
From Verif Require Import LimbModel FieldModel FieldSpec Primes LimbProofs MontProofs FieldProofs PowProofs FieldMore ClaimsField ClaimsFf Algebra SqrtSpec SqrtProofs.
Import ListNotations.
Local Open Scope Z_scope.

(** An answer [Some(s)] squares back to the input, as [square()] computes it: in both fields, always. *)
Theorem C11_some_squares a s : (fq_sqrt a = Some s -> fsquare fq s = a) /\ (fr_sqrt a = Some s -> fsquare fr s = a).
Proof.
  split.
  - rewrite fq_sqrt_unfold. generalize (pow_vartime fq a fq_sqrt_exp). intros v. destruct (eqb4 (fsquare fq v) a) eqn:E; [|discriminate].
    intros Q. injection Q as <-. apply eqb4_eq, E.
  - unfold fr_sqrt. destruct (ts_outer _ _ _ _ _ _) as [[[k v] b] z].
    destruct (eqb4 (fsquare fr v) a) eqn:E; [|discriminate]. intros Q. injection Q as <-. apply eqb4_eq, E.
Qed.
(** So it is a square root as soon as squaring [s] itself loses no carry, whatever happened before. *)
Theorem C11_some_is_root P m a s x y : (P = fr /\ m = R_MOD /\ fr_sqrt a = Some s) \/ (P = fq /\ m = Q_MOD /\ fq_sqrt a = Some s) ->
  represents m a x -> represents m s y -> ((y * y) mod m = x <-> drops_carry s = false).
Proof.
  intros C Ra Rs. assert (F : bn_field P m) by (destruct C as [(-> & -> & _)|(-> & -> & _)]; [left|right]; split; reflexivity).
  assert (E : fsquare P s = a) by (destruct C as [(-> & _ & E)|(-> & _ & E)]; [exact (proj2 (C11_some_squares a s) E)|exact (proj1 (C11_some_squares a s) E)]). clear C.
  rewrite <- (proj2 (C02_square P m s y F Rs)), E. split; [intros <-; exact Ra|]. intros R. rp.
  exact (rep_fun P m (bn_ok P m F) _ _ _ R Ra).
Qed.

(** ** Both functions decide squareness and return a root, when their squarings are exact *)
Theorem C11_fq_sqrt_when_exact a x : represents Q_MOD a x -> fq_sqrt_exact x -> sqrt_answer Q_MOD x (fq_sqrt a).
Proof.
  intros Ra [CF D]. unfold fq_root_exponent in *. pose proof Ra as Ra'. rp. destruct (fq_sqrt a) as [s|] eqn:E; cbn [sqrt_answer].
  - pose proof (fq_sqrt_unfold a) as U. rewrite E in U. destruct fq_sqrt_exp_val as [We Ve].
    assert (R : rep Q_MOD (pow_vartime fq a fq_sqrt_exp) (x ^ ((Q_MOD + 1) / 4) mod Q_MOD)).
    { rewrite <- Ve in CF |- *. apply (pow_vartime_spec fq Q_MOD fq_ok); assumption. }
    revert U R. generalize (pow_vartime fq a fq_sqrt_exp). intros v U R.
    destruct (eqb4 (fsquare fq v) a); [|discriminate]. assert (s = v) by (apply (f_equal (fun o => match o with Some u => u | None => v end)) in U; exact U). subst v.
    pose proof (proj2 (represents_rep _ _ _) R) as R'. exists (x ^ ((Q_MOD + 1) / 4) mod Q_MOD). split; [exact R'|].
    apply (fq_sqrt_sound a s x _ Ra E R). apply D, R'.
  - intros [z Hz]. destruct (fq_sqrt_complete a x z Ra Hz CF D) as (s & y & E' & _). rewrite E in E'. discriminate.
Qed.

Definition fr_root_exp : l4 := L4 0xcdcb848a1f0fac9f 0x0c0ac2e9419f4243 0x098d014dc2822db4 0x0000000183227397.
Lemma fr_root_exp_val : wf fr_root_exp /\ val fr_root_exp = fr_root_exponent.
Proof. unfold fr_root_exponent. rewrite R_MOD_val. unfold wf, word, val. rewrite Bval. vm_compute. intuition congruence. Qed.
Lemma fr_tower : R_MOD - 1 = 2 ^ Z.of_nat 28 * (2 * fr_root_exponent + 1) /\ 0 <= fr_root_exponent /\ 2 < R_MOD.
Proof. unfold fr_root_exponent. rewrite R_MOD_val. split; [|split]; vm_compute; [reflexivity|discriminate|reflexivity]. Qed.
Definition fr_root_res : Z := 0x03ddb9f5166d18b798865ea93dd31f743215cf6dd39329c8d34f1ed960c37c9c.
Lemma fr_root_rep : rep R_MOD fr_root_of_unity fr_root_res.
Proof.
  pose proof (const_rep fr R_MOD (L4 0xd34f1ed960c37c9c 0x3215cf6dd39329c8 0x98865ea93dd31f74 0x03ddb9f5166d18b7)
    (or_introl (conj eq_refl eq_refl)) ltac:(limbs) ltac:(rewrite R_MOD_val; vm_compute; reflexivity)) as R.
  apply (proj1 (represents_rep _ _ _)) in R. replace fr_root_res with (limb_value (L4 0xd34f1ed960c37c9c 0x3215cf6dd39329c8 0x98865ea93dd31f74 0x03ddb9f5166d18b7)) by (vm_compute; reflexivity).
  exact R.
Qed.
Lemma fr_root_top : fr_root_res ^ (2 ^ Z.of_nat (28 - 1)) mod R_MOD = R_MOD - 1.
Proof.
  pose proof fr_root_half as RH. rewrite (powmod_spec _ _ _) in RH; [exact RH| |]; [rewrite R_MOD_val; reflexivity|vm_compute; discriminate].
Qed.
(** The body of [Fr::sqrt] and the list of what it squares, for any parameters. *)
Definition ts_body (P : fparams) (n : nat) (v : Z) (a w root : l4) : option l4 :=
  let x := fmul P w a in
  let b := fmul P x w in
  let '(_, x, _, _) := ts_outer (fmul P) (fsquare P) (fone P) feqb n (v, x, b, root) in
  if eqb4 (fsquare P x) a then Some x else None.
Definition ts_body_squares (P : fparams) (n : nat) (v : Z) (a w root : l4) : list l4 :=
  let x := fmul P w a in
  let b := fmul P x w in
  let '(_, x', _, _) := ts_outer (fmul P) (fsquare P) (fone P) feqb n (v, x, b, root) in
  ts_outer_squares (fmul P) (fsquare P) (fone P) feqb n (v, x, b, root) ++ [x'].
Strategy 100 [ts_outer ts_outer_squares].
Lemma fr_sqrt_body a : fr_sqrt a = ts_body fr 28 fr_S a (pow_vartime fr a fr_root_exp) fr_root_of_unity.
Proof. unfold fr_sqrt, ts_body, fr_root_exp. reflexivity. Qed.
Lemma fr_sqrt_squares_body a : fr_sqrt_squares a = ts_body_squares fr 28 fr_S a (pow_vartime fr a fr_root_exp) fr_root_of_unity.
Proof. unfold fr_sqrt_squares, ts_body_squares, fr_root_exp. reflexivity. Qed.
Lemma ts_body_answer P m n h v a w root x rt : bn_field P m -> v = Z.of_nat n -> (2 <= n)%nat -> 0 <= h -> m - 1 = 2 ^ Z.of_nat n * (2 * h + 1) ->
  rep m a x -> rep m w (x ^ h mod m) -> rep m root rt -> rt ^ (2 ^ Z.of_nat (n - 1)) mod m = m - 1 ->
  Forall (fun s => drops_carry s = false) (ts_body_squares P n v a w root) ->
  sqrt_answer m x (ts_body P n v a w root).
Proof.
  intros F -> Hn Hh Hm Ra Rw Rr ER FA. unfold ts_body_squares in FA.
  pose proof (bn_gt P m F) as G. assert (M : 2 < m) by (assert (2 < 2 ^ 253) by reflexivity; lia). clear G.
  assert (FA1 : Forall (fun s => drops_carry s = false) (ts_list P n a w root)).
  { unfold ts_list. destruct (ts_outer (fmul P) (fsquare P) (fone P) feqb n _) as [[[k x'] b] z]. apply Forall_app in FA as [FA _]. exact FA. }
  destruct (ts_limb P m (bn_ok P m F) (bn_prime P m F) M n h a w root x rt) as (k & x' & b & z & E & ANS); try assumption.
  unfold ts_body. unfold ts_loop in E. cbv zeta in *. rewrite E in *. apply ANS. apply Forall_app in FA as [_ FA]. apply Forall_inv in FA. exact FA.
Qed.
Theorem C11_fr_sqrt_when_exact a x : represents R_MOD a x -> fr_sqrt_exact a x -> sqrt_answer R_MOD x (fr_sqrt a).
Proof.
  intros Ra [CF FA]. rp. destruct fr_root_exp_val as [We Ve]. destruct fr_tower as (Hm & Hh & H2).
  assert (Rw : rep R_MOD (pow_vartime fr a fr_root_exp) (x ^ fr_root_exponent mod R_MOD)).
  { rewrite <- Ve in CF |- *. apply (pow_vartime_spec fr R_MOD fr_ok); assumption. }
  rewrite fr_sqrt_body. rewrite fr_sqrt_squares_body in FA.
  apply (ts_body_answer fr R_MOD 28 fr_root_exponent fr_S a (pow_vartime fr a fr_root_exp) fr_root_of_unity x fr_root_res);
    [left; split; reflexivity|reflexivity|lia|exact Hh|exact Hm|exact Ra|exact Rw|exact fr_root_rep|exact fr_root_top|exact FA].
Qed.

(** ** Without the proviso both fail *)
Lemma no_root P m (f : l4 -> option l4) e : bn_field P m -> (forall a s, f a = Some s -> fsquare P s = a) ->
  reduced m e -> drops_carry e = true -> drops_carry (fneg P e) = true ->
  exists x, represents m (fmul P e e) x /\ is_square m x /\ ~ sqrt_answer m x (f (fmul P e e)).
Proof.
  intros F SQ Re D1 D2. destruct (proj1 (proj1 (C01_representation P m F) e) Re) as [c Rc].
  pose proof (bn_prime P m F) as PR. pose proof (bn_gt P m F) as G.
  assert (M : 2 < m) by (assert (2 < 2 ^ 253) by reflexivity; lia). clear G.
  assert (Rp : represents m (fmul P e e) ((c * c) mod m)) by (apply (C02_mul P m e e c c F); assumption).
  exists ((c * c) mod m). split; [exact Rp|]. split; [exists c; reflexivity|]. intros ANS.
  destruct (f (fmul P e e)) as [s|] eqn:E; [|apply ANS; exists c; reflexivity]. destruct ANS as (y & Ry & Hy).
  pose proof (SQ _ _ E) as Hs.
  assert (DS : drops_carry s = true).
  { assert (Y : (m | (y - c) * (y + c))).
    { replace ((y - c) * (y + c)) with (y * y - c * c) by ring. apply Z.mod_divide; [lia|]. rewrite Zminus_mod, Hy, Z.sub_diag. reflexivity. }
    assert (Rn : represents m (fneg P e) ((- c) mod m)) by (rp; apply (rep_neg P m (bn_ok P m F)); assumption).
    assert (BY : 0 <= y < m) by (destruct Ry as (_ & B & _); exact B). assert (BC : 0 <= c < m) by (destruct Rc as (_ & B & _); exact B).
    apply prime_mult in Y as [[k Y]|[k Y]]; [| |exact PR].
    - assert (k = 0) by nia. assert (y = c) by lia. subst y. rp. rewrite (rep_inj m _ _ _ Ry Rc). exact D1.
    - assert (y = (- c) mod m) as ->; [|rp; rewrite (rep_inj m _ _ _ Ry Rn); exact D2].
      apply (Z.mod_unique_pos _ _ (- k)); lia. }
  assert (Q : fsquare P s = fmul P s s).
  { rewrite Hs. pose proof (C02_mul P m s s y y F Ry Ry) as R2. rewrite Hy in R2. rp. exact (rep_inj m _ _ _ Rp R2). }
  apply (proj1 (proj1 (C02_square P m s y F Ry))) in Q. rewrite DS in Q. discriminate.
Qed.
(** The elements [e] below and their opposites both lose the carry: [(e * e).sqrt()] is not a root of [e * e]. *)
Definition bad_fr : l4 := L4 0x2e2300490ef76292 0xb54384e0578eada8 0xcccccccccccccccc 0x5.
Definition bad_fq : l4 := L4 0x828df109b3faf5a0 0x97baa49398a25bb6 0x3759f22983759f22 0x25.
Theorem C11_fr_sqrt_refuted : exists a x, represents R_MOD a x /\ is_square R_MOD x /\ ~ sqrt_answer R_MOD x (fr_sqrt a).
Proof.
  exists (fmul fr bad_fr bad_fr). apply (no_root fr R_MOD fr_sqrt bad_fr).
  - left; split; reflexivity.
  - intros a s. exact (proj2 (C11_some_squares a s)).
  - split; [limbs|rewrite R_MOD_val; vm_compute; reflexivity].
  - vm_compute. reflexivity.
  - vm_compute. reflexivity.
Qed.
Theorem C11_fq_sqrt_refuted : exists a x, represents Q_MOD a x /\ is_square Q_MOD x /\ ~ sqrt_answer Q_MOD x (fq_sqrt a).
Proof.
  exists (fmul fq bad_fq bad_fq). apply (no_root fq Q_MOD fq_sqrt bad_fq).
  - right; split; reflexivity.
  - intros a s. exact (proj1 (C11_some_squares a s)).
  - split; [limbs|rewrite Q_MOD_val; vm_compute; reflexivity].
  - vm_compute. reflexivity.
  - vm_compute. reflexivity.
Qed.

(** ** The proviso holds on examples *)
Lemma carry_free_minus_one P m e : bn_field P m -> drops_carry (fneg P (fone P)) = false -> carry_free m (m - 1) e.
Proof.
  intros F D j a _ R. rp. pose proof (bn_ok P m F) as OK. pose proof (bn_gt P m F) as G.
  assert (M : 2 < m) by (assert (2 < 2 ^ 253) by reflexivity; lia). clear G.
  assert (N1 : rep m (fneg P (fone P)) (m - 1)).
  { replace (m - 1) with ((- (1)) mod m) by (symmetry; apply (Z.mod_unique_pos _ _ (-1)); lia). apply (rep_neg P m OK), (rep_one P m OK). }
  assert (E : forall k, 0 <= k -> (m - 1) ^ k mod m = 1 \/ (m - 1) ^ k mod m = m - 1).
  { apply natlike_ind; [left; apply Z.mod_small; lia|]. intros k Hk [E|E]; rewrite Z.pow_succ_r, <- Z.mul_mod_idemp_r, E by assumption + lia.
    - right. rewrite Z.mul_1_r. apply Z.mod_small. lia.
    - left. symmetry. apply (Z.mod_unique_pos _ _ (m - 2)); [lia|ring]. }
  destruct (Z_lt_le_dec (e / 2 ^ j) 0) as [L|L].
  - rewrite Z.pow_neg_r, Z.mod_0_l in R by (assumption || lia). rewrite (rep_inj m _ _ _ R (rep_zero P m OK)). reflexivity.
  - destruct (E _ L) as [Q|Q]; rewrite Q in R.
    + rewrite (rep_inj m _ _ _ R (rep_one P m OK)). exact (bn_one_no_drop P m F).
    + rewrite (rep_inj m _ _ _ R N1). exact D.
Qed.
(** The powers of [-1] follow the parity of the exponent. *)
Lemma minus_one_pow m e : 1 < m -> (m - 1) ^ e mod m = if 0 <=? e then if Z.even e then 1 else m - 1 else 0.
Proof.
  intros Hm. destruct (Z.leb_spec 0 e) as [He|He]; [|rewrite Z.pow_neg_r by exact He; apply Z.mod_0_l; lia].
  rewrite Zpower_mod by lia. replace (m - 1) with (-1 + 1 * m) at 1 by ring. rewrite Z.mod_add, <- Zpower_mod by lia.
  destruct (Z.even e) eqn:E.
  - rewrite (Z.pow_opp_even 1) by (apply Z.even_spec, E). rewrite Z.pow_1_l, Z.mod_1_l by lia. reflexivity.
  - rewrite (Z.pow_opp_odd 1) by (apply Z.odd_spec; rewrite <- Z.negb_even, E; reflexivity). rewrite Z.pow_1_l by lia.
    replace (- (1)) with (m - 1 + (-1) * m) by ring. rewrite Z.mod_add by lia. apply Z.mod_small. lia.
Qed.
(** In Fq, [-1] is not a square: the proviso holds of it, and [sqrt] answers [None]. *)
Example C11_fq_example : fq_sqrt_exact (Q_MOD - 1) /\ fq_sqrt (fneg fq (fone fq)) = None /\
  fq_sqrt_exact 1 /\ fq_sqrt (fone fq) = Some (fone fq).
Proof.
  assert (F : bn_field fq Q_MOD) by (right; split; reflexivity).
  assert (D : drops_carry (fneg fq (fone fq)) = false) by (vm_compute; reflexivity).
  assert (N1 : rep Q_MOD (fneg fq (fone fq)) (Q_MOD - 1)).
  { replace (Q_MOD - 1) with ((- (1)) mod Q_MOD) by (rewrite Q_MOD_val; vm_compute; reflexivity). apply (rep_neg fq Q_MOD fq_ok), (rep_one fq Q_MOD fq_ok). }
  assert (E1 : (Q_MOD - 1) ^ fq_root_exponent mod Q_MOD = 1).
  { rewrite minus_one_pow by (rewrite Q_MOD_val; reflexivity). unfold fq_root_exponent. rewrite Q_MOD_val. reflexivity. }
  split; [|split; [|split]].
  - split; [exact (carry_free_minus_one fq Q_MOD _ F D)|]. intros s R. rewrite E1 in R. rp.
    rewrite (rep_inj Q_MOD _ _ _ R (rep_one fq Q_MOD fq_ok)). exact one_no_drop_fq.
  - rewrite fq_sqrt_unfold. destruct fq_sqrt_exp_val as [We Ve]. assert (R : rep Q_MOD (pow_vartime fq (fneg fq (fone fq)) fq_sqrt_exp) 1).
    { rewrite <- E1. unfold fq_root_exponent. rewrite <- Ve. apply (pow_vartime_spec fq Q_MOD fq_ok); [exact N1|exact We|exact (carry_free_minus_one fq Q_MOD _ F D)]. }
    rewrite (rep_inj Q_MOD _ _ _ R (rep_one fq Q_MOD fq_ok)).
    replace (eqb4 (fsquare fq (fone fq)) (fneg fq (fone fq))) with false by (vm_compute; reflexivity). reflexivity.
  - split; [exact (carry_free_one fq Q_MOD _ F)|]. intros s R. rewrite Z.pow_1_l, Z.mod_1_l in R by (unfold fq_root_exponent; rewrite Q_MOD_val; vm_compute; (reflexivity || discriminate)).
    rp. rewrite (rep_inj Q_MOD _ _ _ R (rep_one fq Q_MOD fq_ok)). exact one_no_drop_fq.
  - rewrite fq_sqrt_unfold. destruct fq_sqrt_exp_val as [We Ve]. assert (R : rep Q_MOD (pow_vartime fq (fone fq) fq_sqrt_exp) (1 ^ val fq_sqrt_exp mod Q_MOD)).
    { apply (pow_vartime_spec fq Q_MOD fq_ok); [exact (rep_one fq Q_MOD fq_ok)|exact We|exact (carry_free_one fq Q_MOD _ F)]. }
    rewrite Z.pow_1_l, Z.mod_1_l in R by (rewrite ?Ve, Q_MOD_val; vm_compute; (reflexivity || discriminate)).
    rewrite (rep_inj Q_MOD _ _ _ R (rep_one fq Q_MOD fq_ok)).
    replace (eqb4 (fsquare fq (fone fq)) (fone fq)) with true by (vm_compute; reflexivity). reflexivity.
Qed.

(** In Fr, [-1] is a square: the proviso holds of it, and [sqrt] answers with one of its roots. *)
Fixpoint sq_limbs (P : fparams) (n : nat) (l : l4) : l4 := match n with O => l | S n => sq_limbs P n (fmul P l l) end.
Fixpoint tower_ok (P : fparams) (n : nat) (l : l4) : bool :=
  negb (drops_carry l) && match n with O => eqb4 l (fone P) | S n => tower_ok P n (fmul P l l) end.
Lemma sq_limbs_S P n l : sq_limbs P (S n) l = sq_limbs P n (fmul P l l). Proof. reflexivity. Qed.
Lemma sqi_S' (K : Fld) n (c : K) : sqi K (S n) c = sqi K n (kmul c c). Proof. reflexivity. Qed.
Lemma raw_mul P m OK PR (c d : LimbFld P m OK PR) : lf_limbs m (kmul c d) = fmul P (lf_limbs m c) (lf_limbs m d). Proof. reflexivity. Qed.
Lemma tower_ok_all P n : fmul P (fone P) (fone P) = fone P -> forall l i, tower_ok P n l = true -> drops_carry (sq_limbs P i l) = false.
Proof.
  intros ONE. induction n as [|n IH]; intros l i H; cbn [tower_ok] in H; apply andb_prop in H as [H1 H2]; apply negb_true_iff in H1.
  - apply eqb4_eq in H2. subst l. induction i as [|i IH]; [exact H1|]. rewrite sq_limbs_S, ONE. exact IH.
  - destruct i as [|i]; [exact H1|]. rewrite sq_limbs_S. apply IH, H2.
Qed.
Lemma sqi_limbs P m OK PR i : forall c : LimbFld P m OK PR, lf_limbs m (sqi (LimbFld P m OK PR) i c) = sq_limbs P i (lf_limbs m c).
Proof. induction i as [|i IH]; intros c; [reflexivity|]. rewrite sqi_S', sq_limbs_S, IH, raw_mul. reflexivity. Qed.
Lemma fr_one_one : fmul fr (fone fr) (fone fr) = fone fr.
Proof. apply (proj1 (eqb4_eq _ _)). vm_compute. reflexivity. Qed.
Lemma fr_minus_one_pow : powmod (R_MOD - 1) fr_root_exponent R_MOD = R_MOD - 1.
Proof.
  rewrite powmod_spec by (unfold fr_root_exponent; rewrite R_MOD_val; (reflexivity || discriminate)).
  rewrite minus_one_pow by (rewrite R_MOD_val; reflexivity). unfold fr_root_exponent. rewrite R_MOD_val. reflexivity.
Qed.
Lemma fr_tower_ok : tower_ok fr 28 fr_root_of_unity = true.
Proof. vm_cast_no_check (eq_refl true). Qed.
Example C11_fr_example : fr_sqrt_exact (fneg fr (fone fr)) (R_MOD - 1) /\
  exists s y, fr_sqrt (fneg fr (fone fr)) = Some s /\ represents R_MOD s y /\ (y * y) mod R_MOD = R_MOD - 1.
Proof.
  assert (F : bn_field fr R_MOD) by (left; split; reflexivity).
  assert (D : drops_carry (fneg fr (fone fr)) = false) by (vm_compute; reflexivity).
  destruct fr_tower as (Hm & Hh & H2). destruct fr_root_exp_val as [We Ve].
  assert (N1 : rep R_MOD (fneg fr (fone fr)) (R_MOD - 1)).
  { replace (R_MOD - 1) with ((- (1)) mod R_MOD) by (rewrite R_MOD_val; vm_compute; reflexivity). apply (rep_neg fr R_MOD fr_ok), (rep_one fr R_MOD fr_ok). }
  assert (CF : carry_free R_MOD (R_MOD - 1) fr_root_exponent) by (exact (carry_free_minus_one fr R_MOD _ F D)).
  assert (W : pow_vartime fr (fneg fr (fone fr)) fr_root_exp = fneg fr (fone fr)).
  { assert (R : rep R_MOD (pow_vartime fr (fneg fr (fone fr)) fr_root_exp) ((R_MOD - 1) ^ val fr_root_exp mod R_MOD)).
    { rewrite <- Ve in CF. apply (pow_vartime_spec fr R_MOD fr_ok); assumption. }
    rewrite Ve, <- powmod_spec, fr_minus_one_pow in R; [|clear - H2; lia|exact Hh]. exact (rep_inj R_MOD _ _ _ R N1). }
  assert (EX : fr_sqrt_exact (fneg fr (fone fr)) (R_MOD - 1)).
  { split; [exact CF|]. rewrite fr_sqrt_squares_body, W.
    destruct (minus_one_run fr R_MOD fr_ok R_MOD_prime H2 28 fr_root_of_unity fr_root_res) as [FA (k & x' & b & z & E & DX)];
      [lia|exact fr_root_rep|exact fr_root_top| |].
    - intros c i Ec. rewrite sqi_limbs, Ec. exact (tower_ok_all fr 28 fr_one_one _ i fr_tower_ok).
    - revert FA E. unfold ts_list, ts_loop, ts_body_squares. cbv zeta.
      replace (Z.of_nat 28) with fr_S by reflexivity. intros FA E. rewrite E. apply Forall_app. split; [exact FA|]. constructor; [exact DX|constructor]. }
  split; [exact EX|]. pose proof (C11_fr_sqrt_when_exact _ _ (proj2 (represents_rep _ _ _) N1) EX) as A.
  destruct (fr_sqrt (fneg fr (fone fr))) as [s|].
  - destruct A as (y & Ry & Hy). exists s, y. split; [reflexivity|]. split; assumption.
  - destruct A. exists (fr_root_res ^ (2 ^ 26)). pose proof fr_root_top as T. change (Z.of_nat (28 - 1)) with 27 in T. rewrite <- T.
    assert (Q : forall g, g ^ 2 ^ 26 * g ^ 2 ^ 26 = g ^ 2 ^ 27) by (intros g; rewrite <- Z.pow_add_r by (vm_compute; discriminate); reflexivity).
    rewrite Q. reflexivity.
Qed.
