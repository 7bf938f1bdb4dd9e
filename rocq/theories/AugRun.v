(** Honest runs of the transcript, the instance gadgets, the folding verifier and the augmented circuit. *)
From Coq Require Import ZArith List Bool Lia Field.
From Verif Require Import Algebra GroupLib CurveSpec WeierModel WeierProofs CurveAb CurveParams CompleteAdd R1csModel R1csSpec R1csProofs GadgetProofs RangeProofs CurveGadget HonestRun NovaModel NovaSpec NovaProofs NovaFields
  BigNatModel LimbVec BigNatRun AugmentedModel IvcSpec R1csShape AugShape.
Import ListNotations.
Local Open Scope fld_scope.

Section Transcript.
Variables (B : pfield) (q : Z).
Hypothesis OB : field_ok B q.
Add Field agt : (kth B).
Let CF := fo_cf _ _ OB.
Implicit Types (cs : r1cs B).
Notation to_bits := (fa_to_bits B (pf_bits B) (pf_pow2 B) (pf_modulus B) (pf_nbits B)).

Lemma run_mimc_round cs xl xr u v c : wf_cs cs -> carries cs xl u -> carries cs xr v ->
  runs cs (mimc_round_g B (xl, xr) c) (fun cs' st => carries cs' (fst st) (fst (mimc_round (u, v) c)) /\ carries cs' (snd st) (snd (mimc_round (u, v) c))).
Proof.
  intros W HL HR. unfold mimc_round_g, fa_square. pose proof (car_const B cs c W) as HC. pose proof (car_plus B cs _ _ _ _ HL HC) as HX.
  eapply runs_bind; [apply (run_mul B _ _ _ _ _ W HX HX)|]. intros s cs1 W1 U1 H1. ups U1.
  eapply runs_bind; [apply (run_mul B _ _ _ _ _ W1 H1 H1)|]. intros t cs2 W2 U2 H2. ups U2.
  eapply runs_bind; [apply (run_mul B _ _ _ _ _ W2 H2 H1)|]. intros m cs3 W3 U3 H3. ups U3.
  eapply runs_bind; [apply (run_mul B _ _ _ _ _ W3 H3 HX)|]. intros n cs4 W4 U4 H4. ups U4.
  apply runs_ret; [exact W4|]. cbn [fst snd mimc_round]. split; [|exact HL]. eapply car_eq; [apply (car_plus B _ _ _ _ _ H4 HR)|]. ring.
Qed.
Lemma run_mimc_rounds l : forall cs xl xr u v, wf_cs cs -> carries cs xl u -> carries cs xr v ->
  runs cs (fold_g (mimc_round_g B) (xl, xr) l) (fun cs' st => carries cs' (fst st) (fst (fold_left mimc_round l (u, v)))).
Proof.
  induction l as [|c l IH]; intros cs xl xr u v W HL HR; cbn [fold_g fold_left].
  - apply runs_ret; [exact W|exact HL].
  - eapply runs_bind; [apply (run_mimc_round cs xl xr u v c W HL HR)|]. intros [yl yr] cs1 W1 U1 [H1 H2]. cbn [fst snd] in H1, H2.
    destruct (mimc_round (u, v) c) as [u' v']. apply (IH cs1 yl yr u' v' W1 H1 H2).
Qed.
Lemma run_mimc cs xl xr u v : wf_cs cs -> carries cs xl u -> carries cs xr v ->
  runs cs (mimc_g B xl xr) (fun cs' h => carries cs' h (mimc_hash (pf_consts B) u v)).
Proof.
  intros W HL HR. unfold mimc_g. eapply runs_bind; [apply (run_mimc_rounds _ cs xl xr u v W HL HR)|]. intros st cs1 W1 U1 H. apply runs_ret; [exact W1|exact H].
Qed.
Lemma run_absorb cs st vs : wf_cs cs -> Forall2 (carries cs) st vs -> runs cs (mimc_absorb_g B st) (fun cs' h => carries cs' h (mimc_absorb (pf_consts B) vs)).
Proof.
  intros W H. unfold mimc_absorb_g, mimc_absorb. pose proof (car_const B cs 0 W) as H0. revert H0. generalize (fa_constant B 0) as acc. generalize (0 : B) as a. intros a acc HA. revert cs vs a acc W H HA.
  induction st as [|r st IH]; intros cs vs a acc W H HA; inversion H as [|? v ? vs' HR HS]; subst; cbn [fold_g fold_left].
  - apply runs_ret; [exact W|exact HA].
  - eapply runs_bind; [|].
    + eapply runs_bind; [apply (run_mimc cs r acc v a W HR HA)|]. intros h cs1 W1 U1 HH. ups U1.
      apply (runs_ret B _ _ (fun cs' r' => carries cs' r' (a + v + mimc_hash (pf_consts B) v a))); [exact W1|]. exact (car_plus B _ _ _ _ _ (car_plus B _ _ _ _ _ HA HR) HH).
    + intros acc' cs1 W1 U1 HA'. ups U1. apply (IH cs1 vs' _ acc' W1 HS HA').
Qed.
(** Bits, least significant first, added up by selection. *)
Lemma run_bits_sum : forall ws bs cs val mult (u m : B), wf_cs cs -> Forall2 (wcar cs) ws (map (kbit B) bs) -> carries cs val u -> carries cs mult m ->
  runs cs (fold_g (fun '(val, mult) bit => bind (fa_conditional_select B (fa_plus B val mult) val bit) (fun val => ret (val, fa_plus B mult mult))) (val, mult) ws)
    (fun cs' r => carries cs' (fst r) (bits_loop bs m u)).
Proof.
  induction ws as [|w ws IH]; intros [|b bs] cs val mult u m W H HV HM; inversion H as [|? ? ? ? HW HS]; subst; cbn [fold_g bits_loop].
  - apply runs_ret; [exact W|exact HV].
  - eapply runs_bind; [|].
    + eapply runs_bind; [apply (run_select B cs _ _ w _ _ b W (car_plus B _ _ _ _ _ HV HM) HV HW)|]. intros v' cs1 W1 U1 HV'. ups U1.
      apply (runs_ret B _ _ (fun cs' r => carries cs' (fst r) (if b then u + m else u) /\ carries cs' (snd r) (m + m))); [exact W1|]. cbn [fst snd]. split; [exact HV'|exact (car_plus B _ _ _ _ _ HM HM)].
    + intros [v' m'] cs1 W1 U1 [H1 H2]. cbn [fst snd] in *. ups U1. apply (IH bs cs1 v' m' _ _ W1 HS H1 H2).
Qed.
Lemma Forall2_rev' {A C} (P : A -> C -> Prop) l l' : Forall2 P l l' -> Forall2 P (rev l) (rev l').
Proof. intros H. induction H; cbn [rev]; [constructor|]. apply Forall2_app; [assumption|]. constructor; [assumption|constructor]. Qed.
Lemma run_squeeze cs st vs n : wf_cs cs -> Forall2 (carries cs) st vs -> (1 <= n <= 253)%nat ->
  runs cs (squeeze_g B st n) (fun cs' r => carries cs' r (pf_of B (pf_val B (mimc_absorb (pf_consts B) vs) mod 2 ^ Z.of_nat n))).
Proof.
  intros W H HN. unfold squeeze_g. eapply runs_bind; [apply (run_absorb cs st vs W H)|]. intros h cs1 W1 U1 HH. ups U1.
  eapply runs_bind; [apply (run_to_bits B q OB cs1 h n _ W1 HH)|]; [lia|]. intros ws cs2 W2 U2 (bs & HB & LB & VB).
  assert (LW : length ws = n) by (apply Forall2_len in HB; rewrite map_length in HB; congruence).
  rewrite firstn_all2 by (rewrite rev_length; lia).
  eapply runs_bind; [apply (run_bits_sum (rev ws) (rev bs) cs2 _ _ 0 1 W2)|].
  - rewrite map_rev. apply Forall2_rev', HB.
  - apply car_const, W2.
  - apply car_const, W2.
  - intros r cs3 W3 U3 HR. apply runs_ret; [exact W3|]. eapply car_eq; [exact HR|]. apply (cf_inj _ _ _ _ _ _ _ CF).
    rewrite (bits_sum_val _ _ _ _ _ _ _ CF), lev_rev, (fo_of _ _ OB), VB. reflexivity.
Qed.
End Transcript.

Section Points.
Variables (B S : pfield) (b b3 : B) (q p : Z).
Hypothesis OB : field_ok B q.
Hypothesis OS : field_ok S p.
Hypothesis OK : curve_ok B b b3.
Hypothesis no2 : forall x : B, x * x * x + b <> 0.
Add Field agp : (kth B).
Let two := proj1 (proj2 OK).
Let three := proj1 (proj2 (proj2 OK)).
Let bnz := proj2 (proj2 (proj2 OK)).
Let CF := fo_cf _ _ OB.
Notation C := (curve_driver B S b b3 p OK b3).
Notation pt := (d_pt C).
Notation onp := (on_proj_curve B b).
Implicit Types (cs : r1cs B).

(** The assignment of a point stands for the point [P]. *)
Definition pcar cs (a : point_asg B) (P : pt) : Prop := pok B cs a /\ onp (pval B (own cs) a) /\ proj_pt B (pval B (own cs) a) = cval B b P.
Lemma pcar_up cs cs' a P : above cs cs' -> pcar cs a P -> pcar cs' a P.
Proof.
  intros [n Gr] (O & N & V). split; [apply (grow_pok B _ _ _ _ Gr O)|]. rewrite (grow_pval B _ _ _ _ Gr O). split; assumption.
Qed.
(** Its coordinates are those of the affine point. *)
Definition pelems cs (a : point_asg B) (P : pt) : Prop := Forall2 (carries cs) (point_rows B a) (point_elems C P).
Lemma pelems_pcar cs a P : pelems cs a P -> pcar cs a P.
Proof.
  unfold pelems, point_rows, point_elems. cbn [d_x d_y d_inf curve_driver]. intros H. inversion H as [|? ? ? ? [X VX] H1]; subst. inversion H1 as [|? ? ? ? [Y VY] H2]; subst. inversion H2 as [|? ? ? ? [Z VZ] _]; subst.
  split; [split; [exact X|split; [exact Y|exact Z]]|]. unfold pval. rewrite VX, VY, VZ. pose proof (cval_on B b P) as ON. destruct (cval B b P) as [|x y]; cbn in ON.
  - split; [apply inf_on|apply inf_pt].
  - split.
    + split; cbn [jx jy jz]; [|intros (_ & _ & E); exact (k1_neq0 B E)]. transitivity (y * y); [ring|]. rewrite ON. ring.
    + unfold proj_pt. cbn [jx jy jz]. destruct (keqb_spec B 1 0) as [E|_]; [destruct (k1_neq0 B E)|]. f_equal; field; exact (k1_neq0 B).
Qed.
Lemma run_point_witness cs (P : pt) : wf_cs cs -> runs cs (point_witness B S C P) (fun cs' a => pelems cs' a P).
Proof.
  intros W. unfold point_witness. eapply runs_weaken; [apply runs_of, (pa_witness_ok B True cs _ _ _ W)|]. intros cs' a W' U [[(X & Y & Z) V] _].
  unfold pval in V. unfold pelems, point_rows, point_elems. injection V as VX VY VZ. repeat (constructor; [split; assumption|]). constructor.
Qed.
Lemma run_pa_add cs a1 a2 P1 P2 : wf_cs cs -> pcar cs a1 P1 -> pcar cs a2 P2 -> runs cs (pa_add B b3 a1 a2) (fun cs' r => pcar cs' r (aadd P1 P2)).
Proof.
  intros W H1 H2. eapply runs_weaken; [apply runs_of, (pa_add_ok B True b3 cs a1 a2 W (proj1 H1) (proj1 H2))|]. intros cs' r W' U [O V].
  apply (pcar_up _ _ _ _ U) in H1, H2. destruct H1 as (O1 & N1 & V1), H2 as (O2 & N2 & V2).
  destruct (complete_ok B b b3 (proj1 OK) two three bnz no2 _ _ N1 N2) as [A1 A2]. split; [exact O|]. rewrite V. split; [exact A1|]. rewrite A2, V1, V2. reflexivity.
Qed.
Lemma run_pa_scalar cs a x P v : wf_cs cs -> pcar cs a P -> carries cs x v ->
  runs cs (pa_scalar_point B b3 (pf_bits B) (pf_pow2 B) (pf_modulus B) (pf_nbits B) a x) (fun cs' r => pcar cs' r (zmul (pf_val B v) P)).
Proof.
  intros W (O & N & V) [OX VX]. eapply runs_weaken; [apply runs_of, (pa_scalar_ok B True b b3 (proj1 OK) two three bnz no2 (pf_val B) q (pf_bits B) (pf_pow2 B) (pf_modulus B) (pf_nbits B) CF cs a x W O OX)|].
  intros cs' r W' U [[O' H] _]. destruct (H I N) as [A1 A2]. split; [exact O'|]. split; [exact A1|]. rewrite A2, V, VX. symmetry. apply cval_zmul.
Qed.
Lemma run_pa_select cs a1 a2 c e P1 P2 : wf_cs cs -> pcar cs a1 P1 -> pcar cs a2 P2 -> wcar cs c (kbit B e) ->
  runs cs (pa_conditional_select B a1 a2 c) (fun cs' r => pcar cs' r (if e then P1 else P2)).
Proof.
  intros W H1 H2 HC. eapply runs_weaken; [apply runs_of, (pa_cond_select_ok B True cs a1 a2 c W (proj1 H1) (proj1 H2) (proj1 HC))|]. intros cs' r W' U [O [K1 K2]].
  apply (pcar_up _ _ _ _ U) in H1, H2. apply (wcar_up B _ _ _ _ U) in HC. destruct H1 as (O1 & N1 & V1), H2 as (O2 & N2 & V2), HC as [_ EC]. split; [exact O|].
  destruct e; cbn [kbit] in EC; [rewrite (K1 EC)|rewrite (K2 EC)]; split; assumption.
Qed.
Lemma run_pa_descale cs a P : wf_cs cs -> pcar cs a P -> runs cs (pa_descale B a) (fun cs' r => pelems cs' r P).
Proof.
  intros W (O & N & V). eapply runs_weaken; [apply runs_of, (pa_descale_ok B True cs a W O)|]. intros cs' r W' U [[(X & Y & Z) H] _]. specialize (H I).
  unfold pelems, point_rows, point_elems. cbn [d_x d_y d_inf curve_driver]. rewrite <- V. clear V. destruct (pval B (own cs) a) as [x y z] eqn:EP. unfold proj_pt. cbn [jx jy jz].
  unfold pval in H. destruct (keqb_spec B z 0) as [E|E]; injection H as HX HY HZ; (repeat (constructor; [split; [assumption|]|]); [rewrite HX|rewrite HY|exact HZ|constructor]); try reflexivity; field; exact E.
Qed.
Lemma pcar_identity cs : wf_cs cs -> pcar cs (pa_identity B) a0.
Proof.
  intros W. apply pelems_pcar. unfold pelems, point_rows, point_elems, pa_identity. cbn. repeat (constructor; [apply car_const, W|]). constructor.
Qed.

(** ** Instances *)
Notation of := (pf_of B).
Notation val := (pf_val B).
Notation tr := (transfer S B).
Lemma tr_val (x : S) : val (tr x) = (pf_val S x mod q)%Z.
Proof. apply (transfer_val S B p q OS OB). Qed.
Lemma tr_of (x : S) : tr x = of (pf_val S x).
Proof. apply (cf_inj _ _ _ _ _ _ _ CF). rewrite tr_val, (fo_of _ _ OB). reflexivity. Qed.
Lemma s_range (x : S) : (0 <= pf_val S x < p)%Z. Proof. apply (cf_range _ _ _ _ _ _ _ (fo_cf _ _ OS)). Qed.
Lemma p_256 : (2 ^ 253 < p < 2 ^ 254)%Z. Proof. exact (cf_p _ _ _ _ _ _ _ (fo_cf _ _ OS)). Qed.
Lemma q_256 : (2 ^ 253 < q < 2 ^ 254)%Z. Proof. exact (cf_p _ _ _ _ _ _ _ (fo_cf _ _ OB)). Qed.
Lemma s_256 (x : S) : (0 <= pf_val S x < 2 ^ 256)%Z.
Proof. pose proof (s_range x). pose proof p_256. assert (2 ^ 254 < 2 ^ 256)%Z by reflexivity. lia. Qed.

Definition icar cs (a : inst_asg B) (i : inst C) : Prop :=
  pcar cs (ia_w a) (i_w i) /\ exists x0 x1, i_x i = [x0; x1] /\ carries cs (ia_x0 a) (tr x0) /\ carries cs (ia_x1 a) (tr x1).
Definition rcar cs (a : rinst_asg B) (i : rinst C) : Prop :=
  pcar cs (ra_w a) (ri_w i) /\ pcar cs (ra_e a) (ri_e i) /\ carries cs (ra_u a) (tr (ri_u i)) /\
  exists x0 x1, ri_x i = [x0; x1] /\ number B cs (ra_x0 a) (pf_val S x0) /\ number B cs (ra_x1 a) (pf_val S x1).
Lemma icar_up cs cs' a i : above cs cs' -> icar cs a i -> icar cs' a i.
Proof. intros U (P & x0 & x1 & E & X0 & X1). ups U. split; [apply (pcar_up _ _ _ _ U P)|]. exists x0, x1. auto. Qed.
Lemma rcar_up cs cs' a i : above cs cs' -> rcar cs a i -> rcar cs' a i.
Proof.
  intros U (P & E & H & x0 & x1 & EX & X0 & X1). ups U. split; [apply (pcar_up _ _ _ _ U P)|]. split; [apply (pcar_up _ _ _ _ U E)|]. split; [exact H|].
  exists x0, x1. split; [exact EX|]. split; apply (number_up B _ _ _ _ U); assumption.
Qed.
Lemma pelems_up cs cs' a P : above cs cs' -> pelems cs a P -> pelems cs' a P.
Proof. intros U H. apply (cars_up B _ _ _ _ U H). Qed.
Ltac upp U := ups U; match type of U with @above ?F ?cs ?cs' =>
  repeat match goal with
  | H : pcar cs _ _ |- _ => apply (pcar_up _ _ _ _ U) in H
  | H : pelems cs _ _ |- _ => apply (pelems_up _ _ _ _ U) in H
  | H : icar cs _ _ |- _ => apply (icar_up _ _ _ _ U) in H
  | H : rcar cs _ _ |- _ => apply (rcar_up _ _ _ _ U) in H
  | H : number B cs _ _ |- _ => apply (number_up B _ _ _ _ U) in H
  end end.
Lemma run_at {A} cs (l : list S) i v (k : S -> G B A) Q : nth_error l i = Some v -> runs cs (k v) Q -> runs cs (bind (at_ B S l i) k) Q.
Proof. intros E H. unfold at_. rewrite E. exact H. Qed.
Lemma run_ia_witness cs (i : inst C) x0 x1 : wf_cs cs -> i_x i = [x0; x1] -> runs cs (ia_witness B S C i) (fun cs' a => icar cs' a i).
Proof.
  intros W E. unfold ia_witness. eapply runs_bind; [apply (run_point_witness cs (i_w i) W)|]. intros w cs1 W1 U1 H1. apply pelems_pcar in H1. rewrite E.
  apply run_at with (v := x0); [reflexivity|]. eapply runs_bind; [apply (run_witness B cs1 _ W1)|]. intros r0 cs2 W2 U2 H2. upp U2.
  apply run_at with (v := x1); [reflexivity|]. eapply runs_bind; [apply (run_witness B cs2 _ W2)|]. intros r1 cs3 W3 U3 H3. upp U3.
  apply runs_ret; [exact W3|]. split; [exact H1|]. exists x0, x1. auto.
Qed.
Lemma run_ra_witness cs (i : rinst C) x0 x1 : wf_cs cs -> ri_x i = [x0; x1] -> runs cs (ra_witness B S C i) (fun cs' a => rcar cs' a i).
Proof.
  intros W E. unfold ra_witness. eapply runs_bind; [apply (run_point_witness cs (ri_w i) W)|]. intros w cs1 W1 U1 H1. apply pelems_pcar in H1.
  eapply runs_bind; [apply (run_point_witness cs1 (ri_e i) W1)|]. intros e cs2 W2 U2 H2. apply pelems_pcar in H2. upp U2.
  eapply runs_bind; [apply (run_witness B cs2 _ W2)|]. intros u cs3 W3 U3 H3. upp U3. rewrite E. unfold BN_LIMB_WIDTH, BN_N_LIMBS.
  apply run_at with (v := x0); [reflexivity|]. eapply runs_bind; [apply (run_number B cs3 _ W3 (s_256 x0))|]. intros r0 cs4 W4 U4 H4. upp U4.
  apply run_at with (v := x1); [reflexivity|]. eapply runs_bind; [apply (run_number B cs4 _ W4 (s_256 x1))|]. intros r1 cs5 W5 U5 H5. upp U5.
  apply runs_ret; [exact W5|]. split; [exact H1|]. split; [exact H2|]. split; [exact H3|]. exists x0, x1. auto.
Qed.
Lemma run_ra_from cs a (i : inst C) : wf_cs cs -> icar cs a i -> Forall (fun x => pf_val S x < 2 ^ 253)%Z (i_x i) ->
  runs cs (ra_from_instance B a) (fun cs' r => rcar cs' r (from_r1cs_instance i)).
Proof.
  intros W H HX. pose proof H as (P & x0 & x1 & E & X0 & X1). rewrite E in HX. inversion HX as [|? ? L0 HX']; subst. inversion HX' as [|? ? L1 _]; subst.
  unfold ra_from_instance, BN_LIMB_WIDTH, BN_N_LIMBS.
  eapply runs_bind; [apply (run_from_field B q OB cs _ _ W X0)|]. intros r0 cs1 W1 U1 H1. upp U1.
  eapply runs_bind; [apply (run_from_field B q OB cs1 _ _ W1 X1)|]. intros r1 cs2 W2 U2 H2. upp U2.
  apply runs_ret; [exact W2|]. split; [exact P|]. split; [apply pcar_identity, W2|]. split.
  - cbn [ra_u from_r1cs_instance ri_u]. eapply car_eq; [apply car_const, W2|]. rewrite tr_of, (cf_one _ _ _ _ _ _ _ (fo_cf _ _ OS)). symmetry. apply (of_1 B q OB).
  - exists x0, x1. split; [exact E|]. pose proof q_256. rewrite tr_val, Z.mod_small in H1 by (pose proof (s_range x0); lia). rewrite tr_val, Z.mod_small in H2 by (pose proof (s_range x1); lia). split; assumption.
Qed.
Lemma run_ra_select cs a1 a2 (i1 i2 : rinst C) c e : wf_cs cs -> rcar cs a1 i1 -> rcar cs a2 i2 -> wcar cs c (kbit B e) ->
  runs cs (ra_conditional_select B a1 a2 c) (fun cs' r => rcar cs' r (if e then i1 else i2)).
Proof.
  intros W (P1 & E1 & H1 & x0 & x1 & EX & X0 & X1) (P2 & E2 & H2 & y0 & y1 & EY & Y0 & Y1) HC. unfold ra_conditional_select.
  eapply runs_bind; [apply (run_pa_select cs _ _ c e _ _ W P1 P2 HC)|]. intros w cs1 W1 U1 R1. upp U1.
  eapply runs_bind; [apply (run_pa_select cs1 _ _ c e _ _ W1 E1 E2 HC)|]. intros ee cs2 W2 U2 R2. upp U2.
  eapply runs_bind; [apply (run_select B cs2 _ _ c _ _ e W2 H1 H2 HC)|]. intros u cs3 W3 U3 R3. upp U3.
  eapply runs_bind; [apply (run_bn_select B cs3 _ _ _ _ c e W3 X0 Y0 HC)|]. intros r0 cs4 W4 U4 R4. upp U4.
  eapply runs_bind; [apply (run_bn_select B cs4 _ _ _ _ c e W4 X1 Y1 HC)|]. intros r1 cs5 W5 U5 R5. upp U5.
  apply runs_ret; [exact W5|]. destruct e; (split; [exact R1|]; split; [exact R2|]; split; [exact R3|]).
  - exists x0, x1. auto.
  - exists y0, y1. auto.
Qed.
(** ** Absorbing and hashing *)
Lemma number_limbs cs (a : bignat B) (x : S) : number B cs a (pf_val S x) -> Forall2 (carries cs) (bn_limbs a) (map (fun d => tr (pf_of S d)) (digits 64 (pf_val S x) 4)).
Proof.
  intros (H & _). unfold zcars in H. erewrite map_ext_in; [exact H|]. intros d I. cbv beta. rewrite tr_of. apply (f_equal of). apply (val_of S p OS).
  pose proof (digits_range 64 4 (pf_val S x)) as R. rewrite Forall_forall in R. specialize (R d I). cbv beta in R. change (2 ^ Z.of_nat 64)%Z with (2 ^ 64)%Z in R. pose proof p_256. assert (2 ^ 64 < 2 ^ 253)%Z by reflexivity. lia.
Qed.
Lemma run_ra_absorb cs a (i : rinst C) : wf_cs cs -> rcar cs a i -> runs cs (ra_absorb B a) (fun cs' st => exists vs, absorb i = Some vs /\ Forall2 (carries cs') st vs).
Proof.
  intros W (P & E & H & x0 & x1 & EX & X0 & X1). unfold ra_absorb.
  eapply runs_bind; [apply (run_pa_descale cs _ _ W E)|]. intros e cs1 W1 U1 R1. upp U1.
  eapply runs_bind; [apply (run_pa_descale cs1 _ _ W1 P)|]. intros w cs2 W2 U2 R2. upp U2.
  apply runs_ret; [exact W2|]. eexists. split; [unfold absorb; rewrite (absorb_limbs_ok B S p OS), EX; reflexivity|]. cbn [flat_map].
  apply Forall2_app; [exact R2|]. apply Forall2_app; [exact R1|]. apply Forall2_app; [constructor; [exact H|constructor]|].
  apply Forall2_app; [apply number_limbs, X0|]. rewrite app_nil_r. apply number_limbs, X1.
Qed.
Lemma squeeze_tr vs n : (n <= 253)%nat -> of (val (mimc_absorb (pf_consts B) vs) mod 2 ^ Z.of_nat n) = tr (squeeze B S vs n) /\ (0 <= pf_val S (squeeze B S vs n) < 2 ^ Z.of_nat n)%Z.
Proof.
  intros N. rewrite tr_of, (squeeze_val B S q p OB OS). pose proof (Z.mod_pos_bound (val (mimc_absorb (pf_consts B) vs)) (2 ^ Z.of_nat n) ltac:(apply Z.pow_pos_nonneg; lia)) as R.
  pose proof p_256. pose proof (Z.pow_le_mono_r 2 (Z.of_nat n) 253 ltac:(lia) ltac:(lia)). rewrite (Z.mod_small _ p) by lia. split; [reflexivity|exact R].
Qed.
Lemma run_squeeze_tr cs st vs n : wf_cs cs -> Forall2 (carries cs) st vs -> (1 <= n <= 253)%nat -> runs cs (squeeze_g B st n) (fun cs' r => carries cs' r (tr (squeeze B S vs n))).
Proof.
  intros W H N. eapply runs_weaken; [apply (run_squeeze B q OB cs st vs n W H N)|]. intros cs' r _ _ K. eapply car_eq; [exact K|]. apply squeeze_tr. lia.
Qed.
Lemma run_ra_hash cs a (i : rinst C) ir iz z0 zi z0v ziv : wf_cs cs -> rcar cs a i -> carries cs ir (of iz) -> Forall2 (carries cs) z0 z0v -> Forall2 (carries cs) zi ziv ->
  runs cs (ra_hash B a ir z0 zi) (fun cs' r => exists h, rinst_hash i iz z0v ziv = Some h /\ carries cs' r (tr h)).
Proof.
  intros W H HI H0 H1. unfold ra_hash. eapply runs_bind; [apply (run_ra_absorb cs a i W H)|]. intros st cs1 W1 U1 (vs & EV & HV). upp U1.
  eapply runs_weaken; [apply (run_squeeze_tr cs1 _ ([of iz] ++ z0v ++ ziv ++ vs) HASH_BITS W1)|].
  - apply Forall2_app; [constructor; [exact HI|constructor]|]. apply Forall2_app; [exact H0|]. apply Forall2_app; [exact H1|exact HV].
  - unfold HASH_BITS. lia.
  - intros cs2 r _ _ K. exists (squeeze B S ([of iz] ++ z0v ++ ziv ++ vs) HASH_BITS). split; [unfold rinst_hash; rewrite EV; reflexivity|exact K].
Qed.
Lemma hash_range (i : rinst C) iz z0 zi h : rinst_hash i iz z0 zi = Some h -> (0 <= pf_val S h < 2 ^ 252)%Z.
Proof.
  unfold rinst_hash. destruct (absorb i) as [st|]; [|discriminate]. intros E. replace h with (squeeze B S ([of iz] ++ z0 ++ zi ++ st) HASH_BITS) by congruence.
  apply (squeeze_tr _ HASH_BITS). unfold HASH_BITS. lia.
Qed.
Lemma run_challenge cs a (i : rinst C) ta T : wf_cs cs -> rcar cs a i -> pelems cs ta T ->
  runs cs (get_challenge B a ta) (fun cs' r => exists c, challenge T i = Some c /\ carries cs' r (tr c)).
Proof.
  intros W H HT. unfold get_challenge. eapply runs_bind; [apply (run_ra_absorb cs a i W H)|]. intros st cs1 W1 U1 (vs & EV & HV). upp U1.
  eapply runs_weaken; [apply (run_squeeze_tr cs1 _ (point_elems C T ++ vs) CHALLENGE_BITS W1)|].
  - apply Forall2_app; [exact HT|exact HV].
  - unfold CHALLENGE_BITS. lia.
  - intros cs2 r _ _ K. exists (squeeze B S (point_elems C T ++ vs) CHALLENGE_BITS). split; [unfold challenge; rewrite EV; reflexivity|exact K].
Qed.
(** ** The folding verifier *)
Lemma run_nifs_x cs a xr rb mb (X x r : S) : wf_cs cs -> number B cs a (pf_val S X) -> carries cs xr (tr x) -> (pf_val S x < 2 ^ 253)%Z ->
  number B cs rb (pf_val S r) -> number B cs mb p -> runs cs (nifs_x B a xr rb mb) (fun cs' n => number B cs' n (pf_val S (X + x * r))).
Proof.
  intros W HA HX LX HR HM. unfold nifs_x, BN_LIMB_WIDTH, BN_N_LIMBS. pose proof p_256 as PP. pose proof q_256 as QQ. pose proof (s_range x). pose proof (s_range X).
  eapply run_value; [exact HX|]. rewrite tr_val, Z.mod_small by lia.
  eapply runs_bind; [apply (run_number B cs _ W (s_256 x))|]. intros xb cs1 W1 U1 H1. upp U1.
  eapply runs_bind; [apply (run_mult_mod B q OB cs1 _ _ _ _ _ _ W1 H1 HR HM)|]; [lia|]. intros rx cs2 W2 U2 H2. upp U2.
  pose proof (Z.mod_pos_bound (pf_val S x * pf_val S r) p ltac:(lia)) as RM.
  destruct (add_number B q OB cs2 _ _ _ _ HA H2) as (s & ES & HS); [assert (2 ^ 254 + 2 ^ 254 < 2 ^ 256)%Z by reflexivity; lia|]. rewrite ES. apply run_lift.
  eapply runs_weaken; [apply (run_red_mod B q OB cs2 s mb _ _ W2 HS HM); lia|]. intros cs3 n _ _ K.
  rewrite (cf_add _ _ _ _ _ _ _ (fo_cf _ _ OS)), (cf_mul _ _ _ _ _ _ _ (fo_cf _ _ OS)). exact K.
Qed.
Lemma run_nifs cs rr a s ta (U : rinst C) (u : inst C) T (r : S) : wf_cs cs -> carries cs rr (tr r) -> rcar cs a U -> icar cs s u -> pcar cs ta T ->
  Forall (fun x => pf_val S x < 2 ^ 253)%Z (i_x u) -> (pf_val S (ri_u U) + 2 ^ 128 <= p)%Z -> (pf_val S r < 2 ^ 128)%Z ->
  runs cs (nifs_verify B S C rr a s ta) (fun cs' n => exists U', fold_inst U u r T = Some U' /\ rcar cs' n U').
Proof.
  intros W HR (P & E & HU & X0 & X1 & EX & HX0 & HX1) (p1 & x0 & x1 & EI & HI0 & HI1) HT FX LU LR. rewrite EI in FX. inversion FX as [|? ? L0 FX']; subst. inversion FX' as [|? ? L1 _]; subst.
  unfold nifs_verify. change (d_b3 C) with b3. pose proof p_256 as PP. pose proof q_256 as QQ. pose proof (s_range r) as RR. assert (P128 : (2 ^ 128 < 2 ^ 253)%Z) by reflexivity.
  assert (VR : val (tr r) = pf_val S r) by (rewrite tr_val; apply Z.mod_small; lia).
  eapply runs_bind; [apply (run_pa_scalar cs _ _ _ _ W p1 HR)|]. intros rw cs1 W1 U1 H1. upp U1. rewrite VR in H1.
  eapply runs_bind; [apply (run_pa_add cs1 _ _ _ _ W1 P H1)|]. intros wf cs2 W2 U2 H2. upp U2.
  eapply run_value; [split; [apply H2|reflexivity]|].
  eapply runs_bind; [apply (run_pa_scalar cs2 _ _ _ _ W2 HT HR)|]. intros rt cs3 W3 U3 H3. upp U3. rewrite VR in H3.
  eapply runs_bind; [apply (run_pa_add cs3 _ _ _ _ W3 E H3)|]. intros ef cs4 W4 U4 H4. upp U4.
  eapply run_value; [exact HR|]. unfold BN_LIMB_WIDTH, BN_N_LIMBS.
  eapply runs_bind; [apply (run_from_field B q OB cs4 _ _ W4 HR)|]. intros rb cs5 W5 U5 H5. upp U5. rewrite VR in H5.
  eapply runs_bind; [apply (run_number B cs5 p W5)|]; [assert (2 ^ 254 < 2 ^ 256)%Z by reflexivity; lia|]. intros mb cs6 W6 U6 H6. upp U6.
  eapply run_value; [exact HU|]. eapply run_value; [exact HR|].
  eapply runs_bind; [apply (run_witness B cs6 _ W6)|]. intros uf cs7 W7 U7 H7. upp U7.
  eapply runs_bind; [apply (run_enforce_const B cs7 _ 0 W7)|].
  { eapply car_eq; [apply (car_minus B _ _ _ _ _ (car_minus B _ _ _ _ _ H7 HU) HR)|]. ring. }
  intros _ cs8 W8 U8 _. upp U8.
  eapply runs_bind; [apply (run_nifs_x cs8 _ _ _ _ _ _ r W8 HX0 HI0 L0 H5 H6)|]. intros n0 cs9 W9 U9 H9. upp U9.
  eapply runs_bind; [apply (run_nifs_x cs9 _ _ _ _ _ _ r W9 HX1 HI1 L1 H5 H6)|]. intros n1 cs10 W10 U10 H10. upp U10.
  apply runs_ret; [exact W10|]. eexists. split; [unfold fold_inst; rewrite EX, EI; reflexivity|].
  split; [exact H2|]. split; [exact H4|]. split.
  - cbn [ra_u ri_u]. eapply car_eq; [exact H7|]. rewrite !tr_of, <- (of_add B q OB). apply (f_equal of). rewrite (cf_add _ _ _ _ _ _ _ (fo_cf _ _ OS)). symmetry. apply Z.mod_small. pose proof (s_range (ri_u U)). lia.
  - exists (X0 + x0 * r), (X1 + x1 * r). split; [reflexivity|]. split; assumption.
Qed.

(** ** The augmented circuit *)
Lemma run_neq cs x y u v : wf_cs cs -> carries cs x u -> carries cs y v -> runs cs (fa_is_neq B x y) (fun cs' w => wcar cs' w (kbit B (negb (keqb u v)))).
Proof.
  intros W [OX <-] [OY <-]. eapply runs_weaken; [apply runs_of, (is_neq_ok B True cs x y W OX OY)|]. intros cs' w _ _ [H _]. exact H.
Qed.
Lemma run_eq cs x y u v : wf_cs cs -> carries cs x u -> carries cs y v -> runs cs (fa_is_eq B x y) (fun cs' w => wcar cs' w (kbit B (keqb u v))).
Proof.
  intros W HX HY. unfold fa_is_eq. eapply runs_bind; [apply (run_neq cs x y u v W HX HY)|]. intros n cs1 W1 U1 [H1 V1].
  eapply runs_weaken; [apply runs_of, (bin_not_ok B True cs1 n W1 H1)|]. intros cs' w _ _ [[H V] _]. split; [exact H|]. rewrite V, V1. destruct (keqb u v); cbn [negb kbit].
  - destruct (keqb_spec B 0 1) as [E|_]; [destruct (k1_neq0 B (eq_sym E))|reflexivity].
  - destruct (keqb_spec B 1 1) as [_|E]; [reflexivity|destruct (E eq_refl)].
Qed.
Lemma run_cond cs x y c u v e : wf_cs cs -> carries cs x u -> carries cs y v -> wcar cs c (kbit B e) -> (e = true -> u = v) ->
  runs cs (fa_conditional_enforce_equal B x y c) (fun _ _ => True).
Proof.
  intros W [OX VX] [OY VY] [OC VC] H. eapply runs_weaken; [apply runs_of, (cond_enforce_ok B True cs x y c W OX OY OC)|auto]. intros _. rewrite VX, VY, VC. destruct e; [right; apply H; reflexivity|left; reflexivity].
Qed.
Lemma run_fc FC cs rows z : step_circuit FC -> wf_cs cs -> length z = 1%nat -> Forall2 (carries cs) rows z ->
  runs cs (fc_invoke_cs FC rows) (fun cs' out => Forall2 (carries cs') out (fc_invoke FC z)).
Proof.
  intros SC W L H. destruct (sc_run B FC SC cs rows z W L H) as (out & cs' & dw & new & E & W' & X & WW & GG & HN & HO).
  exists out, cs', new. split; [exact E|]. split; [exact W'|]. split; [|split; [exact HN|exact HO]]. split; [exists []; rewrite app_nil_r; exact X|]. split; [exists dw; exact WW|exact GG].
Qed.
Lemma run_wits cs l : wf_cs cs -> runs cs (for_each (fa_witness B) l) (fun cs' rs => Forall2 (carries cs') rs l).
Proof.
  intros W. eapply runs_weaken; [apply (run_for B (fa_witness B) (fun cs v r => carries cs r v))|].
  - intros c1 c2 v r U. apply (car_up B _ _ _ _ U).
  - exact W.
  - intros v c _ W' _. apply (run_witness B c v W').
  - intros cs' rs _ _ H. clear - H. induction H; constructor; assumption.
Qed.
(** All but the last two lines of [generate]. *)
Definition gen_body (FC : fcircuit B) (c : aug C) : G B (row B * row B * list (row B)) :=
  do i <- fa_witness B (pf_of B (ac_i c));
  do z_0 <- for_each (fa_witness B) (ac_z0 c);
  do z_i <- for_each (fa_witness B) (or_else (ac_zi c) (ac_z0 c));
  do u_dummy <- ra_witness B S C (rinst_dummy C 2);
  do u_single <- ia_witness B S C (or_else (ac_single c) (inst_dummy C 2));
  do u_range <- ra_witness B S C (or_else (ac_range c) (rinst_dummy C 2));
  do commit_t <- point_witness B S C (or_else (ac_t c) a0);
  let zero := fa_constant B 0 in
  do base_case <- fa_is_eq B i zero;
  do not_base_case <- fa_is_neq B i zero;
  do base <- (if ac_primary c then ret u_dummy else ra_from_instance B u_single);
  do u_i_x <- ra_hash B u_range i z_0 z_i;
  run fa_conditional_enforce_equal B (ia_x0 u_single) u_i_x not_base_case;
  do r <- get_challenge B u_range commit_t;
  do non_base <- nifs_verify B S C r u_range u_single commit_t;
  do u_range_next <- ra_conditional_select B base non_base base_case;
  do z_next <- fc_invoke_cs FC z_i;
  do u_next_x <- ra_hash B u_range_next (fa_plus B i (fa_constant B 1)) z_0 z_next;
  ret (ia_x1 u_single, u_next_x, z_next).
Lemma bind_bind {X Y Z} (g : G B X) (k : X -> G B Y) (h : Y -> G B Z) cs : bind (bind g k) h cs = bind g (fun a => bind (k a) h) cs.
Proof. unfold bind. destruct (g cs) as [[a d]|]; reflexivity. Qed.
Lemma bind_ext {X Y} (g : G B X) (k k' : X -> G B Y) cs : (forall a d, k a d = k' a d) -> bind g k cs = bind g k' cs.
Proof. intros H. unfold bind. destruct (g cs) as [[a d]|]; [apply H|reflexivity]. Qed.
Lemma gen_split FC (c : aug C) cs : generate FC c cs = bind (gen_body FC c) (fun '(r1, r2, zn) => do x0 <- fa_inputize B r1; do x1 <- fa_inputize B r2; ret zn) cs.
Proof.
  unfold generate, gen_body. symmetry. do 17 (rewrite bind_bind; apply bind_ext; intros ? ?; cbv zeta). reflexivity.
Qed.
(** The accumulated instance after the step. *)
Definition next_range (c : aug C) : option (rinst C) :=
  let u := or_else (ac_single c) (inst_dummy C 2) in
  if (ac_i c =? 0)%Z then Some (if ac_primary c then rinst_dummy C 2 else from_r1cs_instance u)
  else fold_verify (or_else (ac_t c) a0) (or_else (ac_range c) (rinst_dummy C 2)) u.
(** What the circuit asks of its inputs. *)
Definition step_input (c : aug C) : Prop :=
  let U := or_else (ac_range c) (rinst_dummy C 2) in
  let u := or_else (ac_single c) (inst_dummy C 2) in
  length (ac_z0 c) = 1%nat /\ length (or_else (ac_zi c) (ac_z0 c)) = 1%nat /\ (0 <= ac_i c < 2 ^ 64)%Z /\
  length (ri_x U) = 2%nat /\ (pf_val S (ri_u U) + 2 ^ 128 <= p)%Z /\
  exists x0 x1, i_x u = [x0; x1] /\ (pf_val S x0 < 2 ^ 253)%Z /\ (pf_val S x1 < 2 ^ 253)%Z /\
    (ac_i c <> 0%Z -> rinst_hash U (ac_i c) (ac_z0 c) (or_else (ac_zi c) (ac_z0 c)) = Some x0).
Lemma two_list {A} (l : list A) : length l = 2%nat -> exists x0 x1, l = [x0; x1].
Proof. intros H. destruct l as [|x0 [|x1 [|? ?]]]; try discriminate. exists x0, x1. reflexivity. Qed.
Lemma of_eq0 i : (0 <= i < 2 ^ 64)%Z -> keqb (of i) 0 = (i =? 0)%Z.
Proof.
  intros R. pose proof q_256. assert (2 ^ 64 < 2 ^ 253)%Z by reflexivity. destruct (keqb_spec B (of i) 0) as [E|E]; destruct (Z.eqb_spec i 0) as [D|D]; try reflexivity; exfalso.
  - apply D. apply (f_equal val) in E. rewrite (val_of B q OB i), (cf_zero _ _ _ _ _ _ _ CF) in E by lia. exact E.
  - apply E. subst. apply (of_0 B q OB).
Qed.
Lemma run_body FC (c : aug C) cs : step_circuit FC -> wf_cs cs -> step_input c ->
  runs cs (gen_body FC c) (fun cs' '(r1, r2, zn) => exists x0 x1 U' h, i_x (or_else (ac_single c) (inst_dummy C 2)) = [x0; x1] /\ next_range c = Some U' /\
    rinst_hash U' (ac_i c + 1) (ac_z0 c) (fc_invoke FC (or_else (ac_zi c) (ac_z0 c))) = Some h /\
    carries cs' r1 (tr x1) /\ carries cs' r2 (tr h) /\ Forall2 (carries cs') zn (fc_invoke FC (or_else (ac_zi c) (ac_z0 c)))).
Proof.
  intros SC W IN. unfold step_input in IN. unfold gen_body, next_range. cbv zeta in *.
  set (U := or_else (ac_range c) (rinst_dummy C 2)) in *. set (u := or_else (ac_single c) (inst_dummy C 2)) in *. set (zi := or_else (ac_zi c) (ac_z0 c)) in *. set (T := or_else (ac_t c) a0) in *.
  set (z0 := ac_z0 c) in *. set (i := ac_i c) in *. destruct IN as (L0 & Li & RI & LX & LU & x0 & x1 & EX & B0 & B1 & HH). destruct (two_list _ LX) as (X0 & X1 & EU).
  eapply runs_bind; [apply (run_witness B cs _ W)|]. intros ir cs1 W1 U1 HI. upp U1.
  eapply runs_bind; [apply (run_wits cs1 z0 W1)|]. intros z0r cs2 W2 U2 HZ0. upp U2.
  eapply runs_bind; [apply (run_wits cs2 zi W2)|]. intros zir cs3 W3 U3 HZI. upp U3.
  eapply runs_bind; [apply (run_ra_witness cs3 (rinst_dummy C 2) 0 0 W3 eq_refl)|]. intros dum cs4 W4 U4 HD. upp U4.
  eapply runs_bind; [apply (run_ia_witness cs4 u x0 x1 W4 EX)|]. intros us cs5 W5 U5 HU. upp U5.
  eapply runs_bind; [apply (run_ra_witness cs5 U X0 X1 W5 EU)|]. intros ur cs6 W6 U6 HR. upp U6.
  eapply runs_bind; [apply (run_point_witness cs6 T W6)|]. intros ct cs7 W7 U7 HT. upp U7.
  pose proof (car_const B cs7 0 W7) as HZ.
  eapply runs_bind; [apply (run_eq cs7 _ _ _ _ W7 HI HZ)|]. intros bc cs8 W8 U8 HB. upp U8.
  eapply runs_bind; [apply (run_neq cs8 _ _ _ _ W8 HI HZ)|]. intros nb cs9 W9 U9 HN. upp U9. rewrite (of_eq0 i RI) in HB, HN.
  assert (FX : Forall (fun x => pf_val S x < 2 ^ 253)%Z (i_x u)) by (rewrite EX; constructor; [exact B0|constructor; [exact B1|constructor]]).
  eapply runs_bind with (Q1 := fun cs' r => rcar cs' r (if ac_primary c then rinst_dummy C 2 else from_r1cs_instance u)).
  { destruct (ac_primary c); [apply runs_ret; [exact W9|exact HD]|]. apply (run_ra_from cs9 us u W9 HU FX). }
  intros base cs10 W10 U10 HBASE. upp U10.
  eapply runs_bind; [apply (run_ra_hash cs10 ur U ir i z0r zir z0 zi W10 HR HI HZ0 HZI)|]. intros hx cs11 W11 U11 (h & EH & HX). upp U11.
  pose proof HU as (_ & y0 & y1 & EY & HY0 & HY1). rewrite EX in EY. injection EY as <- <-.
  eapply runs_bind; [apply (run_cond cs11 _ _ _ _ _ _ W11 HY0 HX HN)|].
  { intros E. apply negb_true_iff, Z.eqb_neq in E. rewrite (HH E) in EH. injection EH as <-. reflexivity. }
  intros _ cs12 W12 U12 _. upp U12.
  eapply runs_bind; [apply (run_challenge cs12 ur U ct T W12 HR HT)|]. intros rr cs13 W13 U13 (r & ER & HRR). upp U13.
  destruct (challenge_total B S C p q OB OS T U) as (r' & ER' & RR). rewrite ER in ER'. injection ER' as <-.
  eapply runs_bind; [apply (run_nifs cs13 rr ur us ct U u T r W13 HRR HR HU (pelems_pcar _ _ _ HT) FX LU (proj2 RR))|]. intros nbs cs14 W14 U14 (UF & EF & HF). upp U14.
  eapply runs_bind; [apply (run_ra_select cs14 _ _ _ _ _ _ W14 HBASE HF HB)|]. intros un cs15 W15 U15 HUN. upp U15.
  eapply runs_bind; [apply (run_fc FC cs15 zir zi SC W15 Li HZI)|]. intros zn cs16 W16 U16 HZN. upp U16.
  assert (HI1 : carries cs16 (fa_plus B ir (fa_constant B 1)) (of (i + 1))).
  { eapply car_eq; [apply (car_plus B _ _ _ _ _ HI (car_const B cs16 1 W16))|]. rewrite (of_add B q OB), (of_1 B q OB). reflexivity. }
  eapply runs_bind; [apply (run_ra_hash cs16 un _ _ (i + 1) z0r zn z0 (fc_invoke FC zi) W16 HUN HI1 HZ0 HZN)|]. intros hn cs17 W17 U17 (h' & EH' & HX'). upp U17.
  apply runs_ret; [exact W17|]. exists x0, x1. eexists. exists h'. split; [exact EX|]. split; [|split; [exact EH'|auto]].
  destruct (i =? 0)%Z; [reflexivity|]. unfold fold_verify. rewrite ER, EF. reflexivity.
Qed.
(** Uniformity. *)
Lemma ss_of cs cs' : same_shape B cs cs' -> same_system cs cs'.
Proof. intros (H1 & H2 & H3 & H4 & H5 & H6). unfold same_system, gates. rewrite H2, H3, H4. auto 10. Qed.
Lemma u_fc (FC : fcircuit B) rows : step_circuit FC -> uni (fc_invoke_cs FC rows) (fc_invoke_cs FC rows).
Proof.
  intros SC cs cs' H a d a' d' E E'. destruct (sc_uniform B FC SC cs cs' rows a a' d d' (ss_of _ _ H) E E') as (-> & (_ & Hs) & X & X'). split; [reflexivity|]. split; [exact Hs|auto].
Qed.
Lemma u_body FC (c c' : aug C) : step_circuit FC -> ac_primary c = ac_primary c' -> length (ac_z0 c) = length (ac_z0 c') ->
  length (or_else (ac_zi c) (ac_z0 c)) = length (or_else (ac_zi c') (ac_z0 c')) -> uni (gen_body FC c) (gen_body FC c').
Proof.
  intros SC EP L0 LI. assert (LB : forall v v', length (pf_bits B v) = length (pf_bits B v')) by (intros v v'; rewrite !(cf_len _ _ _ _ _ _ _ CF); reflexivity).
  unfold gen_body. rewrite <- EP. apply u_bind; [apply u_fw|]. intros i. apply u_bind; [apply u_for2; [exact L0|intros; apply u_fw]|]. intros z0. apply u_bind; [apply u_for2; [exact LI|intros; apply u_fw]|]. intros zi.
  apply u_bind; [apply u_ra|]. intros ud. apply u_bind; [apply u_ia|]. intros us. apply u_bind; [apply u_ra|]. intros ur. apply u_bind; [apply u_point|]. intros ct. cbv zeta.
  apply u_bind; [apply u_is_eq|]. intros bc. apply u_bind; [apply u_is_neq|]. intros nb. apply u_bind; [destruct (ac_primary c); [apply u_ret|apply u_ra_from, LB]|]. intros base.
  apply u_bind; [apply u_hash, LB|]. intros ux. apply u_bind; [apply u_cond|]. intros _. apply u_bind; [apply u_challenge, LB|]. intros r. apply u_bind; [apply u_nifs, LB|]. intros nbs.
  apply u_bind; [apply u_ra_select|]. intros un. apply u_bind; [apply u_fc, SC|]. intros zn. apply u_bind; [apply u_hash, LB|]. intros un'. apply u_ret.
Qed.
End Points.
