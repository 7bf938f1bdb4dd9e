(** Groth16 on points refines Groth16 in groups. *)
From Coq Require Import ZArith List Bool Lia.
From Verif Require Import LimbModel FieldModel FieldSpec Algebra CurveSpec CurveGroup CurveAb CurveParams GroupLib PolyModel R1csModel Groth16Model WeierModel WeierProofs ClaimsCurve
  MsmModel ClaimsMsm Groth16Points.
Import ListNotations.
Local Open Scope fld_scope.

Lemma f2_length {X Y} (R : X -> Y -> Prop) l L : Forall2 R l L -> length l = length L.
Proof. induction 1 as [|x y l L H HS IH]; cbn; congruence. Qed.
(** One curve: affine and projective values against the elements of a group of points. *)
Section Side.
Variables (F : Fld) (limbs : F -> l4) (sval : F -> Z) (P : fparams) (m : Z).
Hypothesis BF : bn_field P m.
Hypothesis LR : forall s, represents m (limbs s) (sval s).
Variables (K : Fld) (b b3 : K).
Hypothesis OK : curve_ok K b b3.
Variables (A : AbGrp) (val : A -> point K) (mul : A -> F -> A).
Hypothesis val_on : forall x, on_curve b (val x).
Hypothesis val_0 : val a0 = Inf.
Hypothesis val_add : forall x y, val (aadd x y) = pt_add (val x) (val y).
Hypothesis val_mul : forall x s, val (mul x s) = pt_zmul (sval s) (val x).

Definition ra (p : aff K) (x : A) : Prop := aff_pt K p = val x.
Definition rp (p : proj K) (x : A) : Prop := proj_pt K p = val x.

Lemma sval_nonneg s : (0 <= sval s)%Z. Proof. destruct (LR s) as (_ & H & _). lia. Qed.
Lemma val_mul_n x s : val (mul x s) = pt_mul (Z.to_nat (sval s)) (val x).
Proof.
  rewrite val_mul. unfold pt_zmul. destruct (sval s <? 0)%Z eqn:E; [|reflexivity]. apply Z.ltb_lt in E. pose proof (sval_nonneg s). lia.
Qed.
Lemma ra_on p x : ra p x -> on_curve b (aff_pt K p). Proof. unfold ra. intros ->. apply val_on. Qed.
Lemma rp_on p x : rp p x -> on_curve b (proj_pt K p). Proof. unfold rp. intros ->. apply val_on. Qed.
Lemma r_mul p x s : ra p x -> exists q, aff_mul K b3 P p (limbs s) = Some q /\ rp q (mul x s).
Proof.
  intros H. destruct (C21_affine_scalar_multiplication K b b3 OK P m (limbs s) (sval s) p BF (LR s) (ra_on p x H)) as (q & E & V).
  exists q. split; [exact E|]. unfold rp. rewrite V, val_mul_n. unfold ra in H. rewrite H. reflexivity.
Qed.
Lemma r_pmul p x s : rp p x -> exists q, scalar_point K b3 P p (limbs s) = Some q /\ rp q (mul x s).
Proof.
  intros H. destruct (C21_scalar_multiplication K b b3 OK P m (limbs s) (sval s) p BF (LR s) (rp_on p x H)) as (q & E & V & _).
  exists q. split; [exact E|]. unfold rp. rewrite V, val_mul_n. unfold rp in H. rewrite H. reflexivity.
Qed.
Lemma r_affine p x : rp p x -> ra (to_affine K p) x.
Proof. unfold rp, ra. intros <-. apply (C19_conversions K). Qed.
Lemma r_extend p x : ra p x -> rp (to_extended K p) x.
Proof. unfold rp, ra. intros <-. apply (C19_conversions K). Qed.
Lemma r_into p x s : ra p x -> exists q, option_map (to_affine K) (aff_mul K b3 P p (limbs s)) = Some q /\ ra q (mul x s).
Proof. intros H. destruct (r_mul p x s H) as (q & E & R). rewrite E. eexists. split; [reflexivity|apply r_affine, R]. Qed.
Lemma r_add p q x y : rp p x -> rp q y -> rp (proj_add K b3 p q) (aadd x y).
Proof.
  intros H H'. unfold rp. destruct (C18_addition_and_doubling K b b3 OK) as (_ & E & _).
  rewrite (E p q (rp_on p x H) (rp_on q y H')), val_add. unfold rp in *. rewrite H, H'. reflexivity.
Qed.
Lemma r_add_aff p q x y : rp p x -> ra q y -> rp (proj_add_aff K b3 p q) (aadd x y).
Proof.
  intros H H'. unfold rp. destruct (C18_addition_and_doubling K b b3 OK) as (_ & _ & _ & E & _).
  rewrite (E p q (rp_on p x H) (ra_on q y H')), val_add. unfold rp, ra in *. rewrite H, H'. reflexivity.
Qed.
Lemma r_0 : ra (aff_identity K) a0. Proof. unfold ra. rewrite val_0. reflexivity. Qed.
Lemma r_identity p x : ra p x -> aff_is_identity K p = true <-> val x = Inf.
Proof. unfold ra, aff_is_identity, aff_pt. intros <-. destruct (ainf p); split; intros; try reflexivity; discriminate. Qed.
Lemma val_sum l : val (asum l) = pt_sum (map val l).
Proof. induction l as [|x l IH]; [exact val_0|]. transitivity (pt_add (val x) (val (asum l))); [apply val_add|rewrite IH; reflexivity]. Qed.
Lemma r_combine (bs : list (aff K)) (Bs : list A) (cs : list F) : Forall2 ra bs Bs ->
  map (fun v => pt_mul (Z.to_nat (fst v)) (snd v)) (combine (map sval cs) (map (aff_pt K) bs)) = map val (map (fun '(x, c) => mul x c) (combine Bs cs)).
Proof.
  intros H. revert cs. induction H as [|p x bs Bs H HS IH]; intros [|c cs]; try reflexivity.
  cbn. rewrite IH. apply (f_equal2 cons); [|reflexivity]. rewrite val_mul_n. unfold ra in H. rewrite H. reflexivity.
Qed.
Lemma r_msm (bs : list (aff K)) (Bs : list A) (cs : list F) : Forall2 ra bs Bs -> (Z.of_nat (length bs) < 2 ^ 64)%Z ->
  exists r, msm K b3 P bs (map limbs cs) = Some r /\ rp r (msum F mul Bs cs).
Proof.
  intros H L. destruct (C24_msm K b b3 P m bs (map limbs cs) (map sval cs) OK BF) as (r & E & V); [| |exact L|].
  - clear -H val_on. induction H as [|p x bs Bs H HS IH]; [apply Forall_nil|]. apply Forall_cons; [exact (ra_on p x H)|exact IH].
  - clear -LR. induction cs as [|c cs IH]; [apply Forall2_nil|]. apply Forall2_cons; [apply LR|exact IH].
  - exists r. split; [exact E|]. unfold rp. rewrite V. unfold msum. rewrite val_sum. apply f_equal. apply r_combine, H.
Qed.
Lemma r_map_opt (p : aff K) (x : A) (f : F -> F) l : ra p x ->
  exists qs, map_opt (fun s => option_map (to_affine K) (aff_mul K b3 P p (limbs (f s)))) l = Some qs /\ Forall2 ra qs (map (fun s => mul x (f s)) l).
Proof.
  intros H. induction l as [|s l (qs & E & R)]; [exists []; split; [reflexivity|apply Forall2_nil]|].
  destruct (r_into p x (f s) H) as (q & E' & R'). exists (q :: qs). cbn [map_opt map]. rewrite E', E. split; [reflexivity|]. apply Forall2_cons; assumption.
Qed.
Lemma r_neg p x : (forall y, val (aneg y) = pt_neg (val y)) -> ra p x -> ra (aff_neg K p) (aneg x).
Proof. intros HN H. unfold ra. rewrite HN. destruct (C18_negation_and_subtraction K b b3 OK) as (E & _). rewrite E. unfold ra in H. rewrite H. reflexivity. Qed.
End Side.

(** Outcomes that fail in the same way, or succeed with related values. *)
Definition agree {X Y : Type} (R : X -> Y -> Prop) (c : outcome X) (g : outcome Y) : Prop :=
  match c, g with
  | Done x, Done y => R x y
  | Failed e, Failed e' => e = e'
  | Panicked, Panicked => True
  | _, _ => False
  end.
Definition agree_opt {X Y : Type} (R : X -> Y -> Prop) (c : option X) (g : option Y) : Prop :=
  match c, g with Some x, Some y => R x y | None, None => True | _, _ => False end.
Lemma agree_bind {X Y X' Y'} (R : X -> Y -> Prop) (S : X' -> Y' -> Prop) c g k k' :
  agree_opt R c g -> (forall x y, R x y -> agree S (k x) (k' y)) -> agree S (obind c k) (obind g k').
Proof. unfold agree_opt. destruct c, g; cbn; intros H K; try contradiction; [apply K, H|exact I]. Qed.
Lemma agree_same {X X' Y'} (S : X' -> Y' -> Prop) (c : option X) k k' :
  (forall x, agree S (k x) (k' x)) -> agree S (obind c k) (obind c k').
Proof. destruct c; cbn; intros K; [apply K|exact I]. Qed.
Lemma agree_some {X Y X' Y'} (R : X -> Y -> Prop) (S : X' -> Y' -> Prop) c y k g :
  (exists x, c = Some x /\ R x y) -> (forall x, R x y -> agree S (k x) g) -> agree S (obind c k) g.
Proof. intros (x & -> & H) K. apply K, H. Qed.

Section Both.
Variables (F : Fld) (limbs : F -> l4) (sval : F -> Z) (P : fparams) (m : Z).
Hypothesis BF : bn_field P m.
Hypothesis LR : forall s, represents m (limbs s) (sval s).
Variables (two_adicity : nat) (root gen : F).
Variables (K1 K2 : Fld) (b1 b31 : K1) (b2 b32 : K2).
Hypothesis OK1 : curve_ok K1 b1 b31.
Hypothesis OK2 : curve_ok K2 b2 b32.
Variables (A1 A2 AT : AbGrp) (val1 : A1 -> point K1) (val2 : A2 -> point K2).
Variables (mul1 : A1 -> F -> A1) (mul2 : A2 -> F -> A2) (pair : A1 -> A2 -> AT) (x1 : A1) (x2 : A2).
Variables (eq1 : A1 -> A1 -> bool) (eq2 : A2 -> A2 -> bool) (eqA : AT -> AT -> bool).
Hypothesis on1 : forall x, on_curve b1 (val1 x).
Hypothesis on2 : forall x, on_curve b2 (val2 x).
Hypothesis zero1 : val1 a0 = Inf.
Hypothesis zero2 : val2 a0 = Inf.
Hypothesis add1 : forall x y, val1 (aadd x y) = pt_add (val1 x) (val1 y).
Hypothesis add2 : forall x y, val2 (aadd x y) = pt_add (val2 x) (val2 y).
Hypothesis vmul1 : forall x s, val1 (mul1 x s) = pt_zmul (sval s) (val1 x).
Hypothesis vmul2 : forall x s, val2 (mul2 x s) = pt_zmul (sval s) (val2 x).
Hypothesis vneg2 : forall x, val2 (aneg x) = pt_neg (val2 x).
Hypothesis eq1_inf : forall x, eq1 x a0 = true <-> val1 x = Inf.
Hypothesis eq2_inf : forall x, eq2 x a0 = true <-> val2 x = Inf.
Variables (g1 : aff K1) (g2 : aff K2).
Local Notation ra1 := (ra K1 A1 val1). Local Notation ra2 := (ra K2 A2 val2).
Local Notation rp1 := (rp K1 A1 val1). Local Notation rp2 := (rp K2 A2 val2).
Hypothesis gen1 : ra1 g1 x1.
Hypothesis gen2 : ra2 g2 x2.
Variables (T prep : Type) (prepare_point : aff K2 -> prep) (multi_pairing : list (aff K1 * prep) -> option T) (eqT : T -> T -> bool).
Variables (rprep : prep -> A2 -> Prop) (tv : AT -> T).
Hypothesis prep_ok : forall q y, ra2 q y -> rprep (prepare_point q) y.
Hypothesis multi_ok : forall l L, Forall2 (fun c g => ra1 (fst c) (fst g) /\ rprep (snd c) (snd g)) l L ->
  multi_pairing l = Some (tv (asum (map (fun g => pair (fst g) (snd g)) L))).
Hypothesis eqT_ok : forall z z', eqT (tv z) (tv z') = eqA z z'.

Definition rvk (c : cvkey K1 K2) (g : vkey A1 A2) : Prop :=
  ra1 (cvk_alpha_g1 _ _ c) (vk_alpha_g1 _ _ g) /\ ra1 (cvk_beta_g1 _ _ c) (vk_beta_g1 _ _ g) /\ ra2 (cvk_beta_g2 _ _ c) (vk_beta_g2 _ _ g) /\
  ra2 (cvk_gamma_g2 _ _ c) (vk_gamma_g2 _ _ g) /\ ra1 (cvk_delta_g1 _ _ c) (vk_delta_g1 _ _ g) /\ ra2 (cvk_delta_g2 _ _ c) (vk_delta_g2 _ _ g) /\
  Forall2 ra1 (cvk_ic _ _ c) (vk_ic _ _ g).
Definition rpvk (c : cpvkey K1 T prep) (g : pvkey A1 A2 AT) : Prop :=
  cpvk_alpha_beta _ _ _ c = tv (pvk_alpha_beta _ _ _ g) /\ rprep (cpvk_neg_gamma _ _ _ c) (pvk_neg_gamma _ _ _ g) /\
  rprep (cpvk_neg_delta _ _ _ c) (pvk_neg_delta _ _ _ g) /\ Forall2 ra1 (cpvk_ic _ _ _ c) (pvk_ic _ _ _ g).
Definition rpk (c : cparams K1 K2) (g : params A1 A2) : Prop :=
  rvk (cp_vk _ _ c) (p_vk _ _ g) /\ Forall2 ra1 (cp_h _ _ c) (p_h _ _ g) /\ Forall2 ra1 (cp_l _ _ c) (p_l _ _ g) /\
  Forall2 ra1 (cp_a _ _ c) (p_a _ _ g) /\ Forall2 ra1 (cp_b_g1 _ _ c) (p_b_g1 _ _ g) /\ Forall2 ra2 (cp_b_g2 _ _ c) (p_b_g2 _ _ g).
Definition rpf (c : cproof K1 K2) (g : proof A1 A2) : Prop :=
  ra1 (cpf_a _ _ c) (pf_a _ _ g) /\ ra2 (cpf_b _ _ c) (pf_b _ _ g) /\ ra1 (cpf_c _ _ c) (pf_c _ _ g).
Definition r4 (c : list (aff K1) * list (aff K1) * list (aff K2) * list (aff K1)) (g : list A1 * list A1 * list A2 * list A1) : Prop :=
  let '(a, b, b', e) := c in let '(ga, gb, gb', ge) := g in Forall2 ra1 a ga /\ Forall2 ra1 b gb /\ Forall2 ra2 b' gb' /\ Forall2 ra1 e ge.

Let into1 := r_into F limbs sval P m BF LR K1 b1 b31 OK1 A1 val1 mul1 on1 vmul1.
Let into2 := r_into F limbs sval P m BF LR K2 b2 b32 OK2 A2 val2 mul2 on2 vmul2.
Let rmul1 := r_mul F limbs sval P m BF LR K1 b1 b31 OK1 A1 val1 mul1 on1 vmul1.
Let rmul2 := r_mul F limbs sval P m BF LR K2 b2 b32 OK2 A2 val2 mul2 on2 vmul2.
Let rpmul1 := r_pmul F limbs sval P m BF LR K1 b1 b31 OK1 A1 val1 mul1 on1 vmul1.
Let radd1 := r_add K1 b1 b31 OK1 A1 val1 on1 add1.
Let radd2 := r_add K2 b2 b32 OK2 A2 val2 on2 add2.
Let raddaff1 := r_add_aff K1 b1 b31 OK1 A1 val1 on1 add1.
Let raddaff2 := r_add_aff K2 b2 b32 OK2 A2 val2 on2 add2.
Let rmsm1 := r_msm F limbs sval P m BF LR K1 b1 b31 OK1 A1 val1 mul1 on1 zero1 add1 vmul1.
Let rmsm2 := r_msm F limbs sval P m BF LR K2 b2 b32 OK2 A2 val2 mul2 on2 zero2 add2 vmul2.

Lemma eval_one_agree pt inv alpha beta at_ bt ct :
  agree_opt (fun c g => let '(a, b, b', e) := c in let '(ga, gb, gb', ge) := g in ra1 a ga /\ ra1 b gb /\ ra2 b' gb' /\ ra1 e ge)
    (c_eval_one F limbs P K1 K2 b31 b32 g1 g2 pt inv alpha beta at_ bt ct) (eval_one F A1 A2 mul1 mul2 x1 x2 pt inv alpha beta at_ bt ct).
Proof.
  unfold c_eval_one, eval_one. destruct (eval_at_tau F pt at_) as [a|]; [|exact I]. destruct (eval_at_tau F pt bt) as [b|]; [|exact I].
  destruct (eval_at_tau F pt ct) as [c|]; [|exact I]. unfold mul_into1, mul_into2.
  destruct (into1 g1 x1 ((a * beta + b * alpha + c) * inv) gen1) as (e & -> & He).
  assert (HA : exists p, (if kis0 a then Some (aff_identity K1) else option_map (to_affine K1) (aff_mul K1 b31 P g1 (limbs a))) = Some p /\ ra1 p (if kis0 a then a0 else mul1 x1 a)).
  { destruct (kis0 a); [eexists; split; [reflexivity|apply (r_0 K1 A1 val1 zero1)]|apply into1, gen1]. }
  assert (HB : exists p, (if kis0 b then Some (aff_identity K1) else option_map (to_affine K1) (aff_mul K1 b31 P g1 (limbs b))) = Some p /\ ra1 p (if kis0 b then a0 else mul1 x1 b)).
  { destruct (kis0 b); [eexists; split; [reflexivity|apply (r_0 K1 A1 val1 zero1)]|apply into1, gen1]. }
  assert (HB' : exists p, (if kis0 b then Some (aff_identity K2) else option_map (to_affine K2) (aff_mul K2 b32 P g2 (limbs b))) = Some p /\ ra2 p (if kis0 b then a0 else mul2 x2 b)).
  { destruct (kis0 b); [eexists; split; [reflexivity|apply (r_0 K2 A2 val2 zero2)]|apply into2, gen2]. }
  destruct HA as (p & -> & HA), HB as (q & -> & HB), HB' as (q' & -> & HB'). cbn [agree_opt]. tauto.
Qed.
Lemma eval_agree len pt inv alpha beta a b c :
  agree_opt r4 (c_eval F limbs P K1 K2 b31 b32 g1 g2 len pt inv alpha beta a b c) (eval F A1 A2 mul1 mul2 x1 x2 len pt inv alpha beta a b c).
Proof.
  unfold c_eval, eval. destruct (_ && _); [|exact I]. revert b c. induction a as [|at_ a IH]; intros b c.
  - cbn. repeat split; apply Forall2_nil.
  - destruct b as [|bt b]; [cbn; repeat split; apply Forall2_nil|]. destruct c as [|ct c]; [cbn; repeat split; apply Forall2_nil|].
    cbn [c_eval_all eval_all]. pose proof (eval_one_agree pt inv alpha beta at_ bt ct) as H1. specialize (IH b c).
    destruct (c_eval_one _ _ _ _ _ _ _ _ _ _ _ _ _ _ _ _) as [[[[p q] q'] e]|], (eval_one _ _ _ _ _ _ _ _ _ _ _ _ _ _) as [[[[p' w] w'] e']|]; try contradiction; [|exact I].
    destruct (c_eval_all _ _ _ _ _ _ _ _ _ _ _ _ _ _ _ _) as [[[[ps qs] qs'] es]|], (eval_all _ _ _ _ _ _ _ _ _ _ _ _ _ _) as [[[[ps' ws] ws'] es']|]; try contradiction; [|exact I].
    destruct H1 as (H1 & H2 & H3 & H4), IH as (I1 & I2 & I3 & I4). cbn. repeat split; apply Forall2_cons; assumption.
Qed.
Lemma prepare_agree c g : rvk c g ->
  exists p, c_prepare K1 K2 T prep prepare_point multi_pairing c = Some p /\ rpvk p (prepare A1 A2 AT pair g).
Proof.
  intros (Ha & _ & Hb2 & Hg & _ & Hd & Hic). unfold c_prepare, prepare.
  rewrite (multi_ok _ [(vk_alpha_g1 _ _ g, vk_beta_g2 _ _ g)]).
  - eexists. split; [reflexivity|]. unfold rpvk. cbn [cpvk_alpha_beta cpvk_neg_gamma cpvk_neg_delta cpvk_ic pvk_alpha_beta pvk_neg_gamma pvk_neg_delta pvk_ic].
    split; [apply f_equal; cbn; apply aid_r|]. split; [|split; [|exact Hic]]; apply prep_ok.
    + exact (r_neg K2 b2 b32 OK2 A2 val2 _ _ vneg2 Hg).
    + exact (r_neg K2 b2 b32 OK2 A2 val2 _ _ vneg2 Hd).
  - apply Forall2_cons; [|apply Forall2_nil]. cbn [fst snd]. split; [exact Ha|apply prep_ok, Hb2].
Qed.
Theorem setup_agree cs alpha beta gamma delta tau :
  agree (fun c g => rpk (fst c) (fst g) /\ rpvk (snd c) (snd g))
    (c_setup F limbs P two_adicity root gen K1 K2 b31 b32 g1 g2 T prep prepare_point multi_pairing cs alpha beta gamma delta tau)
    (setup F two_adicity root gen A1 A2 AT mul1 mul2 pair x1 x2 cs alpha beta gamma delta tau).
Proof.
  unfold c_setup, setup. apply agree_same. intros fft. destruct (kinvert gamma) as [gi|]; [|reflexivity]. destruct (kinvert delta) as [di|]; [|reflexivity].
  cbv zeta. eapply agree_some; [exact (r_map_opt F limbs sval P m BF LR K1 b1 b31 OK1 A1 val1 mul1 on1 vmul1 g1 x1 (fun p => p * (fft_z F fft tau * di)) _ gen1)|].
  intros h Hh. apply agree_same. intros lag. apply agree_same. intros [a_x a_w]. apply agree_same. intros [b_x b_w]. apply agree_same. intros [c_x c_w].
  eapply agree_bind; [apply eval_agree|]. intros [[[a_i b1_i] b2_i] ic] [[[ga_i gb1_i] gb2_i] gic] (E1 & E2 & E3 & E4).
  eapply agree_bind; [apply eval_agree|]. intros [[[a_u b1_u] b2_u] lq] [[[ga_u gb1_u] gb2_u] glq] (U1 & U2 & U3 & U4).
  eapply agree_some; [exact (into1 g1 x1 alpha gen1)|]. intros al Hal. eapply agree_some; [exact (into1 g1 x1 beta gen1)|]. intros be Hbe.
  eapply agree_some; [exact (into2 g2 x2 beta gen2)|]. intros be2 Hbe2. eapply agree_some; [exact (into2 g2 x2 gamma gen2)|]. intros ga Hga.
  eapply agree_some; [exact (into1 g1 x1 delta gen1)|]. intros de Hde. eapply agree_some; [exact (into2 g2 x2 delta gen2)|]. intros de2 Hde2.
  assert (HV : rvk (mkCVk K1 K2 al be be2 ga de de2 ic) (mkVk A1 A2 (mul1 x1 alpha) (mul1 x1 beta) (mul2 x2 beta) (mul2 x2 gamma) (mul1 x1 delta) (mul2 x2 delta) gic)).
  { repeat split; assumption. }
  eapply agree_some; [exact (prepare_agree _ _ HV)|]. intros pvk Hpvk. cbn [agree fst snd]. split; [|exact Hpvk].
  split; [exact HV|]. cbn [cp_h cp_l cp_a cp_b_g1 cp_b_g2 p_h p_l p_a p_b_g1 p_b_g2]. split; [exact Hh|]. split; [exact U4|]. repeat split; apply Forall2_app; assumption.
Qed.
Lemma tail_agree {X Y} (R : X -> Y -> Prop) l L n : Forall2 R l L ->
  agree_opt (fun a b => Forall2 R a b /\ (length a <= length l)%nat) (tail_from n l) (tail_from n L).
Proof.
  intros H. unfold tail_from. rewrite <- (f2_length _ _ _ H). destruct (Nat.leb n (length l)); [|exact I]. cbn. split; [|rewrite skipn_length; lia].
  revert n. induction H as [|x y l L H HS IH]; intros [|n]; cbn; try apply Forall2_nil; [apply Forall2_cons; assumption|apply IH].
Qed.
(** The lengths of the keys fit the machine. *)
Definition short (pk : cparams K1 K2) : Prop :=
  forall n, In n [length (cp_h _ _ pk); length (cp_l _ _ pk); length (cp_a _ _ pk); length (cp_b_g1 _ _ pk); length (cp_b_g2 _ _ pk)] -> (Z.of_nat n < 2 ^ 64)%Z.
Lemma id_agree (c : bool) (g : bool) (Q : Prop) : (c = true <-> Q) -> (g = true <-> Q) -> c = g.
Proof. destruct c, g; intros H1 H2; try reflexivity; exfalso; [assert (false = true) by tauto|assert (false = true) by tauto]; discriminate. Qed.
Theorem prove_agree c g cs r s : rpk c g -> short c ->
  agree rpf (c_prove F limbs P two_adicity root gen K1 K2 b31 b32 c cs r s) (create_proof F two_adicity root gen A1 A2 eq1 eq2 mul1 mul2 g cs r s).
Proof.
  intros (HV & Hh & Hl & Ha & Hb & Hb2) SH. destruct HV as (Val & Vbe & Vbe2 & Vga & Vde & Vde2 & Vic).
  assert (S1 : (Z.of_nat (length (cp_h _ _ c)) < 2 ^ 64)%Z) by (apply SH; left; reflexivity).
  assert (S2 : (Z.of_nat (length (cp_l _ _ c)) < 2 ^ 64)%Z) by (apply SH; right; left; reflexivity).
  assert (S3 : (Z.of_nat (length (cp_a _ _ c)) < 2 ^ 64)%Z) by (apply SH; right; right; left; reflexivity).
  assert (S4 : (Z.of_nat (length (cp_b_g1 _ _ c)) < 2 ^ 64)%Z) by (apply SH; right; right; right; left; reflexivity).
  assert (S5 : (Z.of_nat (length (cp_b_g2 _ _ c)) < 2 ^ 64)%Z) by (apply SH; right; right; right; right; left; reflexivity).
  clear SH. unfold c_prove, create_proof. cbv zeta. apply agree_same. intros fft. apply agree_same. intros [[a b] cc]. apply agree_same. intros q.
  eapply agree_some; [exact (rmsm1 _ _ q Hh S1)|]. intros pq Hq.
  eapply agree_some; [exact (rmsm1 _ _ (r_w cs) Hl S2)|]. intros pl Hpl.
  eapply agree_some; [exact (rmsm1 _ _ (r_x cs) Ha S3)|]. intros pai Hai.
  eapply agree_bind; [apply tail_agree; exact Ha|]. intros ta ta' (Hta & Lta).
  eapply agree_some; [exact (rmsm1 ta ta' (r_w cs) Hta ltac:(lia))|]. intros paa Haa.
  eapply agree_some; [exact (rmsm1 _ _ (r_x cs) Hb S4)|]. intros pbi Hbi.
  eapply agree_bind; [apply tail_agree; exact Hb|]. intros tb tb' (Htb & Ltb).
  eapply agree_some; [exact (rmsm1 tb tb' (r_w cs) Htb ltac:(lia))|]. intros pba Hba.
  eapply agree_some; [exact (rmsm2 _ _ (r_x cs) Hb2 S5)|]. intros pb2i Hb2i.
  eapply agree_bind; [apply tail_agree; exact Hb2|]. intros tb2 tb2' (Htb2 & Ltb2).
  eapply agree_some; [exact (rmsm2 tb2 tb2' (r_w cs) Htb2 ltac:(lia))|]. intros pb2a Hb2a.
  rewrite (id_agree _ _ _ (r_identity K1 A1 val1 _ _ Vde) (eq1_inf _)), (id_agree _ _ _ (r_identity K2 A2 val2 _ _ Vde2) (eq2_inf _)).
  destruct (_ || _); [reflexivity|].
  eapply agree_some; [exact (rmul1 _ _ r Vde)|]. intros dr Hdr.
  eapply agree_some; [exact (rmul2 _ _ s Vde2)|]. intros ds Hds.
  eapply agree_some; [exact (rpmul1 _ _ s Hdr)|]. intros drs Hdrs.
  eapply agree_some; [exact (rmul1 _ _ s Val)|]. intros als Hals.
  eapply agree_some; [exact (rmul1 _ _ r Vbe)|]. intros ber Hber.
  pose proof (radd1 _ _ _ _ Hai Haa) as HA. eapply agree_some; [exact (rpmul1 _ _ s HA)|]. intros as_ Has.
  pose proof (radd1 _ _ _ _ Hbi Hba) as HB. eapply agree_some; [exact (rpmul1 _ _ r HB)|]. intros br Hbr.
  cbn [agree]. split; [|split]; cbn [cpf_a cpf_b cpf_c pf_a pf_b pf_c]; apply r_affine; unfold proj_add_assign.
  - apply radd1; [apply raddaff1; assumption|exact HA].
  - apply radd2; [apply raddaff2; assumption|apply radd2; assumption].
  - apply radd1; [|apply radd1; assumption]. apply radd1; [|exact Hbr]. apply radd1; [|exact Has]. apply radd1; [|exact Hber]. apply radd1; assumption.
Qed.
Lemma inputs_agree l (acc : proj K1) (x : A1) ics gics : rp1 acc x -> Forall2 ra1 ics gics ->
  exists p, c_inputs F limbs P K1 b31 acc (combine l ics) = Some p /\ rp1 p (fold_left (fun acc '(i, b) => aadd acc (mul1 b i)) (combine l gics) x).
Proof.
  revert acc x ics gics. induction l as [|i l IH]; intros acc x ics gics HA HI; [exists acc; split; [reflexivity|exact HA]|].
  destruct HI as [|p y ics gics Hp HI]; [exists acc; split; [reflexivity|exact HA]|]. cbn [combine c_inputs fold_left].
  destruct (rmul1 p y i Hp) as (t & -> & Ht). apply IH; [|exact HI]. apply radd1; assumption.
Qed.
Theorem verify_agree c g pf gpf xs : rpvk c g -> rpf pf gpf ->
  c_verify F limbs P K1 K2 b31 T prep prepare_point multi_pairing eqT c pf xs = verify F A1 A2 AT eqA mul1 pair g gpf xs.
Proof.
  intros (HE & HG & HD & HI) (PA & PB & PC). unfold c_verify, verify. destruct HI as [|p y ics gics Hp HI]; [reflexivity|].
  rewrite <- (f2_length _ _ _ HI). destruct (negb _); [reflexivity|].
  destruct (inputs_agree xs (to_extended K1 p) y ics gics (r_extend K1 A1 val1 p y Hp) HI) as (q & -> & Hq). cbn [obind].
  set (acc := fold_left _ _ _) in *.
  rewrite (multi_ok _ [(pf_a _ _ gpf, pf_b _ _ gpf); (acc, pvk_neg_gamma _ _ _ g); (pf_c _ _ gpf, pvk_neg_delta _ _ _ g)]).
  - cbn [obind map fst snd]. rewrite HE, eqT_ok. set (z := asum _).
    assert (EZ : z = aadd (aadd (pair (pf_a _ _ gpf) (pf_b _ _ gpf)) (pair acc (pvk_neg_gamma _ _ _ g))) (pair (pf_c _ _ gpf) (pvk_neg_delta _ _ _ g))).
    { unfold z. cbn. rewrite aid_r, aassoc. reflexivity. }
    rewrite EZ. reflexivity.
  - apply Forall2_cons; [|apply Forall2_cons; [|apply Forall2_cons; [|apply Forall2_nil]]]; cbn [fst snd]; (split; [|first [apply prep_ok; assumption|assumption]]).
    + exact PA.
    + apply r_affine, Hq.
    + exact PC.
Qed.
End Both.
