(** A run in any bilinear groups is the image of the run on exponents. *)
From Coq Require Import ZArith List Bool Lia.
From Verif Require Import Algebra GroupLib PolySpec PolyModel R1csModel R1csSpec Groth16Model Groth16Spec.
Import ListNotations.
Local Open Scope fld_scope.

Definition omap {A B} (f : A -> B) (o : outcome A) : outcome B :=
  match o with Done a => Done (f a) | Failed e => Failed e | Panicked => Panicked end.
Lemma obind_omap {A B C} (o : option A) (k : A -> outcome B) (k' : A -> outcome C) (f : B -> C) :
  (forall a, o = Some a -> k' a = omap f (k a)) -> obind o k' = omap f (obind o k).
Proof. destruct o as [a|]; cbn; intros H; [apply H; reflexivity|reflexivity]. Qed.

Section Lift.
Variables (F : Fld) (two_adicity : nat) (root gen : F) (G : groups F).
Hypothesis HG : bilinear_groups G.
Add Field glf : (kth F).
Local Notation E := (exps F).
Definition f1 (a : F) : gA1 G := gmul1 G (gg1 G) a.
Definition f2 (a : F) : gA2 G := gmul2 G (gg2 G) a.
Definition fT (a : F) : gAT G := gpair G (f1 a) (gg2 G).
Lemma f1_add a b : f1 (a + b) = aadd (f1 a) (f1 b). Proof. apply (bg_mod1 G HG). Qed.
Lemma f2_add a b : f2 (a + b) = aadd (f2 a) (f2 b). Proof. apply (bg_mod2 G HG). Qed.
Lemma fT_add a b : fT (a + b) = aadd (fT a) (fT b). Proof. unfold fT. rewrite f1_add. apply (bg_pair_l G HG). Qed.
Lemma f1_0 : f1 0 = a0. Proof. apply (hom_0 (fld_grp F) (gA1 G) f1 f1_add). Qed.
Lemma f2_0 : f2 0 = a0. Proof. apply (hom_0 (fld_grp F) (gA2 G) f2 f2_add). Qed.
Lemma fT_0 : fT 0 = a0. Proof. apply (hom_0 (fld_grp F) (gAT G) fT fT_add). Qed.
Lemma f1_neg a : f1 (- a) = aneg (f1 a). Proof. apply (hom_neg (fld_grp F) (gA1 G) f1 f1_add). Qed.
Lemma f2_neg a : f2 (- a) = aneg (f2 a). Proof. apply (hom_neg (fld_grp F) (gA2 G) f2 f2_add). Qed.
Lemma fT_neg a : fT (- a) = aneg (fT a). Proof. apply (hom_neg (fld_grp F) (gAT G) fT fT_add). Qed.
Lemma f1_mul a b : gmul1 G (f1 a) b = f1 (a * b). Proof. apply (bg_mod1 G HG). Qed.
Lemma f2_mul a b : gmul2 G (f2 a) b = f2 (a * b). Proof. apply (bg_mod2 G HG). Qed.
Lemma f_pair a b : gpair G (f1 a) (f2 b) = fT (a * b).
Proof. unfold f2, fT. rewrite <- (bg_pair_mul G HG). rewrite f1_mul. reflexivity. Qed.
Lemma inj_of {A : AbGrp} (f : F -> A) : (forall a b, f (a + b) = aadd (f a) (f b)) -> (forall a, f (- a) = aneg (f a)) ->
  (forall a, f a = a0 -> a = 0) -> forall a b, f a = f b -> a = b.
Proof.
  intros Hadd Hneg H0 a b Hab. apply (proj1 (ksub_eq0 F a b)). apply H0. replace (a - b) with (a + - b) by ring.
  rewrite Hadd, Hneg, Hab. apply ainv.
Qed.
Lemma f1_inj a b : f1 a = f1 b -> a = b. Proof. apply (inj_of f1 f1_add f1_neg), (bg_gen1 G HG). Qed.
Lemma f2_inj a b : f2 a = f2 b -> a = b. Proof. apply (inj_of f2 f2_add f2_neg), (bg_gen2 G HG). Qed.
Lemma fT_inj a b : fT a = fT b -> a = b. Proof. apply (inj_of fT fT_add fT_neg), (bg_nondegenerate G HG). Qed.
Lemma eq_lift {A : AbGrp} (f : F -> A) (e : A -> A -> bool) : (forall x y, e x y = true <-> x = y) -> (forall a b, f a = f b -> a = b) ->
  forall a b, e (f a) (f b) = keqb a b.
Proof.
  intros He Hi a b. destruct (keqb_spec F a b) as [Hab|Hab].
  - apply He. rewrite Hab. reflexivity.
  - destruct (e (f a) (f b)) eqn:Q; [|reflexivity]. apply He, Hi in Q. contradiction.
Qed.
Lemma eq1_lift a b : geq1 G (f1 a) (f1 b) = keqb a b. Proof. apply (eq_lift f1), f1_inj. apply (bg_eq1 G HG). Qed.
Lemma eq2_lift a b : geq2 G (f2 a) (f2 b) = keqb a b. Proof. apply (eq_lift f2), f2_inj. apply (bg_eq2 G HG). Qed.
Lemma eqT_lift a b : geqT G (fT a) (fT b) = keqb a b. Proof. apply (eq_lift fT), fT_inj. apply (bg_eqT G HG). Qed.

Notation vkE := (vkey (gA1 E) (gA2 E)).
Definition mvk (v : vkey (gA1 E) (gA2 E)) : vkey (gA1 G) (gA2 G) :=
  mkVk _ _ (f1 (vk_alpha_g1 _ _ v)) (f1 (vk_beta_g1 _ _ v)) (f2 (vk_beta_g2 _ _ v)) (f2 (vk_gamma_g2 _ _ v)) (f1 (vk_delta_g1 _ _ v))
    (f2 (vk_delta_g2 _ _ v)) (map f1 (vk_ic _ _ v)).
Definition mpvk (v : pvkey (gA1 E) (gA2 E) (gAT E)) : pvkey (gA1 G) (gA2 G) (gAT G) :=
  mkPvk _ _ _ (fT (pvk_alpha_beta _ _ _ v)) (f2 (pvk_neg_gamma _ _ _ v)) (f2 (pvk_neg_delta _ _ _ v)) (map f1 (pvk_ic _ _ _ v)).
Definition mparams (p : params (gA1 E) (gA2 E)) : params (gA1 G) (gA2 G) :=
  mkParams _ _ (mvk (p_vk _ _ p)) (map f1 (p_h _ _ p)) (map f1 (p_l _ _ p)) (map f1 (p_a _ _ p)) (map f1 (p_b_g1 _ _ p)) (map f2 (p_b_g2 _ _ p)).
Definition mproof (p : proof (gA1 E) (gA2 E)) : proof (gA1 G) (gA2 G) :=
  mkProof _ _ (f1 (pf_a _ _ p)) (f2 (pf_b _ _ p)) (f1 (pf_c _ _ p)).
Definition mkeys (k : params (gA1 E) (gA2 E) * pvkey (gA1 E) (gA2 E) (gAT E)) := (mparams (fst k), mpvk (snd k)).

Lemma lift_prepare v : g_prepare G (mvk v) = mpvk (g_prepare E v).
Proof.
  unfold g_prepare, prepare, mpvk, mvk. cbn [vk_alpha_g1 vk_beta_g2 vk_gamma_g2 vk_delta_g2 vk_ic pvk_alpha_beta pvk_neg_gamma pvk_neg_delta pvk_ic].
  rewrite f_pair, <- !f2_neg. reflexivity.
Qed.
Lemma lift_eval_one pt inv alpha beta a b c :
  eval_one F (gA1 G) (gA2 G) (gmul1 G) (gmul2 G) (gg1 G) (gg2 G) pt inv alpha beta a b c =
  match eval_one F (gA1 E) (gA2 E) (gmul1 E) (gmul2 E) (gg1 E) (gg2 E) pt inv alpha beta a b c with
  | Some (x, y, z, e) => Some (f1 x, f1 y, f2 z, f1 e) | None => None end.
Proof.
  unfold eval_one. destruct (eval_at_tau F pt a) as [u|]; [|reflexivity]. destruct (eval_at_tau F pt b) as [v|]; [|reflexivity].
  destruct (eval_at_tau F pt c) as [t|]; [|reflexivity]. apply (f_equal Some).
  change (gmul1 E) with (@kmul F). change (gmul2 E) with (@kmul F). change (gg1 E) with (1 : F). change (gg2 E) with (1 : F).
  apply f_equal2; [apply f_equal2; [apply f_equal2|]|].
  - destruct (kis0 u); [symmetry; apply f1_0|]. replace (1 * u) with u by ring. reflexivity.
  - destruct (kis0 v); [symmetry; apply f1_0|]. replace (1 * v) with v by ring. reflexivity.
  - destruct (kis0 v); [symmetry; apply f2_0|]. replace (1 * v) with v by ring. reflexivity.
  - unfold f1. f_equal. ring.
Qed.
Lemma lift_eval_all pt inv alpha beta : forall a b c,
  eval_all F (gA1 G) (gA2 G) (gmul1 G) (gmul2 G) (gg1 G) (gg2 G) pt inv alpha beta a b c =
  match eval_all F (gA1 E) (gA2 E) (gmul1 E) (gmul2 E) (gg1 E) (gg2 E) pt inv alpha beta a b c with
  | Some (x, y, z, e) => Some (map f1 x, map f1 y, map f2 z, map f1 e) | None => None end.
Proof.
  induction a as [|a la IH]; intros [|b lb] [|c lc]; try reflexivity. cbn [eval_all]. rewrite lift_eval_one, IH.
  destruct (eval_one F (gA1 E) (gA2 E) (gmul1 E) (gmul2 E) (gg1 E) (gg2 E) pt inv alpha beta a b c) as [[[[x y] z] e]|]; [|reflexivity].
  destruct (eval_all F (gA1 E) (gA2 E) (gmul1 E) (gmul2 E) (gg1 E) (gg2 E) pt inv alpha beta la lb lc) as [[[[xs ys] zs] es]|]; reflexivity.
Qed.
Lemma lift_eval len pt inv alpha beta a b c :
  eval F (gA1 G) (gA2 G) (gmul1 G) (gmul2 G) (gg1 G) (gg2 G) len pt inv alpha beta a b c =
  match eval F (gA1 E) (gA2 E) (gmul1 E) (gmul2 E) (gg1 E) (gg2 E) len pt inv alpha beta a b c with
  | Some (x, y, z, e) => Some (map f1 x, map f1 y, map f2 z, map f1 e) | None => None end.
Proof. unfold eval. destruct (Nat.eqb len (length a) && Nat.eqb len (length b) && Nat.eqb len (length c)); [apply lift_eval_all|reflexivity]. Qed.
Lemma lift_setup cs alpha beta gamma delta tau :
  g_setup two_adicity root gen G cs alpha beta gamma delta tau = omap mkeys (g_setup two_adicity root gen E cs alpha beta gamma delta tau).
Proof.
  unfold g_setup, setup. apply obind_omap. intros ff _. destruct (kinvert gamma) as [gi|]; [|reflexivity].
  destruct (kinvert delta) as [di|]; [|reflexivity]. apply obind_omap. intros lag _. apply obind_omap. intros [ax aw] _.
  apply obind_omap. intros [bx bw] _. apply obind_omap. intros [cx cw] _.
  rewrite lift_eval. destruct (eval F (gA1 E) (gA2 E) _ _ _ _ _ lag gi _ _ _ _ _) as [[[[x y] z] e]|]; [|reflexivity]. cbn [obind].
  rewrite lift_eval. destruct (eval F (gA1 E) (gA2 E) _ _ _ _ _ lag di _ _ _ _ _) as [[[[x' y'] z'] e']|]; [|reflexivity]. cbn [obind omap].
  apply (f_equal Done). unfold mkeys. cbn [fst snd].
  set (vk := mkVk (gA1 E) (gA2 E) _ _ _ _ _ _ _).
  assert (EV : mkVk (gA1 G) (gA2 G) (gmul1 G (gg1 G) alpha) (gmul1 G (gg1 G) beta) (gmul2 G (gg2 G) beta) (gmul2 G (gg2 G) gamma)
      (gmul1 G (gg1 G) delta) (gmul2 G (gg2 G) delta) (map f1 e) = mvk vk).
  { unfold mvk, vk. cbn [vk_alpha_g1 vk_beta_g1 vk_beta_g2 vk_gamma_g2 vk_delta_g1 vk_delta_g2 vk_ic].
    change (gmul1 E) with (@kmul F). change (gmul2 E) with (@kmul F). change (gg1 E) with (1 : F). change (gg2 E) with (1 : F).
    unfold f1, f2. f_equal; f_equal; ring. }
  rewrite EV. apply f_equal2; [|exact (lift_prepare vk)].
  unfold mparams. cbn [p_vk p_h p_l p_a p_b_g1 p_b_g2]. rewrite !map_app. f_equal. rewrite map_map. apply map_ext. intros p.
  change (gmul1 E) with (@kmul F). change (gg1 E) with (1 : F). unfold f1. f_equal. ring.
Qed.
Lemma lift_msum {A : AbGrp} (f : F -> A) (mul : A -> F -> A) : (forall a b, f (a + b) = aadd (f a) (f b)) -> (forall a b, mul (f a) b = f (a * b)) ->
  forall bs cs, msum F mul (map f bs) cs = f (msum F (A := fld_grp F) (@kmul F) bs cs).
Proof.
  intros Hadd Hmul. induction bs as [|b bs IH]; intros cs; [symmetry; apply (hom_0 (fld_grp F) A f Hadd)|].
  destruct cs as [|c cs]; [symmetry; apply (hom_0 (fld_grp F) A f Hadd)|]. unfold msum in *. cbn [map combine asum fold_right].
  change (fold_right aadd a0 ?l) with (asum l). rewrite IH, Hmul, <- Hadd. reflexivity.
Qed.
Lemma lift_msum1 bs cs : msum F (gmul1 G) (map f1 bs) cs = f1 (msum F (A := gA1 E) (gmul1 E) bs cs).
Proof. apply (lift_msum f1 _ f1_add f1_mul). Qed.
Lemma lift_msum2 bs cs : msum F (gmul2 G) (map f2 bs) cs = f2 (msum F (A := gA2 E) (gmul2 E) bs cs).
Proof. apply (lift_msum f2 _ f2_add f2_mul). Qed.
Lemma lift_tail {B A} (f : B -> A) n l : tail_from n (map f l) = match tail_from n l with Some l => Some (map f l) | None => None end.
Proof. unfold tail_from. rewrite map_length. destruct (Nat.leb n (length l)); [rewrite skipn_map|]; reflexivity. Qed.
Lemma lift_prove pk cs r s :
  g_prove two_adicity root gen G (mparams pk) cs r s = omap mproof (g_prove two_adicity root gen E pk cs r s).
Proof.
  unfold g_prove, create_proof. apply obind_omap. intros ff _. apply obind_omap. intros [[a b] c] _. apply obind_omap. intros q _.
  unfold mparams. cbn [p_vk p_h p_l p_a p_b_g1 p_b_g2].
  rewrite !(lift_tail (B := gA1 E) f1), (lift_tail (B := gA2 E) f2).
  destruct (tail_from (length (r_x cs)) (p_a _ _ pk)) as [ta|]; [|reflexivity]. cbn [obind].
  destruct (tail_from (length (r_x cs)) (p_b_g1 _ _ pk)) as [tb|]; [|reflexivity]. cbn [obind].
  destruct (tail_from (length (r_x cs)) (p_b_g2 _ _ pk)) as [tb2|]; [|reflexivity]. cbn [obind].
  unfold mvk. cbn [vk_alpha_g1 vk_beta_g1 vk_beta_g2 vk_gamma_g2 vk_delta_g1 vk_delta_g2 vk_ic].
  rewrite <- f1_0, <- f2_0, eq1_lift, eq2_lift.
  change (geq1 E) with (@keqb F). change (geq2 E) with (@keqb F).
  change (@a0 (gA1 E)) with (0 : F). change (@a0 (gA2 E)) with (0 : F).
  destruct (keqb (vk_delta_g1 _ _ (p_vk _ _ pk)) (0 : F) || keqb (vk_delta_g2 _ _ (p_vk _ _ pk)) (0 : F)); [reflexivity|].
  cbn [omap]. apply (f_equal Done). unfold mproof. cbn [pf_a pf_b pf_c].
  rewrite !lift_msum1, !lift_msum2, !f1_mul, !f2_mul, <- !f1_add, <- !f2_add, !f1_mul, <- !f1_add. reflexivity.
Qed.
Lemma lift_acc xs : forall ic acc, fold_left (fun acc '(i, b) => aadd acc (gmul1 G b i)) (combine xs (map f1 ic)) (f1 acc) =
  f1 (fold_left (fun acc '(i, b) => acc + b * i) (combine xs ic) acc).
Proof.
  induction xs as [|x xs IH]; intros [|i ic] acc; try reflexivity. cbn [map combine fold_left]. rewrite f1_mul, <- f1_add. apply IH.
Qed.
Lemma lift_verify vk pf xs : g_verify G (mpvk vk) (mproof pf) xs = g_verify E vk pf xs.
Proof.
  unfold g_verify, verify, mpvk, mproof. cbn [pvk_alpha_beta pvk_neg_gamma pvk_neg_delta pvk_ic pf_a pf_b pf_c].
  destruct (pvk_ic _ _ _ vk) as [|ic0 ic]; [reflexivity|]. cbn [map]. rewrite map_length. change (@length F ic) with (@length (gA1 E) ic).
  destruct (negb (Nat.eqb (length xs) (length ic))); [reflexivity|].
  rewrite lift_acc, !f_pair, <- !fT_add, eqT_lift. reflexivity.
Qed.
End Lift.
