(** The gadgets of BigNatModel.v: honest runs, and what the polynomial gadgets force. *)
From Coq Require Import ZArith List Bool Lia Ring Field.
From Verif Require Import Algebra R1csModel R1csSpec R1csProofs GadgetProofs RangeProofs NovaModel NovaSpec NovaProofs LimbVec HonestRun BigNatModel.
Import ListNotations.
Local Open Scope fld_scope.

Section Sr.
Variable F : Fld.
Add Field srf : (kth F).
Lemma fld_sr : semi_ring_theory (k0 : F) k1 kadd kmul (@eq F).
Proof. constructor; intros; ring. Qed.
End Sr.

(** ** The calculus of [computes] for folds *)
Section Folds.
Variables (F : Fld) (HON : Prop).
Add Field ffl : (kth F).
Implicit Types (cs : r1cs F) (s : asg F).
Lemma computes_fold {A B VA VB} (ctx : r1cs F -> Prop) (g : B -> A -> G F B) (okA : r1cs F -> A -> Prop) (okB : r1cs F -> B -> Prop)
    (vA : asg F -> A -> VA) (vB : asg F -> B -> VB) (step : asg F -> VB -> VA -> VB) :
  (forall cs cs' new, grow cs cs' new -> ctx cs -> ctx cs') -> (forall cs cs' new a, grow cs cs' new -> okA cs a -> okA cs' a) ->
  (forall cs b a, wf_cs cs -> ctx cs -> okA cs a -> okB cs b -> computes HON cs (g b a) okB (fun s b' => vB s b' = step s (vB s b) (vA s a))) ->
  forall l cs b, wf_cs cs -> ctx cs -> Forall (okA cs) l -> okB cs b ->
  computes HON cs (fold_g g b l) okB (fun s b' => vB s b' = fold_left (step s) (map (vA s) l) (vB s b)).
Proof.
  intros MC MA ST. induction l as [|a l IH]; intros cs b W C HL HB; cbn [fold_g map fold_left].
  - apply computes_ret; [exact W|exact HB|reflexivity].
  - inversion HL as [|? ? HA HL']; subst. eapply computes_bind; [apply (ST cs b a W C HA HB)|]. intros b1 cs1 n1 W1 G1 O1 _.
    eapply computes_weaken; [apply (IH cs1 b1 W1 (MC _ _ _ G1 C))| |].
    + revert HL'. apply Forall_impl. intros x. apply (MA _ _ _ _ G1).
    + exact O1.
    + auto.
    + intros s b2 S E H1. rewrite E, H1. reflexivity.
Qed.
Definition rows_ok cs (l : list (row F)) : Prop := Forall (row_ok cs) l.
Lemma rows_up cs cs' new l : grow cs cs' new -> rows_ok cs l -> rows_ok cs' l.
Proof. intros Gr. apply Forall_impl. intros r. apply (grow_ok F _ _ _ _ Gr). Qed.
Lemma rows_lc cs cs' new l : grow cs cs' new -> rows_ok cs l -> map (lc (own cs')) l = map (lc (own cs)) l.
Proof. intros Gr H. induction H as [|r l HR H IH]; cbn [map]; [reflexivity|]. rewrite IH, (grow_lc F _ _ _ _ Gr) by apply HR. reflexivity. Qed.
End Folds.
Arguments rows_ok {F}.

Section Poly.
Variables (F : pfield) (HON : Prop).
Add Field pfl : (kth F).
Implicit Types (cs : r1cs F) (s : asg F).
Notation fproduct := (gproduct (0 : F) kadd kmul).
Notation fgroup := (ggroup (0 : F) 1 kadd kmul).
Notation feval := (geval (0 : F) kadd kmul).

Lemma add_at_ok cs : forall (v : list (row F)) i r, rows_ok cs v -> row_ok cs r -> rows_ok cs (add_at F v i r).
Proof.
  induction v as [|x v IH]; intros [|i] r HV HR; cbn [add_at]; inversion HV; subst; constructor; try assumption; try (apply IH; assumption). rok.
Qed.
Lemma add_at_lc cs s : forall (v : list (row F)) i r, rows_ok cs v -> row_ok cs r -> map (lc s) (add_at F v i r) = gadd_at kadd (map (lc s) v) i (lc s r).
Proof.
  induction v as [|x v IH]; intros [|i] r HV HR; cbn [add_at map gadd_at]; inversion HV; subst; try reflexivity; [lcs; reflexivity|]. rewrite IH by assumption. reflexivity.
Qed.
Lemma zeros_ok cs n : wf_cs cs -> rows_ok cs (repeat (fa_constant F 0) n).
Proof. intros W. apply Forall_forall. intros r H. apply repeat_spec in H as ->. apply ok_constant, W. Qed.
Lemma zeros_lc s n : s ONE = 1 -> map (lc s) (repeat (fa_constant F 0) n) = repeat 0 n.
Proof. intros S. induction n as [|n IH]; cbn [repeat map]; [reflexivity|]. rewrite IH, lc_constant by exact S. reflexivity. Qed.
Definition vpair s (a : nat * row F) : nat * F := (fst a, lc s (snd a)).
Lemma vpair_map s (l : list nat) (rs : list (row F)) : map (vpair s) (combine l rs) = combine l (map (lc s) rs).
Proof. apply combine_map. Qed.
Lemma pairs_ok cs (rs : list (row F)) : rows_ok cs rs -> forall l : list nat, Forall (fun a => row_ok cs (snd a)) (combine l rs).
Proof. intros H. induction H as [|r rs HR H IH]; intros [|n l]; cbn [combine]; constructor; [exact HR|apply IH]. Qed.

(** *** The product of two polynomials: forced, whatever the prover does *)
Lemma products_ok cs (a b : list (row F)) : wf_cs cs -> rows_ok cs a -> rows_ok cs b ->
  computes HON cs (poly_products F a b) rows_ok (fun s P => map (lc s) P = fproduct (map (lc s) a) (map (lc s) b)).
Proof.
  intros W HA HB. unfold poly_products.
  eapply computes_weaken; [eapply (computes_fold F HON (fun cs => rows_ok cs b) _ (fun cs a => row_ok cs (snd a)) rows_ok vpair (fun s P => map (lc s) P)
      (fun s P ix => gp_out kadd kmul (map (lc s) b) P ix))| |].
  - intros c c' n Gr. apply (rows_up F _ _ _ _ Gr).
  - intros c c' n x Gr. apply (grow_ok F _ _ _ _ Gr).
  - intros c P [i x] Wc HBc HX HP. cbn [snd] in HX.
    eapply computes_weaken; [eapply (computes_fold F HON (fun cs => row_ok cs x) _ (fun cs a => row_ok cs (snd a)) rows_ok vpair (fun s P => map (lc s) P)
      (fun s P jy => gp_in kadd kmul i (lc s x) P jy))| |].
    + intros d d' n Gr. apply (grow_ok F _ _ _ _ Gr).
    + intros d d' n y Gr. apply (grow_ok F _ _ _ _ Gr).
    + intros d Q [j y] Wd HXd HY HQ. cbn [snd] in HY. eapply computes_bind; [apply mul_ok; assumption|]. intros m d1 n1 W1 G1 O1 _.
      pose proof (rows_up F _ _ _ _ G1 HQ) as HQ1. apply computes_ret; [exact W1|apply add_at_ok; assumption|].
      intros s S E. rewrite (add_at_lc d1) by assumption. unfold gp_in, vpair. cbn [fst snd]. rewrite E. reflexivity.
    + exact Wc.
    + exact HX.
    + apply pairs_ok, HBc.
    + exact HP.
    + auto.
    + intros s Q S E. rewrite E, vpair_map. unfold gp_out, vpair. cbn [fst snd]. rewrite map_length. reflexivity.
  - exact W.
  - exact HB.
  - apply pairs_ok, HA.
  - apply zeros_ok, W.
  - auto.
  - intros s P S E. rewrite E, vpair_map, zeros_lc by exact S. unfold gproduct. rewrite !map_length. reflexivity.
Qed.
Lemma eval_ok cs (l : list (row F)) x : wf_cs cs -> rows_ok cs l ->
  computes HON cs (poly_eval F l x) row_ok (fun s r => lc s r = feval x (map (lc s) l)).
Proof.
  intros W HL. unfold poly_eval.
  assert (A : forall l cs acc i, wf_cs cs -> rows_ok cs l -> row_ok cs acc ->
    computes HON cs (fold_g (fun '(acc, i) c => bind (fa_mul F c (fa_constant F i)) (fun m => ret (fa_plus F acc m, i * x))) (acc, i) l)
      (fun cs' st => row_ok cs' (fst st)) (fun s st => lc s (fst st) = lc s acc + i * feval x (map (lc s) l))).
  { clear. induction l as [|c l IH]; intros cs acc i W HL HA; cbn [fold_g map geval].
    - apply computes_ret; [exact W|exact HA|]. intros s S. cbn [fst]. ring.
    - inversion HL as [|? ? HC HL']; subst.
      eapply computes_bind with (ok1 := fun cs' st => row_ok cs' (fst st) /\ snd st = i * x) (R1 := fun s st => lc s (fst st) = lc s acc + lc s c * i).
      + eapply computes_bind; [apply mul_ok; [exact W|exact HC|rok]|]. intros m c1 n1 W1 G1 O1 _. lift G1.
        apply computes_ret; [exact W1|split; [cbn [fst]; rok|reflexivity]|]. intros s S E. cbn [fst]. lcs. rewrite E. lcs. reflexivity.
      + intros [acc1 i1] c1 n1 W1 G1 [O1 E1] _. cbn [fst snd] in *. subst i1.
        eapply computes_weaken; [apply (IH c1 acc1 (i * x) W1 (rows_up F _ _ _ _ G1 HL') O1)| |]; [auto|]. intros s [acc2 i2] S E H. cbn [fst] in *. rewrite E, H. ring. }
  eapply computes_bind; [apply (A l cs _ 1 W HL); rok|]. intros st c1 n1 W1 G1 O1 _. apply computes_ret; [exact W1|exact O1|]. intros s S E. rewrite E. lcs. ring.
Qed.
Lemma checks_ok (a b P : list (row F)) : forall n cs x, wf_cs cs -> rows_ok cs a -> rows_ok cs b -> rows_ok cs P ->
  (HON -> map (lc (own cs)) P = fproduct (map (lc (own cs)) a) (map (lc (own cs)) b)) ->
  computes HON cs (poly_checks F a b P x n) (fun _ _ => True) (fun _ _ => True).
Proof.
  induction n as [|n IH]; intros cs x W HA HB HP H; cbn [poly_checks]; [apply computes_ret; auto|]. cbv zeta.
  eapply computes_bind; [apply (eval_ok cs a (x + 1) W HA)|]. intros av c1 n1 W1 G1 O1 R1. cbv beta in *.
  pose proof (rows_up F _ _ _ _ G1 HB) as HB1. pose proof (rows_up F _ _ _ _ G1 HP) as HP1.
  eapply computes_bind; [apply (eval_ok c1 b (x + 1) W1 HB1)|]. intros bv c2 n2 W2 G2 O2 R2. cbv beta in *.
  pose proof (rows_up F _ _ _ _ G2 HP1) as HP2.
  eapply computes_bind; [apply (eval_ok c2 P (x + 1) W2 HP2)|]. intros pv c3 n3 W3 G3 O3 R3. cbv beta in *.
  pose proof (grow_trans F _ _ _ _ _ G1 (grow_trans F _ _ _ _ _ G2 G3)) as G13.
  pose proof (grow_trans F _ _ _ _ _ G2 G3) as G23. lift G23. lift G3.
  eapply computes_bind; [apply (mul_ok F HON c3 av bv W3); assumption|]. intros ab c4 n4 W4 G4 O4 R4. cbv beta in *. lift G4.
  pose proof (grow_trans F _ _ _ _ _ G13 G4) as G14. pose proof (grow_trans F _ _ _ _ _ G23 G4) as G24. pose proof (grow_trans F _ _ _ _ _ G3 G4) as G34.
  eapply computes_bind; [apply (enforce_eq_ok F HON c4 ab pv W4); [assumption|assumption|]|].
  - intros h. rewrite (R4 h), (grow_lc F _ _ _ _ G24) by apply O1. rewrite (grow_lc F _ _ _ _ G34) by apply O2. rewrite (grow_lc F _ _ _ _ G4) by apply O3.
    rewrite (R1 h), (R2 h), (R3 h). rewrite (rows_lc F _ _ _ _ G1 HA), (rows_lc F _ _ _ _ G13 HP), (H h).
    rewrite (rows_lc F _ _ _ _ G2 HB1), (rows_lc F _ _ _ _ G1 HB). symmetry. apply (geval_product F 0 1 kadd kmul (fld_sr F)).
  - intros u c5 n5 W5 G5 _ _. pose proof (grow_trans F _ _ _ _ _ G14 G5) as G15.
    eapply computes_weaken; [apply (IH c5 (x + 1) W5)| |]; try (apply (rows_up F _ _ _ _ G15); assumption); try (intros; exact I).
    intros h. rewrite !(rows_lc F _ _ _ _ G15) by assumption. apply (H h).
Qed.
Lemma poly_mul_ok cs (a b : list (row F)) : wf_cs cs -> rows_ok cs a -> rows_ok cs b -> (0 < length a + length b)%nat ->
  computes HON cs (poly_mul F a b) rows_ok (fun s P => map (lc s) P = fproduct (map (lc s) a) (map (lc s) b)).
Proof.
  intros W HA HB HL. unfold poly_mul. destruct (Nat.eqb_spec (length a + length b) 0) as [E|E]; [lia|]. cbn [negb guard].
  eapply computes_bind; [apply computes_ret with (ok := fun _ _ => True) (R := fun _ _ => True); auto|]. intros u c0 n0 W0 G0 _ _.
  pose proof (rows_up F _ _ _ _ G0 HA) as HA0. pose proof (rows_up F _ _ _ _ G0 HB) as HB0.
  eapply computes_bind; [apply (products_ok c0 a b W0 HA0 HB0)|]. intros P c1 n1 W1 G1 O1 R1.
  eapply computes_bind; [apply (checks_ok a b P _ c1 0 W1)|].
  - apply (rows_up F _ _ _ _ G1 HA0).
  - apply (rows_up F _ _ _ _ G1 HB0).
  - exact O1.
  - exact R1.
  - intros v c2 n2 W2 G2 _ _. apply computes_ret; [exact W2|apply (rows_up F _ _ _ _ G2 O1)|]. auto.
Qed.
(** *** Grouping: the weight of a limb is whatever the prover put into [limb_block] *)
Lemma group_ok cs (a : bignat F) lpg : wf_cs cs -> rows_ok cs (bn_limbs a) -> (0 < length (bn_limbs a))%nat -> (0 < lpg)%nat ->
  computes HON cs (bn_group_limbs F a lpg)
    (fun cs' g => rows_ok cs' (bn_limbs g) /\ bn_width g = (bn_width a * lpg)%nat /\
       bn_max_word g = (fold_left (fun acc i => Z.setbit acc (Z.of_nat (i * bn_width a))) (seq 0 lpg) 0 * bn_max_word a)%Z /\
       (HON -> map (lc (own cs')) (bn_limbs g) = fgroup lpg (pf_pow2 F (bn_width a)) (map (lc (own cs)) (bn_limbs a))))
    (fun s g => exists block, map (lc s) (bn_limbs g) = fgroup lpg block (map (lc s) (bn_limbs a))).
Proof.
  intros W HA HL HG. unfold bn_group_limbs. destruct (Nat.eqb_spec (length (bn_limbs a)) 0) as [E|_]; [lia|]. destruct (Nat.eqb_spec lpg 0) as [E|_]; [lia|]. cbn [negb andb guard].
  eapply computes_bind; [apply computes_ret with (ok := fun _ _ => True) (R := fun _ _ => True); auto|]. intros u c0 n0 W0 G0 _ _. cbv zeta.
  eapply computes_bind; [apply (witness_ok F HON c0 (pf_pow2 F (bn_width a)) W0)|]. intros block c1 n1 W1 G1 [O1 V1] _.
  pose proof (grow_trans F _ _ _ _ _ G0 G1) as G01. pose proof (rows_up F _ _ _ _ G01 HA) as HA1.
  eapply computes_bind.
  - apply (computes_fold F HON (fun cs => row_ok cs block) (group_step F lpg block) (fun cs a => row_ok cs (snd a)) (fun cs st => rows_ok cs (fst st) /\ row_ok cs (snd st))
      vpair (fun s st => (map (lc s) (fst st), lc s (snd st))) (fun s st il => gg_step 1 kadd kmul lpg (lc s block) st il)).
    + intros d d' n Gr. apply (grow_ok F _ _ _ _ Gr).
    + intros d d' n y Gr. apply (grow_ok F _ _ _ _ Gr).
    + intros d [limbs sh] [i l] Wd HBl HX [HLm HS]. cbn [fst snd] in *. unfold group_step.
      set (shift := if Nat.eqb (i mod lpg) 0 then fa_constant F 1 else sh).
      assert (HSh : row_ok d shift) by (unfold shift; destruct (Nat.eqb _ _); [rok|exact HS]).
      eapply computes_bind; [apply (mul_ok F HON d shift l Wd HSh HX)|]. intros t d1 m1 X1 D1 P1 _. cbv beta in *.
      eapply computes_bind; [apply (mul_ok F HON d1 shift block X1); [apply (grow_ok F _ _ _ _ D1 HSh)|apply (grow_ok F _ _ _ _ D1 HBl)]|]. intros t2 d2 m2 X2 D2 P2 _. cbv beta in *.
      pose proof (rows_up F _ _ _ _ (grow_trans F _ _ _ _ _ D1 D2) HLm) as HLm2. pose proof (grow_ok F _ _ _ _ D2 P1) as P12.
      apply computes_ret; [exact X2|split; cbn [fst snd]; [apply add_at_ok; assumption|exact P2]|].
      intros s S E2 E1. cbn [fst snd]. unfold gg_step, vpair. cbn [fst snd]. rewrite (add_at_lc d2) by assumption. rewrite E1, E2. unfold shift. destruct (Nat.eqb _ _); lcs; reflexivity.
    + exact W1.
    + exact O1.
    + apply pairs_ok, HA1.
    + cbn [fst snd]. split; [apply zeros_ok, W1|rok].
  - intros [limbs sh] c2 n2 W2 G2 [O2 _] R2. cbn [fst snd] in *.
    assert (GR : forall s, s ONE = 1 -> (map (lc s) limbs, lc s sh) = fold_left (fun st il => gg_step 1 kadd kmul lpg (lc s block) st il) (map (vpair s) (combine (seq 0 (length (bn_limbs a))) (bn_limbs a)))
        (map (lc s) (repeat (fa_constant F 0) ((length (bn_limbs a) - 1) / lpg + 1)), lc s (fa_constant F 1)) -> map (lc s) limbs = fgroup lpg (lc s block) (map (lc s) (bn_limbs a))).
    { intros s S E. apply (f_equal fst) in E. cbn [fst] in E. rewrite E. unfold ggroup. rewrite vpair_map, zeros_lc, lc_constant, map_length by exact S. reflexivity. }
    apply computes_ret; [exact W2| |].
    + cbn [bn_limbs bn_width bn_max_word]. split; [exact O2|]. split; [reflexivity|]. split; [reflexivity|]. intros h. rewrite (GR _ (own_one F c2 W2) (R2 h)).
      rewrite (grow_lc F _ _ _ _ G2) by apply O1. rewrite V1, (rows_lc F _ _ _ _ (grow_trans F _ _ _ _ _ G01 G2) HA). reflexivity.
    + intros s S E _. exists (lc s block). cbn [bn_limbs]. apply (GR s S E).
Qed.
End Poly.
