(** The hypotheses of the pairing theorem hold for the generators: the walk on [Q] never meets a
    vertical or undefined line.  The check runs on residues, through a field homomorphism. *)
From Coq Require Import ZArith List Bool Lia Field Ring.
From Verif Require Import LimbModel LimbProofs FieldModel FieldSpec FieldProofs DigitProofs PowProofs FieldMore Primes
  Algebra ExtModel ExtSpec ExtProofs ExtParams RingPow ExtFrob FinalExp PairingModel PairingSpec PairingProofs PairingRefine PairingFinal.
Import ListNotations.
Local Open Scope Z_scope.

(** The Jacobian point after all lines. *)
Section Walk.
Variable F : Fld.
Definition jwalk (c61 c62 xh : q2 F) (ds : list Z) (gx gy : q2 F) : jac F :=
  let t := fst (prepare_loop F ds gx gy (Jac F gx gy (q2_1 F))) in
  let t := fst (add_eval F t (q2_mul F (q2_conj F gx) c61) (q2_mul F (q2_conj F gy) xh)) in
  fst (add_eval F t (q2_mul F gx c62) gy).
End Walk.

(** ** Transport of the walk along a homomorphism. *)
Section Hom.
Variables (F G : Fld) (h : F -> G).
Hypothesis h_add : forall a b, h (kadd a b) = kadd (h a) (h b).
Hypothesis h_mul : forall a b, h (kmul a b) = kmul (h a) (h b).
Hypothesis h_sub : forall a b, h (ksub a b) = ksub (h a) (h b).
Hypothesis h_opp : forall a, h (kopp a) = kopp (h a).
Hypothesis h_0 : h k0 = k0. Hypothesis h_1 : h k1 = k1.
Definition h2 (a : q2 F) : q2 G := Q2 (h (c0 a)) (h (c1 a)).
Lemma h2_add a b : h2 (q2_add F a b) = q2_add G (h2 a) (h2 b). Proof. unfold h2, q2_add. cbn [c0 c1]. rewrite !h_add. reflexivity. Qed.
Lemma h2_sub a b : h2 (q2_sub F a b) = q2_sub G (h2 a) (h2 b). Proof. unfold h2, q2_sub. cbn [c0 c1]. rewrite !h_sub. reflexivity. Qed.
Lemma h2_neg a : h2 (q2_neg F a) = q2_neg G (h2 a). Proof. unfold h2, q2_neg. cbn [c0 c1]. rewrite !h_opp. reflexivity. Qed.
Lemma h2_conj a : h2 (q2_conj F a) = q2_conj G (h2 a). Proof. unfold h2, q2_conj. cbn [c0 c1]. rewrite !h_opp. reflexivity. Qed.
Lemma h2_dbl a : h2 (q2_dbl F a) = q2_dbl G (h2 a). Proof. unfold h2, q2_dbl, kdbl. cbn [c0 c1]. rewrite !h_add. reflexivity. Qed.
Lemma h2_mul a b : h2 (q2_mul F a b) = q2_mul G (h2 a) (h2 b). Proof. unfold h2, q2_mul. cbn [c0 c1]. rewrite !h_add, !h_sub, !h_mul. reflexivity. Qed.
Lemma h2_sq a : h2 (q2_sq F a) = q2_sq G (h2 a). Proof. unfold h2, q2_sq, ksq, kdbl. cbn [c0 c1]. rewrite !h_add, !h_sub, !h_mul. reflexivity. Qed.
Lemma h2_1 : h2 (q2_1 F) = q2_1 G. Proof. unfold h2, q2_1. cbn [c0 c1]. rewrite h_0, h_1. reflexivity. Qed.
Definition hj (t : jac F) : jac G := Jac G (h2 (jx F t)) (h2 (jy F t)) (h2 (jz F t)).
Ltac hpush := repeat rewrite ?h2_sub, ?h2_neg, ?h2_dbl, ?h2_sq, ?h2_mul, ?h2_add.
Lemma hj_double t : hj (fst (double_eval F t)) = fst (double_eval G (hj t)).
Proof. destruct t as [X Y Z]. unfold double_eval, hj. cbn [fst jx jy jz]. hpush. reflexivity. Qed.
Lemma hj_add t x y : hj (fst (add_eval F t x y)) = fst (add_eval G (hj t) (h2 x) (h2 y)).
Proof. destruct t as [X Y Z]. unfold add_eval, hj. cbn [fst jx jy jz]. hpush. reflexivity. Qed.
Lemma hj_loop gx gy ds : forall t, hj (fst (prepare_loop F ds gx gy t)) = fst (prepare_loop G ds (h2 gx) (h2 gy) (hj t)).
Proof.
  induction ds as [|d ds IH]; intros t; [reflexivity|]. cbn [prepare_loop].
  pose proof (hj_double t) as E. destruct (double_eval F t) as [t1 c], (double_eval G (hj t)) as [u1 c']. cbn [fst] in E. subst u1.
  destruct (d =? 1); [|destruct (d =? -1)].
  - pose proof (hj_add t1 gx gy) as E. destruct (add_eval F t1 gx gy) as [t2 k], (add_eval G (hj t1) (h2 gx) (h2 gy)) as [u2 k']. cbn [fst] in E. subst u2.
    specialize (IH t2). destruct (prepare_loop F ds gx gy t2), (prepare_loop G ds _ _ _). exact IH.
  - pose proof (hj_add t1 gx (q2_neg F gy)) as E. rewrite h2_neg in E. destruct (add_eval F t1 gx (q2_neg F gy)) as [t2 k], (add_eval G (hj t1) (h2 gx) (q2_neg G (h2 gy))) as [u2 k']. cbn [fst] in E. subst u2.
    specialize (IH t2). destruct (prepare_loop F ds gx gy t2), (prepare_loop G ds _ _ _). exact IH.
  - specialize (IH t1). destruct (prepare_loop F ds gx gy t1), (prepare_loop G ds _ _ _). exact IH.
Qed.
Lemma walk_transport c61 c62 xh ds gx gy :
  q2_is0 G (jz G (jwalk G (h2 c61) (h2 c62) (h2 xh) ds (h2 gx) (h2 gy))) = false -> jz F (jwalk F c61 c62 xh ds gx gy) <> q2_0 F.
Proof.
  assert (E : hj (jwalk F c61 c62 xh ds gx gy) = jwalk G (h2 c61) (h2 c62) (h2 xh) ds (h2 gx) (h2 gy)).
  { unfold jwalk. rewrite !hj_add, hj_loop, !h2_mul, !h2_conj. unfold hj at 1. cbn [jx jy jz]. rewrite h2_1. reflexivity. }
  rewrite <- E. unfold hj. cbn [jz]. intros H Z. rewrite Z in H. unfold h2, q2_0, q2_is0, kis0 in H. cbn [c0 c1] in H.
  rewrite h_0, keqb_refl in H. discriminate.
Qed.
End Hom.

(** ** A finite end point means that every line was defined. *)
Section Defined.
Variables (F : Fld) (K : Fld) (io : q2 F -> K) (ib : F -> K) (w : K).
Hypothesis W0 : w <> k0.
Hypothesis io_mul : forall a b, io (q2_mul F a b) = kmul (io a) (io b).
Hypothesis io_add : forall a b, io (q2_add F a b) = kadd (io a) (io b).
Hypothesis io_1 : io (q2_1 F) = k1.
Hypothesis io_inj : forall a, io a = k0 -> a = q2_0 F.
Hypothesis io_two : (kadd k1 k1 : K) <> k0.
Add Field kfd : (kth K).
Add Ring ring2d : (q2_ring F).
Local Open Scope fld_scope.
Variables (px py : F).
Let P : pt K := (ib px, ib py).
Notation affj := (affj F K io w). Notation affq := (affq F K io w). Notation fin := (fin F).
Lemma dbl_defined t f : fin (fst (double_eval F t)) -> fin t /\ exists f', dbl_step K P (f, affj t) = Some (f', affj (fst (double_eval F t))).
Proof.
  intros H. assert (EZ : jz F (fst (double_eval F t)) = q2_mul F (q2_dbl F (jy F t)) (jz F t)).
  { destruct t as [X Y Z]. cbv beta iota zeta delta [double_eval fst]. cbn [jx jy jz]. rewrite q2_dbl_add, !q2_sq_mul. ring. }
  unfold fin in H. rewrite EZ in H.
  assert (Z0 : fin t) by (unfold fin; intros E; apply H; rewrite E; ring). split; [exact Z0|].
  assert (Y0 : io (jy F t) + io (jy F t) <> 0).
  { intros E. apply H. rewrite <- io_add, <- q2_dbl_add in E. apply io_inj in E. rewrite E. ring. }
  pose proof (fin_io F K io io_inj t Z0) as Z1.
  destruct (tangent K (affj t)) as [l|] eqn:ET.
  - unfold dbl_step. rewrite ET. eexists. f_equal. f_equal.
    unfold affj in *. destruct (dbl_abs K w 0 0 W0 _ _ _ _ Z1 ET) as (_ & _ & E3). rewrite E3.
    destruct t as [X Y Z]. cbv beta iota zeta delta [double_eval fst]. cbn [jx jy jz].
    f_equal; repeat rewrite ?(io_sub F K io io_add), ?(io_neg F K io io_add), ?(io_dbl F K io io_add), ?(io_sq F K io io_mul), ?io_mul, ?io_add; ring.
  - exfalso. unfold tangent, affj, aff in ET.
    destruct (keqb_spec K (io (jy F t) * w * w * w / (io (jz F t) * io (jz F t) * io (jz F t)) + io (jy F t) * w * w * w / (io (jz F t) * io (jz F t) * io (jz F t))) 0) as [E|]; [|discriminate].
    apply (mul3 K _ _ _ (mul3 K _ _ _ Y0 W0 W0) W0 (k1_neq0 K)).
    transitivity ((io (jz F t) * io (jz F t) * io (jz F t)) * (io (jy F t) * w * w * w / (io (jz F t) * io (jz F t) * io (jz F t)) + io (jy F t) * w * w * w / (io (jz F t) * io (jz F t) * io (jz F t)))); [field; exact Z1|rewrite E; ring].
Qed.
Lemma add_defined t x y f : fin (fst (add_eval F t x y)) -> fin t /\ exists f', add_step K P (affq x y) (f, affj t) = Some (f', affj (fst (add_eval F t x y))).
Proof.
  intros H. assert (EZ : jz F (fst (add_eval F t x y)) = q2_mul F (q2_dbl F (jz F t)) (q2_sub F (q2_mul F (q2_mul F x (jz F t)) (jz F t)) (jx F t))).
  { destruct t as [X Y Z]. cbv beta iota zeta delta [add_eval fst]. cbn [jx jy jz]. rewrite q2_dbl_add, !q2_sq_mul. ring. }
  unfold fin in H. rewrite EZ in H.
  assert (Z0 : fin t) by (unfold fin; intros E; apply H; rewrite q2_dbl_add, E; ring). split; [exact Z0|].
  assert (Y0 : io x * io (jz F t) * io (jz F t) - io (jx F t) <> 0).
  { intros E. apply H. rewrite <- !io_mul, <- (io_sub F K io io_add) in E. apply io_inj in E. rewrite E. ring. }
  pose proof (fin_io F K io io_inj t Z0) as Z1.
  destruct (chord K (affj t) (affq x y)) as [l|] eqn:ET.
  - unfold add_step. rewrite ET. eexists. f_equal. f_equal.
    unfold affj, affq in *. destruct (add_abs K w 0 0 W0 _ _ _ _ _ _ Z1 ET _ _ eq_refl eq_refl) as (_ & _ & E3). rewrite (E3 io_two).
    destruct t as [X Y Z]. cbv beta iota zeta delta [add_eval fst]. cbn [jx jy jz].
    f_equal; repeat rewrite ?(io_sub F K io io_add), ?(io_neg F K io io_add), ?(io_dbl F K io io_add), ?(io_sq F K io io_mul), ?io_mul, ?io_add; ring.
  - exfalso. unfold chord, affj, affq, aff in ET.
    destruct (keqb_spec K (io x * w * w / (1 * 1) - io (jx F t) * w * w / (io (jz F t) * io (jz F t))) 0) as [E|]; [|discriminate].
    apply (mul3 K _ _ _ Y0 W0 W0).
    transitivity ((io (jz F t) * io (jz F t)) * (io x * w * w / (1 * 1) - io (jx F t) * w * w / (io (jz F t) * io (jz F t)))); [field; split; [exact Z1|apply k1_neq0]|rewrite E; ring].
Qed.
Lemma loop_fin gx gy ds : forall t, fin (fst (prepare_loop F ds gx gy t)) -> fin t /\
  forall f, exists f', miller K ds P (affq gx gy) (f, affj t) = Some (f', affj (fst (prepare_loop F ds gx gy t))).
Proof.
  induction ds as [|d ds IH]; intros t H; [split; [exact H|intros f; eexists; reflexivity]|]. cbn [prepare_loop] in *.
  assert (S : exists t2, fst (let '(t, c) := double_eval F t in let '(t, cs) := if (d =? 1)%Z then let '(t, c') := add_eval F t gx gy in (t, [c; c'])
                      else if (d =? -1)%Z then let '(t, c') := add_eval F t gx (q2_neg F gy) in (t, [c; c']) else (t, [c]) in
      let '(t, cs') := prepare_loop F ds gx gy t in (t, cs ++ cs')) = fst (prepare_loop F ds gx gy t2) /\
      t2 = (let t1 := fst (double_eval F t) in if (d =? 1)%Z then fst (add_eval F t1 gx gy) else if (d =? -1)%Z then fst (add_eval F t1 gx (q2_neg F gy)) else t1)).
  { destruct (double_eval F t) as [t1 c]. cbn [fst]. eexists; split; [|reflexivity].
    destruct (d =? 1)%Z; [destruct (add_eval F t1 gx gy) as [t2 k]|destruct (d =? -1)%Z; [destruct (add_eval F t1 gx (q2_neg F gy)) as [t2 k]|]];
    cbn [fst]; match goal with |- context [prepare_loop F ds gx gy ?u] => destruct (prepare_loop F ds gx gy u) end; reflexivity. }
  destruct S as (t2 & ES & ET). rewrite ES in *. destruct (IH t2 H) as [F2 IM]. cbn [miller].
  assert (G : fin t /\ forall f, exists f1, dbl_step K P (f, affj t) = Some (f1, affj (fst (double_eval F t))) /\
     exists f2, (if (d =? 1)%Z then add_step K P (affq gx gy) (f1, affj (fst (double_eval F t))) else if (d =? -1)%Z then add_step K P (pneg K (affq gx gy)) (f1, affj (fst (double_eval F t))) else Some (f1, affj (fst (double_eval F t)))) = Some (f2, affj t2)).
  { subst t2. cbv zeta in F2 |- *. destruct (d =? 1)%Z; [|destruct (d =? -1)%Z].
    - assert (A := fun f1 => add_defined _ _ _ f1 F2). destruct (A 0) as [F1 _].
      split; [apply (dbl_defined t 0 F1)|]. intros f. destruct (dbl_defined t f F1) as (_ & f1 & E1). exists f1. split; [exact E1|]. apply A.
    - rewrite (affq_neg F K io w io_add). assert (A := fun f1 => add_defined _ _ _ f1 F2). destruct (A 0) as [F1 _].
      split; [apply (dbl_defined t 0 F1)|]. intros f. destruct (dbl_defined t f F1) as (_ & f1 & E1). exists f1. split; [exact E1|]. apply A.
    - split; [apply (dbl_defined t 0 F2)|]. intros f. destruct (dbl_defined t f F2) as (_ & f1 & E1). exists f1. split; [exact E1|]. eexists. reflexivity. }
  destruct G as [FT G]. split; [exact FT|]. intros f. destruct (G f) as (f1 & E1 & f2 & E2). rewrite E1, E2. apply IM.
Qed.
Variables (c61 c62 xh : q2 F) (frob : K -> K).
Hypothesis frob_x : forall x, frob (io x * w * w) = io (q2_mul F (q2_conj F x) c61) * w * w.
Hypothesis frob_y : forall y, frob (io y * w * w * w) = io (q2_mul F (q2_conj F y) xh) * w * w * w.
Hypothesis frob_x2 : forall x, frob (frob (io x * w * w)) = io (q2_mul F x c62) * w * w.
Hypothesis frob_y2 : forall y, frob (frob (io y * w * w * w)) = - (io y * w * w * w).
Lemma ate_defined ds gx gy : fin (jwalk F c61 c62 xh ds gx gy) ->
  exists f, optimal_ate K frob ds P (io gx * w * w, io gy * w * w * w) = Some f.
Proof.
  intros H. unfold jwalk in H. destruct (add_defined _ _ _ 0 H) as [F1 _]. destruct (add_defined _ _ _ 0 F1) as [F2 _].
  destruct (loop_fin gx gy ds _ F2) as [_ L]. destruct (L 1) as (f1 & E1). destruct (add_defined _ _ _ f1 F1) as [_ (f2 & E2)].
  destruct (add_defined _ _ _ f2 H) as [_ (f3 & E3)].
  unfold optimal_ate. cbn [fst snd]. rewrite <- (affq_eq F K io w gx gy).
  assert (EJ : affj (Jac F gx gy (q2_1 F)) = affq gx gy) by (unfold affj, affq; cbn [jx jy jz]; rewrite io_1; reflexivity).
  rewrite EJ in E1. unfold P in *. rewrite E1, frob_x, frob_y, <- (affq_eq F K io w), E2, <- frob_x, <- frob_y, frob_x2, frob_y2. unfold pneg. cbn [fst snd].
  replace (- - (io gy * w * w * w)) with (io gy * w * w * w) by ring. rewrite <- (affq_eq F K io w), E3. eexists. reflexivity.
Qed.
End Defined.

(** ** The generators. *)
Notation Fz := (ZpFld Q_MOD Q_MOD_prime).
Definition res (a : FqFld) : Fz := zp_mk Q_MOD Q_MOD_prime (fq_val a).
Lemma res_add a b : res (kadd a b) = kadd (res a) (res b).
Proof. apply zp_eq. cbn [res zp_mk zp_val proj1_sig kadd ZpFld zp_add]. unfold res, zp_mk, zp_val. cbn [proj1_sig]. rewrite fq_val_add, Z.mod_mod, <- Z.add_mod by (pose proof qpos; lia). reflexivity. Qed.
Lemma res_mul a b : res (kmul a b) = kmul (res a) (res b).
Proof. apply zp_eq. cbn [res zp_mk zp_val proj1_sig kmul ZpFld zp_mul]. unfold res, zp_mk, zp_val. cbn [proj1_sig]. rewrite fq_val_mul, Z.mod_mod, <- Z.mul_mod by (pose proof qpos; lia). reflexivity. Qed.
Lemma res_0 : res k0 = k0. Proof. apply zp_eq. unfold res, zp_mk, zp_val. cbn [proj1_sig]. rewrite fq_val_0. reflexivity. Qed.
Lemma res_1 : res k1 = k1. Proof. apply zp_eq. unfold res, zp_mk, zp_val. cbn [proj1_sig]. rewrite fq_val_1. reflexivity. Qed.
Add Field fzf : (kth Fz). Add Field fqf : (kth FqFld).
Lemma res_opp a : res (kopp a) = kopp (res a).
Proof.
  assert (E : kadd (res (kopp a)) (res a) = k0) by (rewrite <- res_add, <- res_0; f_equal; ring).
  transitivity (ksub (kadd (res (kopp a)) (res a)) (res a)); [ring|rewrite E; ring].
Qed.
Lemma res_sub a b : res (ksub a b) = ksub (res a) (res b).
Proof. replace (ksub a b) with (kadd a (kopp b)) by ring. rewrite res_add, res_opp. ring. Qed.
(** One digit (the full 64 take the same steps, with more arithmetic). *)
Definition few_digits : list Z := [1].
Notation hr := (h2 FqFld Fz res).
Lemma walk_check_ok : q2_is0 Fz (jz Fz (jwalk Fz (hr (nth 1 frob_fq6_c1 (q2_0 FqFld))) (hr (nth 2 frob_fq6_c1 (q2_0 FqFld)))
  (hr xi_to_q_minus_1_over_2) few_digits (hr g2_generator_x) (hr g2_generator_y))) = false.
Proof. vm_cast_no_check (eq_refl false). Qed.
Definition walk_fin := walk_transport FqFld Fz res res_add res_mul res_sub res_opp res_0 res_1 _ _ _ _ _ _ walk_check_ok.
Lemma ate_example : exists f, optimal_ate Fq12Fld qfrob few_digits (up g1_generator_x g1_generator_y) (uq g2_generator_x g2_generator_y) = Some f.
Proof.
  unfold uq. rewrite <- x_slot, <- y_slot.
  exact (ate_defined FqFld Fq12Fld (em12 FqFld) (fun a => em12 FqFld (em2 FqFld a)) (gw FqFld) (gw_neq0 FqFld) (em_mul FqFld) (em_add FqFld) eq_refl (em_inj FqFld)
    (two12 FqFld fq_two) g1_generator_x g1_generator_y _ _ _ qfrob hx hy hx2 hy2 few_digits g2_generator_x g2_generator_y walk_fin).
Qed.
