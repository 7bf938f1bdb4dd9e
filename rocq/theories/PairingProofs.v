(** Proofs about the Miller loop. *)
From Coq Require Import ZArith List Bool Lia Field Ring.
From Verif Require Import LimbModel LimbProofs FieldModel FieldSpec FieldProofs DigitProofs PowProofs FieldMore Primes
  Algebra ExtModel ExtSpec ExtProofs ExtParams RingPow ExtFrob FinalExp PairingModel PairingSpec.
Import ListNotations.
Local Open Scope Z_scope.

(** ** Several pairs: the loop is multiplicative. *)
Section Multi.
Variable F : Fld.
Add Ring ring12m : (q12_ring F). Add Ring ring2m : (q2_ring F).
Notation mul := (q12_mul F).
Definition lineval (c : coeff F) (p : F * F) : q12 F := untwist F (q12_1 F) c (fst p) (snd p).
Lemma untwist_mul f c px py : untwist F f c px py = mul f (lineval c (px, py)).
Proof. destruct c as [[a b] c]. unfold lineval, untwist. rewrite !q12_mul_by_034_spec. cbn [fst snd]. ring. Qed.
Lemma step_scale acc ps b : step_pairs F (mul b acc) ps = match step_pairs F acc ps with None => None | Some (a, r) => Some (mul b a, r) end.
Proof.
  revert acc. induction ps as [|[p [|c cs]] ps IH]; intros acc; cbn [step_pairs]; [reflexivity|reflexivity|].
  rewrite !untwist_mul. replace (mul (mul b acc) (lineval c (fst p, snd p))) with (mul b (mul acc (lineval c (fst p, snd p)))) by ring.
  rewrite IH. destruct (step_pairs F _ ps) as [[a r]|]; reflexivity.
Qed.
(** The product of two partial results. *)
Definition both (x y : option (q12 F * list (cursor F))) : option (q12 F * list (cursor F)) :=
  match x, y with Some (a, l), Some (b, m) => Some (mul a b, l ++ m) | _, _ => None end.
Lemma step_app l1 l2 a b : step_pairs F (mul a b) (l1 ++ l2) = both (step_pairs F a l1) (step_pairs F b l2).
Proof.
  revert a. induction l1 as [|[p [|c cs]] l1 IH]; intros a; cbn [step_pairs app].
  - rewrite step_scale. unfold both. destruct (step_pairs F b l2) as [[x r]|]; reflexivity.
  - reflexivity.
  - rewrite !untwist_mul. replace (mul (mul a b) (lineval c (fst p, snd p))) with (mul (mul a (lineval c (fst p, snd p))) b) by ring.
    rewrite IH. unfold both. destruct (step_pairs F _ l1) as [[x r]|]; [|reflexivity].
    destruct (step_pairs F b l2) as [[y s]|]; reflexivity.
Qed.
Lemma both_none x : both x None = None. Proof. destruct x as [[? ?]|]; reflexivity. Qed.
Lemma loop_app ds : forall first l1 l2 a b,
  miller_loop F first ds (mul a b) (l1 ++ l2) = both (miller_loop F first ds a l1) (miller_loop F first ds b l2).
Proof.
  induction ds as [|d ds IH]; intros first l1 l2 a b; [reflexivity|]. cbn [miller_loop].
  replace (if first then mul a b else q12_sq F (mul a b))
    with (mul (if first then a else q12_sq F a) (if first then b else q12_sq F b)) by (destruct first; rewrite ?q12_sq_mul; ring).
  rewrite step_app. destruct (step_pairs F _ l1) as [[a1 m1]|]; [|reflexivity]. cbn [both bind].
  destruct (step_pairs F _ l2) as [[b1 m2]|]; cbn [bind]; [|rewrite both_none; reflexivity].
  destruct ((d =? 1) || (d =? -1)); cbn [bind]; [|apply IH].
  rewrite step_app. destruct (step_pairs F _ m1) as [[a2 n1]|]; [|reflexivity]. cbn [both bind].
  destruct (step_pairs F _ m2) as [[b2 n2]|]; cbn [bind]; [apply IH|rewrite both_none; reflexivity].
Qed.
Lemma cursors_app l1 l2 : cursors F (l1 ++ l2) = cursors F l1 ++ cursors F l2.
Proof. induction l1 as [|[a b] l1 IH]; [reflexivity|]. cbn [app cursors]. destruct (_ && _); [cbn [app]; f_equal|]; exact IH. Qed.
Definition option_mul (x y : option (q12 F)) : option (q12 F) := match x, y with Some a, Some b => Some (mul a b) | _, _ => None end.
Lemma multi_app ds l1 l2 : multi_miller_loop F ds (l1 ++ l2) = option_mul (multi_miller_loop F ds l1) (multi_miller_loop F ds l2).
Proof.
  unfold multi_miller_loop. rewrite cursors_app.
  replace (q12_1 F) with (mul (q12_1 F) (q12_1 F)) at 1 by ring. rewrite loop_app.
  destruct (miller_loop F _ _ _ (cursors F l1)) as [[a1 m1]|]; [|reflexivity]. cbn [both bind].
  destruct (miller_loop F _ _ _ (cursors F l2)) as [[b1 m2]|]; cbn [bind]; [|unfold option_mul; destruct (bind _ _); reflexivity].
  rewrite step_app. destruct (step_pairs F _ m1) as [[a2 n1]|]; [|reflexivity]. cbn [both bind].
  destruct (step_pairs F _ m2) as [[b2 n2]|]; cbn [bind]; [|unfold option_mul; destruct (bind _ _); reflexivity].
  rewrite step_app. destruct (step_pairs F _ n1) as [[a3 o1]|]; [|reflexivity]. cbn [both bind].
  destruct (step_pairs F _ n2) as [[b3 o2]|]; cbn [bind]; [|unfold option_mul; destruct (forallb _ _); reflexivity].
  match goal with |- context [forallb ?f (o1 ++ o2)] => generalize f end. intros f. rewrite forallb_app.
  unfold option_mul. destruct (forallb f o1), (forallb f o2); reflexivity.
Qed.
Lemma step_nil acc : step_pairs F acc [] = Some (acc, []). Proof. reflexivity. Qed.
Lemma loop_nil ds : forall first, miller_loop F first ds (q12_1 F) [] = Some (q12_1 F, []).
Proof.
  induction ds as [|d ds IH]; intros first; [reflexivity|]. cbn [miller_loop step_pairs bind].
  replace (if first then q12_1 F else q12_sq F (q12_1 F)) with (q12_1 F) by (destruct first; rewrite ?q12_sq_mul; ring).
  destruct ((d =? 1) || (d =? -1)); apply IH.
Qed.
Lemma multi_nil ds : multi_miller_loop F ds [] = Some (q12_1 F).
Proof. unfold multi_miller_loop. cbn [cursors]. rewrite loop_nil. reflexivity. Qed.
Lemma multi_skip ds a b : a1inf F a = true \/ pinf F b = true -> multi_miller_loop F ds [(a, b)] = Some (q12_1 F).
Proof.
  intros H. transitivity (multi_miller_loop F ds []); [|apply multi_nil]. unfold multi_miller_loop. cbn [cursors].
  destruct H as [-> | ->]; [reflexivity|]. rewrite andb_false_r. reflexivity.
Qed.

(** ** One prepared pair. *)
Variables (c61 c62 xh : q2 F).
(** The fused computation: evaluate and multiply at once. *)
Definition fstep (p : F * F) (s : jac F * coeff F) (acc : q12 F) : jac F * q12 F :=
  let '(t, c) := s in (t, mul acc (lineval c p)).
Fixpoint fused (first : bool) (ds : list Z) (gx gy : q2 F) (p : F * F) (s : jac F * q12 F) : jac F * q12 F :=
  match ds with
  | [] => s
  | d :: r =>
      let s := fstep p (double_eval F (fst s)) (if first then snd s else q12_sq F (snd s)) in
      let s := if d =? 1 then fstep p (add_eval F (fst s) gx gy) (snd s)
               else if d =? -1 then fstep p (add_eval F (fst s) gx (q2_neg F gy)) (snd s) else s in
      fused false r gx gy p s
  end.
Lemma loop_fused gx gy p ds : forall first t acc rest,
  let '(t', cs) := prepare_loop F ds gx gy t in
  miller_loop F first ds acc [(p, cs ++ rest)] = Some (snd (fused first ds gx gy p (t, acc)), [(p, rest)]) /\
  t' = fst (fused first ds gx gy p (t, acc)).
Proof.
  induction ds as [|d ds IH]; intros first t acc rest; [split; reflexivity|].
  cbn [prepare_loop fused miller_loop]. cbn [fst snd]. destruct (double_eval F t) as [t1 c1] eqn:E1.
  set (acc0 := if first then acc else q12_sq F acc). clearbody acc0. destruct p as [px py].
  destruct (d =? 1) eqn:D1; [|destruct (d =? -1) eqn:D2]; cbn [fstep fst snd].
  - destruct (add_eval F t1 gx gy) as [t2 c2]. specialize (IH false t2 (mul (mul acc0 (lineval c1 (px, py))) (lineval c2 (px, py))) rest).
    destruct (prepare_loop F ds gx gy t2) as [t' cs]. cbn [app step_pairs bind fstep fst snd orb]. rewrite !untwist_mul. exact IH.
  - destruct (add_eval F t1 gx (q2_neg F gy)) as [t2 c2]. specialize (IH false t2 (mul (mul acc0 (lineval c1 (px, py))) (lineval c2 (px, py))) rest).
    destruct (prepare_loop F ds gx gy t2) as [t' cs]. cbn [app step_pairs bind fstep fst snd orb]. rewrite !untwist_mul. exact IH.
  - specialize (IH false t1 (mul acc0 (lineval c1 (px, py))) rest).
    destruct (prepare_loop F ds gx gy t1) as [t' cs]. cbn [app step_pairs bind fst snd orb]. rewrite !untwist_mul. exact IH.
Qed.
Definition fused_all (ds : list Z) (gx gy : q2 F) (p : F * F) : jac F * q12 F :=
  let s := fused true ds gx gy p (Jac F gx gy (q2_1 F), q12_1 F) in
  let s := fstep p (add_eval F (fst s) (q2_mul F (q2_conj F gx) c61) (q2_mul F (q2_conj F gy) xh)) (snd s) in
  fstep p (add_eval F (fst s) (q2_mul F gx c62) gy) (snd s).
Lemma single_fused ds px py gx gy :
  multi_miller_loop F ds [(Aff1 F px py false, prepare F c61 c62 xh ds (Aff2 F gx gy false))] = Some (snd (fused_all ds gx gy (px, py))).
Proof.
  unfold prepare, multi_miller_loop, fused_all. cbn [a2inf a2x a2y].
  destruct (prepare_loop F ds gx gy _) as [t cs] eqn:EP.
  change (Q2 (c0 gx) (- c1 gx)%fld) with (q2_conj F gx). change (Q2 (c0 gy) (- c1 gy)%fld) with (q2_conj F gy).
  destruct (add_eval F t (q2_mul F (q2_conj F gx) c61) (q2_mul F (q2_conj F gy) xh)) as [t1 c1] eqn:E1.
  destruct (add_eval F t1 (q2_mul F gx c62) gy) as [t2 c2] eqn:E2.
  cbn [cursors a1inf a1x a1y pinf coeffs negb andb].
  pose proof (loop_fused gx gy (px, py) ds true (Jac F gx gy (q2_1 F)) (q12_1 F) [c1; c2]) as L. rewrite EP in L. destruct L as [L ET].
  etransitivity; [apply (f_equal (fun z => bind z _)); exact L|]. cbn [bind step_pairs]. rewrite !untwist_mul. cbn [fst snd forallb andb]. rewrite <- ET, E1. cbn [fstep fst snd]. rewrite E2. reflexivity.
Qed.
Lemma prepared_total ds l : exists f,
  multi_miller_loop F ds (map (fun ab => (fst ab, prepare F c61 c62 xh ds (snd ab))) l) = Some f.
Proof.
  induction l as [|[a b] l [f IH]]; [eexists; apply multi_nil|].
  cbn [map fst snd]. change (?x :: ?r) with ([x] ++ r). rewrite multi_app, IH.
  destruct a as [px py [|]]; [rewrite multi_skip by (left; reflexivity); eexists; reflexivity|].
  destruct b as [gx gy [|]]; [rewrite multi_skip by (right; reflexivity); eexists; reflexivity|].
  rewrite single_fused. eexists. reflexivity.
Qed.
End Multi.
